(** * Bytes, text and the fragments of Go's standard library used by the models.

    Text is a list of bytes.  Only functions whose behaviour is fixed by the
    Go documentation are given here; each one says where it is used. *)
From Coq Require Import List NArith ZArith Ascii String Bool.
Import ListNotations.
Local Open Scope N_scope.

Notation byte := ascii.
Notation bytes := (list ascii).

(** Go string literals. *)
Definition str (s : string) : bytes := list_ascii_of_string s.

(** Go [==] on strings. *)
Fixpoint beqb (a b : bytes) : bool :=
  match a, b with
  | [], [] => true
  | x :: a', y :: b' => Ascii.eqb x y && beqb a' b'
  | _, _ => false
  end.

Definition code (c : byte) : N := N_of_ascii c.

(** [len(s)] as a number. *)
Definition blen (s : bytes) : N := N.of_nat (List.length s).

(** [strings.Compare(a, b)]: byte-wise lexicographic order. *)
Fixpoint bcompare (a b : bytes) : comparison :=
  match a, b with
  | [], [] => Eq
  | [], _ :: _ => Lt
  | _ :: _, [] => Gt
  | x :: a', y :: b' =>
      match code x ?= code y with
      | Eq => bcompare a' b'
      | r => r
      end
  end.

(** ASCII letter case.  Used for [strings.ToUpper], [strings.ToLower] and
    [strings.EqualFold]; exact on ASCII text, non ASCII bytes are left alone. *)
Definition is_upper_ascii (c : byte) : bool := (65 <=? code c) && (code c <=? 90).
Definition is_lower_ascii (c : byte) : bool := (97 <=? code c) && (code c <=? 122).
Definition lower (c : byte) : byte :=
  if is_upper_ascii c then ascii_of_N (code c + 32) else c.
Definition upper (c : byte) : byte :=
  if is_lower_ascii c then ascii_of_N (code c - 32) else c.
Definition to_lower (s : bytes) : bytes := map lower s.
Definition to_upper (s : bytes) : bytes := map upper s.
Definition equal_fold (a b : bytes) : bool := beqb (to_lower a) (to_lower b).

(** [unicode.ToUpper(rune(b))] for a single byte [b] (Latin-1 code point),
    exact on all 256 values: 0xB5 maps to U+039C, 0xFF to U+0178, the letters
    0xE0..0xFE except 0xF7 move down by 0x20, everything else above ASCII is
    unchanged. *)
Definition latin_upper (c : byte) : N :=
  let n := code c in
  if (97 <=? n) && (n <=? 122) then n - 32
  else if n =? 181 then 924
  else if n =? 255 then 376
  else if (224 <=? n) && (n <=? 254) && negb (n =? 247) then n - 32
  else n.

(** [strings.Split(s, string(sep))] for a one byte separator. *)
Fixpoint split_on (sep : byte) (s : bytes) : list bytes :=
  match s with
  | [] => [[]]
  | c :: s' =>
      if Ascii.eqb c sep then [] :: split_on sep s'
      else match split_on sep s' with
           | [] => [[c]]
           | p :: ps => (c :: p) :: ps
           end
  end.

(** [strings.Join(l, sep)]. *)
Fixpoint join (sep : bytes) (l : list bytes) : bytes :=
  match l with
  | [] => []
  | [x] => x
  | x :: l' => x ++ sep ++ join sep l'
  end.

(** [strings.TrimSpace] on ASCII text: tab, newline, vertical tab, form feed,
    carriage return and space. *)
Definition is_space (c : byte) : bool :=
  ((9 <=? code c) && (code c <=? 13)) || (code c =? 32).
Fixpoint trim_left (s : bytes) : bytes :=
  match s with
  | [] => []
  | c :: s' => if is_space c then trim_left s' else s
  end.
Definition trim_space (s : bytes) : bytes := rev (trim_left (rev (trim_left s))).

(** [strconv.Itoa] on non-negative integers: decimal digits, no leading zero. *)
Definition digit (n : N) : byte := ascii_of_N (48 + n).
Fixpoint itoa_fuel (fuel : nat) (n : N) (acc : bytes) : bytes :=
  match fuel with
  | O => acc
  | S f => let acc' := digit (n mod 10) :: acc in
           if n <? 10 then acc' else itoa_fuel f (n / 10) acc'
  end.
Definition itoa (n : N) : bytes := itoa_fuel (S (N.to_nat (N.log2 n))) n [].

(** [strconv.Itoa] on any integer. *)
Definition itoa_z (z : Z) : bytes :=
  match z with
  | Zneg p => str "-" ++ itoa (Npos p)
  | _ => itoa (Z.to_N z)
  end.

(** Map with text keys: association list, at most one entry per key. *)
Fixpoint alookup {V : Type} (k : bytes) (m : list (bytes * V)) : option V :=
  match m with
  | [] => None
  | (k', v) :: m' => if beqb k k' then Some v else alookup k m'
  end.
Fixpoint aremove {V : Type} (k : bytes) (m : list (bytes * V)) : list (bytes * V) :=
  match m with
  | [] => []
  | (k', v) :: m' => if beqb k k' then aremove k m' else (k', v) :: aremove k m'
  end.
Definition aset {V : Type} (k : bytes) (v : V) (m : list (bytes * V)) : list (bytes * V) :=
  (k, v) :: aremove k m.

(** Fixed width integers. *)
Definition u8 (n : N) : N := n mod 256.
Definition u16 (n : N) : N := n mod 65536.
Definition u64 (n : N) : N := n mod 18446744073709551616.
(** Subtraction with wrap-around in [uint8] and [uint16]. *)
Definition sub8 (a b : N) : N := (a + 256 - b mod 256) mod 256.
Definition sub16 (a b : N) : N := (a + 65536 - b mod 65536) mod 65536.

(** [s[i] = v] on a slice, [None] being an index out of range panic. *)
Fixpoint update {A : Type} (l : list A) (i : nat) (v : A) : option (list A) :=
  match l, i with
  | [], _ => None
  | _ :: l', O => Some (v :: l')
  | x :: l', S i' => match update l' i' v with
                     | Some r => Some (x :: r)
                     | None => None
                     end
  end.

(** [s[i:j]] on a string, [None] being a slice bounds panic. *)
Definition slice (s : bytes) (i j : N) : option bytes :=
  if (i <=? j) && (j <=? blen s)
  then Some (firstn (N.to_nat (j - i)) (skipn (N.to_nat i) s))
  else None.
