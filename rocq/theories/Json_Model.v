(** * Model of [json.Marshal] for the values that gofre hands to it

    The JSON encoder of the standard library (encoding/json and unicode/utf8, Go 1.19)
    as response/json.go 31 and middleware/dump.go 61-66 use it, with escaping of HTML
    characters switched on.  Payloads of other types are not modelled. *)
From Coq Require Import List NArith ZArith Ascii String Bool.
From Verif Require Import GoBase.
Import ListNotations.
Local Open Scope string_scope.
Local Open Scope list_scope.
Local Open Scope N_scope.

(** The values: nil (also a nil map or a nil slice), booleans, integers, strings, slices,
    maps with string keys, and structs.  A struct is the list of its exported fields in the
    order of their declaration; tags and embedded structs are not modelled. *)
Inductive gval :=
| GNil
| GBool (b : bool)
| GInt (z : Z)
| GStr (s : bytes)
| GSlice (l : list gval)
| GMap (m : list (bytes * gval))
| GStruct (m : list (bytes * gval)).

(** [utf8.DecodeRuneInString] (unicode/utf8, tables [first] and [acceptRanges]) on a text
    that begins with a byte of 128 or more: the number of bytes of its first character, or
    0 if there is no character (the library gives U+FFFD and 1 then). *)
Definition between (lo hi : N) (c : byte) : bool := (lo <=? code c) && (code c <=? hi).
Definition cont : byte -> bool := between 128 191.
Definition second_ok (b c : byte) : bool :=
  if code b =? 224 then between 160 191 c
  else if code b =? 237 then between 128 159 c
  else if code b =? 240 then between 144 191 c
  else if code b =? 244 then between 128 143 c
  else cont c.
Definition rune_bytes (s : bytes) : nat :=
  match s with
  | b :: c :: s2 =>
      if negb (second_ok b c) then 0%nat
      else if between 194 223 b then 2%nat
      else match s2 with
           | d :: s3 =>
               if negb (cont d) then 0%nat
               else if between 224 239 b then 3%nat
               else match s3 with
                    | e :: _ => if negb (cont e) then 0%nat else if between 240 244 b then 4%nat else 0%nat
                    | [] => 0%nat
                    end
           | [] => 0%nat
           end
  | _ => 0%nat
  end.

(** [hex] (encoding/json, encode.go): the digits in lower case. *)
Definition hex_digit (n : N) : byte := ascii_of_N (if n <? 10 then 48 + n else 87 + n).

(** One byte below 128 in a string ([htmlSafeSet] and the switch of
    [encodeState.string]). *)
Definition html_safe (b : byte) : bool :=
  (32 <=? code b) && negb (existsb (N.eqb (code b)) [34; 38; 60; 62; 92]).
Definition escape_byte (b : byte) : bytes :=
  if html_safe b then [b]
  else if (code b =? 34) || (code b =? 92) then [ascii_of_N 92; b]
  else if code b =? 10 then str "\n"
  else if code b =? 13 then str "\r"
  else if code b =? 9 then str "\t"
  else str "\u00" ++ [hex_digit (code b / 16); hex_digit (code b mod 16)].

(** U+2028 and U+2029, the line and paragraph separators. *)
Definition separator (b c d : byte) : bool :=
  (code b =? 226) && (code c =? 128) && between 168 169 d.

(** [encodeState.string] without the quotes. *)
Fixpoint string_body (s : bytes) : bytes :=
  match s with
  | [] => []
  | b :: s1 =>
      if code b <? 128 then escape_byte b ++ string_body s1
      else match rune_bytes s, s1 with
           | 2%nat, c :: s2 => b :: c :: string_body s2
           | 3%nat, c :: d :: s3 =>
               (if separator b c d then str "\u202" ++ [hex_digit (code d mod 16)] else [b; c; d]) ++ string_body s3
           | 4%nat, c :: d :: e :: s4 => b :: c :: d :: e :: string_body s4
           | _, _ => str "\ufffd" ++ string_body s1
           end
  end.
Definition quote : byte := ascii_of_N 34.
Definition json_string (s : bytes) : bytes := quote :: string_body s ++ [quote].

(** The members of a map are sorted by key ([mapEncoder.encode]). *)
Fixpoint insert_key {V : Type} (x : bytes * V) (l : list (bytes * V)) : list (bytes * V) :=
  match l with
  | [] => [x]
  | y :: l' => match bcompare (fst x) (fst y) with Gt => y :: insert_key x l' | _ => x :: y :: l' end
  end.
Fixpoint sort_keys {V : Type} (l : list (bytes * V)) : list (bytes * V) :=
  match l with
  | [] => []
  | x :: l' => insert_key x (sort_keys l')
  end.

(** [json.Marshal].  The members are encoded first and sorted afterwards, which gives
    the same text. *)
Fixpoint marshal (v : gval) : bytes :=
  match v with
  | GNil => str "null"
  | GBool true => str "true"
  | GBool false => str "false"
  | GInt z => itoa_z z
  | GStr s => json_string s
  | GSlice l => str "[" ++ join (str ",") (map marshal l) ++ str "]"
  | GMap m =>
      str "{" ++ join (str ",") (map (fun kt => json_string (fst kt) ++ str ":" ++ snd kt)
                                   (sort_keys (map (fun kv => (fst kv, marshal (snd kv))) m))) ++ str "}"
  | GStruct m => str "{" ++ join (str ",") (map (fun kv => json_string (fst kv) ++ str ":" ++ marshal (snd kv)) m) ++ str "}"
  end.
