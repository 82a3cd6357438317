(** * JSON texts and what they say (RFC 8259, RFC 3629)

    Written without the encoder: characters, UTF-8, and the grammar of JSON with whole
    numbers. *)
From Coq Require Import List NArith ZArith Ascii String Bool.
From Verif Require Import GoBase.
Import ListNotations.
Local Open Scope string_scope.
Local Open Scope list_scope.
Local Open Scope N_scope.

(** A character of Unicode: a code point that is not a surrogate. *)
Definition scalar (c : N) : Prop := c < 55296 \/ 57344 <= c < 1114112.

(** UTF-8. *)
Definition utf8 (c : N) : bytes :=
  if c <? 128 then [ascii_of_N c]
  else if c <? 2048 then [ascii_of_N (192 + c / 64); ascii_of_N (128 + c mod 64)]
  else if c <? 65536 then
    [ascii_of_N (224 + c / 4096); ascii_of_N (128 + c / 64 mod 64); ascii_of_N (128 + c mod 64)]
  else
    [ascii_of_N (240 + c / 262144); ascii_of_N (128 + c / 4096 mod 64); ascii_of_N (128 + c / 64 mod 64);
     ascii_of_N (128 + c mod 64)].

(** The characters of a text; a byte that does not begin a character counts as
    U+FFFD. *)
Inductive text_of : bytes -> list N -> Prop :=
| to_end : text_of [] []
| to_char : forall c s cs, scalar c -> text_of s cs -> text_of (utf8 c ++ s) (c :: cs)
| to_bad : forall b s cs, (forall c s', scalar c -> b :: s <> utf8 c ++ s') -> text_of s cs -> text_of (b :: s) (65533 :: cs).

(** A text in UTF-8 has only characters. *)
Definition well_encoded (s : bytes) (cs : list N) : Prop := Forall scalar cs /\ s = List.concat (map utf8 cs).

(** Four hexadecimal digits. *)
Definition hex_value (b : byte) : option N :=
  let n := code b in
  if (48 <=? n) && (n <=? 57) then Some (n - 48)
  else if (97 <=? n) && (n <=? 102) then Some (n - 87)
  else if (65 <=? n) && (n <=? 70) then Some (n - 55)
  else None.
Definition hex4 (t : bytes) : option N :=
  match t with
  | [a; b; c; d] =>
      match hex_value a, hex_value b, hex_value c, hex_value d with
      | Some x, Some y, Some z, Some u => Some (((x * 16 + y) * 16 + z) * 16 + u)
      | _, _, _, _ => None
      end
  | _ => None
  end.

(** The letters after a reverse solidus and the characters they stand for. *)
Definition short_escapes : list (N * N) :=
  [(34, 34); (92, 92); (47, 47); (98, 8); (102, 12); (110, 10); (114, 13); (116, 9)].

(** What stands between the quotes of a string, and the characters it means. *)
Inductive string_chars : bytes -> list N -> Prop :=
| sc_end : string_chars [] []
| sc_plain : forall c t cs, scalar c -> 32 <= c -> c <> 34 -> c <> 92 -> string_chars t cs ->
    string_chars (utf8 c ++ t) (c :: cs)
| sc_short : forall e c t cs, In (e, c) short_escapes -> string_chars t cs ->
    string_chars (ascii_of_N 92 :: ascii_of_N e :: t) (c :: cs)
| sc_hex : forall h c t cs, hex4 h = Some c -> scalar c -> string_chars t cs ->
    string_chars (str "\u" ++ h ++ t) (c :: cs)
| sc_pair : forall h1 h2 c1 c2 t cs, hex4 h1 = Some c1 -> hex4 h2 = Some c2 ->
    55296 <= c1 < 56320 -> 56320 <= c2 < 57344 -> string_chars t cs ->
    string_chars (str "\u" ++ h1 ++ str "\u" ++ h2 ++ t) ((65536 + (c1 - 55296) * 1024 + (c2 - 56320)) :: cs).

(** Whole numbers: decimal digits without a leading zero. *)
Definition digit_value (b : byte) : option N :=
  if (48 <=? code b) && (code b <=? 57) then Some (code b - 48) else None.
Inductive digits : bytes -> N -> Prop :=
| dg_first : forall b d, digit_value b = Some d -> 0 < d -> digits [b] d
| dg_next : forall t n b d, digits t n -> digit_value b = Some d -> digits (t ++ [b]) (n * 10 + d).
Inductive whole : bytes -> Z -> Prop :=
| wh_zero : whole (str "0") 0
| wh_pos : forall t n, digits t n -> whole t (Z.of_N n)
| wh_neg : forall t n, digits t n -> whole (str "-" ++ t) (- Z.of_N n).

(** Values; the members of an object in the order of the text. *)
Inductive value :=
| VNull
| VBool (b : bool)
| VNum (z : Z)
| VStr (cs : list N)
| VArr (l : list value)
| VObj (m : list (list N * value)).

Definition white (t : bytes) : Prop := Forall (fun b => In (code b) [32; 9; 10; 13]) t.

(** A value, the inside of an array, and the inside of an object. *)
Inductive json : bytes -> value -> Prop :=
| js_null : json (str "null") VNull
| js_true : json (str "true") (VBool true)
| js_false : json (str "false") (VBool false)
| js_num : forall t z, whole t z -> json t (VNum z)
| js_str : forall t cs, string_chars t cs -> json (ascii_of_N 34 :: t ++ [ascii_of_N 34]) (VStr cs)
| js_arr0 : forall w, white w -> json (str "[" ++ w ++ str "]") (VArr [])
| js_arr : forall t v l, elements t (v :: l) -> json (str "[" ++ t ++ str "]") (VArr (v :: l))
| js_obj0 : forall w, white w -> json (str "{" ++ w ++ str "}") (VObj [])
| js_obj : forall t m ms, members t (m :: ms) -> json (str "{" ++ t ++ str "}") (VObj (m :: ms))
with elements : bytes -> list value -> Prop :=
| el_one : forall w1 t w2 v, white w1 -> white w2 -> json t v -> elements (w1 ++ t ++ w2) [v]
| el_more : forall w1 t w2 v t' l, white w1 -> white w2 -> json t v -> elements t' l ->
    elements (w1 ++ t ++ w2 ++ str "," ++ t') (v :: l)
with members : bytes -> list (list N * value) -> Prop :=
| mb_one : forall w1 k cs w2 w3 t w4 v, white w1 -> white w2 -> white w3 -> white w4 -> string_chars k cs -> json t v ->
    members (w1 ++ (ascii_of_N 34 :: k ++ [ascii_of_N 34]) ++ w2 ++ str ":" ++ w3 ++ t ++ w4) [(cs, v)]
| mb_more : forall w1 k cs w2 w3 t w4 v t' m, white w1 -> white w2 -> white w3 -> white w4 -> string_chars k cs -> json t v ->
    members t' m ->
    members (w1 ++ (ascii_of_N 34 :: k ++ [ascii_of_N 34]) ++ w2 ++ str ":" ++ w3 ++ t ++ w4 ++ str "," ++ t') ((cs, v) :: m).

(** A JSON text: a value with white space around it. *)
Definition json_text (t : bytes) (v : value) : Prop :=
  exists w1 t0 w2, white w1 /\ white w2 /\ json t0 v /\ t = w1 ++ t0 ++ w2.

(** ** What a value handed to the encoder says *)

From Verif Require Import Json_Model.

(** A value of the program and the JSON value it stands for: strings are their
    characters, maps are objects whose members are the entries of the map in some
    order. *)
From Coq Require Import Permutation.
Inductive stands_for : gval -> value -> Prop :=
| sf_nil : stands_for GNil VNull
| sf_bool : forall b, stands_for (GBool b) (VBool b)
| sf_int : forall z, stands_for (GInt z) (VNum z)
| sf_str : forall s cs, text_of s cs -> stands_for (GStr s) (VStr cs)
| sf_slice : forall l vs, Forall2 stands_for l vs -> stands_for (GSlice l) (VArr vs)
| sf_map : forall m m' vs, Permutation m m' ->
    Forall2 (fun kv cv => text_of (fst kv) (fst cv) /\ stands_for (snd kv) (snd cv)) m' vs ->
    stands_for (GMap m) (VObj vs)
| sf_struct : forall m vs,
    Forall2 (fun kv cv => text_of (fst kv) (fst cv) /\ stands_for (snd kv) (snd cv)) m vs ->
    stands_for (GStruct m) (VObj vs).
