(** * Bodies of answers and the objects they are, written without the decoder

    The grammar of JSON (RFC 8259) with all numbers, and with strings that are no Unicode:
    what stands for no character is read as U+FFFD. *)
From Coq Require Import List NArith ZArith Ascii String Bool.
From Verif Require Import GoBase Json_Spec OAuthWire_Model.
Import ListNotations.
Local Open Scope string_scope.
Local Open Scope list_scope.
Local Open Scope N_scope.

(** The text begins with an escaped second half of a pair. *)
Definition low_next (t : bytes) : Prop := exists h c t', t = str "\u" ++ h ++ t' /\ hex4 h = Some c /\ 56320 <= c < 57344.

(** What stands between quotes, and the characters it is read as. *)
Inductive string_reads : bytes -> list N -> Prop :=
| sr_end : string_reads [] []
| sr_plain : forall c t cs, scalar c -> 32 <= c -> c <> 34 -> c <> 92 -> string_reads t cs -> string_reads (utf8 c ++ t) (c :: cs)
| sr_bad : forall b t cs, 128 <= code b -> (forall c t', scalar c -> b :: t <> utf8 c ++ t') -> string_reads t cs ->
    string_reads (b :: t) (65533 :: cs)
| sr_short : forall e c t cs, In (e, c) short_escapes -> string_reads t cs -> string_reads (ascii_of_N 92 :: ascii_of_N e :: t) (c :: cs)
| sr_hex : forall h c t cs, hex4 h = Some c -> scalar c -> string_reads t cs -> string_reads (str "\u" ++ h ++ t) (c :: cs)
| sr_pair : forall h1 h2 c1 c2 t cs, hex4 h1 = Some c1 -> hex4 h2 = Some c2 -> 55296 <= c1 < 56320 -> 56320 <= c2 < 57344 ->
    string_reads t cs -> string_reads (str "\u" ++ h1 ++ str "\u" ++ h2 ++ t) ((65536 + (c1 - 55296) * 1024 + (c2 - 56320)) :: cs)
| sr_lone : forall h c t cs, hex4 h = Some c -> 55296 <= c < 57344 -> (c < 56320 -> ~ low_next t) -> string_reads t cs ->
    string_reads (str "\u" ++ h ++ t) (65533 :: cs).
Definition string_is (t s : bytes) : Prop := exists cs, string_reads t cs /\ s = List.concat (map utf8 cs).

(** Numbers. *)
Definition decimals (t : bytes) : Prop := t <> [] /\ Forall (fun b => 48 <= code b <= 57) t.
Definition number (t : bytes) : Prop :=
  exists sign int frac exp, t = sign ++ int ++ frac ++ exp /\ In sign [[]; str "-"] /\
    (int = str "0" \/ exists n, digits int n) /\
    (frac = [] \/ exists d, decimals d /\ frac = str "." ++ d) /\
    (exp = [] \/ exists e g d, In e [str "e"; str "E"] /\ In g [[]; str "+"; str "-"] /\ decimals d /\ exp = e ++ g ++ d).

Section Bodies.
(** What other numbers than small whole ones are converted to. *)
Variable other : bytes -> option Z.

(** The whole numbers that a float64 holds exactly are themselves (also minus zero). *)
Definition small_whole (t : bytes) (z : Z) : Prop := (whole t z \/ t = str "-0" /\ z = 0%Z) /\ (- 2 ^ 53 <= z <= 2 ^ 53)%Z.
Definition number_is (t : bytes) (z : Z) : Prop :=
  number t /\ (small_whole t z \/ (forall z', ~ small_whole t z') /\ other t = Some z).

(** A value with [d] brackets around it, the inside of an array and the inside of an
    object; no more than 10000 brackets are opened. *)
Inductive value_is : N -> bytes -> jval -> Prop :=
| vi_null : forall d, value_is d (str "null") JvOther
| vi_true : forall d, value_is d (str "true") JvOther
| vi_false : forall d, value_is d (str "false") JvOther
| vi_num : forall d t z, number_is t z -> value_is d t (JvNum z)
| vi_str : forall d t s, string_is t s -> value_is d (ascii_of_N 34 :: t ++ [ascii_of_N 34]) (JvStr s)
| vi_arr0 : forall d w, d < 10000 -> white w -> value_is d (str "[" ++ w ++ str "]") JvOther
| vi_arr : forall d t, d < 10000 -> array_is (d + 1) t -> value_is d (str "[" ++ t ++ str "]") JvOther
| vi_obj0 : forall d w, d < 10000 -> white w -> value_is d (str "{" ++ w ++ str "}") JvOther
| vi_obj : forall d t ms, d < 10000 -> object_is (d + 1) t ms -> value_is d (str "{" ++ t ++ str "}") JvOther
with array_is : N -> bytes -> Prop :=
| ai_one : forall d w1 t v w2, white w1 -> white w2 -> value_is d t v -> array_is d (w1 ++ t ++ w2)
| ai_more : forall d w1 t v w2 t', white w1 -> white w2 -> value_is d t v -> array_is d t' -> array_is d (w1 ++ t ++ w2 ++ str "," ++ t')
with object_is : N -> bytes -> list (bytes * jval) -> Prop :=
| oi_one : forall d w1 k s w2 w3 t v w4, white w1 -> white w2 -> white w3 -> white w4 -> string_is k s -> value_is d t v ->
    object_is d (w1 ++ (ascii_of_N 34 :: k ++ [ascii_of_N 34]) ++ w2 ++ str ":" ++ w3 ++ t ++ w4) [(s, v)]
| oi_more : forall d w1 k s w2 w3 t v w4 t' ms, white w1 -> white w2 -> white w3 -> white w4 -> string_is k s -> value_is d t v ->
    object_is d t' ms ->
    object_is d (w1 ++ (ascii_of_N 34 :: k ++ [ascii_of_N 34]) ++ w2 ++ str ":" ++ w3 ++ t ++ w4 ++ str "," ++ t') ((s, v) :: ms).

(** A body that begins with an object, or with null, which is the empty one. *)
Definition body_is (body : bytes) (ms : list (bytes * jval)) : Prop :=
  exists w t rest, white w /\ body = w ++ t ++ rest /\
    (t = str "null" /\ ms = [] \/ (exists w', white w' /\ t = str "{" ++ w' ++ str "}") /\ ms = [] \/
     exists t', t = str "{" ++ t' ++ str "}" /\ object_is 1 t' ms).
End Bodies.

(** The value of a key is that of its last member. *)
Definition last_member (ms : list (bytes * jval)) (k : bytes) (v : jval) : Prop := exists a b, ms = a ++ (k, v) :: b /\ ~ In k (map fst b).
Definition last_wins (ms o : list (bytes * jval)) : Prop := forall k v, alookup k o = Some v <-> last_member ms k v.

(** ** JSON texts that say an object (Json_Spec) *)

(** Small whole numbers and at most [d] nested brackets. *)
Fixpoint fits (v : value) (d : N) : bool :=
  match v with
  | VNum z => (Z.abs z <=? 2 ^ 53)%Z
  | VArr l => (0 <? d) && forallb (fun x => fits x (d - 1)) l
  | VObj m => (0 <? d) && forallb (fun x => fits (snd x) (d - 1)) m
  | _ => true
  end.

(** What is kept of a value. *)
Definition kept (v : value) : jval :=
  match v with VStr cs => JvStr (List.concat (map utf8 cs)) | VNum z => JvNum z | _ => JvOther end.

(** A body begins with a JSON text that says an object: what follows it does not matter. *)
Definition object_text (body : bytes) (m : list (list N * value)) : Prop :=
  exists t rest, body = t ++ rest /\ json_text t (VObj m) /\ fits (VObj m) 10000 = true.

(** The object says a value, or a text, under a key: the last one. *)
Definition says_value (m : list (list N * value)) (k : bytes) (v : value) : Prop :=
  exists kc a b, well_encoded k kc /\ m = a ++ (kc, v) :: b /\ ~ In kc (map fst b).
Definition says_text (m : list (list N * value)) (k s : bytes) : Prop := exists cs, says_value m k (VStr cs) /\ s = List.concat (map utf8 cs).
