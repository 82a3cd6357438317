(** * Header maps (net/http.Header and net/url.Values, standard library).

    The parts of the standard library that the code relies on, modelled from the
    documentation of Go. *)
From Coq Require Import List NArith ZArith Ascii String Bool.
From Verif Require Import GoBase.
Import ListNotations.
Local Open Scope string_scope.
Local Open Scope list_scope.
Local Open Scope N_scope.

(** The bytes allowed in a header field name (net/textproto, validHeaderFieldByte). *)
Definition token_byte (c : byte) : bool :=
  let n := code c in
  ((48 <=? n) && (n <=? 57)) || ((65 <=? n) && (n <=? 90)) || ((97 <=? n) && (n <=? 122)) ||
  existsb (fun d => Ascii.eqb c d) (str "!#$%&'*+-.^_`|~").

(** [textproto.CanonicalMIMEHeaderKey]: a name with another byte stays as it is, else
    the first letter and each letter after a hyphen become upper case, the others
    lower case. *)
Fixpoint canonical_from (up : bool) (s : bytes) : bytes :=
  match s with
  | [] => []
  | c :: s' => (if up then upper c else lower c) :: canonical_from (Ascii.eqb c "-"%char) s'
  end.
Definition canonical (s : bytes) : bytes := if forallb token_byte s then canonical_from true s else s.

(** [http.Header]: a map from names to lists of values. *)
Definition hmap := list (bytes * list bytes).

(** [Header.Values], [Header.Get], [Header.Set], [Header.Add], [Header.Del]. *)
Definition hvalues (h : hmap) (k : bytes) : list bytes :=
  match alookup (canonical k) h with Some vs => vs | None => [] end.
Definition hget (h : hmap) (k : bytes) : bytes :=
  match hvalues h k with v :: _ => v | [] => [] end.
Definition hset (h : hmap) (k v : bytes) : hmap := aset (canonical k) [v] h.
Definition hadd (h : hmap) (k v : bytes) : hmap := aset (canonical k) (hvalues h k ++ [v]) h.
Definition hdel (h : hmap) (k : bytes) : hmap := aremove (canonical k) h.

(** [url.Values.Get]; a nil map is [None]. *)
Definition vget (f : option (list (bytes * list bytes))) (k : bytes) : bytes :=
  match f with
  | None => []
  | Some m => match alookup k m with Some (v :: _) => v | _ => [] end
  end.
