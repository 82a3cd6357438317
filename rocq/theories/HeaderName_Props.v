(** * C44: header names that are no tokens *)
From Coq Require Import List NArith Ascii String Bool.
From Verif Require Import GoBase Http_Model HeaderName_Proofs.
Import ListNotations.
Local Open Scope string_scope.
Local Open Scope list_scope.

(** C44, which names are the same header: names with a space are not brought into one
    spelling, so that each spelling is a header of its own. *)
Theorem C44_odd_names_partial : forall h k1 k2 v, In " "%char k1 -> In " "%char k2 ->
  hget (hset h k1 v) k1 = v /\ (k1 <> k2 -> hget (hset h k1 v) k2 = hget h k2).
Proof. exact odd_names. Qed.
Print Assumptions C44_odd_names_partial.

Example C44_odd_names_case : let h := hset (hset [] (str "my name") (str "a")) (str "My Name") (str "b") in
  hget h (str "my name") = str "a" /\ hget h (str "My Name") = str "b" /\ hget (hset h (str "my-name") (str "c")) (str "MY-NAME") = str "c".
Proof. exact odd_case. Qed.
