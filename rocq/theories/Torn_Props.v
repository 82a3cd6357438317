(** * Property C97: requests that build a security header at the same time *)
From Coq Require Import List NArith ZArith Ascii String Bool Arith.
From Verif Require Import GoBase Torn_Model Torn_Proofs.
Import ListNotations.
Local Open Scope string_scope.
Local Open Scope list_scope.
Local Open Scope nat_scope.

(** C97 is false if the length of a string is written before its address: of the first two
    requests the second one can send a string that has a length and no bytes. *)
Theorem C97_length_first_refuted : forall (text : bytes),
  text <> [] ->
  exists schedule s, nth_error (snd (torn_run true text empty_field [TCheck; TCheck] schedule)) 1 = Some (TDone s) /\ reads_as s = None.
Proof. exact (@length_first). Qed.
Print Assumptions C97_length_first_refuted.

(** C97, what holds: if the address is written first, all requests that are done have the
    configured text, in any number and any order of steps. *)
Theorem C97_address_first_partial : forall (text : bytes) (n : nat) (schedule : list nat) (i : nat) (s : word2),
  nth_error (snd (torn_run false text empty_field (repeat TCheck n) schedule)) i = Some (TDone s) -> reads_as s = Some text.
Proof. exact (@address_first). Qed.
Print Assumptions C97_address_first_partial.

(** C97, what holds: a request on its own has the configured text, whether or not it is
    the first one, and whatever is written first. *)
Theorem C97_alone_partial : forall (len_first : bool) (text : bytes) (f : word2),
  f = empty_field \/ f = Word2 (Some text) (List.length text) ->
  exists s, fst (torn_run len_first text f [TCheck] [0; 0; 0; 0; 0]) = Word2 (Some text) (List.length text) /\
    nth_error (snd (torn_run len_first text f [TCheck] [0; 0; 0; 0; 0])) 0 = Some (TDone s) /\ reads_as s = Some text.
Proof. exact (@one_alone). Qed.
Print Assumptions C97_alone_partial.

Example C97_case : snd (torn_run false (str "DENY") empty_field [TCheck; TCheck; TCheck] [0; 0; 1; 1; 1; 2; 2; 2; 2; 0; 0; 0; 1; 1; 2; 2; 2]) =
  repeat (TDone (Word2 (Some (str "DENY")) 4)) 3 /\
  snd (torn_run true (str "DENY") empty_field [TCheck; TCheck] [0; 0; 1; 1; 1; 0; 0; 0]) =
  [TDone (Word2 (Some (str "DENY")) 4); TDone (Word2 None 4)].
Proof. exact (@torn_case). Qed.
