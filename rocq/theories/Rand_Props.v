(** * C120: the states of logins *)
From Coq Require Import List NArith ZArith Ascii String Bool.
From Verif Require Import GoBase OAuth_Model OAuth_Spec Rand_Model Rand_Spec Rand_Proofs.
Import ListNotations.
Local Open Scope Z_scope.

(** C120 is false: whoever has seen 51 states in a row is left with 4096 texts for the next one,
    and for each one up to the twenty-second after them, whatever the generator holds. *)
Theorem C120_next_state_refuted : exists guesses : nat -> list bytes -> list bytes,
  (forall k seen, List.length (guesses k seen) = (2 ^ 12)%nat) /\
  forall g seen between q, in_use g -> in_turn g (seen ++ between ++ [q]) ->
    (51 <= List.length seen)%nat -> (List.length between <= 21)%nat ->
    In (state_of q) (guesses (List.length between) (map state_of seen)).
Proof. exact predicted. Qed.
Print Assumptions C120_next_state_refuted.

(** C120 (partial): the first fifty states can be any texts; none of them limits the others. *)
Theorem C120_first_states_partial : forall ss : list bytes, (List.length ss <= 50)%nat -> Forall state_text ss ->
  exists g qs, in_use g /\ in_turn g qs /\ map state_of qs = ss.
Proof. exact any_first. Qed.
Print Assumptions C120_first_states_partial.

Example C120_case :
  in_use some_rng /\ (exists seen q, visitors 52 some_rng = seen ++ [] ++ [q] /\ List.length seen = 51%nat /\ in_turn some_rng (seen ++ [] ++ [q]) /\
    state_of q = str "7vwdmbcl7j92") /\
  (exists seen q, visitors 73 some_rng = seen ++ firstn 21 (skipn 51 (visitors 73 some_rng)) ++ [q] /\ List.length seen = 51%nat /\
    state_of q = str "ucmces3gqsm5") /\
  Forall state_text (repeat (str "state0state1") 50).
Proof. exact rand_case. Qed.
