(** * Which of two patterns is more specific (README, "Path Pattern Matching"). *)
From Coq Require Import List Arith.
From Verif Require Import GoBase Pattern_Spec.
Import ListNotations.

(** The kinds of pieces from the most specific to the least specific. *)
Definition kind_rank (k : piece) : nat :=
  match k with
  | Lit _ => 1 | Constrained _ _ => 2 | Var _ => 3 | Glob _ => 4 | One => 5 | Any => 6
  end.

(** Left to right comparison; the pattern that ends first is more specific. *)
Inductive more_specific : list piece -> list piece -> Prop :=
| ms_shorter : forall k ks, more_specific [] (k :: ks)
| ms_here : forall k1 k2 ks1 ks2,
    kind_rank k1 < kind_rank k2 -> more_specific (k1 :: ks1) (k2 :: ks2)
| ms_later : forall k1 k2 ks1 ks2,
    kind_rank k1 = kind_rank k2 -> more_specific ks1 ks2 ->
    more_specific (k1 :: ks1) (k2 :: ks2).

(** [Any] stands only at the end. *)
Definition any_only_last (ks : list piece) : Prop := ~ In Any (removelast ks).
