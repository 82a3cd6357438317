(** * What is claimed about the states of logins *)
From Coq Require Import List NArith ZArith Ascii String Bool.
From Verif Require Import GoBase OAuth_Model OAuth_Spec Rand_Model.
Import ListNotations.
Local Open Scope Z_scope.

(** A generator in use: any words, the positions 334 apart as seeding leaves them. *)
Definition in_use (g : rng) : Prop :=
  List.length (rg_vec g) = 607%nat /\ 0 <= rg_tap g < 607 /\ 0 <= rg_feed g < 607 /\
  (rg_feed g = rg_tap g + 334 \/ rg_feed g + 273 = rg_tap g).

(** These requests start flows one after the other, with the numbers of this generator. *)
Fixpoint in_turn (g : rng) (qs : list oreq) : Prop :=
  match qs with
  | [] => True
  | q :: l => (forall i, (i < 12)%nat -> oq_random q i = nth i (fst (rng_draws 12 g)) 0%N) /\ in_turn (snd (rng_draws 12 g)) l
  end.

(** A text that can be a state. *)
Definition state_text (s : bytes) : Prop :=
  List.length s = 12%nat /\ forall c, In c s -> In c (str "abcdefghijklmnopqrstuvwxyz1234567890").
