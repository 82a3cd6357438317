(** * What permissions mean (comments of auth/auth.go 60-69, README "Authorization"). *)
From Coq Require Import List NArith Ascii String.
From Verif Require Import GoBase.
Import ListNotations.
Local Open Scope list_scope.

(** [levels s l]: [l] are the texts between the slashes of [s]. *)
Inductive levels : bytes -> list bytes -> Prop :=
| lv_last : forall s, ~ In "/"%char s -> levels s [s]
| lv_more : forall x s l, ~ In "/"%char x -> levels s l -> levels (x ++ "/"%char :: s) (x :: l).

Definition wild : bytes := ["*"%char].

(** [covers p s]: the scope levels [p] cover the scope levels [s]: level by level,
    a star covers any level, and a final star covers all deeper levels. *)
Inductive covers : list bytes -> list bytes -> Prop :=
| cv_end : covers [] []
| cv_same : forall x p s, covers p s -> covers (x :: p) (x :: s)
| cv_star : forall x p s, covers p s -> covers (wild :: p) (x :: s)
| cv_deeper : forall x s, covers [wild] (x :: s).

(** Every bit of [b] is in [a]. *)
Definition grants (a b : N) : Prop := forall k, N.testbit b k = true -> N.testbit a k = true.

(** The code also lets the last level of a permission stand for deeper levels
    that repeat it. *)
Inductive repeats : list bytes -> list bytes -> Prop :=
| rp_intro : forall p x s1 s2, covers (p ++ [x]) (s1 ++ [x]) -> Forall (eq x) s2 -> s2 <> [] ->
    repeats (p ++ [x]) (s1 ++ x :: s2).

(** [numeral ds n]: the digits [ds] are a decimal numeral of [n]. *)
Definition digit_of (c : byte) (d : N) : Prop := (d < 10)%N /\ N_of_ascii c = (48 + d)%N.
Inductive numeral : bytes -> N -> Prop :=
| nm_one : forall c d, digit_of c d -> numeral [c] d
| nm_more : forall ds n c d, numeral ds n -> digit_of c d -> numeral (ds ++ [c]) (10 * n + d)%N.

(** At most three scope levels. *)
Definition three_levels (s : bytes) : Prop := exists l, levels s l /\ (List.length l <= 3)%nat.
