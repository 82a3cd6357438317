(** * Comparing patterns that have a ** inside. *)
From Coq Require Import List NArith.
From Verif Require Import GoBase Pattern_Spec.
Import ListNotations.

(** The pieces with ** repeated as often as makes them 19. *)
Definition filled (ks : list piece) : list piece :=
  flat_map (fun k => match k with Any => repeat Any (20 - List.length ks) | _ => [k] end) ks.

(** The order of texts, byte by byte. *)
Inductive text_before : bytes -> bytes -> Prop :=
| tb_shorter : forall c s, text_before [] (c :: s)
| tb_here : forall c d s t, (code c < code d)%N -> text_before (c :: s) (d :: t)
| tb_later : forall c s t, text_before s t -> text_before (c :: s) (c :: t).
