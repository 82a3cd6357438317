(** * The length of the longest registered pattern *)
From Coq Require Import List.
From Verif Require Import GoBase Router_Model Routing_Spec.
Import ListNotations.

Fixpoint longest (regs : list reg) : nat :=
  match regs with [] => 0 | rg :: regs' => Nat.max (List.length (reg_text rg)) (longest regs') end.
