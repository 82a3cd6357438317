(** * How much work there is

    Counts that do not depend on the router: the pieces written in the registered patterns
    and the segments written in a path. *)
From Coq Require Import List Ascii String.
From Verif Require Import GoBase Router_Model Routing_Spec.
Import ListNotations.
Local Open Scope nat_scope.

(** A text that starts with a slash has at most so many pieces or segments. *)
Definition slashes (t : bytes) : nat := count_occ ascii_dec t "/"%char.

(** The pieces of the patterns that were accepted for a method. *)
Fixpoint accepted_pieces (mth : bytes) (regs : list reg) (ends : list handle_end) : nat :=
  match regs, ends with
  | rg :: regs', Registered :: ends' =>
      (if same_method_dec mth (reg_method rg) then slashes (reg_text rg) else 0) + accepted_pieces mth regs' ends'
  | _ :: regs', _ :: ends' => accepted_pieces mth regs' ends'
  | _, _ => 0
  end.
