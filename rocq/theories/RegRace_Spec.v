(** * Words for the property about routes registered while requests are served (C141) *)
From Coq Require Import List NArith Ascii Bool Sorted.
From Verif Require Import GoBase Pattern_Model Match_Model Filled_Spec.
Import ListNotations.
Local Open Scope N_scope.

(** A child stands before another one: by its priority, then by its text. *)
Definition stands_before (a b : node) : Prop :=
  n_prio a < n_prio b \/ n_prio a = n_prio b /\ text_before (s_val (n_seg a)) (s_val (n_seg b)).

(** Children in the order in which the router looks at them. *)
Definition in_order (l : list node) : Prop := StronglySorted stands_before l.

(** The router with other children below its root. *)
Definition with_root_children (m : matcher) (l : list node) : matcher :=
  let (mx, prio, s, pat, _) := m_trie m in Matcher (m_ci m) (m_root m) (Node mx prio s pat l).
