(** * What a cache keeps, and with whom a flow starts. *)
From Coq Require Import List NArith ZArith Ascii String Bool Arith.
From Verif Require Import GoBase Cache_Model OAuth_Model OAuth_Spec.
Import ListNotations.
Local Open Scope string_scope.
Local Open Scope list_scope.
Local Open Scope nat_scope.

(** The key was added and not removed since then. *)
Definition kept (ops : list ccall) (k : bytes) : Prop :=
  exists before t d after, ops = before ++ CAdd t k d :: after /\ ~ In (CRemove k) after.

(** A request starts a flow with this provider. *)
Definition starts_with {World : Type} (cfg : oconfig World) (q : oreq) (p : provider World) : Prop :=
  oq_initiate q = true /\
  (oc_providers cfg = [p] \/
   List.length (oc_providers cfg) <> 1 /\ query_value q (str "provider") (pv_name p) /\ pv_name p <> [] /\
     named (oc_providers cfg) (pv_name p) p).
