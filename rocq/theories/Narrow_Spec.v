(** * Routes that accept fewer requests than others. *)
From Coq Require Import List.
From Verif Require Import GoBase Pattern_Spec Routing_Spec.
Import ListNotations.

(** [accepts_path ic rm ks ts]: some reading of the segments by the pieces exists. *)
Definition accepts_path (ic : bool) (rm : bytes -> bytes -> bool) (ks : list piece) (ts : list bytes) : Prop :=
  exists bs, reads_as ic rm ks ts bs.

(** [narrower ic rm a b]: everything that [a] accepts is accepted by [b], and [b]
    accepts something else, too. *)
Definition narrower (ic : bool) (rm : bytes -> bytes -> bool) (a b : list piece) : Prop :=
  (forall ts, accepts_path ic rm a ts -> accepts_path ic rm b ts) /\
  exists ts, accepts_path ic rm b ts /\ ~ accepts_path ic rm a ts.

(** Literal texts, and variables or [*], not both, and [**]. *)
Definition with_variables (k : piece) : Prop :=
  match k with Lit _ | Var _ | Any => True | _ => False end.
Definition with_stars (k : piece) : Prop :=
  match k with Lit _ | One | Any => True | _ => False end.
