(** * What is claimed about threads that recycle objects *)
From Coq Require Import List Arith.
From Verif Require Import Pool_Model.
Import ListNotations.

Section Spec.
Variables Obj Val Ev : Type.
Variable fresh : nat -> Obj.

(** The objects that a thread has for itself. *)
Definition mem := nat -> option Obj.
Definition no_mem : mem := fun _ => None.
Definition put_mem (m : mem) (l : nat) (o : option Obj) : mem := fun l' => if Nat.eqb l' l then o else m l'.

Definition join_mem (m1 m2 : mem) : mem := fun l => match m1 l with Some o => Some o | None => m2 l end.

(** A thread alone with its own objects [m] and with objects [s] that nobody changes
    any more: it uses only these and changes only its own, a pool gives it a new object
    (as a pool that is always empty), it puts an object back in the state of a new one,
    and whatever it shows is good.  When it starts another thread, each of its own
    objects goes to one of the two or is not changed any more. *)
Definition at_most_one (a b c : option Obj) : Prop :=
  match a, b, c with Some _, None, None | None, Some _, None | None, None, _ => True | _, _, _ => False end.
Fixpoint alone (good : Ev -> Prop) (s m : mem) (p : prog Obj Val Ev) : Prop :=
  match p with
  | Stop => True
  | Get n k => forall l, m l = None -> s l = None -> alone good s (put_mem m l (Some (fresh n))) (k l)
  | Put n l k => m l = Some (fresh n) /\ alone good s (put_mem m l None) k
  | New o k => forall l, m l = None -> s l = None -> alone good s (put_mem m l (Some o)) (k l)
  | Look l f k => exists o, (m l = Some o \/ s l = Some o) /\ alone good s m (k (f o))
  | Change l f k =>
      exists o, m l = Some o /\
        match f o with Some o' => alone good s (put_mem m l (Some o')) (k true) | None => alone good s m (k false) end
  | Emit e k => good e /\ alone good s m k
  | Ask k => forall x, alone good s m (k x)
  | Go g k =>
      exists m1 m2 s',
        (forall l, at_most_one (m1 l) (m2 l) (s' l) /\ m l = join_mem m1 (join_mem m2 s') l) /\
        alone good (join_mem s s') m1 g /\ alone good (join_mem s s') m2 k
  end.

(** No race: the object that a thread uses next is not in a pool, and if another thread
    uses it next too then both only look. *)
Definition looks_at (p : prog Obj Val Ev) (l : nat) : Prop := match p with Look l' _ _ => l' = l | _ => False end.
Definition wants (p : prog Obj Val Ev) (l : nat) : Prop :=
  match p with Look l' _ _ | Change l' _ _ | Put _ l' _ => l' = l | _ => False end.
Definition race_free (c : config Obj Val Ev) : Prop :=
  forall t p l, nth_error (cf_threads c) t = Some p -> wants p l ->
    (forall n, ~ In l (cf_pools c n)) /\
    (forall t' p', nth_error (cf_threads c) t' = Some p' -> wants p' l -> t' <> t -> looks_at p l /\ looks_at p' l).

End Spec.
Arguments no_mem {Obj}. Arguments put_mem {Obj}. Arguments join_mem {Obj}. Arguments at_most_one {Obj}.
Arguments alone {Obj Val Ev}. Arguments race_free {Obj Val Ev}. Arguments wants {Obj Val Ev}. Arguments looks_at {Obj Val Ev}.
