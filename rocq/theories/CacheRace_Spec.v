(** * When goroutines that share a cache end the process. *)
From Coq Require Import List NArith ZArith Ascii String Bool Arith.
From Verif Require Import GoBase Http_Model Cache_Model Csrf_Model CacheRace_Model.
Import ListNotations.
Local Open Scope string_scope.
Local Open Scope list_scope.
Local Open Scope nat_scope.

(** The call changes the cache. *)
Definition changes (op : ccall) : Prop :=
  (exists now key d, op = CAdd now key d) \/ (exists key, op = CRemove key).

Section Race.
Variable T : Type.
Variable next : T -> option ccall.

(** Goroutine [j] is in the middle of a call that changes the cache. *)
Definition writing_now (s : rstate T) (j : nat) : Prop :=
  exists t op, nth_error (rs_routines s) j = Some (t, true) /\ next t = Some op /\ changes op.

(** Goroutine [i] is in the middle of a call. *)
Definition in_call (s : rstate T) (i : nat) : Prop :=
  exists t op, nth_error (rs_routines s) i = Some (t, true) /\ next t = Some op.

(** Goroutine [i] is about to make a call that matters to the map: an addition, or any
    call when there are entries. *)
Definition about_to (s : rstate T) (i : nat) : Prop :=
  exists t op, nth_error (rs_routines s) i = Some (t, false) /\ next t = Some op /\
    ((exists now key d, op = CAdd now key d) \/ rs_map s <> []).

(** A call begins while another one is changing the cache. *)
Definition clash (s : rstate T) (i : nat) : Prop :=
  about_to s i /\ exists j, j <> i /\ writing_now s j.
End Race.
Arguments writing_now {T}.
Arguments in_call {T}.
Arguments about_to {T}.
Arguments clash {T}.
