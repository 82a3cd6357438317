(** * Model of goroutines that use one in-memory cache (cache/cache.go) at the same time.

    [InMemory] (cache.go 16-36) is a plain Go map without a lock.  The runtime of Go
    watches over such maps: a map has a flag that says that somebody is writing to
    it.  [i.cache[key] = ...] (line 25) and [delete(i.cache, key)] (line 30) look at the
    flag when they begin, set it, and clear it when they end; [i.cache[key]] (line 34)
    looks at it when it begins.  Who finds the flag set ends the whole process with
    the fatal errors "concurrent map writes" or "concurrent map read and map write",
    which [recover] does not stop.  Reading from and deleting in a map without entries
    return before they look at the flag.

    Simplifications: looking at the flag and setting it are one step; a call that the
    runtime lets through takes effect when it ends. *)
From Coq Require Import List NArith ZArith Ascii String Bool Arith.
From Verif Require Import GoBase Http_Model Cache_Model Auth_Model Chain_Model Csrf_Model.
Import ListNotations.
Local Open Scope string_scope.
Local Open Scope list_scope.
Local Open Scope nat_scope.

Section Race.
(** What a goroutine still has to do; the cache call that comes next, or none when its
    next step leaves the cache alone; how it goes on with the answer of the call. *)
Variable T : Type.
Variable next : T -> option ccall.
Variable resume : T -> bool -> T.

(** The map, its flag, and the goroutines; the mark of a goroutine says that it is
    inside the cache call that it makes next. *)
Record rstate := RState { rs_map : cache; rs_writing : bool; rs_routines : list (T * bool) }.
Inductive routcome := Running (s : rstate) | Fatal.

(** What a call answers: [Contains] (cache.go 33-36) says whether the key is there. *)
Definition call_answer (c : cache) (op : ccall) : bool :=
  match op with CContains now key => cache_contains c now key | _ => true end.

(** Whether a call writes to the map (lines 25 and 30). *)
Definition call_writes (op : ccall) : bool :=
  match op with CContains _ _ => false | _ => true end.

(** Whether a call returns before it looks at the flag. *)
Definition call_shortcut (c : cache) (op : ccall) : bool :=
  match op, c with
  | CAdd _ _ _, _ => false
  | _, [] => true
  | _, _ :: _ => false
  end.

Definition set_nth {A : Type} (i : nat) (x : A) (l : list A) : list A := firstn i l ++ x :: skipn (S i) l.

(** One step of the goroutine with number [i]: it begins a call, ends the call it is
    in, or does something else. *)
Definition race_step (s : rstate) (i : nat) : routcome :=
  match nth_error (rs_routines s) i with
  | None => Running s
  | Some (t, inside) =>
      match next t with
      | None => Running (RState (rs_map s) (rs_writing s) (set_nth i (resume t false, false) (rs_routines s)))
      | Some op =>
          let done w :=
            Running (RState (cache_step (rs_map s) op) w
                            (set_nth i (resume t (call_answer (rs_map s) op), false) (rs_routines s))) in
          if inside then
            if call_writes op then
              if rs_writing s then done false else Fatal
            else done (rs_writing s)
          else
            if call_shortcut (rs_map s) op then done (rs_writing s)
            else if rs_writing s then Fatal
            else Running (RState (rs_map s) (call_writes op) (set_nth i (t, true) (rs_routines s)))
      end
  end.

(** A schedule: the numbers of the goroutines that make the next steps. *)
Fixpoint race_run (s : rstate) (schedule : list nat) : routcome :=
  match schedule with
  | [] => Running s
  | i :: rest => match race_step s i with Running s' => race_run s' rest | Fatal => Fatal end
  end.

(** Goroutines that start on a cache. *)
Definition race_start (c : cache) (ts : list T) : rstate := RState c false (map (fun t => (t, false)) ts).
End Race.
Arguments RState {T}.
Arguments rs_map {T}.
Arguments rs_writing {T}.
Arguments rs_routines {T}.
Arguments Running {T}.
Arguments Fatal {T}.
Arguments race_step {T}.
Arguments race_run {T}.
Arguments race_start {T}.

(** ** The CSRF middleware as a user of the cache (csrf.go 43-65) *)

(** The cache calls in lines 52, 55 and 62. *)
Definition csrf_next (param header : bytes) (t : creq * cpc) : option ccall :=
  let (q, pc) := t in
  match pc with
  | AtStart =>
      if skip_check (cq_method q) then None
      else
        let n := previous_nonce param header q in
        if beqb n [] then None else Some (CContains (cq_check q) n)
  | AtRemove n => Some (CRemove n)
  | AtAdd n => Some (CAdd (cq_add q) n csrf_expiration)
  | _ => None
  end.

(** How the middleware goes on with the answers. *)
Definition csrf_resume (param header : bytes) (t : creq * cpc) (answer : bool) : creq * cpc :=
  let (q, pc) := t in
  (q, match pc with
      | AtStart =>
          if skip_check (cq_method q) then draw q
          else if answer then AtRemove (previous_nonce param header q) else AtRefused
      | AtRemove _ => draw q
      | AtAdd n => AtHandler n
      | _ => pc
      end).

(** Requests handled at the same time by the middleware with an in-memory cache. *)
Definition csrf_race (param header : bytes) (c : cache) (qs : list creq) (schedule : list nat) :=
  race_run (csrf_next param header) (csrf_resume param header) (race_start c (map (fun q => (q, AtStart)) qs)) schedule.
