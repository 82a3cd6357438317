(** * What is claimed about calls of [Handle] and requests that run at the same time *)
From Coq Require Import List NArith ZArith Ascii String Bool Arith.
From Verif Require Import GoBase Pattern_Model Url_Model Match_Model Router_Model HandleRace_Model.
Import ListNotations.
Local Open Scope list_scope.
Local Open Scope nat_scope.

(** Goroutine [j] is in the middle of putting a new method into the map. *)
Definition adds_method (w : world) (j : nat) : Prop :=
  exists reg p a, nth_error (hw_routines w) j = Some (Handling reg (HAssigning p a)).

(** Goroutine [i] is about to use the map: a call that is about to add its method; or one with a legal
    pattern, or a request, that is about to look for its method, when there are methods. *)
Definition uses_map (fuel : nat) (re : engine) (ci : bool) (w : world) (i : nat) : Prop :=
  (exists reg p a, nth_error (hw_routines w) i = Some (Handling reg (HAssign p a))) \/
  hw_map w <> [] /\
  ((exists mth text h p, nth_error (hw_routines w) i = Some (call (mth, text, h)) /\ parse_pattern fuel re text ci = POk p) \/
   (exists mth path buf segs, nth_error (hw_routines w) i = Some (request mth path buf) /\ parse_url_path path buf = Some segs)).

(** Somebody uses the map while somebody else adds a method to it. *)
Definition map_clash (fuel : nat) (re : engine) (ci : bool) (w : world) (i : nat) : Prop :=
  uses_map fuel re ci w i /\ exists j, j <> i /\ adds_method w j.

(** The goroutines are calls and requests at their beginnings. *)
Definition all_begin (rs : list routine) : Prop :=
  forall x, In x rs -> (exists reg, x = call reg) \/ exists mth path buf, x = request mth path buf.

(** A router has routes for a method. *)
Definition knows (r : router) (mth : bytes) : Prop := alookup (to_upper mth) (r_matchers r) <> None.

(** Two calls with one method that has no routes yet. *)
Definition both_new (r : router) (rs : list routine) (i j : nat) : Prop :=
  exists m1 t1 h1 m2 t2 h2, i <> j /\ nth_error rs i = Some (call (m1, t1, h1)) /\ nth_error rs j = Some (call (m2, t2, h2)) /\
    to_upper m1 = to_upper m2 /\ ~ knows r m1.

(** How a call has ended, and what a request has got. *)
Definition ended (w : world) (i : nat) (e : handle_end) : Prop :=
  exists reg, nth_error (hw_routines w) i = Some (Handling reg (HEnd e)).
Definition got (w : world) (i : nat) (mth path : bytes) (buf : list useg) (d : dispatch) : Prop :=
  nth_error (hw_routines w) i = Some (Asking mth path buf (QEnd d)).
