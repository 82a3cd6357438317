(** * Which routes compete for a request. *)
From Coq Require Import List Ascii String NArith.
From Verif Require Import GoBase Glob_Spec Pattern_Spec Priority_Spec Router_Model Routing_Spec.
Import ListNotations.

(** [route_of compiles ic hist mth rg ks]: the registration [rg] was accepted, it
    is for the method, and [ks] are its pieces. *)
Definition route_of (compiles : bytes -> bool) (ic : bool) (hist : list (reg * handle_end)) (mth : bytes)
    (rg : reg) (ks : list piece) : Prop :=
  In (rg, Registered) hist /\ same_method (reg_method rg) mth /\ pieces_of compiles ic (reg_text rg) ks.

(** No wildcard text of the pieces makes the matcher crash on a segment (C02). *)
Definition calm_on (ic : bool) (ts : list bytes) (ks : list piece) : Prop :=
  forall w t, In (Glob w) ks -> In t ts -> calm ic w t.

(** Two pieces that accept the same segments and may differ in the name of the
    variable only. *)
Definition same_piece (ic : bool) (k1 k2 : piece) : Prop :=
  match k1, k2 with
  | Lit a, Lit b => same_text ic a b
  | Constrained _ a, Constrained _ b => a = b
  | Var _, Var _ => True
  | Glob a, Glob b => same_text ic a b
  | One, One => True
  | Any, Any => True
  | _, _ => False
  end.

(** Where the request ends in the middle of the pattern, at its piece [k], one of
    these holds: an earlier piece has a constraint; no route that differs in the
    last piece only matches; or such a route matches and its last piece is of a
    better kind or the same as [k].  For example [/users/{id}] and the request
    [/users], when [/users] is a route too. *)
Definition not_cut (ic : bool) (rm : bytes -> bytes -> bool) (routes : reg -> list piece -> Prop)
    (ts : list bytes) (ks : list piece) : Prop :=
  forall k0 k k2 bs, ks = k0 ++ k :: k2 -> k2 <> [] -> reads_as ic rm (k0 ++ [k]) ts bs ->
  (exists n r, In (Constrained n r) k0) \/
  (forall rg k0' k' bs', routes rg (k0' ++ [k']) -> reads_as ic rm (k0' ++ [k']) ts bs' -> ~ Forall2 (same_piece ic) k0 k0') \/
  ((forall rg ks', routes rg ks' -> List.length ks' <= 19) /\
   exists rg k0' k' bs', routes rg (k0' ++ [k']) /\ reads_as ic rm (k0' ++ [k']) ts bs' /\
     Forall2 (same_piece ic) k0 k0' /\ (same_piece ic k k' \/ kind_rank k' < kind_rank k)).

(** Where the kinds of two patterns agree up to a wildcard text in both, it is the
    same wildcard text. *)
Definition same_globs (ic : bool) (ks1 ks2 : list piece) : Prop :=
  forall i a b, map kind_rank (firstn i ks1) = map kind_rank (firstn i ks2) ->
  nth_error ks1 i = Some (Glob a) -> nth_error ks2 i = Some (Glob b) -> same_text ic a b.
