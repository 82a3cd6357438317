(** * When routes with an inner double star do not lead the search astray. *)
From Coq Require Import List Ascii String NArith.
From Verif Require Import GoBase Glob_Spec Pattern_Spec Router_Model Routing_Spec Choice_Spec.
Import ListNotations.

(** Where the request can be read up to a double star in the middle of the
    pattern, with at least one segment left, some route reads all of it: one that
    goes through the same double star, or this very pattern if a constraint
    stands before it. *)
Definition not_stuck (ic : bool) (rm : bytes -> bytes -> bool) (routes : reg -> list piece -> Prop)
    (ts : list bytes) (ks : list piece) : Prop :=
  forall k0 k2 bs, ks = k0 ++ Any :: k2 -> k2 <> [] -> reads_as ic rm (k0 ++ [Any]) ts bs ->
  (exists bs', reads_as ic rm ks ts bs') \/
  ((forall n r, ~ In (Constrained n r) k0) /\
   exists rg k0' k2' bs', routes rg (k0' ++ Any :: k2') /\ k2' <> [] /\ Forall2 (same_piece ic) k0 k0' /\
     reads_as ic rm (k0' ++ Any :: k2') ts bs').

(** Where the request ends in the middle of the pattern, at its piece [k], one of
    these holds: an earlier piece has a constraint; no route with the same earlier
    pieces reads the last segment with the rest of its pieces; or a route ends
    there too, with the same pieces.  This is [not_cut] without the comparison of
    kinds. *)
Definition not_ended (ic : bool) (rm : bytes -> bytes -> bool) (routes : reg -> list piece -> Prop)
    (ts : list bytes) (ks : list piece) : Prop :=
  forall k0 k k2 t0 t bs, ks = k0 ++ k :: k2 -> k2 <> [] -> k <> Any -> ts = t0 ++ [t] ->
  reads_as ic rm (k0 ++ [k]) ts bs ->
  (exists n r, In (Constrained n r) k0) \/
  (forall rg k0' r' bs', routes rg (k0' ++ r') -> Forall2 (same_piece ic) k0 k0' -> ~ reads_as ic rm r' [t] bs') \/
  ((forall n r, k <> Constrained n r) /\
   exists rg ks', routes rg ks' /\ Forall2 (same_piece ic) (k0 ++ [k]) ks').
