(** * What is claimed about path variables while a request is handled *)
From Coq Require Import List Bool.
From Verif Require Import GoBase VarTime_Model.
Import ListNotations.
Local Open Scope list_scope.

(** Who has touched what: for each context the number of its request, the number of its
    segments and whether its bounds were changed; for each request and for each array of
    segments whether they are no longer those of the router. *)
Record traces := Traces { tr_contexts : list (nat * nat * bool); tr_requests : list bool; tr_segments : list bool }.

Fixpoint mark {A : Type} (i : nat) (x : A) (l : list A) : list A :=
  match l, i with
  | [], _ => []
  | _ :: l', 0 => x :: l'
  | y :: l', S j => y :: mark j x l'
  end.
Definition note (t : traces) (d : deed) : traces :=
  match d with
  | Pass i =>
      match nth_error (tr_contexts t) i with
      | Some c => Traces (tr_contexts t ++ [c]) (tr_requests t) (tr_segments t)
      | None => t
      end
  | CloneOf i =>
      match nth_error (tr_contexts t) i with
      | Some (r, s, cut) =>
          Traces (tr_contexts t ++ [(r, length (tr_segments t), false)]) (tr_requests t) (tr_segments t ++ [nth s (tr_segments t) true || cut])
      | None => t
      end
  | OtherRequest i _ =>
      match nth_error (tr_contexts t) i with
      | Some (r, s, cut) => Traces (mark i (length (tr_requests t), s, cut) (tr_contexts t)) (tr_requests t ++ [true]) (tr_segments t)
      | None => t
      end
  | SetPath i _ =>
      match nth_error (tr_contexts t) i with
      | Some (r, _, _) => Traces (tr_contexts t) (mark r true (tr_requests t)) (tr_segments t)
      | None => t
      end
  | Cut i _ _ =>
      match nth_error (tr_contexts t) i with
      | Some (r, s, _) => Traces (mark i (r, s, true) (tr_contexts t)) (tr_requests t) (tr_segments t)
      | None => t
      end
  | ResetAt i _ | CopySegment i _ _ _ =>
      match nth_error (tr_contexts t) i with
      | Some (_, s, _) => Traces (tr_contexts t) (tr_requests t) (mark s true (tr_segments t))
      | None => t
      end
  | Ask _ _ => t
  end.

(** The context [i] is, after these deeds, one that has what the router gave. *)
Definition untouched (l : list deed) (i : nat) : Prop :=
  let t := fold_left note l (Traces [(0, 0, false)] [false] [false]) in
  exists r s, nth_error (tr_contexts t) i = Some (r, s, false) /\ nth_error (tr_requests t) r = Some false /\ nth_error (tr_segments t) s = Some false.
