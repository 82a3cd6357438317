(** * How often the search compares a segment with a piece

    The calls of [matchUrlPathSegment] (pattern.go 21-55) that [Match] (matcher.go 148-252)
    makes for one request, along the steps of [Match_Model.round].  A call that panics is
    counted. *)
From Coq Require Import List NArith Ascii String Bool.
From Verif Require Import GoBase Pattern_Model Url_Model Match_Model Router_Model.
Import ListNotations.
Local Open Scope list_scope.
Local Open Scope nat_scope.

Section Calls.
Variable re : engine.
Variable ci : bool.
Variable path : bytes.
Variable url_len : N.

(** The calls of the search among the children (matcher.go 171-176), as in [first_match]. *)
Fixpoint first_calls (l : list node) (left : N) (u : useg) : nat :=
  match l with
  | [] => 0
  | n :: l' =>
      if negb (can_match_len n left) then first_calls l' left u
      else match seg_match re ci path (n_seg n) u with
           | SMt MTUnknown => S (first_calls l' left u)
           | _ => 1
           end
  end.

(** Those among the children of a ** node (matcher.go 192-206), as in [some_matches]. *)
Fixpoint some_calls (l : list node) (u : useg) : nat :=
  match l with
  | [] => 0
  | n :: l' => match seg_match re ci path (n_seg n) u with
               | SMt MTUnknown => S (some_calls l' u)
               | _ => 1
               end
  end.

(** Those of the loop over the rest of the path (matcher.go 189-209), as in [greedy]. *)
Fixpoint greedy_calls (k : nat) (l : list node) (i : N) (segs : list useg) : nat :=
  match k with
  | O => 0
  | S k' =>
      match nth_error segs (N.to_nat i) with
      | None => 0
      | Some u =>
          some_calls l u +
          match some_matches re ci path l u with
          | HNo => greedy_calls k' l (u8 (i + 1)) (set_mt segs i MTMulti)
          | _ => 0
          end
      end
  end.

(** Those of one round of the main loop (matcher.go 161-250), as in [round]. *)
Definition round_calls (st : mstate) : nat :=
  let i := ms_idx st in
  if negb (i <? url_len)%N then 0
  else
    match nth_error (ms_segs st) (N.to_nat i), nth_error (ms_mts st) (N.to_nat i),
          nth_error (ms_nstack st) (ms_depth st) with
    | Some u, Some mt0, Some (c0, _) =>
        let segs := if mt_eqb mt0 MTUnknown then ms_segs st else set_mt (ms_segs st) i mt0 in
        let children := n_ch (ms_cur st) in
        let seen := skipn (N.to_nat c0) (firstn (N.to_nat (u16 (N.of_nat (List.length children)))) children) in
        first_calls seen (sub8 url_len i) u +
        match first_match re ci path seen c0 (sub8 url_len i) u with
        | FSome _ child MTMulti =>
            match n_ch child, is_leaf child with
            | [], true => 0
            | greedy_children, _ => greedy_calls (N.to_nat (url_len - i)) greedy_children i segs
            end
        | _ => 0
        end
    | _, _, _ => 0
    end.

Fixpoint loop_calls (fuel : nat) (st : mstate) : nat :=
  match fuel with
  | O => 0
  | S f => round_calls st + match round re ci path url_len st with inl st' => loop_calls f st' | inr _ => 0 end
  end.
End Calls.

(** The calls of [Matcher.Match] (matcher.go 148-252) in its first [fuel] rounds. *)
Definition match_calls (fuel : nat) (re : engine) (m : matcher) (path : bytes) (segs : list useg) : nat :=
  if Nat.ltb max_path_segments (List.length segs) then 0
  else
    match segs, m_root m with
    | [], Some p => 0
    | _, _ => loop_calls re (m_ci m) path (u8 (N.of_nat (List.length segs))) fuel
                (MS 0 0 (m_trie m) [] (repeat (0, 0)%N max_path_segments) (repeat MTUnknown max_path_segments) segs)
    end.

(** The calls while the router looks for the handler (router.go 75-86), as in
    [dispatch_request]. *)
Definition request_calls (fuel : nat) (re : engine) (r : router) (mth path : bytes) (buf : list useg) : nat :=
  match parse_url_path path buf with
  | None => 0
  | Some segs =>
      match alookup (to_upper mth) (r_matchers r) with
      | None => 0
      | Some m => match_calls fuel re m path segs
      end
  end.
