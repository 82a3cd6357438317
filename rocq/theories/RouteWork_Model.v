(** * How many rounds all wildcard comparisons of a request take

    The calls of [matchUrlPathSegment] (pattern.go 21-55) that [Match] (matcher.go 148-252)
    makes for one request, as in [Work_Model], where each call that gets to
    [regexSegmentMatch] (pattern.go 47-52) counts with the rounds of its loops, as in
    [GlobWork_Model].  Other comparisons count nothing: they have no loop of their own. *)
From Coq Require Import List NArith Ascii String Bool.
From Verif Require Import GoBase Glob_Model Pattern_Model Url_Model Match_Model Router_Model GlobWork_Model.
Import ListNotations.
Local Open Scope list_scope.
Local Open Scope nat_scope.

Section Rounds.
Variable re : engine.
Variable ci : bool.
Variable path : bytes.
Variable url_len : N.
(** Of each comparison the first [gf] rounds of its main loop are looked at. *)
Variable gf : nat.

(** One comparison (pattern.go 21-55), as in [seg_match]. *)
Definition seg_rounds (s : segment) (u : useg) : nat :=
  match s_mt s with
  | MTRegex => match useg_text path u with Some t => segment_rounds gf ci t (s_val s) | None => 0 end
  | _ => 0
  end.

(** The search among the children (matcher.go 171-176), as in [first_match]. *)
Fixpoint first_rounds (l : list node) (left : N) (u : useg) : nat :=
  match l with
  | [] => 0
  | n :: l' =>
      if negb (can_match_len n left) then first_rounds l' left u
      else seg_rounds (n_seg n) u +
           match seg_match re ci path (n_seg n) u with SMt MTUnknown => first_rounds l' left u | _ => 0 end
  end.

(** The children of a ** node (matcher.go 192-206), as in [some_matches]. *)
Fixpoint some_rounds (l : list node) (u : useg) : nat :=
  match l with
  | [] => 0
  | n :: l' => seg_rounds (n_seg n) u +
               match seg_match re ci path (n_seg n) u with SMt MTUnknown => some_rounds l' u | _ => 0 end
  end.

(** The loop over the rest of the path (matcher.go 189-209), as in [greedy]. *)
Fixpoint greedy_rounds (k : nat) (l : list node) (i : N) (segs : list useg) : nat :=
  match k with
  | O => 0
  | S k' =>
      match nth_error segs (N.to_nat i) with
      | None => 0
      | Some u =>
          some_rounds l u +
          match some_matches re ci path l u with
          | HNo => greedy_rounds k' l (u8 (i + 1)) (set_mt segs i MTMulti)
          | _ => 0
          end
      end
  end.

(** One round of the main loop (matcher.go 161-250), as in [round]. *)
Definition round_rounds (st : mstate) : nat :=
  let i := ms_idx st in
  if negb (i <? url_len)%N then 0
  else
    match nth_error (ms_segs st) (N.to_nat i), nth_error (ms_mts st) (N.to_nat i),
          nth_error (ms_nstack st) (ms_depth st) with
    | Some u, Some mt0, Some (c0, _) =>
        let segs := if mt_eqb mt0 MTUnknown then ms_segs st else set_mt (ms_segs st) i mt0 in
        let children := n_ch (ms_cur st) in
        let seen := skipn (N.to_nat c0) (firstn (N.to_nat (u16 (N.of_nat (List.length children)))) children) in
        first_rounds seen (sub8 url_len i) u +
        match first_match re ci path seen c0 (sub8 url_len i) u with
        | FSome _ child MTMulti =>
            match n_ch child, is_leaf child with
            | [], true => 0
            | greedy_children, _ => greedy_rounds (N.to_nat (url_len - i)) greedy_children i segs
            end
        | _ => 0
        end
    | _, _, _ => 0
    end.

Fixpoint match_loop_rounds (fuel : nat) (st : mstate) : nat :=
  match fuel with
  | O => 0
  | S f => round_rounds st + match round re ci path url_len st with inl st' => match_loop_rounds f st' | inr _ => 0 end
  end.
End Rounds.

(** [Matcher.Match] (matcher.go 148-252) in its first [fuel] rounds. *)
Definition match_rounds (fuel gf : nat) (re : engine) (m : matcher) (path : bytes) (segs : list useg) : nat :=
  if Nat.ltb max_path_segments (List.length segs) then 0
  else
    match segs, m_root m with
    | [], Some p => 0
    | _, _ => match_loop_rounds re (m_ci m) path (u8 (N.of_nat (List.length segs))) gf fuel
                (MS 0 0 (m_trie m) [] (repeat (0, 0)%N max_path_segments) (repeat MTUnknown max_path_segments) segs)
    end.

(** While the router looks for the handler (router.go 78-90), as in [dispatch_request]. *)
Definition request_rounds (fuel gf : nat) (re : engine) (r : router) (mth path : bytes) (buf : list useg) : nat :=
  match parse_url_path path buf with
  | None => 0
  | Some segs =>
      match alookup (to_upper mth) (r_matchers r) with
      | None => 0
      | Some m => match_rounds fuel gf re m path segs
      end
  end.
