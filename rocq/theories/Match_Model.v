(** * Model of the route tree: registration and matching
    (router/path/matcher.go and router/path/pattern.go 21-55). *)
From Coq Require Import List NArith ZArith Ascii String Bool.
From Verif Require Import GoBase Sort_Model Glob_Model Pattern_Model Url_Model.
Import ListNotations.
Local Open Scope N_scope.

(** [node] (matcher.go 14-21).  The parent pointer is not stored: the matching
    loop keeps the ancestors instead.  The root has no segment in Go; here it has
    [root_segment], which is never read. *)
Inductive node := Node (n_max n_prio : N) (n_seg : segment) (n_pat : option pattern) (n_ch : list node).

Definition n_max (n : node) := let (m, _, _, _, _) := n in m.
Definition n_prio (n : node) := let (_, p, _, _, _) := n in p.
Definition n_seg (n : node) := let (_, _, s, _, _) := n in s.
Definition n_pat (n : node) := let (_, _, _, p, _) := n in p.
Definition n_ch (n : node) := let (_, _, _, _, c) := n in c.

Definition root_segment : segment := Seg [] MTUnknown [] None.

(** [node.isLeaf] (matcher.go 27-29). *)
Definition is_leaf (n : node) : bool := match n_pat n with Some _ => true | None => false end.

(** [node.canMatchPathWithLength] (matcher.go 23-25). *)
Definition can_match_len (n : node) (len : N) : bool := len <=? n_max n.

(** [Matcher] (matcher.go 38-42). *)
Record matcher := Matcher { m_ci : bool; m_root : option pattern; m_trie : node }.

(** [NewMatcher] (matcher.go 44-49). *)
Definition new_matcher (ci : bool) : matcher := Matcher ci None (Node 0 0 root_segment None []).

(** ** Registration *)

(** The test that decides whether a piece shares a node (matcher.go 77-91).  For
    constrained variables the text of the new expression is compared with the
    whole text of the old piece. *)
Definition has_same_val (ci : bool) (child new : segment) : bool :=
  mt_eqb (s_mt child) (s_mt new) &&
  match s_mt child with
  | MTCapture | MTSingle | MTMulti => true
  | MTConstraint => match s_re new with Some r => beqb r (s_val child) | None => false end
  | _ => if ci then equal_fold (s_val new) (s_val child) else beqb (s_val new) (s_val child)
  end.

(** The comparison of the children (matcher.go 119-126). *)
Definition child_less (a b : node) : bool :=
  if n_prio a =? n_prio b
  then match bcompare (s_val (n_seg a)) (s_val (n_seg b)) with Gt => false | _ => true end
  else n_prio a <? n_prio b.

(** [sort.SliceStable] (matcher.go 119), modelled in Sort_Model. *)
Definition sort_children (l : list node) : list node := stable child_less l.

(** The first child that shares the node (the loop of matcher.go 75-105), with
    the children before and after it. *)
Fixpoint find_child (ci : bool) (s : segment) (l : list node) : option (list node * node * list node) :=
  match l with
  | [] => None
  | c :: l' =>
      if has_same_val ci (n_seg c) s then Some ([], c, l')
      else match find_child ci s l' with
           | None => None
           | Some (before, c', after) => Some (c :: before, c', after)
           end
  end.

(** [child.maxMatchableSegments] is raised when needed (matcher.go 94-96). *)
Definition raise_max (n : node) (mx : N) : node :=
  Node (if n_max n <? mx then mx else n_max n) (n_prio n) (n_seg n) (n_pat n) (n_ch n).
Definition set_children (n : node) (l : list node) : node :=
  Node (n_max n) (n_prio n) (n_seg n) (n_pat n) l.
Definition set_pattern (n : node) (p : pattern) : node :=
  Node (n_max n) (n_prio n) (n_seg n) (Some p) (n_ch n).

(** Number of segments the piece at [idx] can still match (matcher.go 68-73). *)
Definition max_at (p : pattern) (idx : nat) : N :=
  if is_greedy p then greedy_max else sub8 (p_max p) (u8 (N.of_nat idx)).

(** The loop of [AddPattern] (matcher.go 65-140) from piece number [idx] on at
    node [n]: the node after the call and whether a duplicate was reported.  The
    Go code changes nodes in place; the order of the changes is kept (the maximum
    is raised before a duplicate is detected).  The check after the loop
    (matcher.go 142-144) never fires, because the last round inserts or
    returns. *)
Fixpoint add_segs (ci : bool) (p : pattern) (idx : nat) (segs : list segment) (n : node) : node * bool :=
  match segs with
  | [] => (n, false)
  | s :: rest =>
      let mx := max_at p idx in
      match find_child ci s (n_ch n) with
      | Some (before, c, after) =>
          let c1 := raise_max c mx in
          match rest with
          | [] =>
              if is_leaf c1 then (set_children n (before ++ c1 :: after), true)
              else (set_children n (before ++ set_pattern c1 p :: after), false)
          | _ =>
              let (c2, dup) := add_segs ci p (S idx) rest c1 in
              (set_children n (before ++ c2 :: after), dup)
          end
      | None =>
          let fresh := Node mx (p_prio p) s (match rest with [] => Some p | _ => None end) [] in
          let (c2, dup) := add_segs ci p (S idx) rest fresh in
          (set_children n (sort_children (n_ch n ++ [c2])), dup)
      end
  end.

(** [Matcher.AddPattern] (matcher.go 51-146): the matcher after the call and
    whether an error was returned. *)
Definition add_pattern (m : matcher) (p : pattern) : matcher * bool :=
  match p_segs p with
  | [] => match m_root m with
          | Some _ => (m, true)
          | None => (Matcher (m_ci m) (Some p) (m_trie m), false)
          end
  | segs => let (t, dup) := add_segs (m_ci m) p 0 segs (m_trie m) in
            (Matcher (m_ci m) (m_root m) t, dup)
  end.

(** ** Matching one segment *)

Inductive sres := SMt (m : mtype) | SPanic.

(** [segment.matchUrlPathSegment] (pattern.go 21-55).  [SPanic] is a run-time
    panic: slice bounds, a nil expression, or an index out of range in the
    wildcard matcher.  Running out of fuel in the wildcard matcher, which cannot
    happen for parsed patterns (Glob_Proofs), is also put there. *)
Definition seg_match (re : engine) (ci : bool) (path : bytes) (s : segment) (u : useg) : sres :=
  match s_mt s with
  | MTLiteral =>
      if sub16 (u_end u) (u_start u) =? blen (s_val s) then
        match useg_text path u with
        | None => SPanic
        | Some t =>
            if (if ci then equal_fold t (s_val s) else beqb t (s_val s))
            then SMt MTLiteral else SMt MTUnknown
        end
      else SMt MTUnknown
  | MTSingle => SMt MTSingle
  | MTCapture => SMt MTCapture
  | MTMulti => SMt MTMulti
  | MTConstraint =>
      match useg_text path u, s_re s with
      | Some t, Some r => if re_match re r t then SMt MTConstraint else SMt MTUnknown
      | _, _ => SPanic
      end
  | MTRegex =>
      match useg_text path u with
      | None => SPanic
      | Some t => match regex_segment_match t (s_val s) ci with
                  | GRet true => SMt MTRegex
                  | GRet false => SMt MTUnknown
                  | _ => SPanic
                  end
      end
  | MTUnknown => SMt MTUnknown
  end.

(** ** The matching loop *)

Section Loop.
Variable re : engine.
Variable ci : bool.
Variable path : bytes.
Variable url_len : N.          (* urlLen, uint8 *)

(** Local variables of [Match] (matcher.go 155-160); [ms_anc] are the ancestors
    of the current node, nearest first. *)
Record mstate := MS {
  ms_idx : N;                     (* urlSegmentIndex, uint8 *)
  ms_depth : nat;                 (* treeDepth *)
  ms_cur : node;
  ms_anc : list node;
  ms_nstack : list (N * N);       (* nodeStack: currentNodeChildren, urlSegmentIndex *)
  ms_mts : list mtype;            (* urlSegmentMatchTypeStack *)
  ms_segs : list useg             (* mc.PathSegments *)
}.

(** [Match] returns a pattern or nil with the segments it has annotated, or
    panics, or is still running. *)
Inductive mres := MRet (p : option pattern) (segs : list useg) | MPanic | MFuel.

Definition with_mt (u : useg) (m : mtype) : useg := USeg (u_start u) (u_end u) m.

(** [mc.PathSegments[i].matchType = m]; out of range cannot happen in the places
    where it is used, the index having been read before. *)
Definition set_mt (segs : list useg) (i : N) (m : mtype) : list useg :=
  match nth_error segs (N.to_nat i) with
  | None => segs
  | Some u => match update segs (N.to_nat i) (with_mt u m) with Some l => l | None => segs end
  end.

(** The search among the children from number [c] on (matcher.go 171-176). *)
Inductive fres := FNone | FPanic | FSome (c : N) (child : node) (m : mtype).
Fixpoint first_match (l : list node) (c : N) (left : N) (u : useg) : fres :=
  match l with
  | [] => FNone
  | n :: l' =>
      if negb (can_match_len n left) then first_match l' (c + 1) left u
      else match seg_match re ci path (n_seg n) u with
           | SPanic => FPanic
           | SMt MTUnknown => first_match l' (c + 1) left u
           | SMt m => FSome c n m
           end
  end.

(** Does a child of the ** node match the segment (matcher.go 192-206). *)
Inductive hres := HNo | HYes | HPanic.
Fixpoint some_matches (l : list node) (u : useg) : hres :=
  match l with
  | [] => HNo
  | n :: l' => match seg_match re ci path (n_seg n) u with
               | SPanic => HPanic
               | SMt MTUnknown => some_matches l' u
               | SMt _ => HYes
               end
  end.

(** The loop over the rest of the path below a ** node (matcher.go 189-209):
    where a child matches.  [k] is the number of segments left. *)
Inductive grd := GrNone (segs : list useg) | GrPanic | GrAt (i : N) (segs : list useg).
Fixpoint greedy (k : nat) (l : list node) (i : N) (segs : list useg) : grd :=
  match k with
  | O => GrNone segs
  | S k' =>
      match nth_error segs (N.to_nat i) with
      | None => GrPanic
      | Some u =>
          let segs' := set_mt segs i MTMulti in
          match some_matches l u with
          | HPanic => GrPanic
          | HYes => GrAt i segs'
          | HNo => greedy k' l (u8 (i + 1)) segs'
          end
      end
  end.

(** All segments from [i] on become part of ** (matcher.go 182-185). *)
Fixpoint fill_multi (k : nat) (i : N) (segs : list useg) : list useg :=
  match k with
  | O => segs
  | S k' => fill_multi k' (i + 1) (set_mt segs i MTMulti)
  end.

(** The end of a round without a match (matcher.go 239-248). *)
Definition round_failed (st : mstate) : mstate + mres :=
  match ms_anc st with
  | [] => inr (MRet None (ms_segs st))
  | parent :: anc =>
      match update (ms_mts st) (N.to_nat (ms_idx st)) MTUnknown,
            update (ms_nstack st) (ms_depth st) (0, 0) with
      | Some mts', Some ns' =>
          match ms_depth st with
          | O => inr MPanic
          | S d => match nth_error ns' d with
                   | None => inr MPanic
                   | Some (_, i) => inl (MS i d parent anc ns' mts' (ms_segs st))
                   end
          end
      | _, _ => inr MPanic
      end
  end.

(** The end of a round with a match (matcher.go 232-237). *)
Definition round_matched (st : mstate) : mstate + mres :=
  if (ms_idx st =? sub8 url_len 1) && is_leaf (ms_cur st)
  then inr (MRet (n_pat (ms_cur st)) (ms_segs st))
  else inl (MS (u8 (ms_idx st + 1)) (ms_depth st) (ms_cur st) (ms_anc st)
               (ms_nstack st) (ms_mts st) (ms_segs st)).

(** One round of the main loop (matcher.go 161-250). *)
Definition round (st : mstate) : mstate + mres :=
  let i := ms_idx st in
  if negb (i <? url_len) then inr (MRet None (ms_segs st))
  else
    match nth_error (ms_segs st) (N.to_nat i), nth_error (ms_mts st) (N.to_nat i),
          nth_error (ms_nstack st) (ms_depth st) with
    | Some u, Some mt0, Some (c0, _) =>
        let segs := if mt_eqb mt0 MTUnknown then ms_segs st else set_mt (ms_segs st) i mt0 in
        let children := n_ch (ms_cur st) in
        let children_len := N.to_nat (u16 (N.of_nat (List.length children))) in
        match first_match (skipn (N.to_nat c0) (firstn children_len children)) c0
                          (sub8 url_len i) u with
        | FPanic => inr MPanic
        | FNone =>
            round_failed (MS i (ms_depth st) (ms_cur st) (ms_anc st) (ms_nstack st) (ms_mts st) segs)
        | FSome c child MTMulti =>
            match n_ch child, is_leaf child with
            | [], true =>
                inr (MRet (n_pat child) (fill_multi (N.to_nat (url_len - i)) i segs))
            | greedy_children, _ =>
                match greedy (N.to_nat (url_len - i)) greedy_children i segs with
                | GrPanic => inr MPanic
                | GrNone segs' => inr (MRet None segs')
                | GrAt j segs' =>
                    match update (ms_nstack st) (ms_depth st) (c, u8 (j + 1)),
                          update (ms_mts st) (N.to_nat j) MTMulti with
                    | Some ns', Some mts' =>
                        round_matched (MS (sub8 j 1) (S (ms_depth st)) child
                                          (ms_cur st :: ms_anc st) ns' mts' segs')
                    | _, _ => inr MPanic
                    end
                end
            end
        | FSome c child m =>
            let segs' := set_mt segs i m in
            if i =? sub8 url_len 1 then
              if is_leaf child then inr (MRet (n_pat child) segs')
              else round_failed (MS i (ms_depth st) (ms_cur st) (ms_anc st) (ms_nstack st)
                                    (ms_mts st) segs')
            else
              match update (ms_nstack st) (ms_depth st) (u16 (c + 1), i) with
              | Some ns' =>
                  round_matched (MS i (S (ms_depth st)) child (ms_cur st :: ms_anc st)
                                    ns' (ms_mts st) segs')
              | None => inr MPanic
              end
        end
    | _, _, _ => inr MPanic
    end.

Fixpoint match_loop (fuel : nat) (st : mstate) : mres :=
  match fuel with
  | O => MFuel
  | S f => match round st with
           | inl st' => match_loop f st'
           | inr r => r
           end
  end.

End Loop.

(** What [Match] leaves behind: the returned pattern, [mc.matchedPattern] (nil
    when / was matched) and the annotated segments. *)
Inductive match_result :=
| Matched (p : pattern) (recorded : option pattern) (segs : list useg)
| NoMatch
| MatchPanic
| MatchFuel.

(** [Matcher.Match] (matcher.go 148-252). *)
Definition match_path (fuel : nat) (re : engine) (m : matcher) (path : bytes) (segs : list useg)
  : match_result :=
  if Nat.ltb max_path_segments (List.length segs) then NoMatch
  else
    match segs, m_root m with
    | [], Some p => Matched p None segs
    | _, _ =>
        match match_loop re (m_ci m) path (u8 (N.of_nat (List.length segs))) fuel
                (MS 0 0 (m_trie m) [] (repeat (0, 0) max_path_segments)
                    (repeat MTUnknown max_path_segments) segs) with
        | MRet (Some p) segs' => Matched p (Some p) segs'
        | MRet None _ => NoMatch
        | MPanic => MatchPanic
        | MFuel => MatchFuel
        end
    end.
