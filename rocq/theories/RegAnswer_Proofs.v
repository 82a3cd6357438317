(** * Proofs about the answers during a registration (C141). *)
From Coq Require Import List NArith ZArith Ascii String Bool Lia Arith Permutation Sorted.
From Verif Require Import GoBase Sort_Model Glob_Model Pattern_Model Url_Model Match_Model Sort_Proofs Filled_Spec Order_Proofs
  RegRace_Model RegRace_Spec RegRace_Proofs RegSteps_Proofs.
Import ListNotations.
Local Open Scope string_scope.
Local Open Scope list_scope.
Local Open Scope nat_scope.

(** ** What the search finds, without the number of the child *)

Definition strip (f : fres) : option (option (node * mtype)) :=
  match f with FNone => None | FPanic => Some None | FSome _ n m => Some (Some (n, m)) end.
Definition found re ci path l u := strip (first_match re ci path l 0 1 u).

Lemma found_any re ci path u l : forall c, strip (first_match re ci path l c 1 u) = found re ci path l u.
Proof.
  unfold found. generalize 0%N. induction l as [|n l IH]; intros d c; [reflexivity|]. cbn [first_match].
  destruct (negb (can_match_len n 1)); [apply IH|]. destruct (seg_match re ci path (n_seg n) u) as [m|]; [|reflexivity].
  destruct m; try reflexivity. apply IH.
Qed.
Lemma found_app re ci path u l l' : found re ci path (l ++ l') u =
  match found re ci path l u with None => found re ci path l' u | r => r end.
Proof.
  induction l as [|n l IH]; [reflexivity|]. unfold found. cbn [List.app first_match].
  destruct (negb (can_match_len n 1)); [rewrite !found_any; exact IH|]. destruct (seg_match re ci path (n_seg n) u) as [m|]; [|reflexivity].
  destruct m; try reflexivity. rewrite !found_any. exact IH.
Qed.
Lemma found_hidden re ci path u x l : found re ci path (with_max x 0 :: l) u = found re ci path l u.
Proof. unfold found at 1. cbn [first_match]. unfold can_match_len, with_max. cbn [n_max]. change (negb (1 <=? 0)%N) with true. cbv iota. apply found_any. Qed.
Lemma found_twice re ci path u y l : found re ci path (y :: y :: l) u = found re ci path (y :: l) u.
Proof.
  change (y :: y :: l) with ([y] ++ [y] ++ l). change (y :: l) with ([y] ++ l). rewrite !found_app.
  destruct (found re ci path [y] u); reflexivity.
Qed.

Lemma answer_found fuel re m path u l l' : List.length l < N.to_nat 65536 -> List.length l' < N.to_nat 65536 ->
  (forall v, found re (m_ci m) path l v = found re (m_ci m) path l' v) ->
  lookup_answer fuel re m path u l = lookup_answer fuel re m path u l'.
Proof.
  intros A B F. apply answer_same; [assumption|assumption|]. intros v c c'. specialize (F v).
  rewrite <- (found_any re (m_ci m) path v l c), <- (found_any re (m_ci m) path v l' c') in F.
  destruct (first_match re (m_ci m) path l c 1 v), (first_match re (m_ci m) path l' c' 1 v); cbn in *; try discriminate; auto.
  injection F. auto.
Qed.

Lemma answer_root fuel re m path u l : lookup_answer fuel re m path u l = match_path fuel re (with_root_children m l) path [u].
Proof. unfold lookup_answer, with_root_children. destruct (m_trie m). reflexivity. Qed.
Lemma root_same m : with_root_children m (n_ch (m_trie m)) = m.
Proof. unfold with_root_children. destruct m as [ci r t]. cbn. destruct t. reflexivity. Qed.

Lemma max_back x : with_max x (n_max x) = x.
Proof. destruct x. reflexivity. Qed.

Lemma added m p s pre post : p_segs p = [s] -> find_child (m_ci m) s (n_ch (m_trie m)) = None -> n_ch (m_trie m) = pre ++ post ->
  in_order (pre ++ post) -> Forall (fun c => stands_before c (fresh_node p s)) pre -> Forall (stands_before (fresh_node p s)) post ->
  add_pattern m p = (with_root_children m (pre ++ fresh_node p s :: post), false).
Proof.
  intros P F C O A B. unfold add_pattern. rewrite P. cbn [add_segs]. rewrite F.
  change (Node (max_at p 0) (p_prio p) s (Some p) []) with (fresh_node p s). rewrite C.
  rewrite (sorted_nodes pre post (fresh_node p s) O A B). unfold with_root_children, set_children. destruct (m_trie m). reflexivity.
Qed.

(** ** Every answer that is possible *)

Section Answers.
Variables (fuel : nat) (re : engine) (m : matcher) (p : pattern) (s : segment) (pre post : list node) (cap : nat).
Variables (path : bytes) (u : useg) (schedule : list bool) (arr len : nat) (seen : list node).
Hypothesis one : p_segs p = [s].
Hypothesis new : find_child (m_ci m) s (n_ch (m_trie m)) = None.
Hypothesis children : n_ch (m_trie m) = pre ++ post.
Hypothesis few : List.length (pre ++ post) < N.to_nat 65535.
Hypothesis order : in_order (pre ++ post).
Hypothesis after_pre : Forall (fun c => stands_before c (fresh_node p s)) pre.
Hypothesis before_post : Forall (stands_before (fresh_node p s)) post.
Hypothesis ended : g_lookup (reg_run (pre ++ post) cap (fresh_node p s) schedule (reg_start (pre ++ post))) = Looking arr len seen.
Hypothesis all : List.length seen = len.

Let before := match_path fuel re m path [u].
Let after := match_path fuel re (fst (add_pattern m p)) path [u].

Lemma before_is : before = lookup_answer fuel re m path u (pre ++ post).
Proof. unfold before. rewrite answer_root, <- children, root_same. reflexivity. Qed.
Lemma after_is : after = lookup_answer fuel re m path u (pre ++ fresh_node p s :: post).
Proof. unfold after. rewrite (added m p s pre post) by assumption. rewrite answer_root. reflexivity. Qed.

Lemma hidden_is (l : list node) : List.length (pre ++ l) < N.to_nat 65535 ->
  lookup_answer fuel re m path u (pre ++ with_max (fresh_node p s) 0 :: l) = lookup_answer fuel re m path u (pre ++ l).
Proof.
  intros L. apply answer_found.
  - rewrite app_length in *. cbn [List.length]. lia.
  - lia.
  - intros v. rewrite !found_app, found_hidden. reflexivity.
Qed.

Lemma answers_most :
  lookup_answer fuel re m path u seen = before \/ lookup_answer fuel re m path u seen = after \/
  List.length (pre ++ post) < cap /\ post <> [] /\
    (lookup_answer fuel re m path u seen = match_path fuel re (with_root_children m (removelast (pre ++ post))) path [u] \/
     lookup_answer fuel re m path u seen = match_path fuel re (with_root_children m (pre ++ fresh_node p s :: removelast post)) path [u]).
Proof.
  destruct (seen_cases pre post cap (fresh_node p s) order after_pre before_post schedule arr len seen ended all)
    as [Z|[(mx & [-> | ->] & Z)|(P & Np & [(mx & [-> | ->] & Z)|(a0 & y & b0 & Z & E)])]]; rewrite Z.
  - left. symmetry. apply before_is.
  - left. rewrite hidden_is by assumption. symmetry. apply before_is.
  - right. left. rewrite max_back. symmetry. apply after_is.
  - right. right. apply Nat.ltb_lt in P. split; [assumption|]. split; [assumption|]. left.
    rewrite hidden_is. 2: { rewrite app_length in *. rewrite removelast_firstn_len, firstn_length. lia. }
    rewrite removelast_app by assumption. apply answer_root.
  - right. right. apply Nat.ltb_lt in P. split; [assumption|]. split; [assumption|]. right. rewrite max_back. apply answer_root.
  - right. right. apply Nat.ltb_lt in P. split; [assumption|]. split; [assumption|]. left. rewrite E, <- answer_root.
    assert (List.length (a0 ++ y :: b0) < N.to_nat 65535).
    { rewrite <- E. rewrite removelast_firstn_len, firstn_length. lia. }
    apply answer_found; [rewrite app_length in *; cbn [List.length] in *; lia|lia|].
    intros v. rewrite !found_app, found_twice. reflexivity.
Qed.

Lemma answers_full : cap <= List.length (pre ++ post) \/ post = [] ->
  lookup_answer fuel re m path u seen = before \/ lookup_answer fuel re m path u seen = after.
Proof.
  intros C. destruct answers_most as [H|[H|(H & Np & _)]]; auto. exfalso. destruct C; [lia|contradiction].
Qed.
End Answers.

(** Requests that begin after the registration get the new answers. *)
Lemma answers_late fuel re m p s pre post cap path u s1 s2 arr len seen :
  p_segs p = [s] -> find_child (m_ci m) s (n_ch (m_trie m)) = None -> n_ch (m_trie m) = pre ++ post ->
  in_order (pre ++ post) -> Forall (fun c => stands_before c (fresh_node p s)) pre -> Forall (stands_before (fresh_node p s)) post ->
  g_pc (reg_run (pre ++ post) cap (fresh_node p s) s1 (reg_start (pre ++ post))) = AtEnd ->
  g_lookup (reg_run (pre ++ post) cap (fresh_node p s) s1 (reg_start (pre ++ post))) = NotBegun ->
  g_lookup (reg_run (pre ++ post) cap (fresh_node p s) (s1 ++ s2) (reg_start (pre ++ post))) = Looking arr len seen ->
  List.length seen = len ->
  lookup_answer fuel re m path u seen = match_path fuel re (fst (add_pattern m p)) path [u].
Proof.
  intros P F C O A B E N L H. rewrite (late_seen pre post cap (fresh_node p s) O A B s1 s2 arr len seen E N L H).
  rewrite (added m p s pre post) by assumption. rewrite answer_root. reflexivity.
Qed.

(** A request that only the last child answers goes unanswered. *)
Lemma answer_lost fuel re m p s pre post cap path u :
  p_segs p = [s] -> find_child (m_ci m) s (n_ch (m_trie m)) = None -> n_ch (m_trie m) = pre ++ post ->
  in_order (pre ++ post) -> Forall (fun c => stands_before c (fresh_node p s)) pre -> Forall (stands_before (fresh_node p s)) post ->
  List.length (pre ++ post) < cap -> post <> [] ->
  match_path fuel re (with_root_children m (pre ++ fresh_node p s :: removelast post)) path [u] = NoMatch ->
  exists schedule arr len seen,
    g_lookup (reg_run (pre ++ post) cap (fresh_node p s) schedule (reg_start (pre ++ post))) = Looking arr len seen /\
    List.length seen = len /\ lookup_answer fuel re m path u seen = NoMatch.
Proof.
  intros P F C O A B Lt Np NM. apply Nat.ltb_lt in Lt.
  destruct (unlucky_seen pre post cap (fresh_node p s) O A B Lt Np) as [G L].
  do 4 eexists. split; [exact G|]. split; [exact L|]. rewrite answer_root. assumption.
Qed.

(** ** Cases *)

Definition any_engine : engine := Engine (fun _ => true) beqb.
Definition pat_of (txt : string) : pattern :=
  match parse_pattern 100 any_engine (str txt) false with POk p => p | _ => Pat false 0 0 0 [] [] None end.
Definition seg_of (p : pattern) : segment := nth 0 (p_segs p) root_segment.

(** Three routes; the array of the children has room for a fourth one. *)
Definition three : matcher :=
  fold_left (fun m t => fst (add_pattern m (pat_of t))) ["/{name}"; "/c"; "/d"]%string (new_matcher false).
Definition three_children : list node := n_ch (m_trie three).
Definition fourth : pattern := pat_of "/b".
Definition asked : bytes := str "/zoe".
Definition asked_seg : useg := USeg 1 4 MTUnknown.

Definition raced (cap : nat) (schedule : list bool) : option match_result :=
  match g_lookup (reg_run three_children cap (fresh_node fourth (seg_of fourth)) schedule (reg_start three_children)) with
  | Looking _ len seen =>
      if List.length seen =? len then Some (lookup_answer 10 any_engine three asked asked_seg seen) else None
  | NotBegun => None
  end.
Definition raw_answer (r : match_result) : option bytes := match r with Matched p _ _ => Some (p_raw p) | _ => None end.

Fixpoint strict (l : list node) : bool :=
  match l with [] => true | a :: l' => forallb (fun b => negb (child_less b a)) l' && strict l' end.
Lemma strict_before a l : forallb (fun b => negb (child_less b a)) l = true -> Forall (stands_before a) l.
Proof.
  rewrite forallb_forall, Forall_forall. intros H x I. apply child_less_not. apply negb_true_iff. apply H. assumption.
Qed.
Lemma strict_order l : strict l = true -> in_order l.
Proof.
  induction l as [|a l IH]; intros H; [constructor|]. cbn [strict] in H. apply andb_true_iff in H. destruct H as [H1 H2]. constructor; [exact (IH H2)|].
  apply strict_before. exact H1.
Qed.

Lemma three_ok :
  p_segs fourth = [seg_of fourth] /\ find_child (m_ci three) (seg_of fourth) (n_ch (m_trie three)) = None /\
  n_ch (m_trie three) = [] ++ three_children /\ in_order ([] ++ three_children) /\
  Forall (stands_before (fresh_node fourth (seg_of fourth))) three_children /\ List.length ([] ++ three_children) = 3 /\
  match_path 10 any_engine (with_root_children three ([] ++ fresh_node fourth (seg_of fourth) :: removelast three_children)) asked [asked_seg] = NoMatch /\
  raw_answer (match_path 10 any_engine three asked [asked_seg]) = Some (str "/{name}") /\
  raw_answer (match_path 10 any_engine (fst (add_pattern three fourth)) asked [asked_seg]) = Some (str "/{name}").
Proof.
  split; [vm_compute; reflexivity|]. split; [vm_compute; reflexivity|]. split; [reflexivity|].
  split; [apply strict_order; vm_compute; reflexivity|].
  split; [apply strict_before; vm_compute; reflexivity|].
  split; [vm_compute; reflexivity|]. split; [vm_compute; reflexivity|]. split; vm_compute; reflexivity.
Qed.
Lemma three_raced :
  option_map raw_answer (raced 4 [false; true; true; true; true; false; false; false]) = Some None /\
  option_map raw_answer (raced 4 [false; false; true; true; false; false]) = Some None /\
  option_map raw_answer (raced 3 [false; true; true; true; true; false; false; false]) = Some (Some (str "/{name}")) /\
  option_map raw_answer (raced 4 [true; true; true; false; true; false; false; false; false]) = Some (Some (str "/{name}")).
Proof. repeat split; vm_compute; reflexivity. Qed.
Lemma four_raced : let wait := [true; true; true; true] in
  g_pc (reg_run three_children 4 (fresh_node fourth (seg_of fourth)) wait (reg_start three_children)) = AtEnd /\
  g_lookup (reg_run three_children 4 (fresh_node fourth (seg_of fourth)) wait (reg_start three_children)) = NotBegun /\
  option_map raw_answer (raced 4 (wait ++ [false; false; false; false; false])) = Some (Some (str "/{name}")).
Proof. cbv zeta. repeat split; vm_compute; reflexivity. Qed.
