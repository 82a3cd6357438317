(** * Proofs about routes that are registered while requests are served. *)
From Coq Require Import List NArith ZArith Ascii String Bool Lia Arith Permutation Sorted.
From Verif Require Import GoBase Sort_Model Glob_Model Pattern_Model Url_Model Match_Model Sort_Proofs Filled_Spec Order_Proofs
  RegRace_Model RegRace_Spec.
Import ListNotations.
Local Open Scope list_scope.
Local Open Scope nat_scope.

(** ** The order of the children *)

Lemma stands_trans a b c : stands_before a b -> stands_before b c -> stands_before a c.
Proof.
  intros [H|[E H]] [K|[F K]]; [left; lia|left; lia|left; lia|right]. split; [congruence|]. eapply before_trans; eassumption.
Qed.
Lemma stands_irrefl a : ~ stands_before a a.
Proof. intros [H|[_ H]]; [lia|]. eapply before_irrefl. eassumption. Qed.

(** [child_less] is [stands_before] or the same key. *)
Definition same_key (a b : node) : Prop := n_prio a = n_prio b /\ s_val (n_seg a) = s_val (n_seg b).
Lemma child_less_iff a b : child_less a b = true <-> stands_before a b \/ same_key a b.
Proof.
  unfold child_less, stands_before, same_key. pose proof (bcompare_before (s_val (n_seg a)) (s_val (n_seg b))) as B.
  destruct (N.eqb_spec (n_prio a) (n_prio b)) as [E|E].
  - destruct (bcompare (s_val (n_seg a)) (s_val (n_seg b))).
    + split; auto.
    + split; auto.
    + split; [discriminate|]. intros [[H|[_ H]]|[_ H]]; [lia| |].
      * exfalso. eapply before_irrefl. eapply before_trans; eassumption.
      * rewrite H in B. exfalso. eapply before_irrefl; eassumption.
  - rewrite N.ltb_lt. split; [auto|]. intros [[H|[H _]]|[H _]]; [assumption|contradiction|contradiction].
Qed.
Lemma child_less_not a b : child_less a b = false -> stands_before b a.
Proof.
  unfold child_less, stands_before. pose proof (bcompare_before (s_val (n_seg a)) (s_val (n_seg b))) as B.
  destruct (N.eqb_spec (n_prio a) (n_prio b)) as [E|E].
  - destruct (bcompare (s_val (n_seg a)) (s_val (n_seg b))); try discriminate. auto.
  - rewrite N.ltb_ge. intros H. left. lia.
Qed.
Lemma child_less_trans a b c : child_less a b = true -> child_less b c = true -> child_less a c = true.
Proof.
  rewrite !child_less_iff. unfold stands_before, same_key.
  intros [[H|[E H]]|[E H]] [[K|[F K]]|[F K]]; try (left; left; lia).
  - left. right. split; [congruence|]. eapply before_trans; eassumption.
  - left. right. split; [congruence|]. rewrite <- K. assumption.
  - left. right. split; [congruence|]. rewrite H. assumption.
  - right. split; congruence.
Qed.

(** Two sorted lists with the same elements are the same, when no two elements are equally low. *)
Lemma sorted_unique {A} (le : A -> A -> Prop) : forall l l', StronglySorted le l -> StronglySorted le l' -> Permutation l l' ->
  (forall a b, In a l -> In b l -> le a b -> le b a -> a = b) -> l = l'.
Proof.
  induction l as [|a l IH]; intros l' S S' P D.
  - apply Permutation_nil in P. congruence.
  - destruct l' as [|b l']; [symmetry in P; apply Permutation_nil in P; discriminate|].
    inversion S as [|? ? Sl Fa]; subst. inversion S' as [|? ? Sl' Fb]; subst.
    assert (a = b) as ->.
    { assert (Ib : In b (a :: l)) by (eapply Permutation_in; [symmetry; exact P|left; reflexivity]).
      assert (Ia : In a (b :: l')) by (eapply Permutation_in; [exact P|left; reflexivity]).
      destruct Ib as [|Ib]; [assumption|]. destruct Ia as [|Ia]; [congruence|].
      apply D; [left; reflexivity|right; assumption| |].
      - rewrite Forall_forall in Fa. auto.
      - rewrite Forall_forall in Fb. auto. }
    f_equal. apply IH; [assumption|assumption|eapply Permutation_cons_inv; eassumption|].
    intros x y X Y. apply D; right; assumption.
Qed.

(** ** Children that the router reads the same way *)

Definition same_find (a b : fres) : Prop :=
  match a, b with
  | FNone, FNone | FPanic, FPanic => True
  | FSome _ n m, FSome _ n' m' => n = n' /\ m = m'
  | _, _ => False
  end.
Lemma same_find_refl a : same_find a a.
Proof. destruct a; cbn; auto. Qed.

Section Same.
Variable re : engine.
Variable ci : bool.
Variable path : bytes.
Variables root root' : node.
Variable u0 : useg.
Hypothesis short : List.length (n_ch root) < N.to_nat 65536.
Hypothesis short' : List.length (n_ch root') < N.to_nat 65536.
Hypothesis agree : forall u c c', same_find (first_match re ci path (n_ch root) c 1 u) (first_match re ci path (n_ch root') c' 1 u).

Inductive same_state : mstate -> mstate -> Prop :=
| ss_first : forall ns mts segs c i ns', nth_error ns 0 = Some (0, i)%N -> nth_error ns' 0 = Some (0, c)%N -> 
    tl ns = tl ns' ->
    same_state (MS 0 0 root [] ns mts segs) (MS 0 0 root' [] ns' mts segs)
| ss_last : forall ns ns' mts segs, same_state (MS 1 0 root [] ns mts segs) (MS 1 0 root' [] ns' mts segs)
| ss_below : forall i cur a c c' t mts segs,
    same_state (MS i (S (List.length a)) cur (a ++ [root]) ((c, 1)%N :: t) mts segs)
               (MS i (S (List.length a)) cur (a ++ [root']) ((c', 1)%N :: t) mts segs).

Definition same_end (a b : mstate + mres) : Prop :=
  match a, b with
  | inl s, inl s' => same_state s s'
  | inr r, inr r' => r = r'
  | _, _ => False
  end.

Lemma failed_same i a cur c c' t mts segs :
  same_end (round_failed (MS i (S (List.length a)) cur (a ++ [root]) ((c, 1)%N :: t) mts segs))
           (round_failed (MS i (S (List.length a)) cur (a ++ [root']) ((c', 1)%N :: t) mts segs)).
Proof.
  unfold round_failed. cbn [ms_anc ms_mts ms_nstack ms_depth ms_idx ms_segs update].
  destruct a as [|x a]; cbn [List.app List.length nth_error].
  - destruct (update mts (N.to_nat i) MTUnknown); [|reflexivity]. destruct (update t 0 (0, 0)%N); [|reflexivity].
    cbn. apply ss_last.
  - destruct (update mts (N.to_nat i) MTUnknown); [|reflexivity]. destruct (update t (S (List.length a)) (0, 0)%N); [|reflexivity].
    cbn [nth_error]. destruct (nth_error l0 (List.length a)) as [[q i']|]; [|reflexivity].
    cbn [same_end]. apply ss_below.
Qed.
Lemma matched_same i a cur c c' t mts segs :
  same_end (round_matched 1 (MS i (S (List.length a)) cur (a ++ [root]) ((c, 1)%N :: t) mts segs))
           (round_matched 1 (MS i (S (List.length a)) cur (a ++ [root']) ((c', 1)%N :: t) mts segs)).
Proof.
  unfold round_matched. cbn [ms_anc ms_mts ms_nstack ms_depth ms_idx ms_segs ms_cur].
  destruct ((i =? sub8 1 1)%N && is_leaf cur); [reflexivity|]. cbn [same_end]. apply ss_below.
Qed.

Lemma round_same : forall s s', same_state s s' -> same_end (round re ci path 1 s) (round re ci path 1 s').
Proof.
  intros s s' H. destruct H as [ns mts segs c i ns' N1 N2 T|ns ns' mts segs|i cur a c c' t mts segs].
  - unfold round. cbn [ms_anc ms_mts ms_nstack ms_depth ms_idx ms_segs ms_cur].
    change (negb (0 <? 1)%N) with false. cbv iota. change (N.to_nat 0) with 0. rewrite N1, N2.
    destruct (nth_error segs 0) as [u|]; [|reflexivity]. destruct (nth_error mts 0) as [mt0|]; [|reflexivity].
    set (segs1 := if mt_eqb mt0 MTUnknown then segs else set_mt segs 0 mt0).
    assert (L : forall r, List.length (n_ch r) < N.to_nat 65536 ->
      skipn (N.to_nat 0) (firstn (N.to_nat (u16 (N.of_nat (List.length (n_ch r))))) (n_ch r)) = n_ch r).
    { intros r Hr. unfold u16. rewrite N.mod_small by lia. rewrite Nat2N.id. rewrite firstn_all. reflexivity. }
    rewrite !L by assumption. change (sub8 1 0) with 1%N.
    pose proof (agree u 0 0) as A.
    destruct (first_match re ci path (n_ch root) 0 1 u) as [| |k ch m]; destruct (first_match re ci path (n_ch root') 0 1 u) as [| |k' ch' m'];
      cbn [same_find] in A; try contradiction.
    + reflexivity.
    + reflexivity.
    + destruct A as [-> ->]. change (sub8 1 1) with 0%N. change (0 =? 0)%N with true. cbv iota.
      assert (P : same_end (if is_leaf ch' then inr (MRet (n_pat ch') (set_mt segs1 0 m'))
           else round_failed (MS 0 0 root [] ns mts (set_mt segs1 0 m')))
          (if is_leaf ch' then inr (MRet (n_pat ch') (set_mt segs1 0 m'))
           else round_failed (MS 0 0 root' [] ns' mts (set_mt segs1 0 m')))).
      { destruct (is_leaf ch'); [reflexivity|]. reflexivity. }
      destruct m'; try exact P.
      assert (Q : same_end
        match greedy re ci path (N.to_nat (1 - 0)) (n_ch ch') 0 segs1 with
        | GrNone segs' => inr (MRet None segs')
        | GrPanic => inr MPanic
        | GrAt j segs' =>
            match update ns 0 (k, u8 (j + 1)), update mts (N.to_nat j) MTMulti with
            | Some ns'0, Some mts' => round_matched 1 (MS (sub8 j 1) 1 ch' [root] ns'0 mts' segs')
            | _, _ => inr MPanic
            end
        end
        match greedy re ci path (N.to_nat (1 - 0)) (n_ch ch') 0 segs1 with
        | GrNone segs' => inr (MRet None segs')
        | GrPanic => inr MPanic
        | GrAt j segs' =>
            match update ns' 0 (k', u8 (j + 1)), update mts (N.to_nat j) MTMulti with
            | Some ns'0, Some mts' => round_matched 1 (MS (sub8 j 1) 1 ch' [root'] ns'0 mts' segs')
            | _, _ => inr MPanic
            end
        end).
      { change (N.to_nat (1 - 0)) with 1. cbn [greedy]. destruct (nth_error segs1 (N.to_nat 0)) as [w|]; [|reflexivity].
        destruct (some_matches re ci path (n_ch ch') w); [reflexivity| |reflexivity].
        destruct ns as [|x ns]; [discriminate|]. destruct ns' as [|x' ns']; [discriminate|]. cbn [update].
        change (N.to_nat 0) with 0. cbn [tl] in T. subst ns'.
        destruct (update mts 0 MTMulti) as [mts'|]; [|reflexivity]. change (u8 (0 + 1)) with 1%N. change (sub8 0 1) with 255%N.
        exact (matched_same 255 [] ch' k k' ns mts' (set_mt segs1 0 MTMulti)). }
      destruct (n_ch ch') as [|w ws]; [destruct (is_leaf ch')|]; [reflexivity|exact Q|exact Q].
  - unfold round. cbn [ms_idx ms_segs]. reflexivity.
  - unfold round. cbn [ms_anc ms_mts ms_nstack ms_depth ms_idx ms_segs ms_cur nth_error].
    destruct (negb (i <? 1)%N); [reflexivity|].
    destruct (nth_error segs (N.to_nat i)) as [u|]; [|reflexivity]. destruct (nth_error mts (N.to_nat i)) as [mt0|]; [|reflexivity].
    destruct (nth_error t (List.length a)) as [[c0 q]|]; [|reflexivity].
    set (segs1 := if mt_eqb mt0 MTUnknown then segs else set_mt segs i mt0).
    destruct (first_match re ci path _ c0 (sub8 1 i) u) as [| |k ch m].
    + apply failed_same.
    + reflexivity.
    + assert (P : same_end
        (if (i =? sub8 1 1)%N
         then if is_leaf ch then inr (MRet (n_pat ch) (set_mt segs1 i m))
              else round_failed (MS i (S (List.length a)) cur (a ++ [root]) ((c, 1%N) :: t) mts (set_mt segs1 i m))
         else match update ((c, 1%N) :: t) (S (List.length a)) (u16 (k + 1), i) with
              | Some ns' => round_matched 1 (MS i (S (S (List.length a))) ch (cur :: a ++ [root]) ns' mts (set_mt segs1 i m))
              | None => inr MPanic
              end)
        (if (i =? sub8 1 1)%N
         then if is_leaf ch then inr (MRet (n_pat ch) (set_mt segs1 i m))
              else round_failed (MS i (S (List.length a)) cur (a ++ [root']) ((c', 1%N) :: t) mts (set_mt segs1 i m))
         else match update ((c', 1%N) :: t) (S (List.length a)) (u16 (k + 1), i) with
              | Some ns' => round_matched 1 (MS i (S (S (List.length a))) ch (cur :: a ++ [root']) ns' mts (set_mt segs1 i m))
              | None => inr MPanic
              end)).
      { destruct (i =? sub8 1 1)%N.
        - destruct (is_leaf ch); [reflexivity|]. apply failed_same.
        - cbn [update]. destruct (update t (List.length a) (u16 (k + 1), i)) as [t'|]; [|reflexivity].
          exact (matched_same i (cur :: a) ch c c' t' mts (set_mt segs1 i m)). }
      destruct m; try exact P. clear P.
      assert (Q : same_end
        match greedy re ci path (N.to_nat (1 - i)) (n_ch ch) i segs1 with
        | GrNone segs' => inr (MRet None segs')
        | GrPanic => inr MPanic
        | GrAt j segs' =>
            match update ((c, 1%N) :: t) (S (List.length a)) (k, u8 (j + 1)), update mts (N.to_nat j) MTMulti with
            | Some ns'0, Some mts' => round_matched 1 (MS (sub8 j 1) (S (S (List.length a))) ch (cur :: a ++ [root]) ns'0 mts' segs')
            | _, _ => inr MPanic
            end
        end
        match greedy re ci path (N.to_nat (1 - i)) (n_ch ch) i segs1 with
        | GrNone segs' => inr (MRet None segs')
        | GrPanic => inr MPanic
        | GrAt j segs' =>
            match update ((c', 1%N) :: t) (S (List.length a)) (k, u8 (j + 1)), update mts (N.to_nat j) MTMulti with
            | Some ns'0, Some mts' => round_matched 1 (MS (sub8 j 1) (S (S (List.length a))) ch (cur :: a ++ [root']) ns'0 mts' segs')
            | _, _ => inr MPanic
            end
        end).
      { destruct (greedy re ci path (N.to_nat (1 - i)) (n_ch ch) i segs1) as [s1| |j s1]; [reflexivity|reflexivity|].
        cbn [update]. destruct (update t (List.length a) (k, u8 (j + 1))) as [t'|]; [|reflexivity].
        destruct (update mts (N.to_nat j) MTMulti) as [mts'|]; [|reflexivity].
        exact (matched_same (sub8 j 1) (cur :: a) ch c c' t' mts' s1). }
      destruct (n_ch ch) as [|w ws]; [destruct (is_leaf ch)|]; [reflexivity|exact Q|exact Q].
Qed.

Lemma loop_same : forall fuel s s', same_state s s' -> match_loop re ci path 1 fuel s = match_loop re ci path 1 fuel s'.
Proof.
  induction fuel as [|f IH]; intros s s' H; [reflexivity|]. cbn [match_loop].
  pose proof (round_same s s' H) as R. destruct (round re ci path 1 s), (round re ci path 1 s'); cbn [same_end] in R; try contradiction.
  - apply IH. assumption.
  - assumption.
Qed.
End Same.

(** Requests with one segment are answered alike when the search among the children of the root finds the same child. *)
Lemma answer_same fuel re m path u l l' : List.length l < N.to_nat 65536 -> List.length l' < N.to_nat 65536 ->
  (forall v c c', same_find (first_match re (m_ci m) path l c 1 v) (first_match re (m_ci m) path l' c' 1 v)) ->
  lookup_answer fuel re m path u l = lookup_answer fuel re m path u l'.
Proof.
  intros S S' A. unfold lookup_answer, match_path. cbn [m_ci m_root m_trie List.length].
  destruct (max_path_segments <? 1)%nat; [reflexivity|]. change (u8 (N.of_nat 1)) with 1%N.
  rewrite (loop_same re (m_ci m) path (set_children (m_trie m) l) (set_children (m_trie m) l')
    S S' A fuel _ (MS 0 0 (set_children (m_trie m) l') [] (repeat (0, 0)%N max_path_segments) (repeat MTUnknown max_path_segments) [u])).
  - reflexivity.
  - eapply ss_first; [reflexivity|reflexivity|reflexivity].
Qed.
