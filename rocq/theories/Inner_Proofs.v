(** * The search misses nothing below an inner double star. *)
From Coq Require Import List NArith ZArith Ascii String Bool Lia Arith Permutation Sorted.
From Verif Require Import GoBase Glob_Model Glob_Spec Glob_Proofs Pattern_Model Pattern_Spec Pattern_Proofs
  Priority_Spec Priority_Proofs Url_Model Url_Spec Url_Proofs Match_Model Search_Proofs Trie_Proofs Grow_Proofs
  Router_Model Routing_Spec Covers_Proofs Routes_Proofs Dispatch_Proofs Routing_Proofs Choice_Spec Complete_Proofs
  Choice_Proofs Inner_Spec.
Import ListNotations.
Local Open Scope string_scope.
Local Open Scope list_scope.
Local Open Scope nat_scope.

Section Inner.
Variable re : engine.
Variable ci : bool.
Variable path : bytes.

Local Notation cov := (covers re ci path).

(** Pieces that cover the beginning of a request. *)
Inductive pcov : list segment -> list useg -> Prop :=
| pc_nil : pcov [] []
| pc_one : forall s l u us m, seg_match re ci path s u = SMt m -> m <> MTUnknown -> m <> MTMulti ->
    pcov l us -> pcov (s :: l) (u :: us)
| pc_multi : forall s l vs us, s_mt s = MTMulti -> pcov l us -> pcov (s :: l) (vs ++ us).

Lemma pcov_cov : forall l us, pcov l us -> forall r ws ms, r <> [] -> cov r ws ms ->
  exists ms', cov (l ++ r) (us ++ ws) ms'.
Proof.
  intros l us H. induction H as [|s l u us m H1 H2 H3 H IH|s l vs us Hs H IH]; intros r ws ms Hr Hc.
  - eauto.
  - destruct (IH _ _ _ Hr Hc) as [ms' X]. exists (m :: ms'). cbn [app]. apply cov_one; assumption.
  - destruct (IH _ _ _ Hr Hc) as [ms' X]. eexists. cbn [app]. rewrite <- app_assoc. apply cov_multi; [assumption| |exact X].
    destruct l; [assumption|discriminate].
Qed.

Lemma cov_split : forall l r us ms, cov (l ++ r) us ms -> r <> [] ->
  exists us0 us1 ms1, us = us0 ++ us1 /\ pcov l us0 /\ cov r us1 ms1.
Proof.
  induction l as [|s l IH]; intros r us ms H Hr.
  - exists [], us, ms. split; [reflexivity|]. split; [constructor|assumption].
  - cbn [app] in H. inversion H as [|? ? u us' m ms' A1 A2 A3 A4|? ? A1 A2|? ? vs us' ms' A1 A2 A3]; subst.
    + destruct (IH _ _ _ A4 Hr) as [us0 [us1 [ms1 [-> [B1 B2]]]]]. exists (u :: us0), us1, ms1.
      split; [reflexivity|]. split; [econstructor; eassumption|assumption].
    + destruct l; [cbn in *; congruence|discriminate].
    + destruct (IH _ _ _ A3 Hr) as [us0 [us1 [ms1 [-> [B1 B2]]]]]. exists (vs ++ us0), us1, ms1.
      split; [rewrite app_assoc; reflexivity|]. split; [apply pc_multi; assumption|assumption].
Qed.

(** Starting earlier one need not end later. *)
Lemma pcov_early : forall l vs a a' w b e, pcov l a -> pcov l b -> vs = a ++ a' -> vs = w ++ b ++ e ->
  exists a0 g, vs = a0 ++ g ++ e /\ pcov l a0.
Proof.
  induction l as [|s l IH]; intros vs a a' w b e Ha Hb E1 E2.
  - inversion Ha; subst. inversion Hb; subst. exists [], w. split; [assumption|constructor].
  - destruct (mtype_eq_dec (s_mt s) MTMulti) as [Hs|Hs].
    + inversion Hb as [|? ? ? ? m A1 A2 A3|? ? run b2 A1 A2]; subst.
      * rewrite multi_matches in A1 by assumption. congruence.
      * exists (w ++ run ++ b2), []. split; [rewrite E2, <- !app_assoc; reflexivity|]. rewrite app_assoc. apply pc_multi; assumption.
    + inversion Ha as [|? ? u a2 m A1 A2 A3 A4|? ? run a2 A1 A2]; subst; [|congruence].
      inversion Hb as [|? ? u' b2 m' B1 B2 B3 B4|? ? run b2 B1 B2]; subst; [|congruence].
      assert (X : exists w', a2 ++ a' = w' ++ b2 ++ e).
      { destruct w as [|x w]; cbn in E2; injection E2 as -> E2; [exists []; assumption|]. exists (w ++ [u']). rewrite E2, <- app_assoc. reflexivity. }
      destruct X as [w' X]. destruct (IH _ _ _ _ _ _ A4 B4 eq_refl X) as [a0 [g [Y1 Y2]]].
      exists (u :: a0), g. split; [cbn; rewrite Y1; reflexivity|]. econstructor; eassumption.
Qed.

Definition alive_at (n : node) (us : list useg) : Prop :=
  forall l p c us0 us1, reach n l p -> In c (n_ch p) -> s_mt (n_seg c) = MTMulti -> n_ch c <> [] ->
  us = us0 ++ us1 -> us1 <> [] -> pcov l us0 ->
  exists lz q ms, In (lz, q) (leaves c) /\ cov (l ++ n_seg c :: lz) us ms.

Definition uncut (n : node) (us : list useg) : Prop :=
  forall l p x us0 u m, reach n l p -> In x (n_ch p) -> us = us0 ++ [u] -> pcov l us0 -> n_pat x = None ->
  seg_match re ci path (n_seg x) u = SMt m -> m <> MTUnknown -> m <> MTMulti ->
  forall y lq q ms, In y (n_ch p) -> In (lq, q) (branch y) -> ~ cov lq [u] ms.

Definition finds (n : node) (us : list useg) (o : outcome) : Prop :=
  match o with
  | Found _ _ => True
  | Fail => forall l q ms, In (l, q) (leaves n) -> ~ cov l us ms
  | Abort => False
  | Panic => True
  end.

Lemma max_ok_step : forall d s l q, max_ok d (s :: l) q -> max_ok (S d) l q.
Proof.
  intros d s l q [H|[A [B C]]]; [left; assumption|]. right. split; [intros D; apply A; right; assumption|].
  split; [|assumption]. rewrite <- B. cbn [List.length]. f_equal. lia.
Qed.

Lemma head_matches : forall s l u us ms, cov (s :: l) (u :: us) ms -> seg_match re ci path s u <> SMt MTUnknown.
Proof.
  intros s l u us ms Hc. inversion Hc as [|? ? ? ? m ms' A1 A2 A3 A4|? ? A1 A2|? ? vs us0 ms' A1 A2 A3]; subst; try congruence.
  - rewrite multi_matches by assumption. discriminate.
  - rewrite multi_matches by assumption. discriminate.
Qed.

Lemma too_long : forall d c us, (forall l q, In (l, q) (branch c) -> (max_at q d <= n_max c)%N) ->
  (forall l q, In (l, q) (branch c) -> max_ok d l q) -> List.length us <= 19 ->
  can_match_len c (N.of_nat (List.length us)) = false -> forall l q ms, In (l, q) (branch c) -> ~ cov l us ms.
Proof.
  intros d c us Hmax Hgood Hlen H l q ms Hl Hc. destruct (branch_head _ _ _ Hl) as [l' ->].
  unfold can_match_len in H. apply N.leb_gt in H. pose proof (Hmax _ _ Hl) as A.
  destruct (Hgood _ _ Hl) as [G|[G1 [G2 G3]]]; unfold max_at in A.
  - rewrite G in A. unfold greedy_max in A. cbn [List.length] in *. lia.
  - pose proof (covers_len _ _ _ _ _ _ Hc G1) as E. cbn [List.length] in *.
    destruct (is_greedy q); [unfold greedy_max in A; lia|].
    unfold sub8, u8 in A. rewrite (N.mod_small (N.of_nat d)) in A by lia.
    rewrite (N.mod_small (N.of_nat d)) in A by lia.
    replace (p_max q + 256 - N.of_nat d)%N with (N.of_nat (S (List.length l')) + 1 * 256)%N in A by lia.
    rewrite N.mod_add in A by discriminate. rewrite N.mod_small in A by lia. lia.
Qed.

Lemma some_matches_no : forall l u, some_matches re ci path l u = HNo ->
  forall c, In c l -> seg_match re ci path (n_seg c) u = SMt MTUnknown.
Proof.
  induction l as [|x l IH]; intros u H c Hc; [destruct Hc|]. cbn in H.
  destruct (seg_match re ci path (n_seg x) u) as [m|] eqn:E; [|discriminate].
  destruct Hc as [->|Hc]; [destruct m; try discriminate; assumption|]. apply IH; [|assumption]. destruct m; try discriminate; assumption.
Qed.

(** The loop below a double star. *)
Lemma sfx_finds : forall f c us, Forall (fun g => s_mt (n_seg g) <> MTMulti) (n_ch c) ->
  (forall run vs, us = run ++ vs -> vs <> [] ->
     (forall a b, run = a ++ b -> b <> [] -> forall l q ms, In (l, q) (leaves c) -> ~ cov l (b ++ vs) ms) ->
     finds c vs (f vs)) ->
  forall vs run, us = run ++ vs ->
  (forall a b, run = a ++ b -> b <> [] -> forall l q ms, In (l, q) (leaves c) -> ~ cov l (b ++ vs) ms) ->
  (exists a b l q ms, vs = a ++ b /\ In (l, q) (leaves c) /\ cov l b ms) ->
  sfx re ci path f (n_ch c) vs = Panic \/ exists p ms, sfx re ci path f (n_ch c) vs = Found p ms.
Proof.
  intros f c us Hnm Hf. induction vs as [|v vs IH]; intros run Eu Hno [a [b [l [q [ms [E1 [E2 E3]]]]]]].
  - symmetry in E1. apply app_eq_nil in E1. destruct E1 as [-> ->]. apply covers_nil in E3. subst l.
    exfalso. eapply leaf_path_not_nil; [exact E2|reflexivity].
  - cbn [sfx]. fold (sfx re ci path f (n_ch c)).
    assert (Hgo : (forall l q ms, In (l, q) (leaves c) -> ~ cov l (v :: vs) ms) ->
      cons_mt MTMulti (sfx re ci path f (n_ch c) vs) = Panic \/
      exists p ms, cons_mt MTMulti (sfx re ci path f (n_ch c) vs) = Found p ms).
    { intros Hv. destruct (IH (run ++ [v])) as [P|[p [ms' P]]].
      - rewrite <- app_assoc. assumption.
      - intros a' b' E Hb. destruct (exists_last Hb) as [b2 [x Ex]]. subst b'. rewrite app_assoc in E. apply app_inj_tail in E.
        destruct E as [-> <-]. rewrite <- app_assoc. cbn [app]. destruct b2 as [|y b2]; [assumption|].
        apply (Hno a' (y :: b2)); [reflexivity|discriminate].
      - destruct a as [|y a].
        + cbn in E1. subst b. exfalso. eapply Hv; eassumption.
        + cbn in E1. injection E1 as -> ->. exists a, b, l, q, ms. auto.
      - left. rewrite P. reflexivity.
      - right. rewrite P. cbn. eauto. }
    destruct (some_matches re ci path (n_ch c) v) eqn:Es; [| |left; reflexivity].
    + apply Hgo. intros l2 q2 ms2 A B. apply in_leaves in A. destruct A as [g [G1 G2]].
      destruct (branch_head _ _ _ G2) as [l3 ->]. apply (head_matches _ _ _ _ _ B). eapply some_matches_no; eassumption.
    + pose proof (Hf run (v :: vs) Eu ltac:(discriminate) Hno) as F. destruct (f (v :: vs)) as [p ms'| | |] eqn:Ef; cbn [finds] in F.
      * right. eauto.
      * apply Hgo. assumption.
      * contradiction.
      * left. reflexivity.
Qed.

Lemma tree_ok_sub : forall n c, tree_ok n -> In c (n_ch n) -> tree_ok c.
Proof. intros n c H Hc. apply tree_ok_eq in H. destruct H as [_ [_ H]]. rewrite Forall_forall in H. auto. Qed.

Lemma dfs_finds : forall n d us, tree_ok n -> deep all_made n d -> maxes n d -> us <> [] -> List.length us <= 19 ->
  (forall l q, In (l, q) (leaves n) -> max_ok d l q) -> alive_at n us -> uncut n us ->
  finds n us (dfs re ci path n d us).
Proof.
  induction n as [mx pr sg pt ch IH] using node_ind'. intros d us Ht Hmk Hmx Hne Hlen Hg Hal Hcu.
  set (n0 := Node mx pr sg pt ch) in *.
  rewrite dfs_eq. destruct us as [|u us']; [congruence|].
  destruct (Nat.leb 19 d); [exact I|].
  assert (Hfin : forall o, (match o with Found _ _ => True | Fail => forall c l q ms, In c ch -> In (l, q) (branch c) -> ~ cov l (u :: us') ms
     | Abort => False | Panic => True end) -> finds n0 (u :: us') o).
  { intros [| | |] H; auto. cbn [finds]. intros l q ms Hl. apply in_leaves in Hl. destruct Hl as [c [Hc Hl]]. eapply H; eassumption. }
  apply Hfin. clear Hfin.
  change (n_ch n0) with ch.
  assert (Hsub : forall c, In c ch -> In c (n_ch n0)) by auto.
  apply maxes_eq in Hmx. change (n_ch n0) with ch in Hmx.
  apply deep_eq in Hmk. destruct Hmk as [Hmk1 Hmk2]. change (n_ch n0) with ch in Hmk1, Hmk2.
  assert (Hall : forall c, In c ch -> In c (n_ch n0)) by auto. clearbody n0.
  unfold all_made in Hmk1. rewrite Forall_forall in IH, Hmx, Hmk1, Hmk2.
  cut (forall done rest, ch = done ++ rest ->
     (forall c l q ms, In c done -> In (l, q) (branch c) -> ~ cov l (u :: us') ms) ->
     match kids re ci path (fun c vs => dfs re ci path c (S d) vs) u us' rest with
     | Found _ _ => True
     | Fail => forall c l q ms, In c ch -> In (l, q) (branch c) -> ~ cov l (u :: us') ms
     | Abort => False | Panic => True end).
  { intros H. apply (H [] ch); [reflexivity|]. intros c l q ms []. }
  intros done rest. revert done. induction rest as [|c rest IHr]; intros done Ech Hdone.
  { cbn [kids]. rewrite app_nil_r in Ech. subst done. assumption. }
  assert (Hc : In c ch) by (rewrite Ech; apply in_or_app; right; left; reflexivity).
  destruct (Hmx _ Hc) as [Mc1 Mc2].
  assert (Hgc : forall l q, In (l, q) (branch c) -> max_ok d l q).
  { intros l q Hl. apply Hg. apply in_leaves. exists c. auto. }
  assert (Hgo : (forall l q ms, In (l, q) (branch c) -> ~ cov l (u :: us') ms) ->
     match kids re ci path (fun c vs => dfs re ci path c (S d) vs) u us' rest with
     | Found _ _ => True
     | Fail => forall c l q ms, In c ch -> In (l, q) (branch c) -> ~ cov l (u :: us') ms
     | Abort => False | Panic => True end).
  { intros Hno. apply (IHr (done ++ [c])); [rewrite <- app_assoc; assumption|].
    intros c' l q ms Hc' Hl. apply in_app_or in Hc'. destruct Hc' as [Hc'|[<-|[]]]; [eapply Hdone; eassumption|eapply Hno; eassumption]. }
  assert (Hg2 : forall l q, In (l, q) (leaves c) -> max_ok (S d) l q).
  { intros l q Hl. apply (max_ok_step d (n_seg c)). apply Hgc. apply in_branch. right. exists l. auto. }
  cbn [kids]. fold (kids re ci path (fun c vs => dfs re ci path c (S d) vs) u us').
  destruct (can_match_len c (N.of_nat (S (List.length us')))) eqn:El; cbn [negb].
  2:{ apply Hgo. eapply (too_long d c (u :: us')); eauto. }
  destruct (seg_match re ci path (n_seg c) u) as [m|] eqn:Em; [|exact I].
  destruct (mtype_eq_dec m MTUnknown) as [->|Hm1].
  { apply Hgo. intros l q ms Hl Hcv. destruct (branch_head _ _ _ Hl) as [l' ->]. apply (head_matches _ _ _ _ _ Hcv Em). }
  destruct (mtype_eq_dec m MTMulti) as [->|Hm2].
  - pose proof (seg_match_multi re ci path (n_seg c) u Em) as Hmu.
    assert (Hnc : forall g gs, n_ch c = g :: gs ->
      match sfx re ci path (fun vs => dfs re ci path c (S d) vs) (n_ch c) (u :: us') with
      | Found _ _ => True
      | Fail => forall c l q ms, In c ch -> In (l, q) (branch c) -> ~ cov l (u :: us') ms
      | Abort => False | Panic => True end).
    { intros g gs Egs.
      assert (Hne' : n_ch c <> []) by (rewrite Egs; discriminate).
      pose proof (tree_ok_sub _ _ Ht (Hall _ Hc)) as Htc. pose proof Htc as Htc'. apply tree_ok_eq in Htc'. destruct Htc' as [_ [Hnm _]].
      specialize (Hnm Hmu).
      destruct (sfx_finds (fun vs => dfs re ci path c (S d) vs) c (u :: us') Hnm) with (vs := u :: us') (run := @nil useg) as [P|[p [ms P]]].
      - intros run vs Eu Hvs Hbefore. apply IH; auto.
        + assert (E : List.length (u :: us') = List.length (run ++ vs)) by (rewrite Eu; reflexivity).
          rewrite app_length in E. lia.
        + (* alive *)
          intros l p c2 us0 us1 Hr Hc2 Hmu2 Hch2 E1 Hne1 Hp.
          destruct (Hal (n_seg c :: l) p c2 (run ++ us0) us1) as [lz [q [ms [Z1 Z2]]]]; auto.
          { constructor; auto. }
          { rewrite Eu, E1, app_assoc. reflexivity. }
          { apply pc_multi; assumption. }
          exists lz, q. cbn [app] in Z2.
          assert (Lz : In (l ++ n_seg c2 :: lz, q) (leaves c)).
          { eapply reach_leaf; [exact Hr|exact Hc2|]. apply in_branch. right. exists lz. auto. }
          assert (Hz : exists w b ms', run ++ vs = w ++ b /\ cov (l ++ n_seg c2 :: lz) b ms').
          { rewrite <- Eu. inversion Z2 as [|? ? ? ? m' ms' A1 A2 A3 A4|? ? A1 A2|? ? w b ms' A1 A2 A3]; subst.
            - rewrite multi_matches in A1 by assumption. congruence.
            - destruct l; discriminate.
            - eauto. }
          destruct Hz as [w [b [ms' [W1 W2]]]].
          destruct (Nat.le_gt_cases (List.length run) (List.length w)) as [Hle|Hgt].
          * (* the reading starts inside [vs] *)
            assert (Ew : exists w', vs = w' ++ b).
            { exists (skipn (List.length run) w). apply (f_equal (skipn (List.length run))) in W1.
              rewrite !skipn_app, skipn_all, Nat.sub_diag in W1. cbn in W1. rewrite W1.
              replace (List.length run - List.length w) with 0 by lia. reflexivity. }
            destruct Ew as [w' Ew].
            destruct (cov_split _ _ _ _ W2 ltac:(discriminate)) as [b0 [b1 [ms1 [-> [B1 B2]]]]].
            destruct (pcov_early l vs us0 us1 w' b0 b1 Hp B1 E1 Ew) as [a0 [gg [G1 G2]]].
            inversion B2 as [|? ? ? ? m' ms2 A1 A2 A3 A4|? ? A1 A2|? ? vs2 us2 ms2 A1 A2 A3]; subst.
            -- rewrite multi_matches in A1 by assumption. congruence.
            -- exfalso. eapply leaf_path_not_nil; [exact Z1|reflexivity].
            -- destruct (pcov_cov _ _ G2 (n_seg c2 :: lz) (gg ++ vs2 ++ us2) (map (fun _ => MTMulti) (gg ++ vs2) ++ ms2)) as [ms3 M3].
               ++ discriminate.
               ++ rewrite app_assoc. apply cov_multi; assumption.
               ++ exists ms3. split; [assumption|]. rewrite G1. assumption.
          * (* it starts before: the search would have ended there *)
            exfalso. assert (Er : exists a' b', run = a' ++ b' /\ b' <> [] /\ b = b' ++ vs).
            { exists w, (skipn (List.length w) run). 
              pose proof (f_equal (firstn (List.length w)) W1) as F1. rewrite !firstn_app in F1.
              replace (List.length w - List.length run) with 0 in F1 by lia. rewrite Nat.sub_diag in F1. cbn in F1.
              rewrite app_nil_r, firstn_all, app_nil_r in F1.
              pose proof (f_equal (skipn (List.length w)) W1) as F2. rewrite !skipn_app in F2.
              replace (List.length w - List.length run) with 0 in F2 by lia. rewrite Nat.sub_diag in F2. cbn in F2.
              rewrite skipn_all in F2. cbn in F2.
              split; [rewrite <- F1 at 1; symmetry; apply firstn_skipn|]. split; [|symmetry; assumption].
              intros E. apply (f_equal (@List.length _)) in E. rewrite skipn_length in E. cbn in E. lia. }
            destruct Er as [a' [b' [R1 [R2 R3]]]]. eapply (Hbefore a' b' R1 R2); [exact Lz|]. rewrite <- R3. exact W2.
        + (* not cut *)
          intros l p x us0 v m Hr Hx E1 Hp Hpx X1 X2 X3. apply (Hcu (n_seg c :: l) p x (run ++ us0) v m); auto.
          * constructor; auto.
          * rewrite Eu, E1, app_assoc. reflexivity.
          * apply pc_multi; assumption.
      - reflexivity.
      - intros a b E Hb. symmetry in E. apply app_eq_nil in E. destruct E as [-> ->]. congruence.
      - destruct (Hal [] n0 c [] (u :: us')) as [lz [q [ms [Z1 Z2]]]]; auto; try discriminate; try constructor.
        cbn [app] in Z2. inversion Z2 as [|? ? ? ? m' ms' A1 A2 A3 A4|? ? A1 A2|? ? w b ms' A1 A2 A3]; subst.
        + congruence.
        + exfalso. eapply leaf_path_not_nil; [exact Z1|reflexivity].
        + exists w, b, lz, q, ms'. auto.
      - rewrite P. exact I.
      - rewrite P. exact I. }
    destruct (n_ch c) as [|g gs] eqn:Egs.
    + destruct (n_pat c) as [p|] eqn:Ep; [exact I|].
      exfalso. destruct (Hmk1 _ Hc) as [l [q [B _]]]. apply in_branch in B. destruct B as [[_ B]|[l' [_ B]]]; [congruence|].
      apply in_leaves in B. destruct B as [x [B _]]. rewrite Egs in B. destruct B.
    + apply (Hnc g gs eq_refl).
  - assert (Hsc : forall A (x y z : A), match m with MTUnknown => x | MTMulti => y | _ => z end = z) by (intros; destruct m; congruence).
    rewrite Hsc.
    assert (Hinv : forall l2 ms2, cov (n_seg c :: l2) (u :: us') ms2 -> exists ms3, cov l2 us' ms3).
    { intros l2 ms2 Hc2. inversion Hc2 as [|? ? ? ? m' ms' A1 A2 A3 A4|? ? A1 A2|? ? vs us0 ms' A1 A2 A3]; subst.
      - eauto.
      - rewrite multi_matches in Em by assumption. congruence.
      - rewrite multi_matches in Em by assumption. congruence. }
    destruct us' as [|u2 us2].
    + destruct (n_pat c) as [p|] eqn:Ep; [exact I|].
      intros y lq q ms Hy Hl. apply (Hcu [] n0 c [] u m) with (y := y) (q := q); auto; constructor.
    + assert (Hs : finds c (u2 :: us2) (dfs re ci path c (S d) (u2 :: us2))).
      { apply IH; auto.
        - eapply tree_ok_sub; eauto.
        - discriminate.
        - cbn [List.length] in *. lia.
        - intros l p c2 us0 us1 Hr Hc2 Hmu2 Hch2 E1 Hne1 Hp.
          destruct (Hal (n_seg c :: l) p c2 (u :: us0) us1) as [lz [q [ms [Z1 Z2]]]]; auto.
          { constructor; auto. }
          { rewrite E1. reflexivity. }
          { econstructor; eassumption. }
          cbn [app] in Z2. destruct (Hinv _ _ Z2) as [ms3 Z3]. exists lz, q, ms3. auto.
        - intros l p x us0 v m' Hr Hx E1 Hp Hpx X1 X2 X3. apply (Hcu (n_seg c :: l) p x (u :: us0) v m'); auto.
          + constructor; auto.
          + rewrite E1. reflexivity.
          + econstructor; eassumption. }
      destruct (dfs re ci path c (S d) (u2 :: us2)) as [p ms| | |] eqn:Ed; cbn [cons_mt]; cbn [finds] in Hs; auto.
      apply Hgo. intros l q ms Hl Hcv. apply in_branch in Hl. destruct Hl as [[-> _]|[l' [-> Hl]]].
      * destruct (Hinv _ _ Hcv) as [ms3 H3]. apply covers_nil_l in H3. discriminate.
      * destruct (Hinv _ _ Hcv) as [ms3 H3]. eapply Hs; eassumption.
Qed.

End Inner.
