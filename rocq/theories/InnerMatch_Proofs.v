(** * Routes with an inner double star are found. *)
From Coq Require Import List NArith ZArith Ascii String Bool Lia Arith Permutation Sorted.
From Verif Require Import GoBase Glob_Model Glob_Spec Glob_Proofs Pattern_Model Pattern_Spec Pattern_Proofs
  Priority_Spec Priority_Proofs Url_Model Url_Spec Url_Proofs Match_Model Search_Proofs Trie_Proofs Grow_Proofs
  Router_Model Routing_Spec Covers_Proofs Routes_Proofs Dispatch_Proofs Routing_Proofs Choice_Spec Complete_Proofs
  Choice_Proofs Inner_Spec Inner_Proofs.
Import ListNotations.
Local Open Scope string_scope.
Local Open Scope list_scope.
Local Open Scope nat_scope.

(** ** Nodes and pieces *)

Lemma stands_any : forall ci a k, stands ci a k -> (s_mt a = MTMulti <-> k = Any).
Proof.
  intros ci a k H. rewrite (stands_mt _ _ _ H). split; [apply mt_of_any|intros ->; reflexivity].
Qed.

Lemma stands_fits : forall re ci path a k u t, stands ci a k -> rec1 path u t -> k <> Any ->
  match seg_match re ci path a u with
  | SMt m => (m = MTUnknown /\ ~ fits ci (re_match re) k t) \/ (m = mt_of k /\ fits ci (re_match re) k t)
  | SPanic => True
  end.
Proof.
  intros re ci path a k u t [s [k0 [S1 [S2 S3]]]] Hu Hk.
  assert (Hmt : mt_of k0 = mt_of k) by (destruct S3 as [->|S3]; [reflexivity|eapply alike_mt; eassumption]).
  assert (Hk0 : k0 <> Any) by (intros ->; apply Hk; apply mt_of_any; rewrite <- Hmt; reflexivity).
  pose proof (seg_match_fits re ci path a s k0 u t S1 S2 Hu Hk0) as F.
  destruct (seg_match re ci path a u) as [m|]; [|exact I].
  assert (Hf : fits ci (re_match re) k0 t <-> fits ci (re_match re) k t).
  { split; [apply or_alike_fits; assumption|]. apply or_alike_fits. destruct S3 as [->|S3]; [left; reflexivity|right; apply alike_sym; assumption]. }
  destruct F as [[F1 F2]|[F1 F2]]; [left|right]; (split; [congruence|tauto]).
Qed.

Lemma pcov_reads : forall re ci path l us, pcov re ci path l us -> forall ks t0, Forall2 (stands ci) l ks ->
  Forall2 (rec1 path) us t0 -> forall r t bs, r <> [] -> reads_as ci (re_match re) r t bs ->
  exists bs', reads_as ci (re_match re) (ks ++ r) (t0 ++ t) bs'.
Proof.
  intros re ci path l us H. induction H as [|s l u us m H1 H2 H3 H IH|s l vs us Hs H IH]; intros ks t0 St Hr r t bs Hne Hrd.
  - inversion St; subst. inversion Hr; subst. exists bs. assumption.
  - inversion St as [|? k ? ks' Sk St']; subst. inversion Hr as [|? x ? t0' Hx Hr']; subst.
    destruct (IH _ _ St' Hr' _ _ _ Hne Hrd) as [bs' X].
    assert (Hk : k <> Any).
    { intros E. apply (stands_any _ _ _ Sk) in E. rewrite multi_matches in H1 by assumption. congruence. }
    pose proof (stands_fits re _ _ _ _ _ _ Sk Hx Hk) as F. rewrite H1 in F. destruct F as [[F _]|[_ F]]; [congruence|].
    eexists. cbn [app]. apply reads_as_one; eassumption.
  - inversion St as [|? k ? ks' Sk St']; subst. apply (stands_any _ _ _ Sk) in Hs. subst k.
    apply Forall2_app_inv_l in Hr. destruct Hr as [a [b [R1 [R2 ->]]]].
    destruct (IH _ _ St' R2 _ _ _ Hne Hrd) as [bs' X]. exists bs'. cbn [app]. rewrite <- app_assoc. apply ra_any; [|assumption].
    destruct ks'; [assumption|discriminate].
Qed.

Lemma reads_cov : forall re ci path l ks, Forall2 (stands ci) l ks -> forall us ts bs, Forall2 (rec1 path) us ts ->
  (forall s u, In s l -> In u us -> seg_match re ci path s u <> SPanic) ->
  reads_as ci (re_match re) ks ts bs -> exists ms, covers re ci path l us ms.
Proof.
  intros re ci path l ks H. induction H as [|a k l ks Ha H IH]; intros us ts bs Hrec Hq Hr.
  - inversion Hr; subst. inversion Hrec; subst. exists []. constructor.
  - assert (Dk : k = Any \/ k <> Any) by (destruct k; [right; discriminate..|left; reflexivity]). destruct Dk as [->|Dk].
    + assert (Hm : s_mt a = MTMulti) by (apply (stands_any _ _ _ Ha); reflexivity).
      inversion Hr as [| | | | | |t ts' E1 E2 E3|ks0 run ts' bs0 Hne Hr' E1 E2 E3]; subst.
      * inversion H; subst. eexists. apply cov_multi_last; [assumption|]. intros ->. inversion Hrec.
      * apply Forall2_app_inv_r in Hrec. destruct Hrec as [us1 [us2 [R1 [R2 ->]]]].
        destruct (IH us2 ts' bs) as [ms Hc]; auto.
        { intros s0 u0 A B. apply Hq; [right; assumption|apply in_or_app; right; assumption]. }
        eexists. apply cov_multi; [assumption| |eassumption]. intros ->. inversion H; subst. congruence.
    + destruct (reads_as_single _ _ _ _ _ _ Hr Dk) as [t [ts' [bs' [-> [Hf Hr']]]]].
      inversion Hrec as [|u ? us' ? Hu Hrec']; subst.
      destruct (IH us' ts' bs') as [ms Hc]; auto.
      { intros s0 u0 A B. apply Hq; right; assumption. }
      pose proof (stands_fits re _ path _ _ _ _ Ha Hu Dk) as F.
      destruct (seg_match re ci path a u) as [m|] eqn:E; [|exfalso; eapply Hq; [left; reflexivity|left; reflexivity|eassumption]].
      destruct F as [[_ F]|[-> _]]; [contradiction|].
      exists (mt_of k :: ms). apply cov_one; auto.
      * destruct k; discriminate.
      * intros A. apply mt_of_any in A. contradiction.
Qed.

Lemma cov_reads : forall re ci path l us ms, covers re ci path l us ms -> forall ks ts, Forall2 (stands ci) l ks ->
  Forall2 (rec1 path) us ts -> exists bs, reads_as ci (re_match re) ks ts bs.
Proof.
  intros re ci path l us ms H. induction H as [|s l u us m ms H1 H2 H3 H IH|s us Hs Hne|s l vs us ms Hs Hl H IH]; intros ks ts St Hr.
  - inversion St; subst. inversion Hr; subst. exists []. constructor.
  - inversion St as [|? k ? ks' Sk St']; subst. inversion Hr as [|? x ? t0' Hx Hr']; subst.
    destruct (IH _ _ St' Hr') as [bs' X].
    assert (Hk : k <> Any).
    { intros E. apply (stands_any _ _ _ Sk) in E. rewrite multi_matches in H1 by assumption. congruence. }
    pose proof (stands_fits re _ _ _ _ _ _ Sk Hx Hk) as F. rewrite H1 in F. destruct F as [[F _]|[_ F]]; [congruence|].
    eexists. apply reads_as_one; eassumption.
  - inversion St as [|? k ? ks' Sk St']; subst. inversion St'; subst. apply (stands_any _ _ _ Sk) in Hs. subst k.
    destruct ts; [inversion Hr; subst; congruence|]. eexists. constructor.
  - inversion St as [|? k ? ks' Sk St']; subst. apply (stands_any _ _ _ Sk) in Hs. subst k.
    apply Forall2_app_inv_l in Hr. destruct Hr as [a [b [R1 [R2 ->]]]].
    destruct (IH _ _ St' R2) as [bs' X]. exists bs'. apply ra_any; [|assumption].
    intros ->. inversion St'; subst. congruence.
Qed.

Lemma stands_both : forall ci l k0 k0', Forall2 (stands ci) l k0 -> Forall2 (stands ci) l k0' ->
  (forall a, In a l -> s_mt a <> MTConstraint) -> Forall2 (same_piece ci) k0 k0'.
Proof.
  intros ci l k0 k0' H. revert k0'. induction H as [|a b la lb Hab H IH]; intros k0' Sy Hnc; inversion Sy as [|? b' ? lb' Hab' Sy']; subst; [constructor|].
  pose proof (Hnc a (or_introl eq_refl)) as Ha. constructor.
  - assert (Hs : has_same_val ci a a = true).
    { apply (stands_same ci a b a b Hab Hab Ha). pose proof (stands_mt _ _ _ Hab) as Em. rewrite Em in Ha.
      apply alike_same_piece. apply alike_self. assumption. }
    apply (stands_same ci a b a b' Hab Hab' Ha). assumption.
  - apply IH; [assumption|]. intros a' A. apply Hnc. right. assumption.
Qed.

Lemma same_both : forall ci l k0, Forall2 (stands ci) l k0 -> forall l' k0', Forall2 (stands ci) l' k0' ->
  Forall2 (same_piece ci) k0 k0' -> (forall a, In a l -> s_mt a <> MTConstraint) ->
  Forall2 (fun a b => s_mt a <> MTConstraint /\ has_same_val ci a b = true) l l'.
Proof.
  intros ci l k0 H. induction H as [|a b la lb Hab H IH]; intros l' k0' Sy Sz Hnc;
    inversion Sz as [|? b' ? lb' Hbb Sz']; subst; inversion Sy as [|a' ? la' ? Hab' Sy']; subst; [constructor|].
  pose proof (Hnc a (or_introl eq_refl)) as Ha. constructor.
  - split; [assumption|]. apply (stands_same ci a b a' b' Hab Hab' Ha). assumption.
  - eapply IH; [eassumption|eassumption|]. intros c A. apply Hnc. right. assumption.
Qed.

Lemma unconstrained : forall ci l k0, Forall2 (stands ci) l k0 -> (forall n r, ~ In (Constrained n r) k0) ->
  forall a, In a l -> s_mt a <> MTConstraint.
Proof.
  intros ci l k0 H. induction H as [|a b la lb Hab H IH]; intros Hn x Hx E; [destruct Hx|]. destruct Hx as [<-|Hx].
  - rewrite (stands_mt _ _ _ Hab) in E. destruct b; try discriminate. eapply Hn. left. reflexivity.
  - eapply IH; [|exact Hx|exact E]. intros n r A. eapply Hn. right. exact A.
Qed.

Lemma constrained_in : forall ci l k0, Forall2 (stands ci) l k0 -> In MTConstraint (map s_mt l) ->
  exists n r, In (Constrained n r) k0.
Proof.
  intros ci l k0 H. induction H as [|a b la lb Hab H IH]; intros Hi; [destruct Hi|]. destruct Hi as [E|Hi].
  - rewrite (stands_mt _ _ _ Hab) in E. destruct b; try discriminate. eexists. eexists. left. reflexivity.
  - destruct (IH Hi) as [n [r A]]. exists n, r. right. assumption.
Qed.

(** ** The matcher *)

Section Matcher.
Variable re : engine.
Variable ci : bool.
Variable k : nat.
Variable pats : list pattern.
Variable m : matcher.
Variable path : bytes.
Variable us : list useg.
Variable ts : list bytes.
Hypothesis M : minv re ci k pats m.
Hypothesis Htree : tree_ok (m_trie m).
Hypothesis Hrec : Forall2 (rec1 path) us ts.
Hypothesis Hlen : List.length us <= 19.
Hypothesis Hne : us <> [].
Hypothesis Hplain : forall q t ps ks, In q pats -> parsed re ci q t ps ks -> Forall (plain_piece ci) ks.
Hypothesis Hcalm : forall q t ps ks, In q pats -> parsed re ci q t ps ks ->
  forall w s, In (Glob w) ks -> In s ts -> calm ci w s.
Hypothesis Hroom : forall q t ps ks, In q pats -> parsed re ci q t ps ks -> List.length ks <= 18 \/ any_only_last ks.

Lemma leaf_max : forall l q, In (l, q) (leaves (m_trie m)) -> max_ok 0 l q.
Proof.
  intros l q H. destruct (leaf_route _ _ _ _ _ M _ _ H) as [Hq [Hsh [Hsn [t [ps [ks P]]]]]].
  pose proof (pd_shows _ _ _ _ _ _ P) as S. destruct (shows_all_len _ _ _ _ S) as [E1 E2].
  destruct (in_dec mtype_eq_dec MTMulti (map s_mt l)) as [Hi|Hi].
  - left. unfold is_greedy. rewrite (pd_any _ _ _ _ _ _ P); [reflexivity|].
    rewrite (shares_mts _ _ _ Hsh), (shows_all_mts _ _ _ _ S) in Hi. apply in_map_iff in Hi.
    destruct Hi as [x [X1 X2]]. apply mt_of_any in X1. subst x. assumption.
  - right. split; [assumption|]. pose proof (pd_short _ _ _ _ _ _ P).
    rewrite (pd_noany _ _ _ _ _ _ P).
    + split; [|lia]. cbn [Nat.add]. rewrite (forall2_len _ _ _ _ _ Hsh). f_equal. lia.
    + intros A. apply Hi. rewrite (shares_mts _ _ _ Hsh), (shows_all_mts _ _ _ _ S). apply in_map_iff.
      exists Any. auto.
Qed.

Lemma never_panics : dfs re ci path (m_trie m) 0 us <> Panic.
Proof.
  apply (dfs_no_panic re ci path us); auto.
  - eapply search_quiet; [eassumption|eassumption|]. intros q t ps ks Hq P w s Hw Hs. eapply Hcalm; eassumption.
  - apply (grown_made ci pats). apply (mi_grown _ _ _ _ _ M).
  - exists []. left. cbn. lia.
  - intros l p Hl. destruct (leaf_route _ _ _ _ _ M _ _ Hl) as [Hq [Hsh [_ [t [ps [ks P]]]]]].
    destruct (Hroom _ _ _ _ Hq P) as [B|B].
    + left. cbn. rewrite (forall2_len _ _ _ _ _ Hsh). destruct (shows_all_len _ _ _ _ (pd_shows _ _ _ _ _ _ P)) as [X Y]. lia.
    + right. split; [cbn in *; lia|]. eapply any_last_mts; [exact Hsh|apply (pd_shows _ _ _ _ _ _ P)|assumption].
Qed.

Lemma some_leaf : forall q t ps ks, In q pats -> parsed re ci q t ps ks -> ks <> [] ->
  exists l, In (l, q) (leaves (m_trie m)).
Proof.
  intros q t ps ks Hq P Hk. apply (minv_pats_in _ _ _ _ _ q M) in Hq. destruct Hq as [l Hl].
  unfold routes in Hl. apply in_app_or in Hl. destruct Hl as [Hl|Hl]; [|eauto].
  exfalso. destruct (m_root m) as [p|] eqn:Er; [|destruct Hl]. destruct Hl as [E|[]]. injection E as <- ->.
  assert (Hin : In ([], q) (routes m)) by (unfold routes; rewrite Er; left; reflexivity).
  pose proof (mi_paths _ _ _ _ _ M) as Hpa. rewrite Forall_forall in Hpa. specialize (Hpa _ Hin). cbn in Hpa.
  inversion Hpa as [Hsn|]. symmetry in H. apply (proj1 (parsed_nil _ _ _ _ _ _ P)) in H. congruence.
Qed.

Lemma stands_leaf : forall l q t ps ks, In (l, q) (leaves (m_trie m)) -> parsed re ci q t ps ks -> Forall2 (stands ci) l ks.
Proof. exact (leaf_stands re ci k pats m M Hplain). Qed.

Lemma quiet_at : forall l q, In (l, q) (leaves (m_trie m)) -> forall s u, In s l -> In u us ->
  seg_match re ci path s u <> SPanic.
Proof. exact (quiet_leaf re ci k pats m path us ts M Hrec Hcalm). Qed.

Hypothesis Hstuck : forall q t ps ks, In q pats -> parsed re ci q t ps ks ->
  not_stuck ci (re_match re) (some_route re ci pats) ts ks.
Hypothesis Hended : forall q t ps ks, In q pats -> parsed re ci q t ps ks ->
  not_ended ci (re_match re) (some_route re ci pats) ts ks.

Lemma trie_differ : deep (all_differ ci) (m_trie m) 0.
Proof. apply (grown_differ _ _ _ (mi_grown _ _ _ _ _ M)). Qed.
Lemma trie_made : deep all_made (m_trie m) 0.
Proof. apply (grown_made ci pats). apply (mi_grown _ _ _ _ _ M). Qed.

Lemma trie_alive : alive_at re ci path (m_trie m) us.
Proof.
  intros l p c us0 us1 Hr Hc Hmu Hch E' Hne1 Hp.
  assert (E : us = us0 ++ us1 /\ True) by auto. clear E'.
  pose proof (reach_deep _ _ _ _ Hr _ trie_made) as Dm. apply deep_eq in Dm. destruct Dm as [_ Dm].
  rewrite Forall_forall in Dm. specialize (Dm _ Hc). apply deep_eq in Dm. destruct Dm as [Dm _]. unfold all_made in Dm.
  pose proof (reach_deep _ _ _ _ Hr _ trie_differ) as Dd. apply deep_eq in Dd. destruct Dd as [Dd _].
  destruct (n_ch c) as [|g gs] eqn:Eg; [congruence|]. inversion Dm as [|? ? Mg _]; subst x l0.
  destruct Mg as [lg [qg [G1 _]]].
  assert (Lg : In (lg, qg) (leaves c)) by (apply in_leaves; exists g; rewrite Eg; split; [left; reflexivity|assumption]).
  pose proof (leaf_path_not_nil _ _ _ Lg) as Hlg.
  assert (L : In (l ++ n_seg c :: lg, qg) (leaves (m_trie m))).
  { eapply reach_leaf; [exact Hr|exact Hc|]. apply in_branch. right. exists lg. auto. }
  destruct (leaf_route _ _ _ _ _ M _ _ L) as [Qg [_ [_ [t [ps [ks P]]]]]].
  pose proof (stands_leaf _ _ _ _ _ L P) as St. apply Forall2_app_inv_l in St.
  destruct St as [k0 [kr [St0 [St1 ->]]]]. inversion St1 as [|? ka ? k2 Sa St2]; subst.
  apply (stands_any _ _ _ Sa) in Hmu. subst ka.
  assert (Hts : exists t0 t1, ts = t0 ++ t1 /\ Forall2 (rec1 path) us0 t0 /\ Forall2 (rec1 path) us1 t1).
  { pose proof Hrec as Hrec'. rewrite (proj1 E) in Hrec'. apply Forall2_app_inv_l in Hrec'. destruct Hrec' as [t0 [t1 [A [B C]]]]. eauto. }
  destruct Hts as [t0 [t1 [Et' [R0 R1]]]]. assert (Et : ts = t0 ++ t1 /\ True) by auto. clear Et'.
  assert (Ht1 : t1 <> []) by (intros ->; inversion R1; subst; congruence).
  assert (Ra : exists bs, reads_as ci (re_match re) [Any] t1 bs) by (destruct t1; [congruence|]; eexists; constructor).
  destruct Ra as [bsa Ra].
  destruct (pcov_reads _ _ _ _ _ Hp _ _ St0 R0 [Any] t1 bsa ltac:(discriminate) Ra) as [bs Rb]. rewrite <- (proj1 Et) in Rb.
  assert (Hk2 : k2 <> []) by (intros ->; inversion St2; subst; congruence).
  destruct (Hstuck _ _ _ _ Qg P k0 k2 bs eq_refl Hk2 Rb) as [[bs' R]|[Hnc [rg [k0' [k2' [bs' [[q' [t' [ps' [Q' P']]]] [Hk2' [Hsame R]]]]]]]]].
  - destruct (reads_cov re ci path _ _ (stands_leaf _ _ _ _ _ L P) us ts bs' Hrec) as [ms C].
    + eapply quiet_at; eassumption.
    + assumption.
    + exists lg, qg, ms. auto.
  - destruct (some_leaf _ _ _ _ Q' P') as [lz Lz]; [destruct k0'; discriminate|].
    pose proof (stands_leaf _ _ _ _ _ Lz P') as Stz. pose proof Stz as Stz'. apply Forall2_app_inv_r in Stz.
    destruct Stz as [l0z [lr [Stz0 [Stz1 ->]]]]. inversion Stz1 as [|sz ? l2 ? Sz1 Sz2]; subst.
    destruct (follow ci _ _ _ Hr _ _ _ _ trie_differ Lz) as [-> [z [Hz1 Hz2]]]; [discriminate| |].
    { eapply same_both; [exact St0|exact Stz0|exact Hsame|]. eapply unconstrained; eassumption. }
    assert (Esz : sz = n_seg z) by (destruct (branch_head _ _ _ Hz2) as [lq X]; injection X as -> _; reflexivity). subst sz.
    assert (Ez : c = z).
    { eapply siblings_differ; [exact Dd|exact Hc|exact Hz1| |].
      - rewrite (stands_mt _ _ _ Sa). discriminate.
      - unfold has_same_val. rewrite (stands_mt _ _ _ Sa), (stands_mt _ _ _ Sz1). reflexivity. }
    subst z. apply in_branch in Hz2. destruct Hz2 as [[X _]|[l3 [X Hz2]]].
    { injection X as ->. inversion Sz2; subst. congruence. }
    injection X as <-.
    destruct (reads_cov re ci path _ _ Stz' us ts bs' Hrec) as [ms C].
    + eapply quiet_at; eassumption.
    + assumption.
    + exists l2, q', ms. auto.
Qed.

Lemma trie_uncut : uncut re ci path (m_trie m) us.
Proof.
  pose proof (mi_grown _ _ _ _ _ M) as G.
  assert (Dl : deep all_lone (m_trie m) 0).
  { eapply deep_imp; [|apply (grown_lone_braced _ _ _ G (pats_braced _ _ _ _ _ M Hplain))]. intros i l D.
    eapply Forall_impl; [|exact D]. intros c [_ X]. assumption. }
  intros l p x us0 u mt Hr Hx Eu' Hp Hpx Hm Hm1 Hm2 y ly qy msy Hy Y1 Y2.
  assert (Eu : us = us0 ++ [u] /\ True) by auto. clear Eu'.
  pose proof (reach_deep _ _ _ _ Hr _ trie_differ) as Dd'. apply deep_eq in Dd'. destruct Dd' as [Dd' _].
  pose proof (reach_deep _ _ _ _ Hr _ trie_made) as Dm'. apply deep_eq in Dm'. destruct Dm' as [Dm' _].
  unfold all_made in Dm'. rewrite Forall_forall in Dm'.
  destruct (Dm' _ Hx) as [lx [q [X1 _]]].
  pose proof (reach_leaf _ _ _ Hr _ _ _ Hx X1) as Lx. pose proof (reach_leaf _ _ _ Hr _ _ _ Hy Y1) as Ly.
  destruct (leaf_route _ _ _ _ _ M _ _ Lx) as [Qx [_ [_ [t [ps [ks P]]]]]].
  destruct (leaf_route _ _ _ _ _ M _ _ Ly) as [Qy [_ [_ [ty [psy [ksy Py]]]]]].
  assert (El : exists l', lx = n_seg x :: l' /\ l' <> []).
  { apply in_branch in X1. destruct X1 as [[_ A]|[l' [-> A]]]; [congruence|]. exists l'. split; [reflexivity|].
    eapply leaf_path_not_nil; eassumption. }
  destruct El as [l' [-> Hl']].
  assert (Hts : exists t0 t1, ts = t0 ++ [t1] /\ Forall2 (rec1 path) us0 t0 /\ rec1 path u t1).
  { pose proof Hrec as Hrec'. rewrite (proj1 Eu) in Hrec'. apply Forall2_app_inv_l in Hrec'. destruct Hrec' as [t0 [t1 [A [B C]]]].
    inversion B as [|? v ? e B1 B2]; subst. inversion B2; subst. eauto. }
  destruct Hts as [t0 [t1 [Et' [R0 R1]]]]. assert (Et : ts = t0 ++ [t1] /\ True) by auto. clear Et'.
  pose proof (stands_leaf _ _ _ _ _ Lx P) as St. apply Forall2_app_inv_l in St.
  destruct St as [k0 [kr [St0 [St1 ->]]]]. inversion St1 as [|? kk ? k2 Sk St2]; subst.
  assert (Hk : kk <> Any).
  { intros A. apply (stands_any _ _ _ Sk) in A. rewrite multi_matches in Hm by assumption. congruence. }
  assert (Hk2 : k2 <> []) by (intros ->; inversion St2; subst; congruence).
  pose proof (stands_fits re _ _ _ _ _ _ Sk R1 Hk) as F. rewrite Hm in F. destruct F as [[F _]|[_ F]]; [congruence|].
  destruct (pcov_reads _ _ _ _ _ Hp _ _ St0 R0 [kk] [t1] _ ltac:(discriminate) (reads_as_one _ _ _ _ _ _ _ Hk F (ra_end _ _))) as [bs Rb]. rewrite <- (proj1 Et) in Rb.
  pose proof (stands_leaf _ _ _ _ _ Ly Py) as Sy. apply Forall2_app_inv_l in Sy.
  destruct Sy as [k0y [ry [Sy0 [Sy1 ->]]]].
  destruct (in_dec mtype_eq_dec MTConstraint (map s_mt l)) as [Hc|Hc].
  { pose proof (one_below _ _ _ Hr _ Dl Hc _ _ _ _ _ _ Hx X1 Hy Y1) as E. injection E as <- _.
    inversion Y2 as [|? ? ? ? m' ms' A1 A2 A3 A4|? ? A1 A2|? ? vs us1 ms' A1 A2 A3]; subst.
    - apply covers_nil in A4. congruence.
    - congruence.
    - rewrite multi_matches in Hm by assumption. congruence. }
  assert (Hnc : forall a, In a l -> s_mt a <> MTConstraint).
  { intros a A B. apply Hc. rewrite <- B. apply in_map. assumption. }
  destruct (Hended _ _ _ _ Qx P k0 kk k2 t0 t1 bs eq_refl Hk2 Hk (proj1 Et) Rb) as [[n [r Hin]]|[Hno|[Hkc [rg [ks' [[q' [t' [ps' [Q' P']]]] Hsame]]]]]].
  - clear - St0 Hnc Hin. induction St0 as [|a b la lb Hab St0 IH]; [destruct Hin|]. destruct Hin as [->|Hin].
    + apply (Hnc a); [left; reflexivity|]. rewrite (stands_mt _ _ _ Hab). reflexivity.
    + apply IH; [|assumption]. intros a' A. apply Hnc. right. assumption.
  - destruct (cov_reads _ _ _ _ _ _ Y2 _ [t1] Sy1) as [bs' Ry]; [constructor; [assumption|constructor]|].
    eapply (Hno ([], [], 0)); [exists qy, ty, psy; split; eassumption| |exact Ry].
    eapply stands_both; eassumption.
  - apply Forall2_app_inv_l in Hsame. destruct Hsame as [k0' [kl [Sm0 [Sm1 ->]]]]. inversion Sm1 as [|? k' ? e Sk' Se]; subst. inversion Se; subst.
    destruct (some_leaf _ _ _ _ Q' P') as [lz Lz]; [destruct k0'; discriminate|].
    pose proof (stands_leaf _ _ _ _ _ Lz P') as Stz. apply Forall2_app_inv_r in Stz.
    destruct Stz as [l0z [lr [Stz0 [Stz1 ->]]]]. inversion Stz1 as [|sz ? e ? Sz1 Sz2]; subst. inversion Sz2; subst.
    destruct (follow ci _ _ _ Hr _ _ _ _ trie_differ Lz) as [-> [z [Hz1 Hz2]]]; [discriminate| |].
    { eapply same_both; [exact St0|exact Stz0|exact Sm0|assumption]. }
    assert (Esz : sz = n_seg z) by (destruct (branch_head _ _ _ Hz2) as [lq X]; injection X as -> _; reflexivity). subst sz.
    assert (Hxc : s_mt (n_seg x) <> MTConstraint).
    { rewrite (stands_mt _ _ _ Sk). destruct kk; try discriminate. exfalso. eapply Hkc. reflexivity. }
    assert (Ez : x = z).
    { eapply siblings_differ; [exact Dd'|exact Hx|exact Hz1|exact Hxc|]. apply (stands_same ci _ _ _ _ Sk Sz1 Hxc). assumption. }
    subst z. apply in_branch in Hz2. destruct Hz2 as [[_ A]|[l3 [E A]]]; [congruence|].
    injection E as <-. apply leaf_path_not_nil in A. congruence.
Qed.

Lemma trie_finds : finds re ci path (m_trie m) us (dfs re ci path (m_trie m) 0 us).
Proof.
  apply dfs_finds; auto.
  - apply trie_made.
  - apply (mi_max _ _ _ _ _ M).
  - apply leaf_max.
  - apply trie_alive.
  - apply trie_uncut.
Qed.

End Matcher.
