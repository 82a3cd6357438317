(** * Requests for routes with an inner double star. *)
From Coq Require Import List NArith ZArith Ascii String Bool Lia Arith Permutation Sorted.
From Verif Require Import GoBase Glob_Model Glob_Spec Glob_Proofs Pattern_Model Pattern_Spec Pattern_Proofs
  Priority_Spec Priority_Proofs Url_Model Url_Spec Url_Proofs Match_Model Search_Proofs Trie_Proofs Grow_Proofs
  Router_Model Routing_Spec Covers_Proofs Routes_Proofs Dispatch_Proofs Routing_Proofs Choice_Spec Complete_Proofs
  Choice_Proofs Inner_Spec Inner_Proofs InnerMatch_Proofs.
Import ListNotations.
Local Open Scope string_scope.
Local Open Scope list_scope.
Local Open Scope nat_scope.

Lemma reads_nothing : forall ic rm ks ts bs, reads_as ic rm ks ts bs -> ts = [] -> ks = [].
Proof.
  intros ic rm ks ts bs H. induction H; intros E; try discriminate; [reflexivity|].
  apply app_eq_nil in E. destruct E as [_ E]. apply IHreads_as in E. congruence.
Qed.

Section Hist.
Variable re : engine.
Variable ci : bool.
Variable hist : list (reg * handle_end).
Variable r : router.
Variable mth path : bytes.
Variable ts : list bytes.
Variable buf : list useg.
Local Notation route := (route_of (re_ok re) ci hist mth).
Local Notation says := (reads_as ci (re_match re)).

Lemma dispatch_inner :
  rinv re ci hist r -> (N.of_nat (List.length hist) < 65536)%N ->
  Forall (fun x => plain_text re ci (reg_text (fst x))) hist ->
  (blen path < 65536)%N -> segments_of path ts -> List.length buf = 19 ->
  (forall rg ks, route rg ks -> (List.length ks <= 18 \/ any_only_last ks) /\ calm_on ci ts ks) ->
  exists k D, (forall f, dispatch_request (k + f) re r mth path buf = D) /\
    ((exists rg ks bs rec segs, route rg ks /\ says ks ts bs /\ D = Calls (reg_handler rg) rec segs) \/ D = NotFound) /\
    ((exists rg ks bs, route rg ks /\ says ks ts bs) ->
     (forall rg ks, route rg ks -> not_stuck ci (re_match re) route ts ks /\ not_ended ci (re_match re) route ts ks) ->
     D <> NotFound).
Proof.
  intros H Hl Hpl Hs Hseg Hb Hro.
  destruct (parse_url_segments path ts buf Hs Hseg Hb) as [us [Hu Hrec]].
  assert (Hul : List.length us <= 19).
  { rewrite (records_len _ _ _ Hrec). eapply walked_len; eassumption. }
  destruct (records_rec1 _ _ _ Hs Hrec) as [Hr1 Hst].
  assert (Hlk : forall m, alookup (to_upper mth) (r_matchers r) = Some m -> m_ci m = ci /\ tree_ok (m_trie m)).
  { intros m Hk. eapply rinv_lookup; eassumption. }
  destruct (dispatch_behind re ci r mth path buf us (ri_ci _ _ _ _ H) Hu Hul Hlk) as [k [D [H1 H2]]].
  exists k, D. split; [assumption|].
  destruct (alookup (to_upper mth) (r_matchers r)) as [m|] eqn:Ek.
  2:{ split; [right; assumption|]. intros [rg [ks [bs [[A [B _]] _]]]] _.
      pose proof (ri_none _ _ _ _ H _ Ek) as E. assert (C : In rg (registered (to_upper mth) hist)).
      { apply in_registered. exists Registered. split; [assumption|]. split; [reflexivity|]. apply same_method_upper. assumption. }
      rewrite E in C. destruct C. }
  destruct (ri_some _ _ _ _ H _ _ Ek) as [pats [M1 M2]].
  assert (Hto : forall rg ks, route rg ks -> exists q ps, In q pats /\
     p_att q = Some (reg_handler rg) /\ parsed re ci q (reg_text rg) ps ks).
  { intros rg ks [A [B [ps C]]]. assert (E : In rg (registered (to_upper mth) hist)).
    { apply in_registered. exists Registered. split; [assumption|]. split; [reflexivity|]. apply same_method_upper. assumption. }
    destruct (forall2_in_l _ _ _ _ _ _ M2 E) as [q [Q1 [Q2 [ps' [ks' Q3]]]]].
    destruct (means_unique _ _ _ _ _ _ _ (pd_means _ _ _ _ _ _ Q3) C) as [-> ->]. exists q, ps. auto. }
  assert (Hfrom : forall q t ps ks, In q pats -> parsed re ci q t ps ks -> exists rg,
     route rg ks /\ reg_text rg = t /\ p_att q = Some (reg_handler rg)).
  { intros q t ps ks Hq P. destruct (forall2_in_r _ _ _ _ _ _ M2 Hq) as [rg [R1 [R2 [ps' [ks' R3]]]]].
    assert (Ht : reg_text rg = t).
    { rewrite <- (pd_raw _ _ _ _ _ _ P), <- (pd_raw _ _ _ _ _ _ R3). reflexivity. }
    exists rg. apply in_registered in R1. destruct R1 as [e [A [-> B]]]. split; [|split; assumption].
    split; [assumption|]. split; [apply same_method_upper; assumption|]. exists ps. rewrite Ht. apply (pd_means _ _ _ _ _ _ P). }
  assert (Hplain : forall q t ps ks, In q pats -> parsed re ci q t ps ks -> Forall (plain_piece ci) ks).
  { intros q t ps ks Hq P. destruct (Hfrom _ _ _ _ Hq P) as [rg [[A _] [B _]]].
    rewrite Forall_forall in Hpl. specialize (Hpl _ A). cbn in Hpl. eapply Hpl. rewrite B. apply (pd_means _ _ _ _ _ _ P). }
  assert (Hroom : forall q t ps ks, In q pats -> parsed re ci q t ps ks -> List.length ks <= 18 \/ any_only_last ks).
  { intros q t ps ks Hq P. destruct (Hfrom _ _ _ _ Hq P) as [rg [A _]]. apply (Hro _ _ A). }
  assert (Hcalm : forall q t ps ks, In q pats -> parsed re ci q t ps ks ->
     forall w s, In (Glob w) ks -> In s ts -> calm ci w s).
  { intros q t ps ks Hq P w s. destruct (Hfrom _ _ _ _ Hq P) as [rg [A _]]. apply (Hro _ _ A). }
  unfold behind in H2. destruct us as [|u us].
  - inversion Hr1; subst ts. destruct (m_root m) as [p|] eqn:Er.
    + assert (Hin : In ([], p) (routes m)) by (unfold routes; rewrite Er; left; reflexivity).
      assert (Hp : In p pats) by (eapply minv_pats_in; eauto).
      pose proof (mi_parsed _ _ _ _ _ M1) as Hpp. rewrite Forall_forall in Hpp. destruct (Hpp p Hp) as [t [ps [ks P]]].
      pose proof (mi_paths _ _ _ _ _ M1) as Hpa. rewrite Forall_forall in Hpa. specialize (Hpa _ Hin).
      cbn in Hpa. inversion Hpa as [Hsn|]. symmetry in H0. apply (proj1 (parsed_nil _ _ _ _ _ _ P)) in H0. subst ks.
      destruct (Hfrom _ _ _ _ Hp P) as [rg [R1 [R2 R3]]]. unfold calls in H2. rewrite R3 in H2.
      split; [|intros _ _; rewrite H2; discriminate]. left.
      exists rg, [], [], None, []. split; [assumption|]. split; [constructor|assumption].
    + split; [right; assumption|]. intros [rg [ks [bs [A B]]]] _ _. pose proof (reads_nothing _ _ _ _ _ B eq_refl) as ->.
      destruct (Hto _ _ A) as [q [ps [Q1 [Q2 Q3]]]]. apply (minv_pats_in _ _ _ _ _ q M1) in Q1. destruct Q1 as [l Hq].
      unfold routes in Hq. rewrite Er in Hq. cbn [app] in Hq.
      pose proof (mi_paths _ _ _ _ _ M1) as Hpa. rewrite Forall_forall in Hpa.
      assert (Hin : In (l, q) (routes m)) by (unfold routes; rewrite Er; assumption).
      specialize (Hpa _ Hin). cbn in Hpa. rewrite (proj2 (parsed_nil _ _ _ _ _ _ Q3) eq_refl) in Hpa. inversion Hpa; subst.
      apply leaf_path_not_nil in Hq. congruence.
  - rewrite Hst in H2. set (us0 := u :: us) in *.
    assert (Hne : us0 <> []) by discriminate.
    pose proof (never_panics re ci _ pats m path us0 ts M1 Hr1 Hul Hcalm Hroom) as C.
    split.
    + destruct (dfs re ci path (m_trie m) 0 us0) as [p ms| | |] eqn:Ed; try (right; assumption); [|congruence].
      left. destruct H2 as [segs' [H3 _]]. destruct (dfs_sound _ _ _ _ _ _ _ _ Ed) as [l [T1 T2]].
      destruct (leaf_route re ci _ pats m M1 _ _ T1) as [Q1 [_ [_ [t [ps [ks P]]]]]].
      destruct (Hfrom _ _ _ _ Q1 P) as [rg [R1 [R2 R3]]].
      destruct (route_reads _ _ _ _ _ _ _ _ _ _ _ _ _ _ M1 T1 P (Hplain _ _ _ _ Q1 P) T2 Hr1) as [bs [B1 _]].
      unfold calls in H3. rewrite R3 in H3. exists rg, ks, bs, (Some p), segs'. auto.
    + intros [rg [ks [bs [A B]]]] Hcond E.
      assert (T : finds re ci path (m_trie m) us0 (dfs re ci path (m_trie m) 0 us0)).
      { eapply trie_finds; eauto.
        - apply (Hlk m eq_refl).
        - intros q t ps ks' Hq P k0 k2 bs' E1 E2 E3. destruct (Hfrom _ _ _ _ Hq P) as [rg' [A' _]].
          destruct (proj1 (Hcond _ _ A') k0 k2 bs' E1 E2 E3) as [X|[X [rg2 [k0' [k2' [bs2 [Y1 Y2]]]]]]]; [left; assumption|right].
          split; [assumption|]. destruct (Hto _ _ Y1) as [q2 [ps2 [Q1 [_ Q2]]]].
          exists rg2, k0', k2', bs2. split; [|assumption]. exists q2, (reg_text rg2), ps2. auto.
        - intros q t ps ks' Hq P k0 k1 k2 t0 t1 bs' E1 E2 E3 E4 E5. destruct (Hfrom _ _ _ _ Hq P) as [rg' [A' _]].
          destruct (proj2 (Hcond _ _ A') k0 k1 k2 t0 t1 bs' E1 E2 E3 E4 E5) as [X|[X|[X [rg2 [ks2 [Y1 Y2]]]]]].
          + left. assumption.
          + right. left. intros _ k0' r' bs2 [q2 [t2 [ps2 [Q1 Q2]]]]. destruct (Hfrom _ _ _ _ Q1 Q2) as [rg2 [Z _]]. apply (X rg2 _ _ _ Z).
          + right. right. split; [assumption|]. destruct (Hto _ _ Y1) as [q2 [ps2 [Q1 [_ Q2]]]].
            exists rg2, ks2. split; [|assumption]. exists q2, (reg_text rg2), ps2. auto. }
      destruct (Hto _ _ A) as [q [ps [X1 [X2 X3]]]].
      assert (Hks : ks <> []).
      { intros ->. inversion B; subst. inversion Hr1. }
      destruct (some_leaf re ci _ pats m M1 _ _ _ _ X1 X3 Hks) as [l L].
      destruct (reads_cov re ci path _ _ (stands_leaf re ci _ pats m M1 Hplain _ _ _ _ _ L X3) us0 ts bs Hr1) as [ms Cv].
      { eapply quiet_at; eassumption. }
      { assumption. }
      destruct (dfs re ci path (m_trie m) 0 us0) as [p ms'| | |] eqn:Ed; cbn [finds] in T.
      * destruct H2 as [segs' [H3 _]]. rewrite E in H3. unfold calls in H3. destruct (p_att p); discriminate.
      * eapply T; eassumption.
      * assumption.
      * congruence.
Qed.

End Hist.

(** C11. *)
Lemma inner_routing : forall fuel re ci regs r outs mth path ts buf,
  handle_all fuel re (new_router ci) regs = (r, outs) ->
  (N.of_nat (List.length regs) < 65536)%N ->
  Forall (fun rg => countable (re_ok re) ci (reg_text rg) /\ plain (re_ok re) ci (reg_text rg)) regs ->
  (blen path < 65536)%N -> segments_of path ts -> List.length buf = 19 ->
  (forall rg ks, route_of (re_ok re) ci (combine regs outs) mth rg ks ->
     (List.length ks <= 18 \/ any_only_last ks) /\ calm_on ci ts ks) ->
  exists k,
    ((exists rg ks bs, route_of (re_ok re) ci (combine regs outs) mth rg ks /\ reads_as ci (re_match re) ks ts bs) ->
     (forall rg ks, route_of (re_ok re) ci (combine regs outs) mth rg ks ->
        not_stuck ci (re_match re) (route_of (re_ok re) ci (combine regs outs) mth) ts ks /\
        not_ended ci (re_match re) (route_of (re_ok re) ci (combine regs outs) mth) ts ks) ->
     exists rg ks bs rec segs, route_of (re_ok re) ci (combine regs outs) mth rg ks /\ reads_as ci (re_match re) ks ts bs /\
       forall f, dispatch_request (k + f) re r mth path buf = Calls (reg_handler rg) rec segs) /\
    ((forall rg ks bs, route_of (re_ok re) ci (combine regs outs) mth rg ks -> ~ reads_as ci (re_match re) ks ts bs) ->
     forall f, dispatch_request (k + f) re r mth path buf = NotFound).
Proof.
  intros fuel re ci regs r outs mth path ts buf H Hl Hs Hp Ht Hb Hro.
  destruct (history _ _ _ _ _ _ H) as [R1 R2].
  { eapply Forall_impl; [|eassumption]. intros a [A _]. assumption. }
  destruct (dispatch_inner re ci (combine regs outs) r mth path ts buf) as [k [D [K1 [K2 K3]]]]; auto.
  - rewrite combine_len by assumption. assumption.
  - apply forall_combine with (P := fun x => plain_text re ci (reg_text x)).
    eapply Forall_impl; [|eassumption]. intros a [_ A]. apply plain_plain_text. assumption.
  - exists k. split.
    + intros Hex Hc. destruct K2 as [[rg [ks [bs [rec [segs [A1 [A2 A3]]]]]]]|K2]; [|exfalso; apply (K3 Hex Hc K2)].
      exists rg, ks, bs, rec, segs. split; [assumption|]. split; [assumption|]. intros f. rewrite K1. assumption.
    + intros Hno f. rewrite K1. destruct K2 as [[rg [ks [bs [rec [segs [A1 [A2 A3]]]]]]]|K2]; [|assumption].
      exfalso. eapply Hno; eassumption.
Qed.

(** A route on its own. *)
Lemma lone_routing : forall fuel re ci regs r outs mth path ts buf rg ks,
  handle_all fuel re (new_router ci) regs = (r, outs) ->
  (N.of_nat (List.length regs) < 65536)%N ->
  Forall (fun rg => countable (re_ok re) ci (reg_text rg) /\ plain (re_ok re) ci (reg_text rg)) regs ->
  (blen path < 65536)%N -> segments_of path ts -> List.length buf = 19 ->
  route_of (re_ok re) ci (combine regs outs) mth rg ks ->
  (forall rg' ks', route_of (re_ok re) ci (combine regs outs) mth rg' ks' -> rg' = rg) ->
  List.length ks <= 18 \/ any_only_last ks -> calm_on ci ts ks ->
  exists k,
    ((exists bs, reads_as ci (re_match re) ks ts bs) ->
     exists rec segs, forall f, dispatch_request (k + f) re r mth path buf = Calls (reg_handler rg) rec segs) /\
    ((forall bs, ~ reads_as ci (re_match re) ks ts bs) ->
     forall f, dispatch_request (k + f) re r mth path buf = NotFound).
Proof.
  intros fuel re ci regs r outs mth path ts buf rg ks H Hl Hs Hp Ht Hb Hr Hone Hroom Hcalm.
  assert (Hks : forall rg' ks', route_of (re_ok re) ci (combine regs outs) mth rg' ks' -> ks' = ks).
  { intros rg' ks' A. pose proof (Hone _ _ A) as ->. destruct A as [_ [_ [ps A]]]. destruct Hr as [_ [_ [ps' B]]].
    destruct (means_unique _ _ _ _ _ _ _ A B). assumption. }
  destruct (inner_routing fuel re ci regs r outs mth path ts buf H Hl Hs Hp Ht Hb) as [k [K1 K2]].
  { intros rg' ks' A. rewrite (Hks _ _ A). auto. }
  exists k. split.
  - intros [bs R]. destruct K1 as [rg1 [ks1 [bs1 [rec [segs [A1 [A2 A3]]]]]]].
    + eauto.
    + intros rg' ks' A. rewrite (Hks _ _ A). clear rg' ks' A. split.
      * intros k0 k2 bs' _ _ _. left. eauto.
      * intros k0 k1 k2 t0 t bs' E1 E2 E3 E4 E5. right. left. intros rg' k0' r' bs2 A Hsame Rr.
        pose proof (Hks _ _ A) as E. rewrite E1 in E.
        assert (Er : r' = k1 :: k2).
        { clear - E Hsame. revert k0' E Hsame. induction k0 as [|x k0 IH]; intros [|y k0'] E Hs; inversion Hs; subst; cbn in E; [assumption|].
          injection E as _ E. eapply IH; eassumption. }
        subst r'. destruct (reads_as_single _ _ _ _ _ _ Rr E3) as [x [xs [bs3 [X1 [_ X2]]]]]. injection X1 as _ <-.
        apply reads_nothing in X2; [|reflexivity]. congruence.
    + pose proof (Hone _ _ A1) as ->. eauto.
  - intros Hno. apply K2. intros rg' ks' bs A. rewrite (Hks _ _ A). apply Hno.
Qed.
