(** * Path variables of patterns with any constraints *)
From Coq Require Import List NArith ZArith Ascii String Bool Lia Arith Permutation.
From Verif Require Import GoBase Glob_Model Glob_Spec Glob_Proofs GlobExact_Proofs Pattern_Model Pattern_Spec Pattern_Proofs
  Priority_Spec Priority_Proofs Url_Model Url_Spec Url_Proofs Match_Model Search_Proofs Trie_Proofs Wide_Proofs WideFound_Proofs Grow_Proofs
  Router_Model Routing_Spec Covers_Proofs Routes_Proofs Dispatch_Proofs Routing_Proofs Loose_Spec.
Import ListNotations.
Local Open Scope string_scope.
Local Open Scope list_scope.
Local Open Scope nat_scope.

(** Two pieces on one node are alike, or the constraint of the second spells the first. *)
Definition near (ic : bool) (k1 k2 : piece) : Prop :=
  k1 = k2 \/ alike ic k1 k2 \/
  exists n1 r1 n2 r2, k1 = Constrained n1 r1 /\ k2 = Constrained n2 r2 /\ ~ In ":"%char n1 /\
    constraint_source ic r2 = "{"%char :: n1 ++ ":"%char :: r1 ++ ["}"%char].
Lemma near_mt ic k1 k2 : near ic k1 k2 -> mt_of k1 = mt_of k2.
Proof. intros [->|[A|(n1 & r1 & n2 & r2 & -> & -> & _)]]; [reflexivity|eapply alike_mt; eassumption|reflexivity]. Qed.
Lemma spelled_is n r : ~ In ":"%char n -> spelled_constraint ("{"%char :: n ++ ":"%char :: r ++ ["}"%char]) = Some r.
Proof.
  intros N. unfold spelled_constraint. change (Ascii.eqb "{" "{") with true. cbn iota.
  assert (A : after_colon (n ++ ":"%char :: r ++ ["}"%char]) = Some (r ++ ["}"%char])).
  { induction n as [|c n IH]; [reflexivity|]. cbn [List.app after_colon].
    destruct (Ascii.eqb c ":") eqn:E; [apply Ascii.eqb_eq in E; exfalso; apply N; left; assumption|]. apply IH. intros I. apply N. right. assumption. }
  rewrite A, last_last. change (Ascii.eqb "}" "}") with true. cbn iota. rewrite removelast_last. reflexivity.
Qed.
Lemma near_fits ic rm k1 k2 t : near ic k1 k2 -> fits ic rm k1 t -> fits ic (meets rm) k2 t.
Proof.
  assert (L : forall k, fits ic rm k t -> fits ic (meets rm) k t).
  { intros []; cbn; auto. intros H. unfold meets. rewrite H. reflexivity. }
  intros [->|[A|(n1 & r1 & n2 & r2 & -> & -> & N & E)]] F; [exact (L _ F)|apply (alike_fits _ _ k1); [assumption|exact (L _ F)]|].
  cbn [fits] in *. destruct ic; cbn [constraint_source] in *; [discriminate E|]. subst r2. unfold meets. rewrite spelled_is by assumption.
  rewrite F. apply orb_true_r.
Qed.
Lemma same_val_near ci a b s k s' k' : shows ci a s k -> reads s k -> shows ci b s' k' -> reads s' k' -> has_same_val ci a b = true -> near ci k k'.
Proof.
  intros Sa Ra Sb Rb H.
  assert (D : plain_piece ci k' \/ exists n r, k' = Constrained n r) by (destruct k'; cbn; eauto).
  destruct D as [P|(n2 & r2 & ->)]; [right; left; apply (same_val_alike ci a b s k s' k'); assumption|].
  right. right. pose proof (has_same_mt _ _ _ H) as M. rewrite (shows_mt _ _ _ _ Sa), (shows_mt _ _ _ _ Sb) in M.
  destruct k as [|n1 r1| | | |]; try discriminate M. exists n1, r1, n2, r2. split; [reflexivity|]. split; [reflexivity|].
  unfold has_same_val in H. destruct Sa as [Va [Ma _]]. destruct Sb as [Vb [Mb [_ Hb]]]. rewrite Ma, Mb, Hb in H. cbn in H.
  apply beqb_eq in H. rewrite H, Va. inversion Ra; subst. split; [assumption|reflexivity].
Qed.
Lemma shares_loose ci a b s' k' : shown ci a -> shows ci b s' k' -> reads s' k' -> shares ci a b ->
  exists s k, shows ci a s k /\ reads s k /\ near ci k k'.
Proof.
  intros [s [k [Ha Ra]]] Hb Rb [->|H].
  - exists s', k'. split; [assumption|]. split; [assumption|]. left. reflexivity.
  - exists s, k. split; [assumption|]. split; [assumption|]. eapply same_val_near; eassumption.
Qed.

Lemma covers_reads_loose : forall re ci path l us ms, covers re ci path l us ms ->
  forall segs ps ks ts, Forall (shown ci) l -> Forall2 (shares ci) l segs ->
  shows_all ci segs ps ks -> Forall2 reads ps ks ->
  Forall2 (rec1 path) us ts ->
  exists bs, reads_as ci (meets (re_match re)) ks ts bs /\ map fst bs = names ks /\ map snd bs = captured ms ts.
Proof.
  intros re ci path l us ms H.
  induction H as [|s l u us m ms Hm Hm1 Hm2 H IH|s us Hs Hne|s l vs us ms Hs Hl H IH];
    intros segs ps ks ts Hsh Hsa Hall Hrd Hrec.
  - inversion Hsa; subst. inversion Hall; subst. inversion Hrec; subst.
    exists []. split; [constructor|auto].
  - inversion Hsa as [|? b ? segs' Hab Hsa']; subst. inversion Hall as [|? s' k ? ps' ks' Hk Hall']; subst.
    inversion Hrec as [|? t ? ts' Ht Hrec']; subst. inversion Hsh; subst. inversion Hrd; subst.
    destruct (IH segs' ps' ks' ts') as [bs [B1 [B2 B3]]]; auto.
    destruct (shares_loose ci s b s' k) as [s0 [k0 [S1 [S2 S3]]]]; auto.
    assert (Hmt : mt_of k0 = mt_of k) by (eapply near_mt; eassumption).
    assert (Hk0 : k0 <> Any).
    { intros ->. destruct S1 as [_ [S1 _]]. unfold seg_match in Hm. rewrite S1 in Hm. congruence. }
    assert (Hk1 : k <> Any).
    { intros ->. apply Hk0. apply mt_of_any. rewrite Hmt. reflexivity. }
    pose proof (seg_match_fits re ci path s s0 k0 u t S1 S2 Ht Hk0) as F. rewrite Hm in F.
    destruct F as [[F _]|[F1 F2]]; [congruence|].
    exists (match binds_name k with Some n => (n, t) :: bs | None => bs end).
    split; [|split].
    + apply reads_as_one; auto. eapply near_fits; eassumption.
    + cbn [names]. destruct (binds_name k); cbn [map fst]; congruence.
    + cbn [captured]. rewrite F1, Hmt, mt_of_capture. unfold named.
      destruct (binds_name k); cbn [map snd]; congruence.
  - inversion Hsa as [|? b ? segs' Hab Hsa']; subst. inversion Hsa'; subst.
    inversion Hall as [|? s' k ? ps' ks' Hk Hall']; subst. inversion Hall'; subst.
    assert (k = Any).
    { apply mt_of_any. rewrite <- (shows_mt _ _ _ _ Hk). destruct Hab as [->|Hab]; [assumption|].
      apply has_same_mt in Hab. congruence. }
    subst k. destruct ts as [|t ts]; [inversion Hrec; subst; congruence|].
    exists []. split; [constructor|]. split; [reflexivity|].
    pose proof (captured_multi _ us (t :: ts) [] [] (forall2_len _ _ _ _ _ Hrec)) as C.
    rewrite !app_nil_r in C. rewrite C. reflexivity.
  - inversion Hsa as [|? b ? segs' Hab Hsa']; subst.
    inversion Hall as [|? s' k ? ps' ks' Hk Hall']; subst. inversion Hsh; subst. inversion Hrd; subst.
    assert (k = Any).
    { apply mt_of_any. rewrite <- (shows_mt _ _ _ _ Hk). destruct Hab as [->|Hab]; [assumption|].
      apply has_same_mt in Hab. congruence. }
    subst k. apply Forall2_app_inv_l in Hrec. destruct Hrec as [ts1 [ts2 [R1 [R2 ->]]]].
    destruct (IH segs' ps' ks' ts2) as [bs [B1 [B2 B3]]]; auto.
    exists bs. split; [|split].
    + apply ra_any; auto. intros ->. inversion Hall'; subst. inversion Hsa'; subst. congruence.
    + assumption.
    + rewrite captured_multi by (eapply forall2_len; eassumption). assumption.
Qed.


Lemma route_reads_loose : forall re ci k pats m l p t ps ks path us ts ms, minv re ci k pats m ->
  In (l, p) (leaves (m_trie m)) -> parsed re ci p t ps ks ->
  covers re ci path l us ms -> Forall2 (rec1 path) us ts ->
  exists bs, reads_as ci (meets (re_match re)) ks ts bs /\ map fst bs = names ks /\ map snd bs = captured ms ts.
Proof.
  intros re ci k pats m l p t ps ks path us ts ms H Hl Hp Hc Hr.
  pose proof (mi_paths _ _ _ _ _ H) as Hpa. rewrite Forall_forall in Hpa.
  assert (Hin : In (l, p) (routes m)) by (unfold routes; apply in_or_app; right; assumption).
  specialize (Hpa _ Hin). cbn [fst snd] in Hpa.
  eapply covers_reads_loose; [eassumption| |eassumption|apply (pd_shows _ _ _ _ _ _ Hp)| |assumption].
  - eapply leaves_below; [apply (mi_shown _ _ _ _ _ H)|eassumption].
  - apply (pd_means _ _ _ _ _ _ Hp).
Qed.

Lemma dispatch_loose : forall re ci hist r f mth path ts buf h rec segs,
  rinv re ci hist r ->
  (blen path < 65536)%N -> segments_of path ts -> List.length buf = 19 ->
  dispatch_request f re r mth path buf = Calls h rec segs ->
  exists rg ps ks bs, In rg (registered (to_upper mth) hist) /\ reg_handler rg = h /\
    means (re_ok re) ci (reg_text rg) ps ks /\ reads_as ci (meets (re_match re)) ks ts bs /\
    forall name, path_var rec path segs name = Some (match value_of name bs with Some v => v | None => [] end).
Proof.
  intros re ci hist r f mth path ts buf h rec segs H Hs Hseg Hb E.
  destruct (parse_url_segments path ts buf Hs Hseg Hb) as [us [Hu Hrec]].
  assert (Hul : List.length us <= 19).
  { rewrite (records_len _ _ _ Hrec). eapply walked_len; eassumption. }
  destruct (records_rec1 _ _ _ Hs Hrec) as [Hr1 Hst].
  destruct (dispatch_wide re ci r mth path buf us (ri_ci _ _ _ _ H) Hu Hul) as [k [D [H1 H2]]].
  { intros m Hk. eapply rinv_calm; eassumption. }
  assert (ED : Calls h rec segs = D) by (eapply dispatch_det; [eassumption|eassumption|discriminate]).
  destruct (alookup (to_upper mth) (r_matchers r)) as [m|] eqn:Ek; [|congruence].
  destruct (ri_some _ _ _ _ H _ _ Ek) as [pats [M1 M2]].
  assert (Hpat : forall l p, In (l, p) (routes m) -> calls p rec segs = Calls h rec segs ->
     exists rg ps ks, In rg (registered (to_upper mth) hist) /\ reg_handler rg = h /\
       parsed re ci p (reg_text rg) ps ks).
  { intros l p Hin Hc. assert (Hp : In p pats) by (eapply minv_pats_in; eauto).
    destruct (forall2_in_r _ _ _ _ _ _ M2 Hp) as [rg [R1 [R2 [ps [ks R3]]]]].
    exists rg, ps, ks. split; [assumption|]. split.
    - unfold calls in Hc. rewrite R2 in Hc. congruence.
    - assumption. }
  unfold wide_behind in H2. destruct us as [|u us].
  - inversion Hr1; subst ts. destruct (m_root m) as [p|] eqn:Er; [|congruence].
    assert (Hin : In ([], p) (routes m)) by (unfold routes; rewrite Er; left; reflexivity).
    assert (Hcl : calls p rec segs = Calls h rec segs).
    { rewrite H2 in ED. unfold calls in *. destruct (p_att p); [|discriminate]. injection ED as -> -> ->. reflexivity. }
    destruct (Hpat _ _ Hin Hcl) as [rg [ps [ks [R1 [R2 R3]]]]].
    pose proof (mi_paths _ _ _ _ _ M1) as Hpa. rewrite Forall_forall in Hpa. specialize (Hpa _ Hin).
    cbn in Hpa. inversion Hpa as [Hsn|]. symmetry in H0. apply (proj1 (parsed_nil _ _ _ _ _ _ R3)) in H0. subst ks.
    exists rg, ps, [], []. split; [assumption|]. split; [assumption|]. split; [apply (pd_means _ _ _ _ _ _ R3)|].
    split; [constructor|]. intros name. cbn.
    assert (rec = None) by (unfold calls in H2; rewrite H2 in ED; destruct (p_att p); congruence). subst rec. reflexivity.
  - rewrite Hst in H2. destruct (wdfs re ci path (m_trie m) 0 (u :: us)) as [p ms| | |] eqn:Ed; try congruence.
    destruct H2 as [segs' [H3 [H4 H5]]]. rewrite H3 in ED.
    assert (Hrec' : rec = Some p /\ segs = segs') by (unfold calls in ED; destruct (p_att p); [injection ED; auto|discriminate]).
    destruct Hrec' as [-> ->].
    destruct (wdfs_sound _ _ _ _ _ _ _ _ Ed) as [l [L1 L2]].
    assert (Hin : In (l, p) (routes m)) by (unfold routes; apply in_or_app; right; assumption).
    destruct (Hpat _ _ Hin (eq_sym ED)) as [rg [ps [ks [R1 [R2 R3]]]]].
    destruct (route_reads_loose _ _ _ _ _ _ _ _ _ _ _ _ _ _ M1 L1 R3 L2 Hr1) as [bs [B1 [B2 B3]]].
    exists rg, ps, ks, bs. split; [assumption|]. split; [assumption|]. split; [apply (pd_means _ _ _ _ _ _ R3)|].
    split; [assumption|]. intros name. eapply path_var_value.
    + apply (pd_shows _ _ _ _ _ _ R3).
    + apply (pd_caps _ _ _ _ _ _ R3).
    + eapply strip_rec1; [|exact Hr1]. rewrite H4. symmetry. assumption.
    + assumption.
    + rewrite H5. assumption.
Qed.

Lemma routed_loose : forall fuel re ci regs r outs f mth path ts buf h rec segs,
  handle_all fuel re (new_router ci) regs = (r, outs) ->
  Forall (fun rg => countable (re_ok re) ci (reg_text rg)) regs ->
  (blen path < 65536)%N -> segments_of path ts -> List.length buf = 19 ->
  dispatch_request f re r mth path buf = Calls h rec segs ->
  exists mth' text ks bs, In ((mth', text, h), Registered) (combine regs outs) /\ same_method mth' mth /\
    pieces_of (re_ok re) ci text ks /\ reads_as ci (meets (re_match re)) ks ts bs /\
    forall name, path_var rec path segs name = Some (match value_of name bs with Some v => v | None => [] end).
Proof.
  intros fuel re ci regs r outs f mth path ts buf h rec segs H Hs Hp Ht Hb E.
  destruct (history _ _ _ _ _ _ H) as [R1 R2].
  { assumption. }
  destruct (dispatch_loose re ci (combine regs outs) r f mth path ts buf h rec segs) as [rg [ps [ks [bs [A1 [A2 [A3 [A4 A5]]]]]]]]; auto.
  - apply in_registered in A1. destruct A1 as [e [B1 [B2 B3]]]. subst e.
    destruct rg as [[mth' text] h']. cbn in *. subst h'. exists mth', text, ks, bs.
    split; [assumption|]. split; [apply same_method_upper; assumption|]. split; [exists ps; assumption|]. auto.
Qed.


(** Routers that ignore letter case put a mark before constraints, which no piece has. *)
Lemma meets_marked rm ks ts bs : reads_as true (meets rm) ks ts bs -> reads_as true rm ks ts bs.
Proof.
  induction 1 as [|w ks t ts bs Sm R IH|n r ks t ts bs A R IH|n ks t ts bs R IH|w ks t ts bs A R IH|ks t ts bs R IH|t ts|ks run ts bs A R IH];
    [apply ra_end|apply ra_lit|apply ra_constrained|apply ra_var|apply ra_glob|apply ra_one|apply ra_any_last|apply ra_any]; try assumption.
  unfold meets in A. change (spelled_constraint (constraint_source true r)) with (@None bytes) in A. rewrite orb_false_r in A. exact A.
Qed.
Lemma routed_marked : forall fuel re regs r outs f mth path ts buf h rec segs,
  handle_all fuel re (new_router true) regs = (r, outs) ->
  Forall (fun rg => countable (re_ok re) true (reg_text rg)) regs ->
  (blen path < 65536)%N -> segments_of path ts -> List.length buf = 19 ->
  dispatch_request f re r mth path buf = Calls h rec segs ->
  exists mth' text ks bs, In ((mth', text, h), Registered) (combine regs outs) /\ same_method mth' mth /\
    pieces_of (re_ok re) true text ks /\ reads_as true (re_match re) ks ts bs /\
    forall name, path_var rec path segs name = Some (match value_of name bs with Some v => v | None => [] end).
Proof.
  intros fuel re regs r outs f mth path ts buf h rec segs H1 H3 H4 H5 H6 H7.
  destruct (routed_loose _ _ _ _ _ _ _ _ _ _ _ _ _ _ H1 H3 H4 H5 H6 H7) as (a & b & c & d & A & B & C & D & E).
  exists a, b, c, d. split; [exact A|]. split; [exact B|]. split; [exact C|]. split; [apply meets_marked; exact D|exact E].
Qed.
