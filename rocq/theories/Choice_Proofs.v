(** * Which route answers: completeness, specificity, order, duplicates. *)
From Coq Require Import List NArith ZArith Ascii String Bool Lia Arith Permutation Sorted.
From Verif Require Import GoBase Glob_Model Glob_Spec Glob_Proofs Pattern_Model Pattern_Spec Pattern_Proofs
  Priority_Spec Priority_Proofs Url_Model Url_Spec Url_Proofs Match_Model Search_Proofs Trie_Proofs Grow_Proofs
  Router_Model Routing_Spec Covers_Proofs Routes_Proofs Dispatch_Proofs Routing_Proofs Complete_Proofs Choice_Spec.
Import ListNotations.
Local Open Scope string_scope.
Local Open Scope list_scope.
Local Open Scope nat_scope.

(** ** Nodes of constrained variables belong to one route *)

Definition braced (s : segment) : Prop :=
  s_mt s = MTConstraint -> hd "a"%char (s_val s) = "{"%char /\
    forall r, s_re s = Some r -> hd "a"%char r <> "{"%char.

Definition lone_braced (idx : nat) (l : list node) : Prop :=
  Forall (fun c => (s_mt (n_seg c) = MTConstraint -> hd "a"%char (s_val (n_seg c)) = "{"%char) /\ lone c) l.

Lemma grown_lone_braced : forall ci ps n, grown ci ps n -> Forall (fun p => Forall braced (p_segs p)) ps ->
  deep lone_braced n 0.
Proof.
  intros ci ps n G H.
  apply (grown_deep lone_braced (fun p => Forall braced (p_segs p)) ci (fun _ => Forall_nil _)) with (ps := ps); auto.
  intros p idx segs a b Hb. rewrite Forall_forall in Hb. apply grow_deep.
  - intros i. constructor.
  - intros i s before c after c' E1 E2 [U1 _] HL. unfold lone_braced in *.
    rewrite Forall_app, Forall_cons_iff in *. destruct HL as [A [[B1 B2] C]]. split; [assumption|]. split; [|assumption].
    rewrite U1. split; [assumption|]. intros Hm. rewrite U1 in Hm. exfalso.
    pose proof (has_same_mt _ _ _ E2) as Em. unfold has_same_val in E2. rewrite Hm in E2.
    apply andb_true_iff in E2. destruct E2 as [_ E2]. destruct (s_re s) as [r|] eqn:Er; [|discriminate].
    apply beqb_eq in E2. apply nth_error_In in E1. destruct (Hb s E1) as [_ X]; [congruence|].
    apply (X r Er). rewrite E2. auto.
  - intros i s rest l E _ HL. unfold lone_braced in *.
    apply (Permutation_Forall (Permutation_sym (sort_children_perm _))). apply Forall_app. split; [assumption|].
    constructor; [|constructor]. rewrite chain_eq at 1 2. cbn [n_seg]. split.
    + intros Hm. assert (Hin : In s (p_segs p)).
      { rewrite <- (firstn_skipn i (p_segs p)), E. apply in_or_app. right. left. reflexivity. }
      apply (Hb s Hin Hm).
    + intros _. destruct (chain_branch p rest i s) as [path Hp]. eauto.
Qed.

Lemma shows_all_braced : forall ci segs ps ks, shows_all ci segs ps ks -> Forall2 reads ps ks ->
  Forall (plain_piece ci) ks -> Forall braced segs.
Proof.
  intros ci segs ps ks H. induction H as [|sg s k segs ps ks Hk H IH]; intros Hr Hp; [constructor|].
  inversion Hr; subst. inversion Hp; subst. constructor; [|auto].
  intros Hm. rewrite (shows_mt _ _ _ _ Hk) in Hm. destruct k; try discriminate. destruct Hk as [Hv [_ [_ Hre]]].
  split.
  - rewrite Hv. eapply reads_constrained_hd; eassumption.
  - intros r Er. rewrite Hre in Er. injection Er as <-.
    match goal with H : reads _ _ |- _ => inversion H; subst end.
    apply constraint_source_hd; assumption.
Qed.

(** ** Ranks of parsed patterns *)

Lemma parsed_rank : forall re ci p1 t1 ps1 ks1 p2 t2 ps2 ks2,
  parsed re ci p1 t1 ps1 ks1 -> parsed re ci p2 t2 ps2 ks2 ->
  1 <= List.length ks1 <= 19 -> 1 <= List.length ks2 <= 19 -> any_only_last ks1 -> any_only_last ks2 ->
  ((p_prio p1 < p_prio p2)%N <-> more_specific ks1 ks2).
Proof.
  intros re ci p1 t1 ps1 ks1 p2 t2 ps2 ks2 P1 P2 L1 L2 A1 A2.
  pose proof (pd_shows _ _ _ _ _ _ P1) as S1. pose proof (pd_shows _ _ _ _ _ _ P2) as S2.
  destruct (shows_all_len _ _ _ _ S1) as [E1 E1']. destruct (shows_all_len _ _ _ _ S2) as [E2 E2'].
  destruct (pd_prio _ _ _ _ _ _ P1) as [f1 C1]; [intros ->; cbn in *; lia|].
  destruct (pd_prio _ _ _ _ _ _ P2) as [f2 C2]; [intros ->; cbn in *; lia|].
  apply (compute_priority_more f1 1) in C1. apply (compute_priority_more f2 1) in C2.
  rewrite rank_value in C1 by (try lia; eapply shows_multi_only_last; eauto).
  rewrite rank_value in C2 by (try lia; eapply shows_multi_only_last; eauto).
  injection C1 as <-. injection C2 as <-.
  destruct (rank_digits_ok (p_segs p1)) as [D1 Q1]; [lia|].
  destruct (rank_digits_ok (p_segs p2)) as [D2 Q2]; [lia|].
  rewrite dval_lex by (try assumption; congruence).
  rewrite (shows_all_rank _ _ _ _ S1), (shows_all_rank _ _ _ _ S2).
  apply (padded_lex 19); auto; lia.
Qed.

Lemma ms_asym : forall a b, more_specific a b -> ~ more_specific b a.
Proof. intros a b H. induction H; intros A; inversion A; subst; try lia; auto. Qed.
Lemma ms_irrefl : forall a, ~ more_specific a a.
Proof. intros a H. apply (ms_asym _ _ H H). Qed.
Lemma ms_total : forall a b, map kind_rank a = map kind_rank b \/ more_specific a b \/ more_specific b a.
Proof.
  induction a as [|x a IH]; intros [|y b].
  - left. reflexivity.
  - right. left. constructor.
  - right. right. constructor.
  - destruct (lt_eq_lt_dec (kind_rank x) (kind_rank y)) as [[H|H]|H].
    + right. left. apply ms_here. assumption.
    + destruct (IH b) as [E|[E|E]].
      * left. cbn. congruence.
      * right. left. apply ms_later; assumption.
      * right. right. apply ms_later; [symmetry; assumption|assumption].
    + right. right. apply ms_here. assumption.
Qed.
Lemma ms_at : forall r a b x y X Y, map kind_rank a = r ++ x :: X -> map kind_rank b = r ++ y :: Y -> x < y ->
  more_specific a b.
Proof.
  induction r as [|z r IH]; intros a b x y X Y Ea Eb H; destruct a as [|a0 a], b as [|b0 b]; try discriminate; cbn in *;
    injection Ea as Ea1 Ea2; injection Eb as Eb1 Eb2.
  - apply ms_here. lia.
  - apply ms_later; [lia|]. eapply IH; eassumption.
Qed.

(** ** Splitting what is shown *)

Lemma shows_all_app : forall ci s1 s2 ps ks, shows_all ci (s1 ++ s2) ps ks ->
  exists p1 p2 k1 k2, ps = p1 ++ p2 /\ ks = k1 ++ k2 /\ shows_all ci s1 p1 k1 /\ shows_all ci s2 p2 k2.
Proof.
  intros ci. induction s1 as [|s s1 IH]; intros s2 ps ks H.
  - exists [], ps, [], ks. split; [reflexivity|]. split; [reflexivity|]. split; [constructor|assumption].
  - cbn [app] in H. inversion H as [|? p k ? ps' ks' Hk H']; subst. destruct (IH _ _ _ H') as [p1 [p2 [k1 [k2 [-> [-> [A B]]]]]]].
    exists (p :: p1), p2, (k :: k1), k2. split; [reflexivity|]. split; [reflexivity|]. split; [constructor; assumption|assumption].
Qed.

Lemma forall2_app_len : forall (A B : Type) (R : A -> B -> Prop) a1 a2 b1 b2, Forall2 R (a1 ++ a2) (b1 ++ b2) ->
  List.length a1 = List.length b1 -> Forall2 R a1 b1 /\ Forall2 R a2 b2.
Proof.
  intros A B R. induction a1 as [|x a1 IH]; intros a2 [|y b1] b2 H E; try discriminate.
  - split; [constructor|assumption].
  - cbn in H. inversion H; subst. injection E as E. destruct (IH _ _ _ H5 E). split; [constructor; assumption|assumption].
Qed.

Definition rank_of (s : segment) : nat := N.to_nat (mt_code (s_mt s)).

Lemma ranks : forall ci l segs ps ks, Forall2 (shares ci) l segs -> shows_all ci segs ps ks ->
  map kind_rank ks = map rank_of l.
Proof.
  intros ci l segs ps ks H1 H2. apply shares_mts in H1.
  assert (E : map rank_of l = map rank_of segs).
  { unfold rank_of. rewrite <- (map_map s_mt (fun m => N.to_nat (mt_code m))), H1, map_map. reflexivity. }
  rewrite E. clear - H2. induction H2 as [|sg s k segs ps ks Hk H IH]; [reflexivity|]. cbn [map]. rewrite IH. f_equal.
  unfold rank_of. rewrite (shows_code _ _ _ _ Hk). rewrite Nat2N.id. reflexivity.
Qed.

(** ** Nodes and the pieces of the routes behind them *)

Lemma mt_of_rank : forall k, N.to_nat (mt_code (mt_of k)) = kind_rank k.
Proof. intros []; reflexivity. Qed.

Lemma alike_same_piece : forall ic k1 k2, alike ic k1 k2 -> same_piece ic k1 k2.
Proof. intros ic [] []; cbn; auto; tauto. Qed.
Lemma same_piece_alike : forall ic k1 k2, same_piece ic k1 k2 -> (forall n r, k2 <> Constrained n r) -> alike ic k1 k2.
Proof. intros ic [] [] H Hn; cbn in *; auto. exfalso. eapply Hn. reflexivity. Qed.

Definition stands (ci : bool) (a : segment) (k : piece) : Prop :=
  exists s k0, shows ci a s k0 /\ reads s k0 /\ (k0 = k \/ alike ci k0 k).

Lemma stands_all : forall ci l segs, Forall2 (shares ci) l segs -> forall ps ks, Forall (shown ci) l ->
  shows_all ci segs ps ks -> Forall2 reads ps ks -> Forall (plain_piece ci) ks -> Forall2 (stands ci) l ks.
Proof.
  intros ci l segs H. induction H as [|a b l segs Hab H IH]; intros ps ks Hsh Hall Hrd Hpl.
  - inversion Hall; subst. constructor.
  - inversion Hall as [|? s k ? ps' ks' Hk Hall']; subst. inversion Hsh; subst. inversion Hrd; subst. inversion Hpl; subst.
    constructor; [|eapply IH; eauto]. apply (shares_fits ci a b s k); assumption.
Qed.

Lemma stands_mt : forall ci a k, stands ci a k -> s_mt a = mt_of k.
Proof.
  intros ci a k [s [k0 [S1 [S2 S3]]]]. rewrite (shows_mt _ _ _ _ S1). destruct S3 as [->|S3]; [reflexivity|].
  eapply alike_mt; eassumption.
Qed.

Lemma alike_self : forall ci k, mt_of k <> MTConstraint -> alike ci k k.
Proof. intros ci [] H; cbn in *; try exact I; try (apply same_text_refl). congruence. Qed.

Lemma stands_same : forall ci a k a' k', stands ci a k -> stands ci a' k' -> s_mt a <> MTConstraint ->
  (has_same_val ci a a' = true <-> same_piece ci k k').
Proof.
  intros ci a k a' k' [s [k0 [S1 [S2 S3]]]] [s' [k0' [S1' [S2' S3']]]] Hn.
  rewrite (shows_mt _ _ _ _ S1) in Hn.
  assert (A : alike ci k0 k) by (destruct S3 as [->|S3]; [apply alike_self; assumption|assumption]).
  assert (Hpl : alike ci k0 k0' -> plain_piece ci k0') by (intros B; destruct k0, k0'; cbn in B |- *; auto).
  split.
  - intros H. assert (Em : mt_of k0' = mt_of k0).
    { rewrite <- (shows_mt _ _ _ _ S1), <- (shows_mt _ _ _ _ S1'). symmetry. eapply has_same_mt. eassumption. }
    assert (B : alike ci k0 k0').
    { apply (same_val_alike ci a a' s k0 s' k0'); auto. destruct k0'; cbn; try exact I. exfalso. apply Hn. rewrite <- Em. reflexivity. }
    assert (A' : alike ci k0' k') by (destruct S3' as [->|S3']; [apply alike_self; congruence|assumption]).
    apply alike_same_piece. eapply alike_trans; [apply alike_sym; exact A|]. eapply alike_trans; eassumption.
  - intros H. assert (B : alike ci k k').
    { apply same_piece_alike; [assumption|]. intros n r ->. destruct k; cbn in H; try contradiction.
      destruct k0; cbn in A; contradiction. }
    assert (A' : alike ci k0' k').
    { destruct S3' as [->|S3']; [|assumption]. apply alike_self. intros E. destruct k'; try discriminate. destruct k; cbn in B; contradiction. }
    assert (C : alike ci k0 k0') by (eapply alike_trans; [exact A|]; eapply alike_trans; [exact B|]; apply alike_sym; exact A').
    apply (same_val_alike ci a a' s k0 s' k0'); auto.
Qed.

Lemma same_piece_rank : forall ci k k', same_piece ci k k' -> kind_rank k = kind_rank k'.
Proof. intros ci [] [] H; cbn in *; try contradiction; reflexivity. Qed.

Lemma same_pieces_rank : forall ci ks ks', Forall2 (same_piece ci) ks ks' -> map kind_rank ks = map kind_rank ks'.
Proof. intros ci ks ks' H. induction H; [reflexivity|]. cbn. f_equal; [eapply same_piece_rank; eassumption|assumption]. Qed.

Lemma ms_prefix : forall a b c, map kind_rank a = map kind_rank b -> c <> [] -> more_specific a (b ++ c).
Proof.
  induction a as [|x a IH]; intros [|y b] c E Hc; try discriminate.
  - destruct c; [congruence|]. constructor.
  - cbn in E. injection E as E1 E2. cbn [app]. apply ms_later; auto.
Qed.

Lemma siblings_differ : forall ci i ch c c', all_differ ci i ch -> In c ch -> In c' ch -> s_mt (n_seg c) <> MTConstraint ->
  has_same_val ci (n_seg c) (n_seg c') = true -> c = c'.
Proof.
  intros ci i ch c c' H. unfold all_differ in H. induction H as [|x ch Hx H IH]; intros Hc Hc' Hn Hs; [destruct Hc|].
  rewrite Forall_forall in Hx. destruct Hc as [->|Hc], Hc' as [->|Hc'].
  - reflexivity.
  - exfalso. destruct (Hx _ Hc') as [A _]. destruct (A Hn). congruence.
  - exfalso. destruct (Hx _ Hc) as [_ A]. destruct (A Hn). congruence.
  - auto.
Qed.

Lemma follow : forall ci n l p, reach n l p -> forall i l' r q, deep (all_differ ci) n i ->
  In (l' ++ r, q) (leaves n) -> r <> [] ->
  Forall2 (fun a b => s_mt a <> MTConstraint /\ has_same_val ci a b = true) l l' ->
  l' = l /\ exists z, In z (n_ch p) /\ In (r, q) (branch z).
Proof.
  intros ci n l p H. induction H as [n|n c l p Hc H IH]; intros i l' r q D Hl Hr F.
  - inversion F; subst. split; [reflexivity|]. apply in_leaves in Hl. exact Hl.
  - inversion F as [|? b ? l0 [F1 F2] F']; subst. apply deep_eq in D. destruct D as [D1 D2].
    apply in_leaves in Hl. destruct Hl as [c' [Hc' Hl]]. destruct (branch_head _ _ _ Hl) as [l2 El].
    cbn [app] in El. injection El as -> El.
    pose proof (siblings_differ _ _ _ _ _ D1 Hc Hc' F1 F2) as <-.
    apply in_branch in Hl. destruct Hl as [[E _]|[l3 [E Hl]]].
    + cbn [app] in E. injection E as E. destruct l0; [cbn in E; congruence|discriminate].
    + cbn [app] in E. injection E as <-. rewrite Forall_forall in D2. destruct (IH _ _ _ _ (D2 _ Hc) Hl Hr F') as [-> Hz].
      split; [reflexivity|assumption].
Qed.

Lemma one_below : forall n l p, reach n l p -> forall i, deep (all_lone) n i -> In MTConstraint (map s_mt l) ->
  forall x r q y r' q', In x (n_ch p) -> In (r, q) (branch x) -> In y (n_ch p) -> In (r', q') (branch y) -> (r, q) = (r', q').
Proof.
  intros n l p H. induction H as [n|n c l p Hc H IH]; intros i D Hin x r q y r' q' Hx Hr Hy Hr'.
  - destruct Hin.
  - apply deep_eq in D. destruct D as [D1 D2]. unfold all_lone in D1. rewrite Forall_forall in D1, D2.
    cbn [map] in Hin. destruct (mtype_eq_dec (s_mt (n_seg c)) MTConstraint) as [E|E].
    + destruct (D1 _ Hc E) as [lq Hb].
      assert (A : forall x r q, In x (n_ch p) -> In (r, q) (branch x) -> In (n_seg c :: l ++ r, q) (branch c)).
      { intros x0 r0 q0 Hx0 Hr0. apply in_branch. right. exists (l ++ r0). split; [reflexivity|]. eapply reach_leaf; eassumption. }
      pose proof (A _ _ _ Hx Hr) as A1. pose proof (A _ _ _ Hy Hr') as A2. rewrite Hb in A1, A2.
      destruct A1 as [->|[]]. destruct A2 as [A2|[]]. injection A2 as A2 ->. apply app_inv_head in A2. congruence.
    + destruct Hin as [Hin|Hin]; [congruence|]. exact (IH _ (D2 _ Hc) Hin _ _ _ _ _ _ Hx Hr Hy Hr').
Qed.

Lemma reach_deep : forall L n l p, reach n l p -> forall i, deep L n i -> deep L p (i + List.length l).
Proof.
  intros L n l p H. induction H as [n|n c l p Hc H IH]; intros i D.
  - cbn [List.length]. rewrite Nat.add_0_r. assumption.
  - apply deep_eq in D. destruct D as [_ D2]. rewrite Forall_forall in D2. cbn [List.length]. rewrite <- Nat.add_succ_comm. eauto.
Qed.

Lemma cov_app : forall re ci path l us ms, covers re ci path l us ms -> ~ In MTMulti (map s_mt l) ->
  forall r vs ms', covers re ci path r vs ms' -> exists ms2, covers re ci path (l ++ r) (us ++ vs) ms2.
Proof.
  intros re ci path l us ms H. induction H as [|s l u us m ms H1 H2 H3 H IH|s us Hs Hne|s l vs us ms Hs Hl H IH]; intros Hn r ws ms' Hr.
  - eauto.
  - destruct (IH (fun A => Hn (or_intror A)) _ _ _ Hr) as [ms2 X]. exists (m :: ms2). cbn [app]. apply cov_one; assumption.
  - exfalso. apply Hn. left. assumption.
  - exfalso. apply Hn. left. assumption.
Qed.

Lemma cov_app_inv : forall re ci path l us ms, covers re ci path l us ms -> ~ In MTMulti (map s_mt l) ->
  forall r vs ms', covers re ci path (l ++ r) (us ++ vs) ms' -> exists ms2, covers re ci path r vs ms2.
Proof.
  intros re ci path l us ms H. induction H as [|s l u us m ms H1 H2 H3 H IH|s us Hs Hne|s l vs us ms Hs Hl H IH]; intros Hn r ws ms' Hr.
  - eauto.
  - cbn [app] in Hr. assert (Hs : s_mt s <> MTMulti) by (intros A; apply Hn; left; assumption).
    inversion Hr as [|? ? ? ? m' ms1 A1 A2 A3 A4|? ? A1 A2|? ? vs us0 ms1 A1 A2 A3]; subst; try contradiction.
    eapply IH; [intros A; apply Hn; right; assumption|eassumption].
  - exfalso. apply Hn. left. assumption.
  - exfalso. apply Hn. left. assumption.
Qed.

(** ** The matcher *)

Section Matcher.
Variable re : engine.
Variable ci : bool.
Variable k : nat.
Variable pats : list pattern.
Variable m : matcher.
Variable path : bytes.
Variable us : list useg.
Variable ts : list bytes.
Hypothesis M : minv re ci k pats m.
Hypothesis Hrec : Forall2 (rec1 path) us ts.
Hypothesis Hlen : List.length us <= 19.
Hypothesis Hne : us <> [].
Hypothesis Hplain : forall q t ps ks, In q pats -> parsed re ci q t ps ks -> Forall (plain_piece ci) ks.
Hypothesis Hlast : forall q t ps ks, In q pats -> parsed re ci q t ps ks -> any_only_last ks.
Hypothesis Hcalm : forall q t ps ks, In q pats -> parsed re ci q t ps ks ->
  forall w s, In (Glob w) ks -> In s ts -> calm ci w s.
Definition some_route (_ : reg) (ks : list piece) : Prop := exists q t ps, In q pats /\ parsed re ci q t ps ks.
Hypothesis Hcut : forall q t ps ks, In q pats -> parsed re ci q t ps ks -> not_cut ci (re_match re) some_route ts ks.

Lemma leaf_route : forall l q, In (l, q) (leaves (m_trie m)) ->
  In q pats /\ Forall2 (shares ci) l (p_segs q) /\ Forall (shown ci) l /\ exists t ps ks, parsed re ci q t ps ks.
Proof.
  intros l q H.
  assert (Hin : In (l, q) (routes m)) by (unfold routes; apply in_or_app; right; assumption).
  assert (Hq : In q pats) by (eapply minv_pats_in; eauto).
  split; [assumption|]. split; [|split].
  - pose proof (mi_paths _ _ _ _ _ M) as Hpa. rewrite Forall_forall in Hpa. apply (Hpa _ Hin).
  - eapply leaves_below; [apply (mi_shown _ _ _ _ _ M)|eassumption].
  - pose proof (mi_parsed _ _ _ _ _ M) as Hp. rewrite Forall_forall in Hp. apply (Hp _ Hq).
Qed.

Lemma leaf_good : forall l q, In (l, q) (leaves (m_trie m)) -> good 0 l q.
Proof.
  intros l q H. destruct (leaf_route _ _ H) as [Hq [Hsh [Hsn [t [ps [ks P]]]]]].
  pose proof (pd_shows _ _ _ _ _ _ P) as S. destruct (pd_means _ _ _ _ _ _ P) as [_ [Hrd _]].
  destruct (shows_all_len _ _ _ _ S) as [E1 E2].
  split.
  - destruct (in_dec mtype_eq_dec MTMulti (map s_mt l)) as [Hi|Hi].
    + left. unfold is_greedy. rewrite (pd_any _ _ _ _ _ _ P); [reflexivity|].
      rewrite (shares_mts _ _ _ Hsh), (shows_all_mts _ _ _ _ S) in Hi. apply in_map_iff in Hi.
      destruct Hi as [x [X1 X2]]. apply mt_of_any in X1. subst x. assumption.
    + right. split; [assumption|]. pose proof (pd_short _ _ _ _ _ _ P).
      rewrite (pd_noany _ _ _ _ _ _ P).
      * split; [|lia]. cbn [Nat.add]. rewrite (forall2_len _ _ _ _ _ Hsh). f_equal. lia.
      * intros A. apply Hi. rewrite (shares_mts _ _ _ Hsh), (shows_all_mts _ _ _ _ S). apply in_map_iff.
        exists Any. auto.
  - eapply any_last_mts; [exact Hsh|exact S|]. eapply Hlast; eassumption.
Qed.

Lemma pats_braced : Forall (fun p => Forall braced (p_segs p)) pats.
Proof.
  apply Forall_forall. intros q Hq. pose proof (mi_parsed _ _ _ _ _ M) as Hp. rewrite Forall_forall in Hp.
  destruct (Hp _ Hq) as [t [ps [ks P]]]. eapply shows_all_braced; [apply (pd_shows _ _ _ _ _ _ P)| |].
  - apply (pd_means _ _ _ _ _ _ P).
  - eapply Hplain; eassumption.
Qed.

Lemma trie_calm : dfs re ci path (m_trie m) 0 us <> Panic.
Proof.
  apply (dfs_no_panic re ci path us); auto.
  - eapply search_quiet; [eassumption|eassumption|]. intros q t ps ks Hq P w s Hw Hs. eapply Hcalm; eassumption.
  - apply (grown_made ci pats). apply (mi_grown _ _ _ _ _ M).
  - exists []. left. cbn. lia.
  - intros l p Hl. right. split; [cbn; lia|]. destruct (leaf_good _ _ Hl) as [_ A]. assumption.
Qed.

Lemma quiet_leaf : forall l q, In (l, q) (leaves (m_trie m)) -> forall s u, In s l -> In u us ->
  seg_match re ci path s u <> SPanic.
Proof.
  assert (D : deep (quiet re ci path us) (m_trie m) 0).
  { eapply search_quiet; [eassumption|eassumption|]. intros q t ps ks Hq P w s Hw Hs. eapply Hcalm; eassumption. }
  revert D. generalize 0. induction (m_trie m) as [mx pr sg pt ch IH] using node_ind'. intros d D l q Hl s u Hs Hu.
  apply deep_eq in D. cbn [n_ch] in D. destruct D as [D1 D2]. apply in_leaves in Hl. cbn [n_ch] in Hl.
  destruct Hl as [c [Hc Hl]]. unfold quiet in D1. rewrite Forall_forall in *. apply in_branch in Hl.
  destruct Hl as [[-> _]|[l' [-> Hl]]].
  - destruct Hs as [<-|[]]. apply D1; assumption.
  - destruct Hs as [<-|Hs]; [apply D1; assumption|]. eapply IH; eauto.
Qed.

Lemma leaf_covers : forall l q t ps ks bs, In (l, q) (leaves (m_trie m)) -> parsed re ci q t ps ks ->
  reads_as ci (re_match re) ks ts bs -> exists ms, covers re ci path l us ms.
Proof.
  intros l q t ps ks bs Hl P Hr. destruct (leaf_route _ _ Hl) as [Hq [Hsh [Hsn _]]].
  eapply reads_covers; [exact Hsh|exact Hsn|apply (pd_shows _ _ _ _ _ _ P)|apply (pd_means _ _ _ _ _ _ P)|
    eapply Hplain; eassumption|exact Hrec|eapply quiet_leaf; eassumption|exact Hr].
Qed.

Lemma route_leaf : forall q t ps ks bs, In q pats -> parsed re ci q t ps ks -> reads_as ci (re_match re) ks ts bs ->
  exists l, In (l, q) (leaves (m_trie m)).
Proof.
  intros q t ps ks bs Hq P Hr. apply (minv_pats_in _ _ _ _ _ q M) in Hq. destruct Hq as [l Hl].
  unfold routes in Hl. apply in_app_or in Hl. destruct Hl as [Hl|Hl]; [|eauto].
  exfalso. destruct (m_root m) as [p|] eqn:Er; [|destruct Hl]. destruct Hl as [E|[]]. injection E as <- ->.
  assert (Hin : In ([], q) (routes m)) by (unfold routes; rewrite Er; left; reflexivity).
  pose proof (mi_paths _ _ _ _ _ M) as Hpa. rewrite Forall_forall in Hpa. specialize (Hpa _ Hin). cbn in Hpa.
  inversion Hpa as [Hsn|]. symmetry in H. apply (proj1 (parsed_nil _ _ _ _ _ _ P)) in H. subst ks.
  inversion Hr; subst. inversion Hrec. congruence.
Qed.

(** ** The chosen route is not less specific than any other that reads the request *)

Hypothesis Hsize : forall q t ps ks, In q pats -> parsed re ci q t ps ks -> List.length ks <= 19.
Hypothesis Hglob : forall q1 t1 ps1 ks1 bs1 q2 t2 ps2 ks2 bs2, In q1 pats -> In q2 pats ->
  parsed re ci q1 t1 ps1 ks1 -> parsed re ci q2 t2 ps2 ks2 ->
  reads_as ci (re_match re) ks1 ts bs1 -> reads_as ci (re_match re) ks2 ts bs2 ->
  forall i a b, map kind_rank (firstn i ks1) = map kind_rank (firstn i ks2) ->
  nth_error ks1 i = Some (Glob a) -> nth_error ks2 i = Some (Glob b) -> same_text ci a b.

Lemma leaf_at : forall l0 s r q t ps ks, In (l0 ++ s :: r, q) (leaves (m_trie m)) -> parsed re ci q t ps ks ->
  exists x s0 k0, nth_error ks (List.length l0) = Some x /\ shows ci s s0 k0 /\ reads s0 k0 /\ plain_piece ci x /\
    (k0 = x \/ alike ci k0 x) /\ map kind_rank ks = map rank_of l0 ++ kind_rank x :: map rank_of r /\ kind_rank x = rank_of s.
Proof.
  intros l0 s r q t ps ks Hl P. destruct (leaf_route _ _ Hl) as [Hq [Hsh [Hsn _]]].
  pose proof (pd_shows _ _ _ _ _ _ P) as S. destruct (pd_means _ _ _ _ _ _ P) as [_ [Hrd _]].
  pose proof (Hplain _ _ _ _ Hq P) as Hpl.
  pose proof (ranks _ _ _ _ _ Hsh S) as Hrk. rewrite map_app in Hrk. cbn [map] in Hrk.
  apply Forall2_app_inv_l in Hsh. destruct Hsh as [s1 [s2 [F1 [F2 Es]]]]. rewrite Es in S.
  inversion F2 as [|? b ? s3 Fb F3]; subst.
  destruct (shows_all_app _ _ _ _ _ S) as [p1 [p2 [k1 [k2 [-> [-> [A B]]]]]]].
  inversion B as [|? s' x ? p3 k3 Hx B']; subst.
  destruct (shows_all_len _ _ _ _ A) as [L1 L2].
  apply forall2_app_len in Hrd; [|congruence]. destruct Hrd as [Rd1 Rd2]. inversion Rd2; subst.
  apply Forall_app in Hsn. destruct Hsn as [_ Sn]. inversion Sn; subst.
  apply Forall_app in Hpl. destruct Hpl as [_ Pl]. inversion Pl; subst.
  destruct (shares_fits ci s b s' x) as [s0 [k0 [X1 [X2 X3]]]]; auto.
  assert (Hlen' : List.length l0 = List.length k1) by (rewrite (forall2_len _ _ _ _ _ F1); congruence).
  rewrite map_app in Hrk. cbn [map] in Hrk.
  assert (Hr2 : map kind_rank k1 = map rank_of l0 /\ kind_rank x :: map kind_rank k3 = rank_of s :: map rank_of r).
  { clear - Hrk Hlen'. revert k1 Hrk Hlen'. induction l0 as [|y l0 IH]; intros [|z k1] E L; try discriminate.
    - auto.
    - cbn in E. injection E as E1 E2. injection L as L. destruct (IH _ E2 L) as [I1 I2]. split; [cbn; congruence|assumption]. }
  destruct Hr2 as [R1 R2]. injection R2 as R2 R3.
  exists x, s0, k0. rewrite Hlen'. split.
  - rewrite nth_error_app2 by lia. rewrite Nat.sub_diag. reflexivity.
  - split; [assumption|]. split; [assumption|]. split; [assumption|]. split; [assumption|]. split; [|assumption].
    rewrite map_app. cbn [map]. congruence.
Qed.

Lemma leaf_stands : forall l q t ps ks, In (l, q) (leaves (m_trie m)) -> parsed re ci q t ps ks -> Forall2 (stands ci) l ks.
Proof.
  intros l q t ps ks Hl P. destruct (leaf_route _ _ Hl) as [Hq [Hsh [Hsn _]]].
  eapply stands_all; [exact Hsh|exact Hsn|apply (pd_shows _ _ _ _ _ _ P)|apply (pd_means _ _ _ _ _ _ P)|eapply Hplain; eassumption].
Qed.

(** The beginning of a route that covers the request reads it. *)
Lemma begin_reads : forall l1 l2 q t ps ks ms, In (l1 ++ l2, q) (leaves (m_trie m)) -> parsed re ci q t ps ks ->
  covers re ci path l1 us ms -> exists k1 k2 bs, ks = k1 ++ k2 /\ List.length k1 = List.length l1 /\
    Forall2 (stands ci) l1 k1 /\ Forall2 (stands ci) l2 k2 /\ reads_as ci (re_match re) k1 ts bs.
Proof.
  intros l1 l2 q t ps ks ms Hl P Hc. pose proof (leaf_stands _ _ _ _ _ Hl P) as St.
  destruct (leaf_route _ _ Hl) as [Hq [Hsh [Hsn _]]].
  pose proof (pd_shows _ _ _ _ _ _ P) as S. destruct (pd_means _ _ _ _ _ _ P) as [_ [Hrd _]].
  apply Forall2_app_inv_l in Hsh. destruct Hsh as [s1 [s2 [F1 [F2 Es]]]].
  rewrite Es in S. destruct (shows_all_app _ _ _ _ _ S) as [p1 [p2 [k1 [k2 [-> [-> [A B]]]]]]].
  destruct (shows_all_len _ _ _ _ A) as [L1 L2].
  apply forall2_app_len in Hrd; [|congruence]. destruct Hrd as [Rd1 Rd2].
  apply Forall_app in Hsn. destruct Hsn as [Sn1 Sn2].
  pose proof (Hplain _ _ _ _ Hq P) as Hpl. apply Forall_app in Hpl. destruct Hpl as [Pl1 _].
  destruct (covers_reads _ _ _ _ _ _ Hc _ _ _ _ Sn1 F1 A Rd1 Pl1 Hrec) as [bs [B1 _]].
  assert (Hk : List.length k1 = List.length l1) by (rewrite (forall2_len _ _ _ _ _ F1); congruence).
  apply forall2_app_len in St; [|congruence]. destruct St as [St1 St2].
  exists k1, k2, bs. auto.
Qed.

Lemma trie_ends : all_end_well re ci path us (m_trie m).
Proof.
  pose proof (mi_grown _ _ _ _ _ M) as G.
  assert (Dd : deep (all_differ ci) (m_trie m) 0) by (apply (grown_differ _ _ _ G)).
  assert (Dm : deep all_made (m_trie m) 0) by (apply (grown_made _ _ _ G)).
  assert (Dl : deep all_lone (m_trie m) 0).
  { eapply deep_imp; [|apply (grown_lone_braced _ _ _ G pats_braced)]. intros i l D.
    eapply Forall_impl; [|exact D]. intros c [_ X]. assumption. }
  intros l p us0 u ms Hr Eu Hv x mt Hx Hpx Hm Hm1 Hm2 [y [Hy [ly [qy [msy [Y1 Y2]]]]]].
  assert (Eus : us = us0 ++ [u] /\ True) by auto. clear Eu.
  pose proof (reach_deep _ _ _ _ Hr _ Dd) as Dd'. apply deep_eq in Dd'. destruct Dd' as [Dd' _].
  pose proof (reach_deep _ _ _ _ Hr _ Dm) as Dm'. apply deep_eq in Dm'. destruct Dm' as [Dm' _].
  pose proof (reach_deep _ _ _ _ Hr _ Dl) as Dl'. apply deep_eq in Dl'. destruct Dl' as [Dl' _].
  unfold all_made, all_lone in Dm', Dl'. rewrite Forall_forall in Dm', Dl'.
  destruct (Dm' _ Hx) as [lx [q [X1 [X2 _]]]].
  pose proof (reach_leaf _ _ _ Hr _ _ _ Hx X1) as Lx. pose proof (reach_leaf _ _ _ Hr _ _ _ Hy Y1) as Ly.
  destruct (leaf_route _ _ Lx) as [Qx [_ [_ [t [ps [ks P]]]]]]. destruct (leaf_route _ _ Ly) as [Qy [_ [_ [ty [psy [ksy Py]]]]]].
  assert (El : exists l', lx = n_seg x :: l' /\ l' <> []).
  { apply in_branch in X1. destruct X1 as [[_ A]|[l' [-> A]]]; [congruence|]. exists l'. split; [reflexivity|].
    eapply leaf_path_not_nil; eassumption. }
  destruct El as [l' [-> Hl']].
  assert (Hnm : ~ In MTMulti (map s_mt l)).
  { destruct (leaf_good _ _ Lx) as [_ A]. intros B. apply A. rewrite removelast_app by discriminate. rewrite map_app.
    apply in_or_app. left. assumption. }
  assert (Ey : ly = [n_seg y]).
  { destruct (branch_head _ _ _ Y1) as [l2 ->]. f_equal. destruct (leaf_good _ _ Ly) as [_ A].
    inversion Y2 as [|? ? ? ? m' ms1 A1 A2 A3 A4|? ? A1 A2|? ? vs us1 ms1 A1 A2 A3]; subst.
    - eapply covers_nil; eassumption.
    - reflexivity.
    - exfalso. apply A. rewrite removelast_app by discriminate. rewrite map_app. apply in_or_app. right.
      destruct l2; [congruence|]. left. assumption. }
  subst ly.
  (* the pattern behind [x], up to [x] *)
  destruct (cov_app _ _ _ _ _ _ Hv Hnm [n_seg x] [u] [mt]) as [msx Cx]; [apply cov_one; auto; apply cov_nil|].
  rewrite <- (proj1 Eus) in Cx.
  replace (l ++ n_seg x :: l') with ((l ++ [n_seg x]) ++ l') in Lx by (rewrite <- app_assoc; reflexivity).
  destruct (begin_reads _ _ _ _ _ _ _ Lx P Cx) as [k1 [k2 [bs [-> [_ [St1 [St2 Rx]]]]]]].
  apply Forall2_app_inv_l in St1. destruct St1 as [k0 [kl [St0 [Stk ->]]]]. inversion Stk as [|? kk ? e Sk Se]; subst. inversion Se; subst.
  assert (Hk2 : k2 <> []) by (intros ->; inversion St2; subst; congruence).
  (* the route behind [y] *)
  destruct (cov_app _ _ _ _ _ _ Hv Hnm _ _ _ Y2) as [msy' Cy]. rewrite <- (proj1 Eus) in Cy.
  assert (Ly' : In ((l ++ [n_seg y]) ++ [], qy) (leaves (m_trie m))) by (rewrite app_nil_r; assumption).
  destruct (begin_reads _ _ _ _ _ _ _ Ly' Py Cy) as [k1y [k2y [bsy [Eky [_ [Sy1 [Sy2 Ry]]]]]]]. inversion Sy2; subst k2y.
  rewrite app_nil_r in Eky. subst k1y.
  apply Forall2_app_inv_l in Sy1. destruct Sy1 as [k0y [kly [Sy0 [Syk ->]]]]. inversion Syk as [|? ky ? e Sky Se']; subst. inversion Se'; subst.
  destruct (in_dec mtype_eq_dec MTConstraint (map s_mt l)) as [Hc|Hc].
  { exfalso. pose proof (one_below _ _ _ Hr _ Dl Hc _ _ _ _ _ _ Hx X1 Hy Y1) as E. injection E as _ E _. congruence. }
  assert (Hnc : forall a, In a l -> s_mt a <> MTConstraint).
  { intros a A B. apply Hc. rewrite <- B. apply in_map. assumption. }
  destruct (Hcut _ _ _ _ Qx P k0 kk k2 bs) as [[n [r Hin]]|[Hno|[Hsz [_ [k0' [k' [bs' [[qz [tz [psz [Qz Pz]]]] [Rz [Sz Hz]]]]]]]]]].
  - rewrite <- app_assoc. reflexivity.
  - assumption.
  - assumption.
  - exfalso. clear - St0 Hnc Hin. induction St0 as [|a b la lb Hab St0 IH]; [destruct Hin|]. destruct Hin as [->|Hin].
    + apply (Hnc a); [left; reflexivity|]. rewrite (stands_mt _ _ _ Hab). reflexivity.
    + apply IH; [|assumption]. intros a' A. apply Hnc. right. assumption.
  - exfalso. eapply (Hno ([], [], 0)); [exists qy, ty, psy; split; eassumption|exact Ry|].
    clear - St0 Sy0 Hnc. revert k0y Sy0. induction St0 as [|a b la lb Hab St0 IH]; intros k0y Sy0; inversion Sy0 as [|? b' ? lb' Hab' Sy0']; subst; [constructor|].
    constructor.
    + pose proof (Hnc a (or_introl eq_refl)) as Ha.
      assert (Hs : has_same_val ci a a = true).
      { apply (stands_same ci a b a b Hab Hab Ha). pose proof (stands_mt _ _ _ Hab) as Em. rewrite Em in Ha.
        apply alike_same_piece. apply alike_self. assumption. }
      apply (stands_same ci a b a b' Hab Hab' Ha). assumption.
    + apply IH; [intros a' A; apply Hnc; right; assumption|assumption].
  - destruct (route_leaf _ _ _ _ _ Qz Pz Rz) as [lz Lz]. destruct (leaf_covers _ _ _ _ _ _ Lz Pz Rz) as [msz Cz].
    pose proof (leaf_stands _ _ _ _ _ Lz Pz) as Stz. apply Forall2_app_inv_r in Stz.
    destruct Stz as [l0z [lsz [Stz0 [Stz1 ->]]]]. inversion Stz1 as [|sz ? e ? Sz1 Se2]; subst. inversion Se2; subst.
    destruct (follow ci _ _ _ Hr _ _ _ _ Dd Lz) as [-> [z [Hz1 Hz2]]]; [discriminate| |].
    { clear - St0 Stz0 Sz Hnc. revert l0z k0' Stz0 Sz. induction St0 as [|a b la lb Hab St0 IH]; intros l0z k0' Stz0 Sz;
        inversion Sz as [|? b' ? lb' Hbb Sz']; subst; inversion Stz0 as [|a' ? la' ? Hab' Stz0']; subst; [constructor|].
      pose proof (Hnc a (or_introl eq_refl)) as Ha. constructor.
      - split; [assumption|]. apply (stands_same ci a b a' b' Hab Hab' Ha). assumption.
      - eapply IH; [intros c A; apply Hnc; right; assumption|eassumption|eassumption]. }
    assert (Esz : sz = n_seg z) by (destruct (branch_head _ _ _ Hz2) as [lq E]; injection E as -> _; reflexivity). subst sz.
    exists z. split; [assumption|]. split.
    + rewrite (proj1 Eus) in Cz. destruct (cov_app_inv _ _ _ _ _ _ Hv Hnm _ _ _ Cz) as [ms2 C2]. exists [n_seg z], qz, ms2. auto.
    + destruct (Dm' _ Hz1) as [lm [qm [M1 [M2 _]]]]. rewrite M2, X2.
      pose proof (reach_leaf _ _ _ Hr _ _ _ Hz1 M1) as Lm. destruct (leaf_route _ _ Lm) as [Qm [_ [_ [tm [psm [ksm Pm]]]]]].
      assert (Hn1 : forall q t ps ks, In q pats -> parsed re ci q t ps ks -> ks <> [] -> 1 <= List.length ks <= 19).
      { intros q1 t1 ps1 ks1 A B D. split; [destruct ks1; [congruence|cbn; lia]|]. apply (Hsz ([], [], 0)). exists q1, t1, ps1. auto. }
      assert (Hap : forall (a : list piece) b c, a ++ b :: c <> []) by (intros [] ? ?; discriminate).
      destruct Hz as [Hz|Hz].
      * destruct (mtype_eq_dec (s_mt (n_seg x)) MTConstraint) as [Ex|Ex].
        -- assert (Ez : s_mt (n_seg z) = MTConstraint).
           { rewrite (stands_mt _ _ _ Sz1). rewrite (stands_mt _ _ _ Sk) in Ex. destruct kk; try discriminate.
             destruct k'; cbn in Hz; try contradiction. reflexivity. }
           destruct (Dl' _ Hz1 Ez) as [lq Hb]. rewrite Hb in M1, Hz2. destruct M1 as [->|[]]. destruct Hz2 as [E|[]].
           injection E as _ ->.
           assert (Eks : ksm = k0' ++ [k']).
           { assert (Et : tm = tz) by (rewrite <- (pd_raw _ _ _ _ _ _ Pm), <- (pd_raw _ _ _ _ _ _ Pz); reflexivity). subst tm.
             destruct (means_unique _ _ _ _ _ _ _ (pd_means _ _ _ _ _ _ Pm) (pd_means _ _ _ _ _ _ Pz)). assumption. }
           subst ksm. apply (parsed_rank re ci _ _ _ _ _ _ _ _ Pz P); eauto.
           ++ apply (Hn1 _ _ _ _ Qx P). rewrite <- app_assoc. apply Hap.
           ++ apply ms_prefix; [|assumption]. symmetry. apply (same_pieces_rank ci). apply Forall2_app; [assumption|]. constructor; [assumption|constructor].
        -- exfalso. assert (E : x = z).
           { eapply siblings_differ; [exact Dd'|exact Hx|exact Hz1|exact Ex|].
             apply (stands_same ci _ _ _ _ Sk Sz1 Ex). assumption. }
           subst z. apply in_branch in Hz2. destruct Hz2 as [[_ A]|[l3 [E A]]]; [congruence|].
           injection E as <-. apply leaf_path_not_nil in A. congruence.
      * destruct (branch_head _ _ _ M1) as [lm' ->].
        replace ((l ++ [n_seg x]) ++ l') with (l ++ n_seg x :: l') in Lx by (rewrite <- app_assoc; reflexivity).
        destruct (leaf_at _ _ _ _ _ _ _ Lx P) as [xx [sx [kx [A1 [A2 [A3 [A4 [A5 [A6 A7]]]]]]]]].
        destruct (leaf_at _ _ _ _ _ _ _ Lm Pm) as [xm [sm [km [B1 [B2 [B3 [B4 [B5 [B6 B7]]]]]]]]].
        apply (parsed_rank re ci _ _ _ _ _ _ _ _ Pm P); eauto.
        -- apply (Hn1 _ _ _ _ Qm Pm). intros ->. destruct l; discriminate.
        -- apply (Hn1 _ _ _ _ Qx P). rewrite <- app_assoc. apply Hap.
        -- eapply ms_at; [exact B6|exact A6|]. rewrite B7, A7. unfold rank_of.
           rewrite (stands_mt _ _ _ Sz1), (stands_mt _ _ _ Sk), !mt_of_rank. assumption.
Qed.

Lemma trie_says : says re ci path 0 (m_trie m) us (dfs re ci path (m_trie m) 0 us).
Proof.
  pose proof (mi_grown _ _ _ _ _ M) as G.
  apply dfs_says; auto.
  - eapply deep_imp; [|apply deep_and; [apply (grown_sorted _ _ _ G)|apply deep_and; [apply (grown_made _ _ _ G)|
      apply deep_and; [apply (grown_differ _ _ _ G)|apply (grown_lone_braced _ _ _ G pats_braced)]]]].
    intros i l [A [B [C D]]]. split; [assumption|]. split; [assumption|]. split; [assumption|].
    eapply Forall_impl; [|exact D]. intros c [_ X]. assumption.
  - apply (mi_max _ _ _ _ _ M).
  - apply leaf_good.
  - apply trie_ends.
Qed.

Lemma firstn_ranks : forall ks l0 x X, map kind_rank ks = map rank_of l0 ++ x :: X ->
  map kind_rank (firstn (List.length l0) ks) = map rank_of l0.
Proof.
  intros ks l0. revert ks. induction l0 as [|s l0 IH]; intros [|y ks] x X E; try discriminate; [reflexivity|].
  cbn in *. injection E as E1 E2. rewrite E1. f_equal. eapply IH; eassumption.
Qed.

Lemma covers_both_fit : forall l0 s r s2 r2 ms ms2 a0 a2 k0 k2, ~ In MTMulti (map s_mt l0) ->
  covers re ci path (l0 ++ s :: r) us ms -> covers re ci path (l0 ++ s2 :: r2) us ms2 ->
  shows ci s a0 k0 -> reads a0 k0 -> shows ci s2 a2 k2 -> reads a2 k2 -> k0 <> Any -> k2 <> Any ->
  exists t, fits ci (re_match re) k0 t /\ fits ci (re_match re) k2 t.
Proof.
  intros l0 s r s2 r2 ms ms2 a0 a2 k0 k2 Hn H1 H2 S1 R1 S2 R2 D1 D2. clear Hcut Hcalm Hglob Hsize Hlast Hplain Hlen Hne M.
  revert us ts Hrec ms ms2 H1 H2. induction l0 as [|x l0 IH]; intros us ts Hrec ms ms2 H1 H2; cbn [app] in *.
  - assert (Hcase : forall a k l us ts ms, Forall2 (rec1 path) us ts -> covers re ci path (a :: l) us ms -> k <> Any ->
       forall a', shows ci a a' k -> reads a' k -> exists u us' t ts', us = u :: us' /\ ts = t :: ts' /\ fits ci (re_match re) k t).
    { clear. intros a k l us ts ms Hrec Hc Dk a' Sa Ra.
      assert (Hnm : s_mt a <> MTMulti) by (rewrite (shows_mt _ _ _ _ Sa); intros A; apply mt_of_any in A; contradiction).
      inversion Hc as [|? ? u us' m' ms' A1 A2 A3 A4|? ? A1 A2|? ? vs us0 ms' A1 A2 A3]; subst; try contradiction.
      inversion Hrec as [|? t ? ts' Ht Hrec']; subst. exists u, us', t, ts'. split; [reflexivity|]. split; [reflexivity|].
      pose proof (seg_match_fits re ci path a a' k u t Sa Ra Ht Dk) as F. rewrite A1 in F.
      destruct F as [[F _]|[_ F]]; [contradiction|assumption]. }
    destruct (Hcase _ _ _ _ _ _ Hrec H1 D1 _ S1 R1) as [u [us' [t [ts' [-> [-> F1]]]]]].
    destruct (Hcase _ _ _ _ _ _ Hrec H2 D2 _ S2 R2) as [u' [us'' [t' [ts'' [_ [E F2]]]]]].
    injection E as <- <-. exists t. auto.
  - assert (Hx : s_mt x <> MTMulti) by (intros A; apply Hn; left; assumption).
    inversion H1 as [|? ? u us' m' ms' A1 A2 A3 A4|? ? A1 A2|? ? vs us0 ms' A1 A2 A3]; subst; try contradiction.
    inversion H2 as [|? ? u0 us0 m0 ms0 B1 B2 B3 B4|? ? B1 B2|? ? vs us0 ms0 B1 B2 B3]; subst; try contradiction.
    inversion Hrec; subst. eapply IH; [|eassumption|eassumption|eassumption].
    intros A. apply Hn. right. assumption.
Qed.

Lemma not_more_specific : forall l p ms l2 q2 ms2 t ps ks t2 ps2 ks2 bs bs2,
  In (l, p) (leaves (m_trie m)) -> In (l2, q2) (leaves (m_trie m)) ->
  parsed re ci p t ps ks -> parsed re ci q2 t2 ps2 ks2 ->
  reads_as ci (re_match re) ks ts bs -> reads_as ci (re_match re) ks2 ts bs2 ->
  covers re ci path l us ms -> covers re ci path l2 us ms2 ->
  diverge ci 0 (m_trie m) l p l2 q2 -> ~ more_specific ks2 ks.
Proof.
  intros l p ms l2 q2 ms2 t ps ks t2 ps2 ks2 bs bs2 Hl Hl2 P P2 Hr Hr2 Hc Hc2 D.
  destruct D as [l0 [c1 [c2 [r1 [r2 [E1 [E2 [Sb [B1 [B2 [I1 I2]]]]]]]]]]].
  destruct Sb as [Spr [Sd1 [Sd2 [[la [qa [Ma1 [Ma2 Ma3]]]] [[lb [qb [Mb1 [Mb2 Mb3]]]] [Lo1 Lo2]]]]]].
  cbn [Nat.add] in *.
  destruct (branch_head _ _ _ B1) as [r1' ->]. destruct (branch_head _ _ _ B2) as [r2' ->].
  pose proof (I1 _ _ Ma1) as Ia. pose proof (I2 _ _ Mb1) as Ib.
  destruct (branch_head _ _ _ Ma1) as [la' ->]. destruct (branch_head _ _ _ Mb1) as [lb' ->].
  subst l l2.
  destruct (leaf_route _ _ Ia) as [Qa [_ [_ [ta [psa [ksa Pa]]]]]].
  destruct (leaf_route _ _ Ib) as [Qb [_ [_ [tb [psb [ksb Pb]]]]]].
  destruct (leaf_route _ _ Hl) as [Qp _]. destruct (leaf_route _ _ Hl2) as [Qp2 _].
  destruct (leaf_at _ _ _ _ _ _ _ Hl P) as [x [s0 [k0 [X1 [X2 [X3 [X4 [X5 [X6 X7]]]]]]]]].
  destruct (leaf_at _ _ _ _ _ _ _ Hl2 P2) as [y [s1 [k1 [Y1 [Y2 [Y3 [Y4 [Y5 [Y6 Y7]]]]]]]]].
  destruct (leaf_at _ _ _ _ _ _ _ Ia Pa) as [xa [sa [ka [A1 [A2 [A3 [A4 [A5 [A6 A7]]]]]]]]].
  destruct (leaf_at _ _ _ _ _ _ _ Ib Pb) as [xb [sb [kb [C1 [C2 [C3 [C4 [C5 [C6 C7]]]]]]]]].
  assert (Hn1 : forall (ks' : list piece) i z, nth_error ks' i = Some z -> List.length ks' <= 19 -> 1 <= List.length ks' <= 19).
  { intros ks' i z A B. split; [|assumption]. destruct ks'; [destruct i; discriminate|cbn; lia]. }
  unfold le_prio in Spr. rewrite Ma2, Mb2 in Spr.
  assert (Hab : ~ more_specific ksb ksa).
  { intros A. apply (parsed_rank re ci qb tb psb ksb qa ta psa ksa) in A; eauto; lia. }
  assert (Hle : rank_of (n_seg c1) <= rank_of (n_seg c2)).
  { destruct (le_lt_dec (rank_of (n_seg c1)) (rank_of (n_seg c2))) as [A|A]; [assumption|].
    exfalso. apply Hab. eapply ms_at; [exact C6|exact A6|lia]. }
  destruct (Nat.eq_dec (rank_of (n_seg c1)) (rank_of (n_seg c2))) as [He|He].
  2:{ apply ms_asym. eapply ms_at; [exact X6|exact Y6|lia]. }
  assert (Hk01 : kind_rank k0 = kind_rank k1).
  { assert (Hka : forall k x, k = x \/ alike ci k x -> kind_rank k = kind_rank x).
    { intros k' x' [->|A]; [reflexivity|]. destruct k', x'; cbn in A; try contradiction; reflexivity. }
    rewrite (Hka _ _ X5), (Hka _ _ Y5). congruence. }
  assert (Hsame : has_same_val ci (n_seg c1) (n_seg c2) = true -> s_mt (n_seg c1) <> MTConstraint -> False).
  { intros A B. destruct (Sd1 B). congruence. }
  assert (Hal : alike ci k0 k1 -> ~ more_specific ks2 ks).
  { intros A. exfalso. apply Hsame.
    - eapply (same_val_alike ci (n_seg c1) (n_seg c2)); [exact X2|exact X3|exact Y2|exact Y3| |exact A].
      destruct k0, k1; cbn in A |- *; auto.
    - rewrite (shows_mt _ _ _ _ X2). destruct k0, k1; cbn in A; try contradiction; discriminate. }
  assert (Hnm : ~ In MTMulti (map s_mt l0)).
  { destruct (leaf_good _ _ Hl) as [_ G]. intros A. apply G. rewrite removelast_app by discriminate.
    rewrite map_app. apply in_or_app. left. assumption. }
  destruct k0 as [wa|na ra|na|wa| |], k1 as [wb|nb rb|nb|wb| |]; try discriminate.
  - apply Hal. cbn.
    destruct (covers_both_fit l0 _ _ _ _ _ _ _ _ _ _ Hnm Hc Hc2 X2 X3 Y2 Y3) as [t0 [F1 F2]]; try discriminate.
    cbn in F1, F2. eapply same_text_trans; [exact F1|apply same_text_sym; exact F2].
  - destruct Lo1 as [la0 Lo1]; [rewrite (shows_mt _ _ _ _ X2); reflexivity|].
    destruct Lo2 as [lb0 Lo2]; [rewrite (shows_mt _ _ _ _ Y2); reflexivity|].
    rewrite Lo1 in B1, Ma1. rewrite Lo2 in B2, Mb1.
    assert (p = qa).
    { destruct B1 as [B1|[]]. destruct Ma1 as [Ma1|[]]. congruence. }
    assert (q2 = qb).
    { destruct B2 as [B2|[]]. destruct Mb1 as [Mb1|[]]. congruence. }
    subst qa qb. intros A. apply (parsed_rank re ci q2 t2 ps2 ks2 p t ps ks) in A; eauto. lia.
  - apply Hal. exact I.
  - apply Hal. cbn.
    assert (Hx : exists a', x = Glob a' /\ same_text ci wa a').
    { destruct X5 as [<-|X5]; [exists wa; split; [reflexivity|apply same_text_refl]|].
      destruct x; cbn in X5; try contradiction. eauto. }
    assert (Hy : exists b', y = Glob b' /\ same_text ci wb b').
    { destruct Y5 as [<-|Y5]; [exists wb; split; [reflexivity|apply same_text_refl]|].
      destruct y; cbn in Y5; try contradiction. eauto. }
    destruct Hx as [a' [-> Ha]]. destruct Hy as [b' [-> Hb]].
    assert (Hg : same_text ci a' b').
    { eapply (Hglob _ _ _ _ _ _ _ _ _ _ Qp Qp2 P P2 Hr Hr2 (List.length l0)); [|eassumption|eassumption].
      rewrite (firstn_ranks _ _ _ _ X6), (firstn_ranks _ _ _ _ Y6). reflexivity. }
    eapply same_text_trans; [exact Ha|]. eapply same_text_trans; [exact Hg|]. apply same_text_sym. assumption.
  - apply Hal. exact I.
  - apply Hal. exact I.
Qed.

End Matcher.

(** ** Requests *)

Lemma reads_nil : forall ic rm ks bs, reads_as ic rm ks [] bs -> any_only_last ks -> ks = [].
Proof.
  intros ic rm ks bs H A. inversion H as [| | | | | | |ks' run ts' bs' Hne Hr E1 E2]; subst; [reflexivity|].
  exfalso. apply A. destruct ks'; [congruence|]. left. reflexivity.
Qed.

Lemma dispatch_choice : forall re ci hist r mth path ts buf,
  rinv re ci hist r -> (N.of_nat (List.length hist) < 65536)%N ->
  Forall (fun x => plain_text re ci (reg_text (fst x))) hist ->
  (blen path < 65536)%N -> segments_of path ts -> List.length buf = 19 ->
  (forall rg ks, route_of (re_ok re) ci hist mth rg ks ->
     any_only_last ks /\ calm_on ci ts ks /\ not_cut ci (re_match re) (route_of (re_ok re) ci hist mth) ts ks) ->
  exists k D, (forall f, dispatch_request (k + f) re r mth path buf = D) /\
    ((exists rg ks bs rec segs, route_of (re_ok re) ci hist mth rg ks /\ reads_as ci (re_match re) ks ts bs /\
        D = Calls (reg_handler rg) rec segs /\
        (forall name, path_var rec path segs name = Some (match value_of name bs with Some v => v | None => [] end)) /\
        ((forall rg2 ks2, route_of (re_ok re) ci hist mth rg2 ks2 -> List.length ks2 <= 19) ->
         (forall rg1 ks1 bs1 rg2 ks2 bs2, route_of (re_ok re) ci hist mth rg1 ks1 ->
            route_of (re_ok re) ci hist mth rg2 ks2 -> reads_as ci (re_match re) ks1 ts bs1 ->
            reads_as ci (re_match re) ks2 ts bs2 -> same_globs ci ks1 ks2) ->
         forall rg2 ks2 bs2, route_of (re_ok re) ci hist mth rg2 ks2 -> reads_as ci (re_match re) ks2 ts bs2 ->
           ~ more_specific ks2 ks)) \/
     (D = NotFound /\ forall rg ks bs, route_of (re_ok re) ci hist mth rg ks -> ~ reads_as ci (re_match re) ks ts bs)).
Proof.
  intros re ci hist r mth path ts buf H Hl Hpl Hs Hseg Hb Hro.
  destruct (parse_url_segments path ts buf Hs Hseg Hb) as [us [Hu Hrec]].
  assert (Hul : List.length us <= 19).
  { rewrite (records_len _ _ _ Hrec). eapply walked_len; eassumption. }
  destruct (records_rec1 _ _ _ Hs Hrec) as [Hr1 Hst].
  destruct (dispatch_behind re ci r mth path buf us (ri_ci _ _ _ _ H) Hu Hul) as [k [D [H1 H2]]].
  { intros m Hk. eapply rinv_lookup; eassumption. }
  exists k, D. split; [assumption|].
  destruct (alookup (to_upper mth) (r_matchers r)) as [m|] eqn:Ek.
  2:{ right. split; [assumption|]. intros rg ks bs [A [B _]] _.
      pose proof (ri_none _ _ _ _ H _ Ek) as E. assert (C : In rg (registered (to_upper mth) hist)).
      { apply in_registered. exists Registered. split; [assumption|]. split; [reflexivity|]. apply same_method_upper. assumption. }
      rewrite E in C. destruct C. }
  destruct (ri_some _ _ _ _ H _ _ Ek) as [pats [M1 M2]].
  assert (Hto : forall rg ks, route_of (re_ok re) ci hist mth rg ks -> exists q ps, In q pats /\
     p_att q = Some (reg_handler rg) /\ parsed re ci q (reg_text rg) ps ks).
  { intros rg ks [A [B [ps C]]]. assert (E : In rg (registered (to_upper mth) hist)).
    { apply in_registered. exists Registered. split; [assumption|]. split; [reflexivity|]. apply same_method_upper. assumption. }
    destruct (forall2_in_l _ _ _ _ _ _ M2 E) as [q [Q1 [Q2 [ps' [ks' Q3]]]]].
    destruct (means_unique _ _ _ _ _ _ _ (pd_means _ _ _ _ _ _ Q3) C) as [-> ->]. exists q, ps. auto. }
  assert (Hfrom : forall q t ps ks, In q pats -> parsed re ci q t ps ks -> exists rg,
     route_of (re_ok re) ci hist mth rg ks /\ reg_text rg = t /\ p_att q = Some (reg_handler rg)).
  { intros q t ps ks Hq P. destruct (forall2_in_r _ _ _ _ _ _ M2 Hq) as [rg [R1 [R2 [ps' [ks' R3]]]]].
    assert (Ht : reg_text rg = t).
    { rewrite <- (pd_raw _ _ _ _ _ _ P), <- (pd_raw _ _ _ _ _ _ R3). reflexivity. }
    exists rg. apply in_registered in R1. destruct R1 as [e [A [-> B]]]. split; [|split; assumption].
    split; [assumption|]. split; [apply same_method_upper; assumption|]. exists ps. rewrite Ht. apply (pd_means _ _ _ _ _ _ P). }
  assert (Hplain : forall q t ps ks, In q pats -> parsed re ci q t ps ks -> Forall (plain_piece ci) ks).
  { intros q t ps ks Hq P. destruct (Hfrom _ _ _ _ Hq P) as [rg [[A _] [B _]]].
    rewrite Forall_forall in Hpl. specialize (Hpl _ A). cbn in Hpl. eapply Hpl. rewrite B. apply (pd_means _ _ _ _ _ _ P). }
  assert (Hlast : forall q t ps ks, In q pats -> parsed re ci q t ps ks -> any_only_last ks).
  { intros q t ps ks Hq P. destruct (Hfrom _ _ _ _ Hq P) as [rg [A _]]. apply (Hro _ _ A). }
  assert (Hcalm : forall q t ps ks, In q pats -> parsed re ci q t ps ks ->
     forall w s, In (Glob w) ks -> In s ts -> calm ci w s).
  { intros q t ps ks Hq P w s. destruct (Hfrom _ _ _ _ Hq P) as [rg [A _]]. apply (Hro _ _ A). }
  assert (Hcut : forall q t ps ks, In q pats -> parsed re ci q t ps ks -> not_cut ci (re_match re) (some_route re ci pats) ts ks).
  { intros q t ps ks Hq P. destruct (Hfrom _ _ _ _ Hq P) as [rg [A _]].
    intros k0 k1 k2 bs E1 E2 E3. destruct (proj2 (proj2 (Hro _ _ A)) k0 k1 k2 bs E1 E2 E3) as [X|[X|[X Y]]].
    - left. assumption.
    - right. left. intros _ k0' k' bs' [q' [t' [ps' [Q1 Q2]]]]. destruct (Hfrom _ _ _ _ Q1 Q2) as [rg' [Z _]]. apply (X rg' _ _ _ Z).
    - right. right. split.
      + intros _ ks' [q' [t' [ps' [Q1 Q2]]]]. destruct (Hfrom _ _ _ _ Q1 Q2) as [rg' [Z _]]. apply (X rg' _ Z).
      + destruct Y as [rg' [k0' [k' [bs' [Z1 Z2]]]]]. destruct (Hto _ _ Z1) as [q' [ps' [Q1 [_ Q2]]]].
        exists rg', k0', k', bs'. split; [|assumption]. exists q', (reg_text rg'), ps'. auto. }
  unfold behind in H2. destruct us as [|u us].
  - inversion Hr1; subst ts. destruct (m_root m) as [p|] eqn:Er.
    + assert (Hin : In ([], p) (routes m)) by (unfold routes; rewrite Er; left; reflexivity).
      assert (Hp : In p pats) by (eapply minv_pats_in; eauto).
      pose proof (mi_parsed _ _ _ _ _ M1) as Hpp. rewrite Forall_forall in Hpp. destruct (Hpp p Hp) as [t [ps [ks P]]].
      pose proof (mi_paths _ _ _ _ _ M1) as Hpa. rewrite Forall_forall in Hpa. specialize (Hpa _ Hin).
      cbn in Hpa. inversion Hpa as [Hsn|]. symmetry in H0. apply (proj1 (parsed_nil _ _ _ _ _ _ P)) in H0. subst ks.
      destruct (Hfrom _ _ _ _ Hp P) as [rg [R1 [R2 R3]]]. left. unfold calls in H2. rewrite R3 in H2.
      exists rg, [], [], None, []. split; [assumption|]. split; [constructor|]. split; [assumption|].
      split; [intros name; reflexivity|]. intros _ _ rg2 ks2 bs2 A B. intros C.
      apply reads_nil in B; [|apply (Hro _ _ A)]. subst ks2. inversion C.
    + right. split; [assumption|]. intros rg ks bs A B. pose proof (reads_nil _ _ _ _ B (proj1 (Hro _ _ A))) as ->.
      destruct (Hto _ _ A) as [q [ps [Q1 [Q2 Q3]]]]. apply (minv_pats_in _ _ _ _ _ q M1) in Q1. destruct Q1 as [l Hq].
      unfold routes in Hq. rewrite Er in Hq. cbn [app] in Hq.
      pose proof (mi_paths _ _ _ _ _ M1) as Hpa. rewrite Forall_forall in Hpa.
      assert (Hin : In (l, q) (routes m)) by (unfold routes; rewrite Er; assumption).
      specialize (Hpa _ Hin). cbn in Hpa. rewrite (proj2 (parsed_nil _ _ _ _ _ _ Q3) eq_refl) in Hpa. inversion Hpa; subst.
      apply leaf_path_not_nil in Hq. congruence.
  - rewrite Hst in H2. set (us0 := u :: us) in *.
    assert (Hne : us0 <> []) by discriminate.
    assert (T : says re ci path 0 (m_trie m) us0 (dfs re ci path (m_trie m) 0 us0)) by (eapply trie_says; eassumption).
    assert (C : dfs re ci path (m_trie m) 0 us0 <> Panic) by (eapply trie_calm; eassumption).
    destruct (dfs re ci path (m_trie m) 0 us0) as [p ms| | |] eqn:Ed; cbn [says] in T; try contradiction; try congruence.
    + destruct T as [l [T1 [T2 T3]]]. left. destruct H2 as [segs' [H3 [H4 H5]]].
      destruct (leaf_route re ci _ pats m M1 _ _ T1) as [Q1 [_ [_ [t [ps [ks P]]]]]].
      destruct (Hfrom _ _ _ _ Q1 P) as [rg [R1 [R2 R3]]].
      destruct (route_reads _ _ _ _ _ _ _ _ _ _ _ _ _ _ M1 T1 P (Hplain _ _ _ _ Q1 P) T2 Hr1) as [bs [B1 [B2 B3]]].
      unfold calls in H3. rewrite R3 in H3.
      exists rg, ks, bs, (Some p), segs'. split; [assumption|]. split; [assumption|]. split; [assumption|]. split.
      * intros name. eapply path_var_value.
        -- apply (pd_shows _ _ _ _ _ _ P).
        -- apply (pd_caps _ _ _ _ _ _ P).
        -- eapply strip_rec1; [|exact Hr1]. rewrite H4. symmetry. assumption.
        -- assumption.
        -- rewrite H5. assumption.
      * intros Hsz Hgl rg2 ks2 bs2 A B. destruct (Hto _ _ A) as [q2 [ps2 [X1 [X2 X3]]]].
        assert (HL2 : exists l2, In (l2, q2) (leaves (m_trie m))) by (eapply route_leaf; eassumption). destruct HL2 as [l2 L2].
        destruct (leaf_covers re ci _ pats m path us0 ts M1 Hr1 Hplain Hcalm _ _ _ _ _ _ L2 X3 B) as [ms2 C2].
        destruct (T3 _ _ _ L2 C2) as [E|E].
        -- injection E as <- <-.
           assert (Ek2 : ks2 = ks).
           { assert (Et : t = reg_text rg2).
             { rewrite <- (pd_raw _ _ _ _ _ _ P), <- (pd_raw _ _ _ _ _ _ X3). reflexivity. }
             pose proof (pd_means _ _ _ _ _ _ X3) as X4. rewrite <- Et in X4.
             destruct (means_unique _ _ _ _ _ _ _ (pd_means _ _ _ _ _ _ P) X4). congruence. }
           rewrite Ek2. apply ms_irrefl.
        -- eapply (not_more_specific re ci _ pats m path us0 ts M1 Hr1 Hul Hplain Hlast).
           ++ intros q t' ps' ks' Y1 Y2. destruct (Hfrom _ _ _ _ Y1 Y2) as [rg' [Z _]]. eauto.
           ++ intros q1 t1 ps1 ks1 bs1 q3 t3 ps3 ks3 bs3 Y1 Y2 Y3 Y4 Y5 Y6.
              destruct (Hfrom _ _ _ _ Y1 Y3) as [rg1 [Z1 _]]. destruct (Hfrom _ _ _ _ Y2 Y4) as [rg3 [Z3 _]].
              apply (Hgl _ _ _ _ _ _ Z1 Z3 Y5 Y6).
           ++ exact T1.
           ++ exact L2.
           ++ exact P.
           ++ exact X3.
           ++ exact B1.
           ++ exact B.
           ++ exact T2.
           ++ exact C2.
           ++ exact E.
    + right. split; [assumption|]. intros rg ks bs A B. destruct (Hto _ _ A) as [q [ps [X1 [X2 X3]]]].
      assert (HL2 : exists l2, In (l2, q) (leaves (m_trie m))) by (eapply route_leaf; eassumption). destruct HL2 as [l2 L2].
      destruct (leaf_covers re ci _ pats m path us0 ts M1 Hr1 Hplain Hcalm _ _ _ _ _ _ L2 X3 B) as [ms2 C2].
      eapply T; eassumption.
Qed.

Lemma not_cut_iff : forall ic rm (R R' : reg -> list piece -> Prop) ts ks, (forall rg ks, R rg ks <-> R' rg ks) ->
  not_cut ic rm R ts ks -> not_cut ic rm R' ts ks.
Proof.
  intros ic rm R R' ts ks H C k0 k k2 bs E1 E2 E3. destruct (C k0 k k2 bs E1 E2 E3) as [X|[X|[X [rg [k0' [k' [bs' [Y1 Y2]]]]]]]].
  - left. assumption.
  - right. left. intros rg k0' k' bs' A. apply (X rg). apply H. assumption.
  - right. right. split; [intros rg' ks' A; apply (X rg'); apply H; assumption|].
    exists rg, k0', k', bs'. split; [apply H; assumption|assumption].
Qed.

(** C11. *)
Lemma complete_routing : forall fuel re ci regs r outs mth path ts buf,
  handle_all fuel re (new_router ci) regs = (r, outs) ->
  (N.of_nat (List.length regs) < 65536)%N ->
  Forall (fun rg => countable (re_ok re) ci (reg_text rg) /\ plain (re_ok re) ci (reg_text rg)) regs ->
  (blen path < 65536)%N -> segments_of path ts -> List.length buf = 19 ->
  (forall rg ks, route_of (re_ok re) ci (combine regs outs) mth rg ks ->
     any_only_last ks /\ calm_on ci ts ks /\ not_cut ci (re_match re) (route_of (re_ok re) ci (combine regs outs) mth) ts ks) ->
  exists k,
    ((exists rg ks bs, route_of (re_ok re) ci (combine regs outs) mth rg ks /\ reads_as ci (re_match re) ks ts bs) ->
     exists h rec segs, forall f, dispatch_request (k + f) re r mth path buf = Calls h rec segs) /\
    ((forall rg ks bs, route_of (re_ok re) ci (combine regs outs) mth rg ks -> ~ reads_as ci (re_match re) ks ts bs) ->
     forall f, dispatch_request (k + f) re r mth path buf = NotFound).
Proof.
  intros fuel re ci regs r outs mth path ts buf H Hl Hs Hp Ht Hb Hro.
  destruct (history _ _ _ _ _ _ H) as [R1 R2].
  { eapply Forall_impl; [|eassumption]. intros a [A _]. assumption. }
  destruct (dispatch_choice re ci (combine regs outs) r mth path ts buf) as [k [D [K1 K2]]]; auto.
  - rewrite combine_len by assumption. assumption.
  - apply forall_combine with (P := fun x => plain_text re ci (reg_text x)).
    eapply Forall_impl; [|eassumption]. intros a [_ A]. apply plain_plain_text. assumption.
  - exists k. destruct K2 as [[rg [ks [bs [rec [segs [A1 [A2 [A3 _]]]]]]]]|[A1 A2]]; split.
    + intros _. exists (reg_handler rg), rec, segs. intros f. rewrite K1. assumption.
    + intros A. exfalso. eapply A; eassumption.
    + intros [rg [ks [bs [B1 B2]]]]. exfalso. eapply A2; eassumption.
    + intros _ f. rewrite K1. assumption.
Qed.

(** C12. *)
Lemma specific_routing : forall fuel re ci regs r outs mth path ts buf f h rec segs,
  handle_all fuel re (new_router ci) regs = (r, outs) ->
  (N.of_nat (List.length regs) < 65536)%N ->
  Forall (fun rg => countable (re_ok re) ci (reg_text rg) /\ plain (re_ok re) ci (reg_text rg)) regs ->
  (blen path < 65536)%N -> segments_of path ts -> List.length buf = 19 ->
  (forall rg ks, route_of (re_ok re) ci (combine regs outs) mth rg ks ->
     List.length ks <= 19 /\ any_only_last ks /\ calm_on ci ts ks /\ not_cut ci (re_match re) (route_of (re_ok re) ci (combine regs outs) mth) ts ks) ->
  (forall rg1 ks1 bs1 rg2 ks2 bs2, route_of (re_ok re) ci (combine regs outs) mth rg1 ks1 ->
     route_of (re_ok re) ci (combine regs outs) mth rg2 ks2 ->
     reads_as ci (re_match re) ks1 ts bs1 -> reads_as ci (re_match re) ks2 ts bs2 -> same_globs ci ks1 ks2) ->
  dispatch_request f re r mth path buf = Calls h rec segs ->
  exists rg ks bs, route_of (re_ok re) ci (combine regs outs) mth rg ks /\ reg_handler rg = h /\
    reads_as ci (re_match re) ks ts bs /\
    (forall name, path_var rec path segs name = Some (match value_of name bs with Some v => v | None => [] end)) /\
    forall rg2 ks2 bs2, route_of (re_ok re) ci (combine regs outs) mth rg2 ks2 ->
      reads_as ci (re_match re) ks2 ts bs2 -> ~ more_specific ks2 ks.
Proof.
  intros fuel re ci regs r outs mth path ts buf f h rec segs H Hl Hs Hp Ht Hb Hro Hgl E.
  destruct (history _ _ _ _ _ _ H) as [R1 R2].
  { eapply Forall_impl; [|eassumption]. intros a [A _]. assumption. }
  destruct (dispatch_choice re ci (combine regs outs) r mth path ts buf) as [k [D [K1 K2]]]; auto.
  - rewrite combine_len by assumption. assumption.
  - apply forall_combine with (P := fun x => plain_text re ci (reg_text x)).
    eapply Forall_impl; [|eassumption]. intros a [_ A]. apply plain_plain_text. assumption.
  - intros rg ks A. apply (Hro _ _ A).
  - assert (ED : Calls h rec segs = D) by (eapply dispatch_det; [eassumption|eassumption|discriminate]).
    destruct K2 as [[rg [ks [bs [rec' [segs' [A1 [A2 [A3 [A4 A5]]]]]]]]]|[A1 A2]]; [|congruence].
    rewrite A3 in ED. injection ED as -> -> ->. exists rg, ks, bs. split; [assumption|]. split; [reflexivity|].
    split; [assumption|]. split; [assumption|]. apply A5.
    + intros rg2 ks2 A. apply (Hro _ _ A).
    + assumption.
Qed.

(** C13. *)
Lemma reads_det : forall ic rm ks ts bs, reads_as ic rm ks ts bs -> any_only_last ks ->
  forall bs', reads_as ic rm ks ts bs' -> bs' = bs.
Proof.
  intros ic rm ks ts bs H.
  assert (Hcons : forall k ks, any_only_last (k :: ks) -> any_only_last ks).
  { intros k ks' A B. apply A. destruct ks'; [destruct B|]. right. assumption. }
  induction H; intros A bs' B; inversion B; subst; try reflexivity; try congruence;
    try (exfalso; apply A; destruct ks; [congruence|left; reflexivity]);
    try (f_equal; eauto; fail); eauto.
Qed.

Lemma all_registered_in : forall (regs : list reg) outs rg, List.length outs = List.length regs ->
  Forall (eq Registered) outs -> (In (rg, Registered) (combine regs outs) <-> In rg regs).
Proof.
  induction regs as [|a regs IH]; intros [|e outs] rg L F; try discriminate; cbn [combine]; [reflexivity|].
  injection L as L. inversion F as [|? ? E F']; subst. cbn [In]. rewrite IH by assumption. split.
  - intros [A|A]; [left; congruence|auto].
  - intros [A|A]; [left; congruence|auto].
Qed.

Lemma order_routing : forall fuel re ci regs r outs fuel' regs' r' outs' mth path ts buf buf',
  handle_all fuel re (new_router ci) regs = (r, outs) ->
  handle_all fuel' re (new_router ci) regs' = (r', outs') ->
  Permutation regs regs' -> Forall (eq Registered) outs -> Forall (eq Registered) outs' ->
  (N.of_nat (List.length regs) < 65536)%N ->
  Forall (fun rg => countable (re_ok re) ci (reg_text rg) /\ plain (re_ok re) ci (reg_text rg)) regs ->
  (blen path < 65536)%N -> segments_of path ts -> List.length buf = 19 -> List.length buf' = 19 ->
  (forall rg ks, route_of (re_ok re) ci (combine regs outs) mth rg ks ->
     List.length ks <= 19 /\ any_only_last ks /\ calm_on ci ts ks /\ not_cut ci (re_match re) (route_of (re_ok re) ci (combine regs outs) mth) ts ks) ->
  (forall rg1 ks1 bs1 rg2 ks2 bs2, route_of (re_ok re) ci (combine regs outs) mth rg1 ks1 ->
     route_of (re_ok re) ci (combine regs outs) mth rg2 ks2 ->
     reads_as ci (re_match re) ks1 ts bs1 -> reads_as ci (re_match re) ks2 ts bs2 ->
     same_globs ci ks1 ks2 /\ (map kind_rank ks1 = map kind_rank ks2 -> rg1 = rg2)) ->
  exists k, forall f,
    match dispatch_request (k + f) re r mth path buf, dispatch_request (k + f) re r' mth path buf' with
    | Calls h rec segs, Calls h' rec' segs' =>
        h = h' /\ forall name, path_var rec path segs name = path_var rec' path segs' name
    | NotFound, NotFound => True
    | _, _ => False
    end.
Proof.
  intros fuel re ci regs r outs fuel' regs' r' outs' mth path ts buf buf' H H' Hperm Ho Ho' Hl Hs Hp Ht Hb Hb' Hro Hgl.
  assert (Hs' : Forall (fun rg => countable (re_ok re) ci (reg_text rg) /\ plain (re_ok re) ci (reg_text rg)) regs')
    by (eapply Permutation_Forall; eassumption).
  assert (Hl' : (N.of_nat (List.length regs') < 65536)%N) by (rewrite <- (Permutation_length Hperm); assumption).
  destruct (history _ _ _ _ _ _ H) as [R1 R2].
  { eapply Forall_impl; [|exact Hs]. intros a [A _]. assumption. }
  destruct (history _ _ _ _ _ _ H') as [R1' R2'].
  { eapply Forall_impl; [|exact Hs']. intros a [A _]. assumption. }
  assert (Hsame : forall rg ks, route_of (re_ok re) ci (combine regs' outs') mth rg ks <-> route_of (re_ok re) ci (combine regs outs) mth rg ks).
  { intros rg ks. unfold route_of. rewrite !all_registered_in by assumption.
    split; intros [A B]; (split; [|assumption]); [apply (Permutation_in _ (Permutation_sym Hperm))|apply (Permutation_in _ Hperm)]; assumption. }
  destruct (dispatch_choice re ci (combine regs outs) r mth path ts buf) as [k [D [K1 K2]]]; auto.
  { rewrite combine_len by assumption. assumption. }
  { apply forall_combine with (P := fun x => plain_text re ci (reg_text x)).
    eapply Forall_impl; [|exact Hs]. intros a [_ A]. apply plain_plain_text. assumption. }
  { intros rg ks A. apply (Hro _ _ A). }
  destruct (dispatch_choice re ci (combine regs' outs') r' mth path ts buf') as [k' [D' [K1' K2']]]; auto.
  { rewrite combine_len by assumption. assumption. }
  { apply forall_combine with (P := fun x => plain_text re ci (reg_text x)).
    eapply Forall_impl; [|exact Hs']. intros a [_ A]. apply plain_plain_text. assumption. }
  { intros rg ks A. apply (proj1 (Hsame _ _)) in A. destruct (Hro _ _ A) as [_ [A1 [A2 A3]]]. split; [assumption|]. split; [assumption|].
    eapply not_cut_iff; [|exact A3]. intros rg0 ks0. symmetry. apply Hsame. }
  exists (k + k'). intros f.
  assert (E1 : dispatch_request (k + k' + f) re r mth path buf = D) by (rewrite <- Nat.add_assoc; apply K1).
  assert (E2 : dispatch_request (k + k' + f) re r' mth path buf' = D') by (rewrite (Nat.add_comm k), <- Nat.add_assoc; apply K1').
  rewrite E1, E2.
  destruct K2 as [[rg [ks [bs [rec [segs [A1 [A2 [A3 [A4 A5]]]]]]]]]|[A1 A2]];
  destruct K2' as [[rg' [ks' [bs' [rec' [segs' [B1 [B2 [B3 [B4 B5]]]]]]]]]|[B1 B2]].
  - apply Hsame in B1. 
    assert (X1 : ~ more_specific ks' ks).
    { eapply A5; [| |exact B1|exact B2].
      - intros rg2 ks2 A. apply (Hro _ _ A).
      - intros rg1 ks1 bs1 rg2 ks2 bs2 Y1 Y2 Y3 Y4. apply (Hgl _ _ _ _ _ _ Y1 Y2 Y3 Y4). }
    assert (X2 : ~ more_specific ks ks').
    { eapply B5; [| |apply Hsame; exact A1|exact A2].
      - intros rg2 ks2 A. apply Hsame in A. apply (Hro _ _ A).
      - intros rg1 ks1 bs1 rg2 ks2 bs2 Y1 Y2 Y3 Y4. apply Hsame in Y1. apply Hsame in Y2.
        apply (Hgl _ _ _ _ _ _ Y1 Y2 Y3 Y4). }
    destruct (ms_total ks ks') as [Ek|[Ek|Ek]]; try contradiction.
    destruct (Hgl _ _ _ _ _ _ A1 B1 A2 B2) as [_ Eq]. specialize (Eq Ek). subst rg' D D'. split; [reflexivity|].
    intros name. rewrite A4, B4.
    assert (Eks : ks' = ks).
    { destruct A1 as [_ [_ [ps P1]]]. destruct B1 as [_ [_ [ps' P2]]].
      destruct (means_unique _ _ _ _ _ _ _ P1 P2). congruence. }
    subst ks'. rewrite (reads_det _ _ _ _ _ A2 (proj1 (proj2 (Hro _ _ A1))) _ B2). reflexivity.
  - exfalso. eapply B2; [apply Hsame; exact A1|exact A2].
  - exfalso. apply Hsame in B1. eapply A2; [exact B1|exact B2].
  - subst D D'. exact I.
Qed.

(** ** C14: duplicates *)

Lemma has_same_through : forall ci a b c sa ka sb kb sc kc,
  shows ci a sa ka -> reads sa ka -> shows ci b sb kb -> reads sb kb -> shows ci c sc kc -> reads sc kc ->
  plain_piece ci kc -> plain_piece ci kb ->
  has_same_val ci a c = true -> has_same_val ci b c = true -> has_same_val ci a b = true.
Proof.
  intros ci a b c sa ka sb kb sc kc Sa Ra Sb Rb Sc Rc Hp Hpb H1 H2.
  apply (same_val_alike _ _ _ _ _ _ _ Sa Ra Sc Rc Hp) in H1.
  apply (same_val_alike _ _ _ _ _ _ _ Sb Rb Sc Rc Hp) in H2.
  apply (same_val_alike _ _ _ _ _ _ _ Sa Ra Sb Rb Hpb). eapply alike_trans; [exact H1|]. apply alike_sym. assumption.
Qed.

Lemma add_dup : forall ci p segs l q n idx, every (segs_below (shown ci)) n -> deep (all_differ ci) n idx ->
  In (l, q) (leaves n) -> Forall2 (fun a s => has_same_val ci a s = true) l segs ->
  Forall (fun s => exists t k, shows ci s t k /\ reads t k /\ plain_piece ci k) segs ->
  snd (add_segs ci p idx segs n) = true.
Proof.
  intros ci p. induction segs as [|s rest IH]; intros l q n idx Hev Hdf Hl Hf Hs.
  { inversion Hf; subst. apply leaf_path_not_nil in Hl. congruence. }
  inversion Hf as [|a ? l' ? Ha Hf']; subst. inversion Hs as [|? ? [ts [ks [S1 [S2 S3]]]] Hs']; subst.
  apply in_leaves in Hl. destruct Hl as [c [Hc Hl]].
  apply every_eq in Hev. destruct Hev as [E1 E2]. apply deep_eq in Hdf. destruct Hdf as [D1 D2].
  unfold segs_below in E1. rewrite Forall_forall in E1, E2, D2.
  destruct (branch_head _ _ _ Hl) as [l2 El]. injection El as -> ->.
  cbn [add_segs]. destruct (find_child ci s (n_ch n)) as [[[before c'] after]|] eqn:F.
  2:{ apply find_child_none in F. rewrite Forall_forall in F. rewrite (F c Hc) in Ha. discriminate. }
  apply find_child_some in F. destruct F as [F1 [F2 _]].
  assert (Hcc : c = c').
  { assert (Hin : In c' (n_ch n)) by (rewrite F1; apply in_or_app; right; left; reflexivity).
    destruct (E1 _ Hc) as [sa [ka [A1 A2]]]. destruct (E1 _ Hin) as [sb [kb [B1 B2]]].
    assert (Hal1 : alike ci ka ks) by (apply (same_val_alike _ _ _ _ _ _ _ A1 A2 S1 S2 S3); assumption).
    assert (Hal2 : alike ci kb ks) by (apply (same_val_alike _ _ _ _ _ _ _ B1 B2 S1 S2 S3); assumption).
    assert (Hpk : forall x, alike ci x ks -> plain_piece ci x) by (intros x A; destruct x, ks; cbn in A |- *; auto).
    assert (Hnc : s_mt (n_seg c) <> MTConstraint).
    { rewrite (shows_mt _ _ _ _ A1). destruct ka, ks; cbn in Hal1; try contradiction; discriminate. }
    assert (Hnc' : s_mt (n_seg c') <> MTConstraint).
    { rewrite (shows_mt _ _ _ _ B1). destruct kb, ks; cbn in Hal2; try contradiction; discriminate. }
    assert (Hsv : has_same_val ci (n_seg c) (n_seg c') = true)
      by (eapply has_same_through; [exact A1|exact A2|exact B1|exact B2|exact S1|exact S2|exact S3|auto|exact Ha|exact F2]).
    rewrite F1 in Hc, D1. apply in_app_or in Hc. destruct Hc as [Hc|[Hc|Hc]]; [|auto|].
    - exfalso. apply in_split in Hc. destruct Hc as [x1 [x2 ->]]. unfold all_differ in D1.
      rewrite <- app_assoc in D1. cbn [app] in D1.
      assert (P : differ ci c c' /\ differ ci c' c).
      { clear - D1. induction x1 as [|y x1 IH]; cbn [app] in D1; inversion D1; subst; [|auto].
        rewrite Forall_app, Forall_cons_iff in H1. tauto. }
      destruct P as [P _]. destruct (P Hnc). congruence.
    - exfalso. unfold all_differ in D1.
      assert (P : differ ci c' c /\ differ ci c c').
      { clear - D1 Hc. induction before as [|y x1 IH]; cbn [app] in D1; inversion D1; subst; [|auto].
        rewrite Forall_forall in H1. apply H1. assumption. }
      destruct P as [_ P]. destruct (P Hnc). congruence. }
  subst c'. apply in_branch in Hl. destruct Hl as [[El Hp]|[l3 [El Hl]]]; injection El as ->.
  - inversion Hf'; subst. unfold is_leaf. destruct c as [cm cp cs cpt cc]. cbn [raise_max n_pat] in *. rewrite Hp. reflexivity.
  - destruct rest as [|s2 rest]; [inversion Hf'; subst; apply leaf_path_not_nil in Hl; congruence|].
    assert (G : snd (add_segs ci p (S idx) (s2 :: rest) (raise_max c (max_at p idx))) = true).
    { eapply IH; [| | |exact Hf'|exact Hs'].
      - pose proof (E2 _ Hc) as X. rewrite every_eq in X |- *. destruct c as [cm cp cs cpt cc]. exact X.
      - pose proof (D2 _ Hc) as X. rewrite deep_eq in X |- *. destruct c as [cm cp cs cpt cc]. exact X.
      - rewrite leaves_raise. exact Hl. }
    destruct (add_segs ci p (S idx) (s2 :: rest) (raise_max c (max_at p idx))) as [c2 dup]. exact G.
Qed.

(** Routes that share every node have the same pieces. *)
Lemma path_alike : forall ci l segs, Forall2 (shares ci) l segs -> forall ps ks, Forall (shown ci) l ->
  shows_all ci segs ps ks -> Forall2 reads ps ks -> Forall (plain_piece ci) ks ->
  forall segs2 ps2 ks2, Forall2 (fun a b => has_same_val ci a b = true) l segs2 ->
  shows_all ci segs2 ps2 ks2 -> Forall2 reads ps2 ks2 -> Forall (plain_piece ci) ks2 -> Forall2 (alike ci) ks ks2.
Proof.
  intros ci l segs H. induction H as [|a b l segs Hab H IH]; intros ps ks Hsh Hall Hrd Hpl segs2 ps2 ks2 Hf Hall2 Hrd2 Hpl2.
  - inversion Hf; subst. inversion Hall; subst. inversion Hall2; subst. constructor.
  - inversion Hf as [|? b2 ? segs2' Hab2 Hf']; subst. inversion Hall as [|? s k ? ps' ks' Hk Hall']; subst.
    inversion Hall2 as [|? s2 k2 ? ps2' ks2' Hk2 Hall2']; subst.
    inversion Hsh; subst. inversion Hrd; subst. inversion Hrd2; subst. inversion Hpl; subst. inversion Hpl2; subst.
    constructor; [|eapply IH; eauto].
    destruct (shares_fits ci a b s k) as [s0 [k0 [X1 [X2 X3]]]]; auto.
    assert (A : alike ci k0 k2) by (eapply (same_val_alike ci a b2); eauto).
    destruct X3 as [->|X3]; [assumption|]. eapply alike_trans; [apply alike_sym; exact X3|exact A].
Qed.

Lemma alike_path : forall ci l segs, Forall2 (shares ci) l segs -> forall ps ks, Forall (shown ci) l ->
  shows_all ci segs ps ks -> Forall2 reads ps ks -> Forall (plain_piece ci) ks ->
  forall segs2 ps2 ks2, Forall2 (alike ci) ks ks2 ->
  shows_all ci segs2 ps2 ks2 -> Forall2 reads ps2 ks2 -> Forall (plain_piece ci) ks2 ->
  Forall2 (fun a b => has_same_val ci a b = true) l segs2.
Proof.
  intros ci l segs H. induction H as [|a b l segs Hab H IH]; intros ps ks Hsh Hall Hrd Hpl segs2 ps2 ks2 Hf Hall2 Hrd2 Hpl2.
  - inversion Hall; subst. inversion Hf; subst. inversion Hall2; subst. constructor.
  - inversion Hall as [|? s k ? ps' ks' Hk Hall']; subst. inversion Hf as [|? k2 ? ks2' Hk12 Hf']; subst.
    inversion Hall2 as [|? s2 ? ? ps2' ? Hk2 Hall2']; subst.
    inversion Hsh; subst. inversion Hrd; subst. inversion Hrd2; subst. inversion Hpl; subst. inversion Hpl2; subst.
    constructor; [|eapply IH; eauto].
    destruct (shares_fits ci a b s k) as [s0 [k0 [X1 [X2 X3]]]]; auto.
    eapply (same_val_alike ci a sg); eauto.
    destruct X3 as [->|X3]; [assumption|]. eapply alike_trans; eassumption.
Qed.

Lemma forall2_imp : forall (A B : Type) (P Q : A -> B -> Prop) l l', (forall a b, In b l' -> P a b -> Q a b) ->
  Forall2 P l l' -> Forall2 Q l l'.
Proof.
  intros A B P Q l l' H F. induction F; constructor.
  - apply H; [left; reflexivity|assumption].
  - apply IHF. intros a b Hb. apply H. right. assumption.
Qed.

Lemma duplicate_exact : forall fuel re ci regs r outs fuel' mth txt h r' e ks,
  handle_all fuel re (new_router ci) regs = (r, outs) ->
  Forall (fun rg => countable (re_ok re) ci (reg_text rg) /\ plain (re_ok re) ci (reg_text rg)) regs ->
  countable (re_ok re) ci txt -> plain (re_ok re) ci txt -> pieces_of (re_ok re) ci txt ks ->
  handle fuel' re r mth txt h = (r', e) -> e <> HandleRuns ->
  (e = Registered \/ e = Duplicate) /\
  (e = Duplicate -> exists rg ks', route_of (re_ok re) ci (combine regs outs) mth rg ks' /\ Forall2 (same_piece ci) ks' ks) /\
  ((forall n x, ~ In (Constrained n x) ks) ->
   (exists rg ks', route_of (re_ok re) ci (combine regs outs) mth rg ks' /\ Forall2 (same_piece ci) ks' ks) ->
   e = Duplicate).
Proof.
  intros fuel re ci regs r outs fuel' mth txt h r' e ks H Hs Hc Hpl [ps0 Hks] E Hrun.
  destruct (history _ _ _ _ _ _ H) as [R1 R2].
  { eapply Forall_impl; [|eassumption]. intros a [A _]. assumption. }
  assert (Hplh : forall rg e0, In (rg, e0) (combine regs outs) -> plain_text re ci (reg_text rg)).
  { intros rg e0 A. apply in_combine_l in A. rewrite Forall_forall in Hs. apply plain_plain_text. apply (Hs _ A). }
  assert (Hshort : short_text re ci txt) by (apply countable_short; assumption).
  destruct (rinv_handle _ _ _ _ _ _ _ _ _ _ R1 Hshort E) as [_ [_ Hdup]].
  pose proof (plain_plain_text _ _ _ Hpl _ _ Hks) as Hplk.
  unfold handle in E. rewrite (ri_ci _ _ _ _ R1) in E.
  pose proof (parse_pattern_spec fuel' re txt ci) as Sp.
  destruct (parse_pattern fuel' re txt ci) as [| | |p0] eqn:Ep; [exfalso; apply Sp; eauto|contradiction|congruence|].
  clear Sp. pose proof (parsed_of _ _ _ _ _ _ _ h Ep Hks (Hshort _ _ Hks)) as P. set (p := attach p0 h) in *.
  destruct (add_pattern match alookup (to_upper mth) (r_matchers r) with Some m => m | None => new_matcher ci end p) as [m' dup] eqn:Ea.
  injection E as Er Ee. split; [destruct dup; auto|]. split.
  - intros Ed. destruct (Hdup Ed) as [m [p2 [ps2 [ks2 [l [q [A1 [A2 [A3 [A4 A5]]]]]]]]]].
    destruct (means_unique _ _ _ _ _ _ _ Hks (pd_means _ _ _ _ _ _ A2)) as [<- <-].
    destruct (ri_some _ _ _ _ R1 _ _ A1) as [pats [M1 M2]].
    assert (Hq : In q pats) by (eapply minv_pats_in; eauto).
    destruct (forall2_in_r _ _ _ _ _ _ M2 Hq) as [rg [B1 [B2 [ps' [ks' B3]]]]].
    apply in_registered in B1. destruct B1 as [e0 [B1 [-> B4]]].
    exists rg, ks'. split.
    + split; [assumption|]. split; [apply same_method_upper; assumption|]. exists ps'. apply (pd_means _ _ _ _ _ _ B3).
    + pose proof (mi_paths _ _ _ _ _ M1) as Hpa. rewrite Forall_forall in Hpa. specialize (Hpa _ A4). cbn [fst snd] in Hpa.
      apply (forall2_imp _ _ (alike ci)); [intros; apply alike_same_piece; assumption|].
      eapply path_alike; [exact Hpa| |apply (pd_shows _ _ _ _ _ _ B3)|apply (pd_means _ _ _ _ _ _ B3)| |exact A5|
        apply (pd_shows _ _ _ _ _ _ A2)|apply (pd_means _ _ _ _ _ _ A2)|assumption].
      * unfold routes in A4. apply in_app_or in A4. destruct A4 as [A4|A4].
        -- destruct (m_root m); [|destruct A4]. destruct A4 as [A4|[]]. injection A4 as <- _. constructor.
        -- eapply leaves_below; [apply (mi_shown _ _ _ _ _ M1)|eassumption].
      * eapply (Hplh _ _ B1). apply (pd_means _ _ _ _ _ _ B3).
  - intros Hnc [rg [ks' [[B1 [B2 [ps' B3]]] B4]]].
    assert (Hreg : In rg (registered (to_upper mth) (combine regs outs))).
    { apply in_registered. exists Registered. split; [assumption|]. split; [reflexivity|]. apply same_method_upper. assumption. }
    destruct (alookup (to_upper mth) (r_matchers r)) as [m|] eqn:Ek.
    2:{ rewrite (ri_none _ _ _ _ R1 _ Ek) in Hreg. destruct Hreg. }
    destruct (ri_some _ _ _ _ R1 _ _ Ek) as [pats [M1 M2]].
    destruct (forall2_in_l _ _ _ _ _ _ M2 Hreg) as [q [Q1 [Q2 [ps2 [ks2 Q3]]]]].
    destruct (means_unique _ _ _ _ _ _ _ B3 (pd_means _ _ _ _ _ _ Q3)) as [<- <-].
    pose proof Q1 as Q4. apply (minv_pats_in _ _ _ _ _ q M1) in Q4. destruct Q4 as [l Hl].
    pose proof (mi_paths _ _ _ _ _ M1) as Hpa. rewrite Forall_forall in Hpa. specialize (Hpa _ Hl). cbn [fst snd] in Hpa.
    assert (Hal : Forall2 (alike ci) ks' ks).
    { apply (forall2_imp _ _ (same_piece ci)); [|assumption]. intros a b Hb Hab. apply same_piece_alike; [assumption|].
      intros n x ->. apply (Hnc n x Hb). }
    assert (Hdupt : dup = true).
    { unfold add_pattern in Ea. unfold routes in Hl. apply in_app_or in Hl. destruct Hl as [Hl|Hl].
      - destruct (m_root m) as [q0|]; [|destruct Hl]. destruct Hl as [Hl|[]]. injection Hl as <- _.
        inversion Hpa as [Hsn|]. symmetry in H0. apply (proj1 (parsed_nil _ _ _ _ _ _ Q3)) in H0. subst ks'.
        inversion Hal; subst. rewrite (proj2 (parsed_nil _ _ _ _ _ _ P) eq_refl) in Ea. congruence.
      - assert (Hsh : Forall (shown ci) l) by (eapply leaves_below; [apply (mi_shown _ _ _ _ _ M1)|eassumption]).
        assert (Hf : Forall2 (fun a b => has_same_val ci a b = true) l (p_segs p)).
        { eapply alike_path; [exact Hpa|exact Hsh|apply (pd_shows _ _ _ _ _ _ Q3)|apply (pd_means _ _ _ _ _ _ Q3)| |exact Hal|
            apply (pd_shows _ _ _ _ _ _ P)|apply (pd_means _ _ _ _ _ _ P)|assumption].
          eapply (Hplh _ _ B1). apply (pd_means _ _ _ _ _ _ Q3). }
        assert (Hd : snd (add_segs (m_ci m) p 0 (p_segs p) (m_trie m)) = true).
        { rewrite (mi_ci _ _ _ _ _ M1). eapply add_dup; [apply (mi_shown _ _ _ _ _ M1)| |exact Hl|exact Hf|].
          - eapply grown_differ. apply (mi_grown _ _ _ _ _ M1).
          - pose proof (pd_shows _ _ _ _ _ _ P) as S. destruct (pd_means _ _ _ _ _ _ P) as [_ [Hrd _]].
            clear - S Hrd Hplk. induction S as [|sg s k sgs ss ks Hk S IH]; [constructor|].
            inversion Hrd; subst. inversion Hplk; subst. constructor; [eauto|auto]. }
        destruct (p_segs p) as [|s segs] eqn:Es.
        + inversion Hf; subst. apply leaf_path_not_nil in Hl. congruence.
        + rewrite <- Es in *. destruct (add_segs (m_ci m) p 0 (p_segs p) (m_trie m)) as [t d]. cbn in Hd. congruence. }
    subst dup. symmetry. exact Ee.
Qed.
