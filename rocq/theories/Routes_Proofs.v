(** * Invariants of matchers and routers over all registration histories. *)
From Coq Require Import List NArith ZArith Ascii String Bool Lia Arith Permutation.
From Verif Require Import GoBase Glob_Model Glob_Spec Pattern_Model Pattern_Spec Pattern_Proofs
  Priority_Spec Priority_Proofs Url_Model Url_Spec Url_Proofs Match_Model Search_Proofs Trie_Proofs Grow_Proofs
  Router_Model Routing_Spec Covers_Proofs.
Import ListNotations.
Local Open Scope string_scope.
Local Open Scope list_scope.
Local Open Scope nat_scope.

(** ** Parsed patterns *)

(** [parsed re ci p t ps ks]: the pattern [p] was parsed from [t]. *)
Record parsed (re : engine) (ci : bool) (p : pattern) (t : bytes) (ps : list bytes) (ks : list piece) : Prop := {
  pd_means : means (re_ok re) ci t ps ks;
  pd_short : List.length ps <= 255;
  pd_shows : shows_all ci (p_segs p) ps ks;
  pd_raw : p_raw p = t;
  pd_caps : p_caps p = N.of_nat (named_count ks);
  pd_any : In Any ks -> p_max p = 255%N;
  pd_noany : ~ In Any ks -> p_max p = N.of_nat (List.length ps);
  pd_prio : ps <> [] -> exists fuel, compute_priority fuel (p_segs p) = Some (p_prio p)
}.

Lemma parsed_of : forall fuel re ci t p ps ks h, parse_pattern fuel re t ci = POk p ->
  means (re_ok re) ci t ps ks -> List.length ps <= 255 -> parsed re ci (attach p h) t ps ks.
Proof.
  intros fuel re ci t p ps ks h Hp Hm Hl. destruct (parse_shows _ _ _ _ _ _ _ Hp Hm Hl) as [H1 [H2 [H3 [H4 [H5 [H6 H7]]]]]].
  constructor; cbn [attach p_segs p_raw p_caps p_max p_prio]; auto. intros Hne. exists fuel. auto.
Qed.

Lemma shows_all_shown : forall ci segs ps ks, shows_all ci segs ps ks -> Forall2 reads ps ks ->
  Forall (shown ci) segs.
Proof.
  intros ci segs ps ks H. induction H as [|sg s k sgs ss ks Hk H IH]; intros Hr; [constructor|].
  inversion Hr; subst. constructor; [exists s, k; auto|auto].
Qed.

Lemma shows_all_spaced : forall ci segs ps ks, shows_all ci segs ps ks -> no_adjacent_any ks -> spaced segs.
Proof.
  intros ci segs ps ks H. induction H as [|sg s k sgs ss ks Hk H IH]; intros Hn; [exact I|].
  apply naa_cons_iff in Hn. destruct Hn as [N1 N2]. split; [|auto].
  inversion H as [|sg2 s2 k2 sgs2 ss2 ks2 Hk2 H2]; subst; [exact I|].
  unfold multi_seg. rewrite (shows_mt _ _ _ _ Hk), (shows_mt _ _ _ _ Hk2). rewrite !mt_of_any.
  intros [-> ->]. apply N2; reflexivity.
Qed.

Lemma parsed_nil : forall re ci p t ps ks, parsed re ci p t ps ks -> (p_segs p = [] <-> ks = []).
Proof.
  intros re ci p t ps ks H. pose proof (pd_shows _ _ _ _ _ _ H) as S. inversion S; subst; split; congruence.
Qed.

(** The maximum depends only on the types of the pieces. *)
Lemma parsed_max : forall re ci p t ps ks p' t' ps' ks', parsed re ci p t ps ks -> parsed re ci p' t' ps' ks' ->
  map s_mt (p_segs p) = map s_mt (p_segs p') -> p_max p = p_max p'.
Proof.
  intros re ci p t ps ks p' t' ps' ks' H H' E.
  assert (Hk : map mt_of ks = map mt_of ks').
  { pose proof (shows_all_mts _ _ _ _ (pd_shows _ _ _ _ _ _ H)) as A.
    pose proof (shows_all_mts _ _ _ _ (pd_shows _ _ _ _ _ _ H')) as B. congruence. }
  assert (Hany : forall l, In Any l <-> In MTMulti (map mt_of l)).
  { intros l. rewrite in_map_iff. split.
    - intros A. exists Any. auto.
    - intros [x [A B]]. apply mt_of_any in A. subst. assumption. }
  assert (Hlen : List.length ps = List.length ps').
  { destruct (shows_all_len _ _ _ _ (pd_shows _ _ _ _ _ _ H)) as [A B].
    destruct (shows_all_len _ _ _ _ (pd_shows _ _ _ _ _ _ H')) as [A' B'].
    apply (f_equal (@List.length _)) in E. rewrite !map_length in E. congruence. }
  destruct (in_dec (fun a b : mtype => ltac:(decide equality)) MTMulti (map mt_of ks)) as [Hi|Hi].
  - rewrite (pd_any _ _ _ _ _ _ H), (pd_any _ _ _ _ _ _ H'); [reflexivity| |]; apply Hany; congruence.
  - rewrite (pd_noany _ _ _ _ _ _ H), (pd_noany _ _ _ _ _ _ H'); [congruence| |]; rewrite Hany; congruence.
Qed.

(** ** Segments of all nodes *)

Definition segs_below (W : segment -> Prop) (n : node) : Prop := Forall (fun c => W (n_seg c)) (n_ch n).

Lemma add_segs_below : forall W ci p segs idx n, Forall W segs ->
  every (segs_below W) n -> every (segs_below W) (fst (add_segs ci p idx segs n)).
Proof.
  intros W ci p. induction segs as [|s rest IH]; intros idx n Hw H; [assumption|].
  inversion Hw as [|? ? Ws Wr]; subst. cbn [add_segs]. apply every_eq in H. destruct H as [H1 H2].
  unfold segs_below in H1.
  assert (Hset : forall l, Forall (fun c => W (n_seg c)) l -> Forall (every (segs_below W)) l ->
     every (segs_below W) (set_children n l)).
  { intros l A B. apply every_eq. destruct n as [nm np ns npt nc]. split; assumption. }
  destruct (find_child ci s (n_ch n)) as [[[before c] after]|] eqn:F.
  - apply find_child_some in F. destruct F as [F1 _]. rewrite F1 in H1, H2.
    rewrite Forall_app, Forall_cons_iff in H1, H2. destruct H1 as [A1 [A2 A3]]. destruct H2 as [B1 [B2 B3]].
    assert (Hc : every (segs_below W) (raise_max c (max_at p idx))).
    { rewrite every_eq in B2 |- *. destruct c as [cm cp cs cpt cc]; assumption. }
    assert (Hseg : forall mx, n_seg (raise_max c mx) = n_seg c) by (intros; destruct c as [cm cp cs cpt cc]; reflexivity).
    assert (G : forall x, n_seg x = n_seg c -> every (segs_below W) x ->
      every (segs_below W) (set_children n (before ++ x :: after))).
    { intros x Hx Hex. apply Hset; rewrite Forall_app, Forall_cons_iff; [rewrite Hx|]; auto. }
    destruct rest as [|s2 rest].
    + destruct (is_leaf _); cbn [fst]; apply G; auto.
    + specialize (IH (S idx) (raise_max c (max_at p idx)) Wr Hc).
      pose proof (add_segs_keeps ci p (s2 :: rest) (S idx) (raise_max c (max_at p idx))) as [K _].
      destruct (add_segs ci p (S idx) (s2 :: rest) (raise_max c (max_at p idx))) as [c2 dup]. cbn [fst] in *.
      apply G; [congruence|assumption].
  - set (fresh := Node _ _ _ _ _).
    assert (Hf : every (segs_below W) fresh) by (apply every_eq; split; constructor).
    specialize (IH (S idx) fresh Wr Hf).
    pose proof (add_segs_keeps ci p rest (S idx) fresh) as [K _].
    destruct (add_segs ci p (S idx) rest fresh) as [c2 dup]. cbn [fst] in *.
    apply Hset.
    + apply (Permutation_Forall (Permutation_sym (sort_children_perm _))). apply Forall_app. split; [assumption|].
      constructor; [rewrite K; exact Ws|constructor].
    + apply (Permutation_Forall (Permutation_sym (sort_children_perm _))). apply Forall_app. split; [assumption|].
      constructor; [assumption|constructor].
Qed.

Lemma leaves_below : forall W n, every (segs_below W) n -> forall l p, In (l, p) (leaves n) -> Forall W l.
Proof.
  intros W. induction n as [mx pr sg pt ch IH] using node_ind'. intros H l p Hl.
  apply every_eq in H. destruct H as [H1 H2]. cbn [n_ch] in *. apply in_leaves in Hl.
  destruct Hl as [c [Hc Hl]]. cbn [n_ch] in Hc. unfold segs_below in H1. cbn [n_ch] in H1.
  rewrite Forall_forall in IH, H1, H2. apply in_branch in Hl. destruct Hl as [[-> _]|[l' [-> Hl]]].
  - constructor; [auto|constructor].
  - constructor; [auto|]. eapply IH; eauto.
Qed.

(** ** Matchers *)

Definition routes (m : matcher) : list (list segment * pattern) :=
  match m_root m with Some p => [([], p)] | None => [] end ++ leaves (m_trie m).

Definition is_parsed (re : engine) (ci : bool) (p : pattern) : Prop := exists t ps ks, parsed re ci p t ps ks.

Record minv (re : engine) (ci : bool) (k : nat) (pats : list pattern) (m : matcher) : Prop := {
  mi_ci : m_ci m = ci;
  mi_narrow : every (narrow k) (m_trie m);
  mi_spaced : every no_multi_below (m_trie m);
  mi_top : s_mt (n_seg (m_trie m)) <> MTMulti;
  mi_shown : every (segs_below (shown ci)) (m_trie m);
  mi_max : maxes (m_trie m) 0;
  mi_routes : Permutation (map snd (routes m)) pats;
  mi_paths : Forall (fun lp => Forall2 (shares ci) (fst lp) (p_segs (snd lp))) (routes m);
  mi_parsed : Forall (is_parsed re ci) pats;
  mi_grown : grown ci pats (m_trie m)
}.

Lemma minv_new : forall re ci, minv re ci 0 [] (new_matcher ci).
Proof.
  intros re ci. constructor; cbn [new_matcher m_ci m_trie routes m_root].
  - reflexivity.
  - apply every_eq. split; [unfold narrow; cbn; lia|constructor].
  - apply every_eq. split; [intros _; constructor|constructor].
  - discriminate.
  - apply every_eq. split; constructor.
  - apply maxes_eq. constructor.
  - constructor.
  - constructor.
  - constructor.
  - apply (grown_nothing ci).
Qed.

Lemma minv_more : forall re ci k pats m, minv re ci k pats m -> minv re ci (S k) pats m.
Proof. intros re ci k pats m []. constructor; auto. apply (every_narrow_mono k); [lia|assumption]. Qed.

Lemma has_same_mts : forall ci l segs, Forall2 (fun a b => has_same_val ci a b = true) l segs ->
  map s_mt l = map s_mt segs.
Proof. intros ci l segs H. induction H as [|a b l segs H _ IH]; [reflexivity|]. cbn. apply has_same_mt in H. congruence. Qed.
Lemma shares_mts : forall ci l segs, Forall2 (shares ci) l segs -> map s_mt l = map s_mt segs.
Proof.
  intros ci l segs H. induction H as [|a b l segs H _ IH]; [reflexivity|]. cbn.
  destruct H as [->|H]; [congruence|]. apply has_same_mt in H. congruence.
Qed.

Lemma minv_pats_in : forall re ci k pats m p, minv re ci k pats m ->
  (In p pats <-> exists l, In (l, p) (routes m)).
Proof.
  intros re ci k pats m p H. pose proof (mi_routes _ _ _ _ _ H) as P. split.
  - intros Hi. apply (Permutation_in _ (Permutation_sym P)) in Hi. apply in_map_iff in Hi.
    destruct Hi as [[l q] [E Hi]]. cbn in E. subst. exists l. assumption.
  - intros [l Hi]. apply (Permutation_in _ P). apply in_map_iff. exists (l, p). auto.
Qed.

Lemma minv_add : forall re ci k pats m p m' dup, minv re ci k pats m -> is_parsed re ci p ->
  add_pattern m p = (m', dup) ->
  if dup
  then m' = m /\ exists l q, In (l, q) (routes m) /\ In q pats /\
       Forall2 (fun a b => has_same_val ci a b = true) l (p_segs p)
  else minv re ci (S k) (pats ++ [p]) m'.
Proof.
  intros re ci k pats m p m' dup H Hp E. unfold add_pattern in E.
  assert (Hpp : Forall (is_parsed re ci) (pats ++ [p])).
  { apply Forall_app. split; [apply (mi_parsed _ _ _ _ _ H)|]. constructor; [assumption|constructor]. }
  destruct (p_segs p) as [|s segs] eqn:Es.
  - destruct (m_root m) as [q|] eqn:Er.
    + injection E as <- <-. split; [reflexivity|]. exists [], q.
      assert (Hin : In ([], q) (routes m)) by (unfold routes; rewrite Er; left; reflexivity).
      split; [assumption|]. split; [|constructor]. eapply minv_pats_in; eauto.
    + injection E as <- <-. destruct H. constructor; cbn [m_ci m_trie m_root]; auto.
      * apply (every_narrow_mono k); [lia|assumption].
      * unfold routes in *. rewrite Er in *. cbn [m_root m_trie app map snd] in *.
        rewrite mi_routes0. apply Permutation_cons_append.
      * unfold routes in *. rewrite Er in *. cbn [m_root m_trie app] in *. constructor; [|assumption].
        cbn. rewrite Es. constructor.
      * apply grown_root; assumption.
  - rewrite <- Es in E.
    assert (Hseg : Forall (shown ci) (p_segs p) /\ spaced (p_segs p)).
    { destruct Hp as [t [ps [ks Hp]]]. destruct (pd_means _ _ _ _ _ _ Hp) as [_ [M1 [M2 _]]]. split.
      - eapply shows_all_shown; [apply (pd_shows _ _ _ _ _ _ Hp)|assumption].
      - eapply shows_all_spaced; [apply (pd_shows _ _ _ _ _ _ Hp)|assumption]. }
    destruct Hseg as [Hsh Hspc].
    destruct (add_segs (m_ci m) p 0 (p_segs p) (m_trie m)) as [t d] eqn:Ea.
    injection E as <- <-. rewrite (mi_ci _ _ _ _ _ H) in Ea.
    pose proof (add_segs_leaves _ _ _ _ _ _ _ Ea ltac:(rewrite Es; discriminate)) as L. destruct d.
    + destruct L as [path [q [L1 [L2 _]]]].
      assert (Hin : In (path, q) (routes m)) by (unfold routes; apply in_or_app; right; assumption).
      split.
      * assert (Ht : t = m_trie m).
        { eapply add_segs_refused; [eassumption|apply (mi_max _ _ _ _ _ H)|].
          intros path' q' i I1 I2. unfold max_at, is_greedy.
          assert (Hin' : In (path', q') (routes m)) by (unfold routes; apply in_or_app; right; assumption).
          assert (Hq : In q' pats) by (eapply minv_pats_in; eauto).
          pose proof (mi_parsed _ _ _ _ _ H) as Hpd. rewrite Forall_forall in Hpd.
          destruct (Hpd _ Hq) as [t1 [ps1 [ks1 P1]]]. destruct Hp as [t2 [ps2 [ks2 P2]]].
          pose proof (mi_paths _ _ _ _ _ H) as Hpa. rewrite Forall_forall in Hpa. specialize (Hpa _ Hin').
          cbn [fst snd] in Hpa.
          assert (Em : p_max q' = p_max p).
          { eapply parsed_max; [eassumption|eassumption|]. rewrite <- (shares_mts _ _ _ Hpa).
            apply (has_same_mts ci). assumption. }
          rewrite Em. reflexivity. }
        rewrite Ht. destruct m. reflexivity.
      * exists path, q. split; [assumption|]. split; [eapply minv_pats_in; eauto|rewrite <- Es; assumption].
    + destruct L as [path [L1 L2]].
      assert (Et : t = fst (add_segs ci p 0 (p_segs p) (m_trie m))) by (rewrite Ea; reflexivity).
      destruct H. constructor; cbn [m_ci m_trie m_root]; auto.
      * rewrite Et. apply add_segs_narrow. assumption.
      * rewrite Et. apply add_segs_spaced; auto. rewrite Es. unfold multi_seg. tauto.
      * rewrite Et. destruct (add_segs_keeps ci p (p_segs p) 0 (m_trie m)) as [K _]. rewrite K. assumption.
      * rewrite Et. apply add_segs_below; assumption.
      * rewrite Et. apply add_segs_maxes. assumption.
      * unfold routes in *. cbn [m_root m_trie]. rewrite map_app in *. rewrite L2. cbn [map snd].
        rewrite <- mi_routes0. rewrite <- Permutation_middle. apply Permutation_cons_append.
      * unfold routes in *. cbn [m_root m_trie]. rewrite Forall_app in *. destruct mi_paths0 as [P1 P2].
        split; [assumption|]. apply (Permutation_Forall (Permutation_sym L2)). constructor; [|assumption].
        cbn [fst snd]. assumption.
      * eapply grown_more; [eassumption|rewrite Es; discriminate|].
        apply add_segs_grow; [assumption|rewrite Es; discriminate].
Qed.

(** ** Routers *)

Lemma alookup_aset : forall (V : Type) k (v : V) m k', alookup k' (aset k v m) = if beqb k' k then Some v else alookup k' m.
Proof.
  intros V k v m k'. unfold aset. cbn [alookup]. destruct (beqb k' k) eqn:E; [reflexivity|].
  induction m as [|[x y] m IH]; [reflexivity|]. cbn [aremove alookup]. destruct (beqb k x) eqn:Ex.
  - apply beqb_eq in Ex. subst x. rewrite E. assumption.
  - cbn [alookup]. destruct (beqb k' x); [reflexivity|assumption].
Qed.


Definition end_eqb (a b : handle_end) : bool :=
  match a, b with
  | Registered, Registered | BadPattern, BadPattern | Duplicate, Duplicate
  | HandleCrash, HandleCrash | HandleRuns, HandleRuns => true
  | _, _ => false
  end.
Lemma end_eqb_eq : forall a b, end_eqb a b = true <-> a = b.
Proof. intros [] []; cbn; split; congruence. Qed.

(** The registrations made for a method, in order. *)
Definition registered (key : bytes) (hist : list (reg * handle_end)) : list reg :=
  map fst (filter (fun x => end_eqb (snd x) Registered && beqb (to_upper (reg_method (fst x))) key) hist).

Definition pat_of (re : engine) (ci : bool) (rg : reg) (p : pattern) : Prop :=
  p_att p = Some (reg_handler rg) /\ exists ps ks, parsed re ci p (reg_text rg) ps ks.

Record rinv (re : engine) (ci : bool) (hist : list (reg * handle_end)) (r : router) : Prop := {
  ri_ci : r_ci r = ci;
  ri_some : forall key m, alookup key (r_matchers r) = Some m ->
    exists pats, minv re ci (List.length hist) pats m /\ Forall2 (pat_of re ci) (registered key hist) pats;
  ri_none : forall key, alookup key (r_matchers r) = None -> registered key hist = []
}.

(** A pattern text whose pieces are few enough to be counted in a byte. *)
Definition short_text (re : engine) (ci : bool) (t : bytes) : Prop :=
  forall ps ks, means (re_ok re) ci t ps ks -> List.length ps <= 255.

Lemma registered_snoc : forall key hist rg e, registered key (hist ++ [(rg, e)]) =
  registered key hist ++ (if end_eqb e Registered && beqb (to_upper (reg_method rg)) key then [rg] else []).
Proof.
  intros key hist rg e. unfold registered. rewrite filter_app, map_app. cbn [filter snd fst].
  destruct (end_eqb e Registered && beqb (to_upper (reg_method rg)) key); reflexivity.
Qed.

Lemma rinv_new : forall re ci, rinv re ci [] (new_router ci).
Proof. intros re ci. constructor; cbn; auto. discriminate. Qed.

Lemma parsed_is : forall fuel re ci t p h, parse_pattern fuel re t ci = POk p -> short_text re ci t ->
  exists ps ks, parsed re ci (attach p h) t ps ks.
Proof.
  intros fuel re ci t p h Hp Hs. pose proof (parse_pattern_spec fuel re t ci) as H. rewrite Hp in H.
  destruct H as [ps [ks [Hm _]]]. exists ps, ks. eapply parsed_of; eauto.
Qed.

Lemma rinv_handle : forall fuel re ci hist r mth txt h r' e, rinv re ci hist r -> short_text re ci txt ->
  handle fuel re r mth txt h = (r', e) ->
  rinv re ci (hist ++ [((mth, txt, h), e)]) r' /\
  (e = Registered \/ (forall key, alookup key (r_matchers r') = alookup key (r_matchers r)) /\ r_ci r' = r_ci r) /\
  (e = Duplicate -> exists m p ps ks l q, alookup (to_upper mth) (r_matchers r) = Some m /\
     parsed re ci p txt ps ks /\ p_att p = Some h /\
     In (l, q) (routes m) /\ Forall2 (fun a b => has_same_val ci a b = true) l (p_segs p)).
Proof.
  intros fuel re ci hist r mth txt h r' e H Hs E.
  assert (Hno : forall e', e' <> Registered -> (forall key, alookup key (r_matchers r') = alookup key (r_matchers r)) ->
     r_ci r' = r_ci r -> rinv re ci (hist ++ [((mth, txt, h), e')]) r').
  { intros e' He Hl Hc. destruct H as [A B C]. constructor.
    - congruence.
    - intros key m Hk. rewrite Hl in Hk. destruct (B key m Hk) as [pats [P1 P2]]. exists pats.
      rewrite app_length, registered_snoc. cbn [List.length]. rewrite Nat.add_1_r. split; [apply minv_more; assumption|].
      replace (end_eqb e' Registered) with false by (destruct e'; [congruence|reflexivity..]).
      cbn. rewrite app_nil_r. assumption.
    - intros key Hk. rewrite Hl in Hk. rewrite registered_snoc, (C key Hk).
      replace (end_eqb e' Registered) with false by (destruct e'; [congruence|reflexivity..]). reflexivity. }
  unfold handle in E. rewrite (ri_ci _ _ _ _ H) in E.
  destruct (parse_pattern fuel re txt ci) as [| | |p0] eqn:Ep.
  - injection E as <- <-. split; [apply Hno; auto; discriminate|]. split; [right; auto|discriminate].
  - injection E as <- <-. split; [apply Hno; auto; discriminate|]. split; [right; auto|discriminate].
  - injection E as <- <-. split; [apply Hno; auto; discriminate|]. split; [right; auto|discriminate].
  - destruct (parsed_is fuel re ci txt p0 h Ep Hs) as [ps [ks Hp]].
    set (p := attach p0 h) in *.
    assert (Hm : exists m pats, match alookup (to_upper mth) (r_matchers r) with
                           | Some m => m | None => new_matcher ci end = m /\
              minv re ci (List.length hist) pats m /\
              Forall2 (pat_of re ci) (registered (to_upper mth) hist) pats /\
              (alookup (to_upper mth) (r_matchers r) = Some m \/ m = new_matcher ci)).
    { destruct (alookup (to_upper mth) (r_matchers r)) as [m|] eqn:El.
      - destruct (ri_some _ _ _ _ H _ _ El) as [pats [P1 P2]]. exists m, pats. auto.
      - exists (new_matcher ci), []. split; [reflexivity|]. split; [|split; [|auto]].
        + clear. induction (List.length hist) as [|k IH]; [apply minv_new|apply minv_more; assumption].
        + rewrite (ri_none _ _ _ _ H _ El). constructor. }
    destruct Hm as [m [pats [Em [M1 [M2 M3]]]]]. rewrite Em in E.
    destruct (add_pattern m p) as [m' dup] eqn:Ea. injection E as Er Ee.
    pose proof (minv_add _ _ _ _ _ _ _ _ M1 ltac:(exists txt, ps, ks; exact Hp) Ea) as A. destruct dup.
    + destruct A as [-> [l [q [A1 [A2 A3]]]]].
      assert (Hlk : alookup (to_upper mth) (r_matchers r) = Some m).
      { destruct M3 as [M3|M3]; [assumption|]. rewrite M3 in A1. destruct A1. }
      assert (Hall : forall key, alookup key (r_matchers r') = alookup key (r_matchers r)).
      { intros key. rewrite <- Er. cbn [r_matchers]. rewrite alookup_aset. destruct (beqb key (to_upper mth)) eqn:Ek; [|reflexivity].
        apply beqb_eq in Ek. subst key. congruence. }
      assert (Hc : r_ci r' = r_ci r) by (rewrite <- Er, (ri_ci _ _ _ _ H); reflexivity).
      subst e. split; [apply Hno; auto; discriminate|]. split; [right; auto|].
      intros _. exists m, p, ps, ks, l, q. repeat split; try assumption; apply Hp.
    + subst e. split; [|split; [left; reflexivity|discriminate]]. constructor.
      * rewrite <- Er. reflexivity.
      * intros key m2 Hk. rewrite <- Er in Hk. cbn [r_matchers] in Hk. rewrite alookup_aset in Hk.
        rewrite registered_snoc, app_length. cbn [List.length end_eqb andb reg_method fst]. rewrite Nat.add_1_r.
        destruct (beqb key (to_upper mth)) eqn:Ek.
        -- apply beqb_eq in Ek. subst key. injection Hk as <-. exists (pats ++ [p]). split; [assumption|].
           rewrite beqb_refl. apply Forall2_app; [assumption|]. constructor; [|constructor].
           split; [reflexivity|]. exists ps, ks. assumption.
        -- destruct (ri_some _ _ _ _ H _ _ Hk) as [pats2 [P1 P2]]. exists pats2. split; [apply minv_more; assumption|].
           replace (beqb (to_upper mth) key) with false.
           ++ rewrite app_nil_r. assumption.
           ++ symmetry. apply beqb_neq. apply beqb_neq in Ek. congruence.
      * intros key Hk. rewrite <- Er in Hk. cbn [r_matchers] in Hk. rewrite alookup_aset in Hk.
        destruct (beqb key (to_upper mth)) eqn:Ek; [discriminate|].
        rewrite registered_snoc, (ri_none _ _ _ _ H _ Hk). cbn [end_eqb andb reg_method fst].
        replace (beqb (to_upper mth) key) with false; [reflexivity|].
        symmetry. apply beqb_neq. apply beqb_neq in Ek. congruence.
Qed.

Lemma rinv_all : forall fuel re ci regs hist r r' outs, rinv re ci hist r ->
  Forall (fun rg => short_text re ci (reg_text rg)) regs ->
  handle_all fuel re r regs = (r', outs) ->
  rinv re ci (hist ++ combine regs outs) r' /\ List.length outs = List.length regs.
Proof.
  intros fuel re ci. induction regs as [|[[mth txt] h] regs IH]; intros hist r r' outs H Hs E; cbn [handle_all] in E.
  - injection E as <- <-. rewrite app_nil_r. auto.
  - inversion Hs; subst. destruct (handle fuel re r mth txt h) as [r1 e] eqn:Eh.
    destruct (handle_all fuel re r1 regs) as [r2 es] eqn:Er. injection E as <- <-.
    destruct (rinv_handle _ _ _ _ _ _ _ _ _ _ H ltac:(eassumption) Eh) as [A _].
    destruct (IH _ _ _ _ A ltac:(assumption) Er) as [B C].
    cbn [combine List.length]. rewrite <- app_assoc in B. split; [exact B|congruence].
Qed.
