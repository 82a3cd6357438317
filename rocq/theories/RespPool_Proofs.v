(** * Recycled header and cookie maps: each thread alone *)
From Coq Require Import List NArith ZArith Ascii String Bool Lia Arith.
From Verif Require Import GoBase Resp_Model Pool_Model Pool_Spec Pool_Proofs RespPool_Model RespPool_Spec
  Auth_Proofs Csrf_Proofs RespMisc_Proofs.
Import ListNotations.
Local Open Scope string_scope.
Local Open Scope list_scope.
Local Open Scope nat_scope.

Lemma apply_snoc m l o : apply_ops m (l ++ [o]) = apply_op (apply_ops m l) o.
Proof. unfold apply_ops. now rewrite fold_left_app. Qed.

Lemma remove_keys {A : Type} key (m : list (bytes * A)) k : In k (map fst (aremove key m)) -> k <> key /\ In k (map fst m).
Proof.
  induction m as [|[k' v'] m IH]; cbn [aremove map]; [easy|]. destruct (beqb key k') eqn:E.
  - intro H. destruct (IH H). cbn. auto.
  - cbn. intros [<-|H]; [|destruct (IH H); auto]. split; [|auto]. intros ->. rewrite beqb_same in E. discriminate E.
Qed.
Lemma remove_nodup {A : Type} key (m : list (bytes * A)) : NoDup (map fst m) -> NoDup (map fst (aremove key m)).
Proof.
  induction m as [|[k' v'] m IH]; intro N; cbn [aremove map]; [constructor|]. inversion N; subst. destruct (beqb key k'); [auto|].
  cbn. constructor; [|auto]. intro H. apply remove_keys in H. now destruct H.
Qed.
Lemma aset_nodup {A : Type} key (v : A) m : NoDup (map fst m) -> NoDup (map fst (aset key v m)).
Proof.
  intro N. unfold aset. cbn. constructor; [|now apply remove_nodup]. intro H. apply remove_keys in H. now destruct H.
Qed.

Lemma ops_show l : shows_calls l (apply_ops [] l).
Proof.
  split.
  - induction l as [|o l IH] using rev_ind; [constructor|]. rewrite apply_snoc. now apply aset_nodup.
  - intros key x E. induction E as [key|l key v|l c key K|l o key x E IH D].
    + reflexivity.
    + rewrite apply_snoc. unfold apply_op. cbn [op_key op_item]. rewrite lookup_set. now rewrite beqb_same.
    + rewrite apply_snoc. unfold apply_op. cbn [op_key op_item]. rewrite K, lookup_set. now rewrite beqb_same.
    + rewrite apply_snoc. unfold apply_op. rewrite <- IH. rewrite lookup_set. now rewrite beqb_ne by congruence.
Qed.

Definition good (e : sent) : Prop := match e with Sent hc h cc c => own_entries hc h /\ own_entries cc c end.
Notation alone := (alone new_map good).
Notation mem := (mem content).

Definition inv (gone : list nat) (m : mem) (maps : list mvar) : Prop :=
  (forall i v, nth_error maps i = Some v -> ~ In i gone -> m (mv_loc v) = Some (apply_ops [] (mv_ops v))) /\
  (forall i j v w, i <> j -> nth_error maps i = Some v -> nth_error maps j = Some w -> ~ In i gone -> ~ In j gone ->
     mv_loc v <> mv_loc w).

(** A new map. *)
Lemma inv_new gone m maps l ops : inv gone m maps -> m l = None ->
  inv gone (put_mem m l (Some (apply_ops [] ops))) (maps ++ [MVar l ops]).
Proof.
  intros [I1 I2] N.
  assert (Q : forall i v, nth_error (maps ++ [MVar l ops]) i = Some v -> (nth_error maps i = Some v) \/ v = MVar l ops /\ i = List.length maps).
  { intros i v E. destruct (Nat.lt_ge_cases i (List.length maps)) as [L|L].
    - rewrite nth_error_app1 in E by exact L. auto.
    - rewrite nth_error_app2 in E by exact L. destruct (i - List.length maps) as [|j] eqn:D; [|destruct j; discriminate E].
      cbn in E. injection E as <-. right. split; [reflexivity|lia]. }
  assert (OLD : forall i v, nth_error maps i = Some v -> ~ In i gone -> mv_loc v <> l).
  { intros i v E G K. rewrite <- K in N. rewrite (I1 i v E G) in N. discriminate N. }
  split.
  - intros i v E G. destruct (Q i v E) as [E'|[-> _]]; [|apply put_same]. rewrite put_diff by eauto. eauto.
  - intros i j v w D E1 E2 G1 G2. destruct (Q i v E1) as [E1'|[-> K1]]; destruct (Q j w E2) as [E2'|[-> K2]]; cbn.
    + apply (I2 i j v w); assumption.
    + now apply (OLD i).
    + intro K. symmetry in K. revert K. now apply (OLD j).
    + lia.
Qed.

(** A call on a map. *)
Lemma inv_op gone m maps i v o : inv gone m maps -> nth_error maps i = Some v -> ~ In i gone ->
  inv gone (put_mem m (mv_loc v) (Some (apply_op (apply_ops [] (mv_ops v)) o))) (set_nth maps i (MVar (mv_loc v) (mv_ops v ++ [o]))).
Proof.
  intros [I1 I2] E G. assert (L : i < List.length maps) by (apply nth_error_Some; congruence).
  split.
  - intros j w E' G'. apply nth_set in E'; [|exact L]. destruct E' as [[-> ->]|[D E']]; cbn [mv_loc mv_ops].
    + rewrite put_same, apply_snoc. reflexivity.
    + rewrite put_diff; [eauto|]. eapply I2; eauto.
  - intros j k w x D E1 E2 G1 G2. apply nth_set in E1; [|exact L]. apply nth_set in E2; [|exact L].
    destruct E1 as [[-> ->]|[D1 E1]]; destruct E2 as [[-> ->]|[D2 E2]]; cbn; try congruence.
    + apply (I2 i k v x); auto.
    + apply (I2 j i w v); auto.
    + apply (I2 j k w x); auto.
Qed.

(** A map is released. *)
Lemma inv_release gone m maps i v : inv gone m maps -> nth_error maps i = Some v -> ~ In i gone ->
  inv (i :: gone) (put_mem (put_mem m (mv_loc v) (Some [])) (mv_loc v) None) maps.
Proof.
  intros [I1 I2] E G. split.
  - intros j w E' G'. cbn in G'. assert (D : mv_loc w <> mv_loc v) by (apply (I2 j i w v); auto).
    rewrite !put_diff by exact D. apply (I1 j w E'). auto.
  - intros j k w x D E1 E2 G1 G2. cbn in G1, G2. apply (I2 j k w x); auto.
Qed.

Lemma release_alone maps gone f pool k s m : inv gone m maps -> usable (List.length maps) gone f ->
  (forall m', inv (released f ++ gone) m' maps -> alone s m' k) -> alone s m (release maps f pool k).
Proof.
  intros I0 U H. destruct f as [i|]; cbn [release released app] in *; [|apply H, I0]. destruct U as [L G].
  destruct (nth_error maps i) as [v|] eqn:E; [|apply nth_error_None in E; lia]. cbn [Pool_Spec.alone].
  exists (apply_ops [] (mv_ops v)). split; [now apply (proj1 I0 i v)|]. split; [now rewrite put_same|].
  apply H. now apply inv_release.
Qed.

Lemma read_alone maps gone f k s m : inv gone m maps -> usable (List.length maps) gone f ->
  (forall x, own_entries (calls_on maps f) x -> alone s m (k x)) -> alone s m (read_map maps f k).
Proof.
  intros I0 U H. destruct f as [i|]; cbn [read_map calls_on] in *; [|apply H; exact I]. destruct U as [L G].
  destruct (nth_error maps i) as [v|] eqn:E; [|apply H; exact I]. cbn [Pool_Spec.alone].
  exists (apply_ops [] (mv_ops v)). split; [left; now apply (proj1 I0 i v)|]. apply H. apply ops_show.
Qed.

Lemma usable_less n gone gone' f : (forall i, In i gone -> In i gone') -> usable n gone' f -> usable n gone f.
Proof. intros H. destruct f as [i|]; cbn; [|auto]. intros [L G]. auto. Qed.

Lemma rthread_alone p : forall maps rs gone s m, polite (List.length maps) rs gone p -> inv gone m maps ->
  (forall i, In i gone -> i < List.length maps) -> alone s m (rthread maps rs p).
Proof.
  assert (SN : forall maps (v : mvar), S (List.length maps) = List.length (maps ++ [v])) by (intros; rewrite app_length; cbn; lia).
  induction p as [|pool k IH|ops k IH|i o k IH|h c k IH|r o k IH|r sends k IH|k IH]; intros maps rs gone s m P I0 GL; cbn [rthread polite] in *.
  - exact I.
  - cbn [Pool_Spec.alone]. intros l N _. apply (IH _ _ gone); [now rewrite <- SN| |].
    + apply (inv_new gone m maps l [] I0 N).
    + intros i G. rewrite <- SN. apply GL in G. lia.
  - cbn [Pool_Spec.alone]. intros l N _. apply (IH _ _ gone); [now rewrite <- SN| |].
    + apply (inv_new gone m maps l ops I0 N).
    + intros i G. rewrite <- SN. apply GL in G. lia.
  - destruct P as [[L G] P]. destruct (nth_error maps i) as [v|] eqn:E; [|exact I]. cbn [Pool_Spec.alone].
    exists (apply_ops [] (mv_ops v)). split; [now apply (proj1 I0 i v)|].
    apply (IH _ _ gone); rewrite ?set_nth_length; auto. now apply inv_op.
  - apply (IH _ _ gone); auto.
  - destruct (nth_error rs r) as [x|]; [|exact I]. specialize (P x eq_refl).
    assert (E1 : owned o x = field o x) by (destruct o, x; reflexivity). assert (E2 : forall i, owning o x i = with_field o x i) by (intros i; destruct o, x; reflexivity).
    rewrite E1, E2 in P. clear E1 E2. destruct (field o x) as [i|].
    + destruct P as [[L G] P]. destruct (nth_error maps i) as [v|] eqn:E; [|exact I]. cbn [Pool_Spec.alone].
      exists (apply_ops [] (mv_ops v)). split; [now apply (proj1 I0 i v)|].
      apply (IH _ _ gone); rewrite ?set_nth_length; auto. now apply inv_op.
    + cbn [Pool_Spec.alone]. intros l N _. exists []. split; [apply put_same|].
      pose proof (inv_op gone _ (maps ++ [MVar l []]) (List.length maps) (MVar l []) o (inv_new gone m maps l [] I0 N)) as IO.
      assert (NE : nth_error (maps ++ [MVar l []]) (List.length maps) = Some (MVar l [])).
      { rewrite nth_error_app2, Nat.sub_diag by lia. reflexivity. }
      assert (NG : ~ In (List.length maps) gone) by (intro K; apply GL in K; lia).
      specialize (IO NE NG). cbn [mv_loc mv_ops app] in IO.
      replace (set_nth (maps ++ [MVar l []]) (List.length maps) (MVar l [o])) with (maps ++ [MVar l [o]]) in IO.
      2: { clear. induction maps as [|y maps IH]; cbn; [reflexivity|]. now rewrite IH. }
      apply (IH _ _ gone); [now rewrite <- SN|exact IO|]. intros i K. rewrite <- SN. apply GL in K. lia.
  - destruct (nth_error rs r) as [x|]; [|exact I]. destruct (P x eq_refl) as (U1 & U2 & PK).
    assert (U2' : usable (List.length maps) gone (snd x)).
    { eapply usable_less; [|exact U2]. intros i H. apply in_or_app. auto. }
    apply (read_alone maps gone); auto. intros c OC. apply (read_alone maps gone); auto. intros h OH.
    assert (R : alone s m (release maps (fst x) 0 (release maps (snd x) 1 (rthread maps rs k)))).
    { apply (release_alone maps gone); auto. intros m1 J1. apply (release_alone maps (released (fst x) ++ gone)); auto. intros m2 J2.
      apply (IH _ _ (released (snd x) ++ released (fst x) ++ gone)); auto.
      intros i K. rewrite !in_app_iff in K. destruct K as [K|[K|K]]; [| |auto].
      - destruct (snd x) as [j|]; cbn in K; [|easy]. destruct K as [<-|[]]. apply U2.
      - destruct (fst x) as [j|]; cbn in K; [|easy]. destruct K as [<-|[]]. apply U1. }
    destruct sends; [|exact R]. cbn [Pool_Spec.alone]. split; [split; assumption|exact R].
  - cbn [Pool_Spec.alone]. intro x. apply (IH x _ _ gone); auto.
Qed.

Lemma responses_together ls : programs_only ls ->
  exists c, steps new_map ls start = Some c /\ race_free c /\
    forall hcalls h ccalls k, In (Sent hcalls h ccalls k) (cf_log c) -> own_entries hcalls h /\ own_entries ccalls k.
Proof.
  intro H. destruct (together _ _ _ new_map good ls) as (c & E & F & R).
  - intros p IN. destruct (H p IN) as (rp & -> & P). apply (rthread_alone rp [] [] []).
    + exact P.
    + split; intros [|i]; discriminate.
    + easy.
  - exists c. split; [exact E|]. split; [exact R|]. intros hc h cc k IN. rewrite Forall_forall in F. exact (F _ IN).
Qed.

(** Every list of calls has exactly one entry, or none, per key: the specification is
    not empty. *)
Lemma entry_total l key : exists x, entry_after l key x.
Proof.
  induction l as [|o l [x IH]] using rev_ind; [exists None; constructor|].
  destruct (beqb (op_key o) key) eqn:E.
  - apply beqb_iff in E. destruct o as [k v|c]; cbn in E; subst key.
    + eexists. apply EA_header.
    + eexists. apply EA_cookie. reflexivity.
  - exists x. apply EA_other; [exact IH|]. intros K. rewrite K in E. rewrite beqb_same in E. discriminate E.
Qed.
