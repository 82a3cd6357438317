(** * Proofs about the wildcard segment matcher. *)
From Coq Require Import List NArith Ascii String Bool Lia Arith.
From Verif Require Import GoBase Glob_Model Glob_Spec.
Import ListNotations.
Local Open Scope string_scope.
Local Open Scope list_scope.
Local Open Scope nat_scope.

Lemma skipn_nth : forall (A : Type) (l : list A) n x,
  nth_error l n = Some x -> skipn n l = x :: skipn (S n) l.
Proof.
  induction l as [|a l IH]; intros [|n] x H; simpl in *; try discriminate.
  - injection H as ->. reflexivity.
  - rewrite (IH n x H). destruct l; reflexivity.
Qed.

Lemma nth_error_none_ge : forall (A : Type) (l : list A) n,
  nth_error l n = None <-> List.length l <= n.
Proof. intros. apply nth_error_None. Qed.

Lemma skipn_all_len : forall (A : Type) (l : list A) n,
  List.length l <= n -> skipn n l = [].
Proof. intros. apply skipn_all2. assumption. Qed.

Lemma skipn_skipn_add : forall (A : Type) (l : list A) a b,
  skipn a (skipn b l) = skipn (b + a) l.
Proof.
  intros A l a b; revert l; induction b as [|b IH]; intros l; simpl.
  - reflexivity.
  - destruct l; [destruct a; reflexivity|apply IH].
Qed.

Lemma nas_tail : forall c w, no_adjacent_stars (c :: w) -> no_adjacent_stars w.
Proof. intros c w H; inversion H; subst; [constructor|assumption]. Qed.

Lemma nas_skipn : forall n w, no_adjacent_stars w -> no_adjacent_stars (skipn n w).
Proof.
  induction n as [|n IH]; intros [|c w] H; simpl; auto.
  apply IH. eapply nas_tail; eauto.
Qed.

(** The non wildcard comparison agrees with the specification. *)
Lemma runes_match_spec : forall ci x c,
  c <> star -> (runes_match ci x c = true <-> c = qmark \/ (c <> qmark /\ same_letter ci x c)).
Proof.
  intros ci x c Hs. unfold runes_match, same_letter.
  destruct (Ascii.eqb c qmark) eqn:E.
  - apply Ascii.eqb_eq in E. split; auto.
  - apply Ascii.eqb_neq in E. destruct ci.
    + rewrite N.eqb_eq. tauto.
    + rewrite Ascii.eqb_eq. tauto.
Qed.

(** ** Properties of the specification *)

Lemma acc_nonempty_nil : forall ic w,
  no_adjacent_stars w -> w <> [] -> ~ accepts ic w [].
Proof.
  intros ic w Hn Hne Ha. remember [] as t eqn:Et. revert Et Hn Hne.
  induction Ha; intros; try discriminate; try congruence.
  apply app_eq_nil in Et. destruct Et as [-> ->].
  inversion Hn as [|c1|c1 d1 w1 Hcd Hn']; subst.
  - congruence.
  - apply IHHa; auto. 
Qed.

Lemma acc_cons_char : forall ic c w x t,
  c <> star -> (accepts ic (c :: w) (x :: t) <->
  (runes_match ic x c = true /\ accepts ic w t)).
Proof.
  intros ic c w x t Hs. rewrite runes_match_spec by assumption. split.
  - intros H; inversion H; subst; try (exfalso; apply Hs; reflexivity); auto.
  - intros [[->|[Hq Hsame]] Ha].
    + apply acc_any; assumption.
    + apply acc_char; auto.
Qed.

Lemma acc_star_inv : forall ic w t,
  w <> [] -> (accepts ic (star :: w) t <-> exists n, n <= List.length t /\ accepts ic w (skipn n t)).
Proof.
  intros ic w t Hw. split.
  - intros H. inversion H; subst.
    + exfalso; auto.
    + congruence.
    + exists (List.length run). rewrite app_length. split; [lia|].
      rewrite skipn_app, skipn_all, Nat.sub_diag. simpl. assumption.
  - intros [n [Hn Ha]]. rewrite <- (firstn_skipn n t).
    apply acc_inner_star; assumption.
Qed.

Lemma acc_last_iff : forall ic t, accepts ic [star] t <-> t <> [].
Proof.
  intros ic t; split.
  - intros H. inversion H; subst; try discriminate; try congruence; tauto.
  - destruct t; [congruence|]. intros _. apply acc_last_star.
Qed.

(** Skipping characters before a star keeps acceptance possible earlier. *)
Lemma acc_star_mono : forall ic w t j k,
  j <= k -> accepts ic (star :: w) (skipn k t) -> accepts ic (star :: w) (skipn j t).
Proof.
  intros ic w t j k Hjk H. destruct w as [|c w].
  - apply acc_last_iff. apply acc_last_iff in H. intros E. apply H.
    assert (List.length t <= j).
    { destruct (le_lt_dec (List.length t) j); auto.
      apply (f_equal (@List.length _)) in E. rewrite skipn_length in E. simpl in E. lia. }
    apply skipn_all_len. lia.
  - apply acc_star_inv in H; [|discriminate].
    apply acc_star_inv; [discriminate|].
    destruct H as [n [Hn Ha]]. rewrite skipn_length in Hn.
    rewrite skipn_skipn_add in Ha.
    destruct (le_lt_dec k (List.length t)).
    + exists (k + n - j). rewrite skipn_length, skipn_skipn_add.
      split; [lia|]. replace (j + (k + n - j)) with (k + n) by lia. assumption.
    + rewrite skipn_all_len in Ha by lia.
      exists (List.length (skipn j t)). split; [lia|].
      rewrite skipn_all. assumption.
Qed.

(** A block without stars consumes exactly its length. *)
Lemma acc_block : forall ic q r t,
  ~ In star q -> accepts ic (q ++ r) t -> accepts ic r (skipn (List.length q) t).
Proof.
  induction q as [|c q IH]; intros r t Hn H; simpl in *.
  - assumption.
  - destruct t as [|x t].
    + inversion H; subst; try (exfalso; apply Hn; left; reflexivity).
    + apply acc_cons_char in H; [|intros E; apply Hn; left; auto].
      destruct H as [_ H]. simpl. apply IH; auto.
Qed.

(** ** The search for the byte after a star *)

Lemma find_next_some : forall ci rest i pc k,
  find_next ci rest i pc = Some k ->
  i <= k /\ k - i < List.length rest /\
  (exists x, nth_error rest (k - i) = Some x /\ runes_match ci x pc = true) /\
  (forall j x, j < k - i -> nth_error rest j = Some x -> runes_match ci x pc = false).
Proof.
  induction rest as [|c rest IH]; intros i pc k H; simpl in H; [discriminate|].
  destruct (runes_match ci c pc) eqn:E.
  - injection H as <-. rewrite Nat.sub_diag. simpl.
    repeat split; try lia; eauto.
  - apply IH in H. destruct H as [H1 [H2 [H3 H4]]].
    replace (k - i) with (S (k - S i)) by lia. simpl. repeat split; try lia; auto.
    intros [|j] x Hj Hx; simpl in Hx.
    + injection Hx as <-. assumption.
    + apply (H4 j x); auto. lia.
Qed.

Lemma find_next_none : forall ci rest i pc,
  find_next ci rest i pc = None ->
  forall j x, nth_error rest j = Some x -> runes_match ci x pc = false.
Proof.
  induction rest as [|c rest IH]; intros i pc H j x Hx; simpl in H.
  - destruct j; discriminate.
  - destruct (runes_match ci c pc) eqn:E; [discriminate|].
    destruct j; simpl in Hx.
    + injection Hx as <-; assumption.
    + eapply IH; eauto.
Qed.

Lemma skip_stars_nas : forall p pi,
  no_adjacent_stars p -> nth_error p pi = Some star ->
  skip_stars (skipn (S pi) p) (S pi) pi = pi.
Proof.
  intros p pi Hn Hs. apply skipn_nth in Hs.
  pose proof (nas_skipn pi p Hn) as Hk. rewrite Hs in Hk.
  destruct (skipn (S pi) p) as [|d w]; [reflexivity|].
  inversion Hk; subst. simpl. destruct (Ascii.eqb d star) eqn:E; simpl.
  - apply Ascii.eqb_eq in E. tauto.
  - lia.
Qed.

(** ** The loop invariant *)

Section Loop.
Variables (ci : bool) (u p : bytes).
Hypothesis Hnas : no_adjacent_stars p.

Definition alt (ck : option (nat * nat)) : Prop :=
  match ck with
  | None => False
  | Some (cp, cu) => accepts ci (skipn cp p) (skipn (cu + 1) u)
  end.

Definition answer (st : gstate) : Prop :=
  (g_restore st = false /\ accepts ci (skipn (g_p st) p) (skipn (g_u st) u)) \/ alt (g_ck st).

Definition ck_ok (st : gstate) : Prop :=
  match g_ck st with
  | None => True
  | Some (cp, cu) =>
      nth_error p cp = Some star /\ cp + 1 <= g_p st /\ cp + 1 < List.length p /\
      cu < List.length u /\ g_u st + cp + 1 = cu + g_p st /\
      (forall i, cp < i -> i < g_p st -> nth_error p i <> Some star)
  end.

Definition inv (st : gstate) : Prop :=
  g_p st <= List.length p /\ g_u st <= List.length u /\ ck_ok st /\
  (g_restore st = true -> g_p st < List.length p /\ g_u st < List.length u).

(** The measure that every iteration decreases. *)
Definition ckm (ck : option (nat * nat)) : nat :=
  match ck with
  | None => (List.length p + 1) * (List.length u + 2)
  | Some (cp, cu) => (List.length p - cp) * (List.length u + 2) + (List.length u - cu)
  end.
Definition meas (st : gstate) : nat :=
  match g_ck st with
  | None => if Nat.eqb (g_u st) (List.length u) then 0
            else ckm (g_ck st) * (List.length p + 2)
                 + (if g_restore st then 0 else 1 + (List.length p - g_p st))
  | Some _ => ckm (g_ck st) * (List.length p + 2)
                 + (if g_restore st then 0 else 1 + (List.length p - g_p st))
  end.

Lemma block_between : forall cp pi,
  cp < pi -> pi <= List.length p ->
  exists q, skipn (S cp) p = q ++ skipn pi p /\ List.length q = pi - S cp /\
    (forall x, In x q -> exists i, cp < i /\ i < pi /\ nth_error p i = Some x).
Proof.
  intros cp pi Hlt Hle. exists (firstn (pi - S cp) (skipn (S cp) p)).
  split; [|split].
  - assert (E : skipn pi p = skipn (pi - S cp) (skipn (S cp) p)).
    { rewrite skipn_skipn_add. f_equal. lia. }
    rewrite E. symmetry. apply firstn_skipn.
  - rewrite firstn_length, skipn_length. lia.
  - intros x Hx. apply In_nth_error in Hx. destruct Hx as [n Hn].
    assert (Hl : n < List.length (firstn (pi - S cp) (skipn (S cp) p))).
    { apply nth_error_Some. congruence. }
    rewrite firstn_length, skipn_length in Hl.
    exists (S cp + n). split; [lia|]. split; [lia|].
    rewrite <- Hn.
    clear Hn. revert Hl. generalize (S cp). intros a Hl.
    assert (G : forall (l : bytes) b n0, n0 < b -> nth_error (firstn b l) n0 = nth_error l n0).
    { induction l as [|y l IHl]; intros [|b] [|n0] Hb; simpl; auto; try lia.
      apply IHl. lia. }
    rewrite G by lia.
    assert (K : forall (l : bytes) b n0, nth_error (skipn b l) n0 = nth_error l (b + n0)).
    { induction l as [|y l IHl]; intros [|b] n0; simpl; auto. destruct n0; auto. }
    symmetry. apply K.
Qed.

(** Reaching a star makes the older checkpoint useless. *)
Lemma star_subsumes : forall st,
  inv st -> nth_error p (g_p st) = Some star -> alt (g_ck st) ->
  accepts ci (skipn (g_p st) p) (skipn (g_u st) u).
Proof.
  intros [pi ui rs ck] [Hp [Hu [Hck _]]] Hs Ha. simpl in *.
  unfold ck_ok in Hck. simpl in Hck.
  destruct ck as [[cp cu]|]; simpl in Ha; [|contradiction].
  destruct Hck as [Hcs [Hle [Hcl [Hcu [Heq Hno]]]]].
  rewrite (skipn_nth _ _ _ _ Hcs) in Ha.
  destruct (block_between cp pi) as [q [Hq [Hql Hqi]]]; [lia|lia|].
  rewrite Hq in Ha.
  rewrite (skipn_nth _ _ _ _ Hs) in *.
  apply acc_star_inv in Ha; [|destruct q; discriminate].
  destruct Ha as [n [Hn Ha]].
  apply acc_block in Ha.
  2:{ intros Hin. apply Hqi in Hin. destruct Hin as [i [Hi1 [Hi2 Hi3]]].
      apply (Hno i); auto. }
  rewrite !skipn_skipn_add in Ha.
  eapply acc_star_mono; [|exact Ha]. lia.
Qed.

Lemma step_star : forall pi ui,
  nth_error p pi = Some star -> pi <> List.length p - 1 -> pi < List.length p ->
  ui <= List.length u ->
  forall pc', nth_error p (S pi) = Some pc' ->
  match find_next ci (skipn ui u) ui pc' with
  | Some k => ui <= k /\ k < List.length u /\
              (accepts ci (skipn pi p) (skipn ui u) <->
               accepts ci (skipn (S pi) p) (skipn k u) \/ accepts ci (skipn pi p) (skipn (k + 1) u))
  | None => ~ accepts ci (skipn pi p) (skipn ui u)
  end.
Proof.
  intros pi ui Hs Hl Hlt Hui pc' Hpc.
  assert (Hns : pc' <> star).
  { intros ->. pose proof (nas_skipn pi p Hnas) as Hk.
    rewrite (skipn_nth _ _ _ _ Hs), (skipn_nth _ _ _ _ Hpc) in Hk.
    inversion Hk; subst. tauto. }
  rewrite (skipn_nth _ _ _ _ Hs).
  assert (Hne : skipn (S pi) p <> []).
  { rewrite (skipn_nth _ _ _ _ Hpc). discriminate. }
  assert (Hfirst : forall n, accepts ci (skipn (S pi) p) (skipn n (skipn ui u)) ->
            exists x, nth_error (skipn ui u) n = Some x /\ runes_match ci x pc' = true).
  { intros n Ha. rewrite (skipn_nth _ _ _ _ Hpc) in Ha.
    destruct (nth_error (skipn ui u) n) as [x|] eqn:En.
    - rewrite (skipn_nth _ _ _ _ En) in Ha. apply acc_cons_char in Ha; auto.
      exists x. tauto.
    - apply nth_error_None in En. rewrite (skipn_all_len _ (skipn ui u) n) in Ha by assumption.
      exfalso. revert Ha. apply acc_nonempty_nil; [|discriminate].
      rewrite <- (skipn_nth _ _ _ _ Hpc). apply nas_skipn; assumption. }
  destruct (find_next ci (skipn ui u) ui pc') as [k|] eqn:Ef.
  - apply find_next_some in Ef. destruct Ef as [H1 [H2 [[x [H3 H4]] H5]]].
    rewrite skipn_length in H2. repeat split; try lia.
    + intros Ha. apply acc_star_inv in Ha; auto. destruct Ha as [n [Hn Ha]].
      destruct (Hfirst n Ha) as [y [Hy1 Hy2]].
      destruct (lt_eq_lt_dec n (k - ui)) as [[Hlt'|Heq]|Hgt].
      * rewrite (H5 n y Hlt' Hy1) in Hy2. discriminate.
      * left. subst n. rewrite skipn_skipn_add in Ha.
        replace (ui + (k - ui)) with k in Ha by lia. assumption.
      * right. rewrite skipn_length in Hn. rewrite skipn_skipn_add in Ha.
        apply acc_star_inv; auto. exists (ui + n - (k + 1)).
        rewrite skipn_length, skipn_skipn_add. split; [lia|].
        replace (k + 1 + (ui + n - (k + 1))) with (ui + n) by lia. assumption.
    + intros [Ha|Ha].
      * apply acc_star_inv; auto. exists (k - ui). rewrite skipn_length, skipn_skipn_add.
        split; [lia|]. replace (ui + (k - ui)) with k by lia. assumption.
      * eapply acc_star_mono; [|exact Ha]. lia.
  - intros Ha. apply acc_star_inv in Ha; auto. destruct Ha as [n [Hn Ha]].
    destruct (Hfirst n Ha) as [y [Hy1 Hy2]].
    rewrite (find_next_none _ _ _ _ Ef n y Hy1) in Hy2. discriminate.
Qed.

Definition step_ok (st : gstate) : Prop :=
  match glob_step ci u p st with
  | inl st' => inv st' /\ (answer st <-> answer st') /\ meas st' < meas st
  | inr (GRet b) => (b = true <-> answer st)
  | inr GPanic => True
  | inr GFuel => False
  end.

Lemma skipn_nil_or : forall (A : Type) (l : list A) n, n < List.length l -> skipn n l <> [].
Proof.
  intros A l n H E. apply (f_equal (@List.length _)) in E.
  rewrite skipn_length in E. simpl in E. lia.
Qed.

(** The star branch, shared by the plain and the restored case. *)
Lemma star_branch : forall st pi ui,
  inv st -> nth_error p pi = Some star -> ui < List.length u ->
  (answer st <-> accepts ci (skipn pi p) (skipn ui u)) ->
  (forall k, ui <= k -> k < List.length u -> pi <> List.length p - 1 ->
     meas (GState (S pi) k false (Some (pi, k))) < meas st) ->
  0 < meas st ->
  match (if Nat.eqb pi (List.length p - 1) then inr (GRet true)
         else match nth_error p (S pi) with
              | None => inr GPanic
              | Some pc' =>
                  match find_next ci (skipn ui u) ui pc' with
                  | Some k => inl (GState (S pi) k false (Some (pi, k)))
                  | None => inl (GState pi (List.length u) false None)
                  end
              end) with
  | inl st' => inv st' /\ (answer st <-> answer st') /\ meas st' < meas st
  | inr (GRet b) => (b = true <-> answer st)
  | inr GPanic => True
  | inr GFuel => False
  end.
Proof.
  intros st pi ui Hinv Hs Hui Hans Hm H0.
  assert (Hlt : pi < List.length p) by (apply nth_error_Some; congruence).
  destruct (Nat.eqb pi (List.length p - 1)) eqn:E.
  - apply Nat.eqb_eq in E. rewrite Hans. split; [|auto]. intros _.
    rewrite (skipn_nth _ _ _ _ Hs). rewrite (skipn_all_len _ p (S pi)) by lia.
    apply acc_last_iff. apply skipn_nil_or. assumption.
  - apply Nat.eqb_neq in E.
    destruct (nth_error p (S pi)) as [pc'|] eqn:Epc; [|exact I].
    pose proof (step_star pi ui Hs E Hlt (Nat.lt_le_incl _ _ Hui) pc' Epc) as Hss.
    destruct (find_next ci (skipn ui u) ui pc') as [k|] eqn:Ef.
    + destruct Hss as [Hk1 [Hk2 Hk3]].
      assert (S pi < List.length p) by (apply nth_error_Some; congruence).
      split; [|split].
      * unfold inv, ck_ok; simpl. repeat split; try lia; auto; try discriminate.
      * rewrite Hans, Hk3. unfold answer; simpl. split.
        -- intros [Ha|Ha]; [left; split; auto|right]. exact Ha.
        -- intros [[_ Ha]|Ha]; [left; exact Ha|right; exact Ha].
      * apply Hm; auto.
    + split; [|split].
      * unfold inv, ck_ok; simpl. repeat split; try lia; discriminate.
      * rewrite Hans. unfold answer; simpl. rewrite (skipn_all_len _ u (List.length u)) by lia.
        split; [intros Ha; contradiction|].
        intros [[_ Ha]|[]]. exfalso. revert Ha. apply acc_nonempty_nil.
        -- apply nas_skipn; assumption.
        -- apply skipn_nil_or. assumption.
      * unfold meas; simpl. rewrite Nat.eqb_refl. assumption.
Qed.

Lemma ckm_le_cp : forall cp cu pi k,
  cp < pi -> pi <= List.length p -> k <= List.length u ->
  ckm (Some (pi, k)) < ckm (Some (cp, cu)).
Proof.
  intros. simpl.
  assert (List.length p - pi + 1 <= List.length p - cp) by lia.
  assert ((List.length p - pi + 1) * (List.length u + 2)
          <= (List.length p - cp) * (List.length u + 2))
    by (apply Nat.mul_le_mono_r; assumption).
  lia.
Qed.

Lemma ckm_none : forall pi k, k <= List.length u -> ckm (Some (pi, k)) < ckm None.
Proof.
  intros. simpl.
  assert ((List.length p - pi) * (List.length u + 2)
          <= List.length p * (List.length u + 2))
    by (apply Nat.mul_le_mono_r; lia).
  lia.
Qed.

Lemma meas_of_ckm : forall a b i j, a < b -> i < List.length p + 2 ->
  a * (List.length p + 2) + i < b * (List.length p + 2) + j.
Proof.
  intros a b i j Hab Hi.
  assert ((a + 1) * (List.length p + 2) <= b * (List.length p + 2))
    by (apply Nat.mul_le_mono_r; lia).
  lia.
Qed.

Lemma step_correct : forall st, inv st -> step_ok st.
Proof.
  intros st Hinv. unfold step_ok.
  destruct st as [pi ui rs ck]. pose proof Hinv as [Hp [Hu [Hck Hrs]]]. simpl in *.
  unfold glob_step; cbn [g_p g_u g_restore g_ck].
  destruct (Nat.eqb pi (List.length p) && Nat.eqb ui (List.length u)) eqn:Eboth.
  - (* both at the end *)
    apply andb_true_iff in Eboth. destruct Eboth as [E1 E2].
    apply Nat.eqb_eq in E1, E2. split; auto. intros _. unfold answer; simpl. left.
    destruct rs; [specialize (Hrs eq_refl); lia|]. split; auto.
    rewrite !skipn_all_len by lia. constructor.
  - destruct (rs || Nat.eqb pi (List.length p) || Nat.eqb ui (List.length u)) eqn:Er.
    + (* restore *)
      assert (Hans : answer (GState pi ui rs ck) <-> alt ck).
      { unfold answer; simpl. split; [|auto]. intros [[-> Ha]|Ha]; auto. exfalso.
        simpl in Er. apply andb_false_iff in Eboth. rewrite orb_true_iff in Er.
        rewrite !Nat.eqb_eq in Er. rewrite !Nat.eqb_neq in Eboth.
        destruct (Nat.eq_dec pi (List.length p)) as [E|E].
        - rewrite (skipn_all_len _ p) in Ha by lia.
          assert (Hne : skipn ui u <> []) by (apply skipn_nil_or; lia).
          inversion Ha; subst. congruence.
        - rewrite (skipn_all_len _ u) in Ha by lia. revert Ha.
          apply acc_nonempty_nil; [apply nas_skipn; assumption|apply skipn_nil_or; lia]. }
      destruct ck as [[cp cu]|].
      2:{ rewrite Hans. simpl. split; [discriminate|tauto]. }
      unfold ck_ok in Hck; simpl in Hck.
      destruct Hck as [Hcs [Hle [Hcl [Hcu [Heq Hno]]]]].
      destruct (nth_error u (cu + 1)) as [uc|] eqn:Eu; [|exact I].
      assert (cu + 1 < List.length u) by (apply nth_error_Some; congruence).
      rewrite Hcs. change (Ascii.eqb star qmark) with false.
      change (Ascii.eqb star star) with true. cbv iota.
      rewrite (skip_stars_nas p cp Hnas Hcs).
      apply star_branch; auto.
      * intros k Hk1 Hk2 Hk3. unfold meas; cbn [g_ck g_restore g_p g_u].
        apply meas_of_ckm; [|lia]. unfold ckm. lia.
      * unfold meas; cbn [g_ck g_restore g_p g_u]. unfold ckm.
        generalize ((List.length p - cp) * (List.length u + 2)). intros m.
        assert (1 * 1 <= (m + (List.length u - cu)) * (List.length p + 2))
          by (apply Nat.mul_le_mono; lia). lia.
    + apply orb_false_iff in Er. destruct Er as [Er Eu].
      apply orb_false_iff in Er. destruct Er as [-> Ep].
      apply Nat.eqb_neq in Eu, Ep.
      destruct (nth_error u ui) as [uc|] eqn:Enu.
      2:{ apply nth_error_None in Enu. lia. }
      destruct (nth_error p pi) as [pc|] eqn:Enp.
      2:{ apply nth_error_None in Enp. lia. }
      assert (Hadv : pc <> star -> runes_match ci uc pc = true ->
        inv (GState (S pi) (S ui) false ck) /\
        (answer (GState pi ui false ck) <-> answer (GState (S pi) (S ui) false ck)) /\
        meas (GState (S pi) (S ui) false ck) < meas (GState pi ui false ck)).
      { intros Hns Hm. split; [|split].
        - unfold inv; simpl. repeat split; try lia; try discriminate.
          unfold ck_ok in *; simpl in *. destruct ck as [[cp cu]|]; auto.
          destruct Hck as [Hcs [Hle [Hcl [Hcu [Heq Hno]]]]].
          repeat split; auto; try lia.
          intros i Hi1 Hi2. destruct (Nat.eq_dec i pi) as [->|Hi].
          + rewrite Enp. congruence.
          + apply Hno; lia.
        - unfold answer; cbn [g_ck g_restore g_p g_u].
          rewrite (skipn_nth _ _ _ _ Enp), (skipn_nth _ _ _ _ Enu).
          rewrite acc_cons_char by assumption. tauto.
        - unfold meas; cbn [g_ck g_restore g_p g_u]. destruct ck; [lia|].
          destruct (Nat.eqb ui (List.length u)) eqn:E1; [apply Nat.eqb_eq in E1; lia|].
          destruct (Nat.eqb (S ui) (List.length u)); lia. }
      destruct (Ascii.eqb pc qmark) eqn:Eq.
      { apply Hadv.
        - apply Ascii.eqb_eq in Eq. subst. discriminate.
        - unfold runes_match. rewrite Eq. reflexivity. }
      destruct (Ascii.eqb pc star) eqn:Es.
      * apply Ascii.eqb_eq in Es. subst pc.
        rewrite (skip_stars_nas p pi Hnas Enp).
        apply star_branch; auto.
        -- lia.
        -- split; [|intros Ha; left; auto].
           intros [[_ Ha]|Ha]; auto.
           apply (star_subsumes (GState pi ui false ck)); auto.
        -- intros k Hk1 Hk2 Hk3. unfold meas; cbn [g_ck g_restore g_p g_u].
           unfold ck_ok in Hck; simpl in Hck. destruct ck as [[cp cu]|].
           ++ apply meas_of_ckm; [|lia]. apply ckm_le_cp; lia.
           ++ destruct (Nat.eqb ui (List.length u)) eqn:E1; [apply Nat.eqb_eq in E1; lia|].
              apply meas_of_ckm; [|lia]. apply ckm_none. lia.
        -- unfold meas; cbn [g_ck g_restore g_p g_u]. destruct ck; [lia|].
           destruct (Nat.eqb ui (List.length u)) eqn:E1; [apply Nat.eqb_eq in E1; lia|lia].
      * apply Ascii.eqb_neq in Es.
        destruct (runes_match ci uc pc) eqn:Em; [apply Hadv; auto|].
        split; [|split].
        -- unfold inv; simpl. repeat split; try lia. exact Hck.
        -- unfold answer; cbn [g_ck g_restore g_p g_u].
           rewrite (skipn_nth _ _ _ _ Enp), (skipn_nth _ _ _ _ Enu).
           rewrite acc_cons_char by assumption. rewrite Em.
           split; [intros [[_ [Ha _]]|Ha]; [discriminate|auto]|intros [[Ha _]|Ha]; [discriminate|auto]].
        -- unfold meas; cbn [g_ck g_restore g_p g_u]. destruct ck; [lia|].
           destruct (Nat.eqb ui (List.length u)) eqn:E1; [apply Nat.eqb_eq in E1; lia|lia].
Qed.

Lemma loop_correct : forall fuel st,
  inv st -> meas st < fuel ->
  match glob_loop fuel ci u p st with
  | GRet b => b = true <-> answer st
  | GPanic => True
  | GFuel => False
  end.
Proof.
  induction fuel as [|f IH]; intros st Hi Hm; [lia|].
  simpl. pose proof (step_correct st Hi) as Hs. unfold step_ok in Hs.
  destruct (glob_step ci u p st) as [st'|r].
  - destruct Hs as [Hi' [Ha Hm']]. specialize (IH st' Hi').
    destruct (glob_loop f ci u p st') as [b| |].
    + rewrite Ha. apply IH. lia.
    + exact I.
    + apply IH. lia.
  - destruct r; auto.
Qed.

Lemma fuel_enough : forall st, inv st -> meas st < glob_fuel u p.
Proof.
  intros [pi ui rs ck] [Hp [Hu [Hck Hrs]]]. unfold meas, glob_fuel; cbn [g_ck g_restore g_p g_u].
  assert (Hin : (if rs then 0 else 1 + (List.length p - pi)) <= List.length p + 1)
    by (destruct rs; lia).
  assert (Hk : ckm ck <= (List.length p + 1) * (List.length u + 2)).
  { destruct ck as [[cp cu]|]; [|simpl; lia].
    pose proof (ckm_none cp cu). unfold ck_ok in Hck; simpl in Hck. simpl in *. lia. }
  replace (S (S (List.length p)) * (S (S (List.length p)) * S (S (List.length u))))
    with (((List.length p + 2) * (List.length u + 2)) * (List.length p + 2)) by lia.
  assert (Hkk : ckm ck * (List.length p + 2)
     <= ((List.length p + 1) * (List.length u + 2)) * (List.length p + 2))
    by (apply Nat.mul_le_mono_r; assumption).
  assert (Hx : ((List.length p + 1) * (List.length u + 2)) * (List.length p + 2)
     + (List.length u + 2) * (List.length p + 2)
     = ((List.length p + 2) * (List.length u + 2)) * (List.length p + 2)) by lia.
  assert (Hy : 2 * (List.length p + 2) <= (List.length u + 2) * (List.length p + 2))
    by (apply Nat.mul_le_mono_r; lia).
  destruct ck as [c|]; [lia|]. destruct (Nat.eqb ui (List.length u)); lia.
Qed.

(** A panic can only happen at a checkpoint on the last byte, where the byte
    fits the pattern byte after the star and nothing is accepted any more. *)
Definition fits_after_star : Prop :=
  exists i c x n, nth_error p i = Some star /\ nth_error p (S i) = Some c /\
    List.length u = S n /\ nth_error u n = Some x /\ runes_match ci x c = true.

Definition ck_fits (st : gstate) : Prop :=
  match g_ck st with
  | None => True
  | Some (cp, cu) => exists c x, nth_error p cp = Some star /\ nth_error p (S cp) = Some c /\
                       nth_error u cu = Some x /\ runes_match ci x c = true
  end.

Lemma step_panic : forall st, inv st -> ck_fits st ->
  match glob_step ci u p st with
  | inl st' => ck_fits st'
  | inr GPanic => fits_after_star /\ ~ answer st
  | inr _ => True
  end.
Proof.
  intros st Hinv Hf.
  destruct st as [pi ui rs ck]. pose proof Hinv as [Hp [Hu [Hck Hrs]]]. simpl in Hp, Hu, Hrs.
  assert (Hstar : forall pi0 ui0, nth_error p pi0 = Some star ->
     match (if Nat.eqb pi0 (List.length p - 1) then inr (GRet true)
         else match nth_error p (S pi0) with
              | None => inr GPanic
              | Some pc' =>
                  match find_next ci (skipn ui0 u) ui0 pc' with
                  | Some k => inl (GState (S pi0) k false (Some (pi0, k)))
                  | None => inl (GState pi0 (List.length u) false None)
                  end
              end) with
     | inl st' => ck_fits st'
     | inr GPanic => fits_after_star /\ ~ answer (GState pi ui rs ck)
     | inr _ => True
     end).
  { intros pi0 ui0 Hs.
    assert (pi0 < List.length p) by (apply nth_error_Some; congruence).
    destruct (Nat.eqb pi0 (List.length p - 1)) eqn:E; [exact I|].
    apply Nat.eqb_neq in E.
    destruct (nth_error p (S pi0)) as [c|] eqn:Ec.
    2:{ apply nth_error_None in Ec. lia. }
    destruct (find_next ci (skipn ui0 u) ui0 c) as [k|] eqn:Ef; [|exact I].
    apply find_next_some in Ef. destruct Ef as [H1 [H2 [[x [H3 H4]] _]]].
    unfold ck_fits; cbn [g_ck]. exists c, x. repeat split; auto.
    assert (K : forall (l : bytes) b n0, nth_error (skipn b l) n0 = nth_error l (b + n0)).
    { induction l as [|y l IHl]; intros [|b] n0; simpl; auto. destruct n0; auto. }
    rewrite K in H3. replace (ui0 + (k - ui0)) with k in H3 by lia. assumption. }
  unfold glob_step; cbn [g_p g_u g_restore g_ck].
  destruct (Nat.eqb pi (List.length p) && Nat.eqb ui (List.length u)) eqn:Eboth; [exact I|].
  destruct (rs || Nat.eqb pi (List.length p) || Nat.eqb ui (List.length u)) eqn:Er.
  - unfold ck_fits in Hf; cbn [g_ck] in Hf.
    destruct ck as [[cp cu]|]; [|exact I].
    unfold ck_ok in Hck; simpl in Hck.
    destruct Hck as [Hcs [Hle [Hcl [Hcu [Heq Hno]]]]].
    destruct Hf as [c [x [_ [Hf2 [Hf3 Hf4]]]]].
    destruct (nth_error u (cu + 1)) as [uc|] eqn:Eu.
    + rewrite Hcs. change (Ascii.eqb star qmark) with false.
      change (Ascii.eqb star star) with true. cbv iota.
      rewrite (skip_stars_nas p cp Hnas Hcs). apply Hstar. assumption.
    + apply nth_error_None in Eu. split.
      * exists cp, c, x, cu. repeat split; auto. lia.
      * pose proof (step_correct _ Hinv) as _.
        unfold answer; simpl. intros [[-> Ha]|Ha].
        -- simpl in Er. apply andb_false_iff in Eboth. rewrite orb_true_iff in Er.
           rewrite !Nat.eqb_eq in Er. rewrite !Nat.eqb_neq in Eboth.
           destruct (Nat.eq_dec pi (List.length p)) as [E|E].
           ++ rewrite (skipn_all_len _ p) in Ha by lia.
              assert (Hne : skipn ui u <> []) by (apply skipn_nil_or; lia).
              inversion Ha; subst. congruence.
           ++ rewrite (skipn_all_len _ u) in Ha by lia. revert Ha.
              apply acc_nonempty_nil; [apply nas_skipn; assumption|apply skipn_nil_or; lia].
        -- rewrite (skipn_all_len _ u) in Ha by lia. revert Ha.
           apply acc_nonempty_nil; [apply nas_skipn; assumption|apply skipn_nil_or; lia].
  - apply orb_false_iff in Er. destruct Er as [Er Eu].
    apply orb_false_iff in Er. destruct Er as [-> Ep].
    apply Nat.eqb_neq in Eu, Ep.
    destruct (nth_error u ui) as [uc|] eqn:Enu.
    2:{ apply nth_error_None in Enu. lia. }
    destruct (nth_error p pi) as [pc|] eqn:Enp.
    2:{ apply nth_error_None in Enp. lia. }
    destruct (Ascii.eqb pc qmark) eqn:Eq; [exact Hf|].
    destruct (Ascii.eqb pc star) eqn:Es.
    + apply Ascii.eqb_eq in Es. subst pc.
      rewrite (skip_stars_nas p pi Hnas Enp). apply Hstar. assumption.
    + destruct (runes_match ci uc pc) eqn:Em; exact Hf.
Qed.

Lemma loop_panic : forall fuel st,
  inv st -> ck_fits st ->
  glob_loop fuel ci u p st = GPanic -> fits_after_star /\ ~ answer st.
Proof.
  induction fuel as [|f IH]; intros st Hi Hf H; [discriminate|].
  simpl in H. pose proof (step_correct st Hi) as Hs. unfold step_ok in Hs.
  pose proof (step_panic st Hi Hf) as Hp.
  destruct (glob_step ci u p st) as [st'|r].
  - destruct Hs as [Hi' [Ha Hm']]. rewrite Ha. apply IH; auto.
  - subst r. assumption.
Qed.

Lemma inv_init : inv (GState 0 0 false None).
Proof. unfold inv, ck_ok; simpl. repeat split; try lia; discriminate. Qed.

End Loop.

Lemma acc_length_no_star : forall ic w t,
  ~ In star w -> accepts ic w t -> List.length t = List.length w.
Proof.
  intros ic w t Hn H. induction H; simpl in *; auto;
    try (f_equal; apply IHaccepts; intuition); exfalso; apply Hn; left; reflexivity.
Qed.

Lemma existsb_star : forall p, existsb (fun c => Ascii.eqb c star) p = false -> ~ In star p.
Proof.
  intros p H Hin. assert (existsb (fun c => Ascii.eqb c star) p = true).
  { apply existsb_exists. exists star. split; auto. }
  congruence.
Qed.

(** The three outcomes of the matcher. *)
Lemma glob_outcomes : forall ci u p,
  no_adjacent_stars p ->
  match regex_segment_match u p ci with
  | GRet true => accepts ci p u
  | GRet false => ~ accepts ci p u
  | GPanic => ~ accepts ci p u /\ fits_after_star ci u p
  | GFuel => False
  end.
Proof.
  intros ci u p Hn. unfold regex_segment_match.
  destruct (negb (existsb (fun c => Ascii.eqb c star) p)
            && negb (Nat.eqb (List.length u) (List.length p))) eqn:E.
  - apply andb_true_iff in E. destruct E as [E1 E2].
    apply negb_true_iff in E1, E2. apply Nat.eqb_neq in E2.
    intros Ha. apply acc_length_no_star in Ha; auto. apply existsb_star. assumption.
  - pose proof (loop_correct ci u p Hn (glob_fuel u p) (GState 0 0 false None)
                  (inv_init u p) (fuel_enough u p _ (inv_init u p))) as H.
    pose proof (loop_panic ci u p Hn (glob_fuel u p) (GState 0 0 false None)
                  (inv_init u p) I) as HP.
    assert (HA : answer ci u p (GState 0 0 false None) <-> accepts ci p u).
    { unfold answer; simpl. split; [intros [[_ Ha]|[]]; auto|auto]. }
    destruct (glob_loop (glob_fuel u p) ci u p (GState 0 0 false None)) as [[|]| |].
    + apply HA, H. reflexivity.
    + rewrite <- HA, <- H. discriminate.
    + rewrite <- HA. specialize (HP eq_refl). tauto.
    + assumption.
Qed.

Lemma glob_true_iff : forall ci u p, no_adjacent_stars p ->
  (regex_segment_match u p ci = GRet true <-> accepts ci p u).
Proof.
  intros ci u p Hn. pose proof (glob_outcomes ci u p Hn) as H.
  destruct (regex_segment_match u p ci) as [[|]| |]; split; intros; try discriminate; tauto.
Qed.

(** ** The README reading *)

Lemma accepts_readme_of : forall ic w t, accepts ic w t -> accepts_readme ic w t.
Proof.
  intros ic w t H. induction H.
  - apply accr_end.
  - apply accr_any; assumption.
  - apply accr_char; assumption.
  - rewrite <- (app_nil_r (x :: t)). apply accr_star. apply accr_end.
  - apply accr_star; assumption.
Qed.

Lemma accepts_of_readme : forall ic w t,
  accepts_readme ic w t -> last w "a"%char <> star -> accepts ic w t.
Proof.
  intros ic w t H. induction H; intros Hl.
  - apply acc_end.
  - apply acc_any. apply IHaccepts_readme. destruct w; [discriminate|exact Hl].
  - apply acc_char; auto. apply IHaccepts_readme. destruct w; [discriminate|exact Hl].
  - destruct w as [|d w].
    + exfalso. apply Hl. reflexivity.
    + apply acc_inner_star; [discriminate|]. apply IHaccepts_readme. exact Hl.
Qed.

(** ** Statements used by Glob_Props *)

Lemma glob_answers : forall ci u p, no_adjacent_stars p ->
  (accepts ci p u -> regex_segment_match u p ci = GRet true) /\
  (forall b, regex_segment_match u p ci = GRet b -> (b = true <-> accepts ci p u)).
Proof.
  intros ci u p Hn. split.
  - apply glob_true_iff; assumption.
  - intros b Hb. pose proof (glob_outcomes ci u p Hn) as H. rewrite Hb in H.
    destruct b; split; intros; try discriminate; auto; contradiction.
Qed.

Lemma glob_terminates : forall ci u p, no_adjacent_stars p ->
  regex_segment_match u p ci <> GFuel.
Proof.
  intros ci u p Hn E. pose proof (glob_outcomes ci u p Hn) as H. rewrite E in H. exact H.
Qed.

Lemma nas_check : forall p,
  (forall a b, p <> a ++ "*"%char :: "*"%char :: b) -> no_adjacent_stars p.
Proof.
  induction p as [|c p IH]; intros H; [constructor|].
  destruct p as [|d p]; [constructor|]. constructor.
  - intros [-> ->]. apply (H [] p). reflexivity.
  - apply IH. intros a b E. apply (H (c :: a) b). rewrite E. reflexivity.
Qed.

Lemma glob_panics : exists ci u p,
  no_adjacent_stars p /\ regex_segment_match u p ci = GPanic.
Proof.
  exists false, (str "ab"), (str "a*bc"). split; [|reflexivity].
  repeat (constructor; [intros [H1 H2]; discriminate|]). constructor.
Qed.

Lemma glob_no_panic : forall ci u p, no_adjacent_stars p ->
  (forall a c b, p = a ++ "*"%char :: c :: b ->
     forall u' x, u = u' ++ [x] -> c <> "?"%char /\ ~ same_letter ci x c) ->
  exists b, regex_segment_match u p ci = GRet b.
Proof.
  intros ci u p Hn Hl. pose proof (glob_outcomes ci u p Hn) as H.
  destruct (regex_segment_match u p ci) as [b| |]; [eauto| |contradiction].
  exfalso. destruct H as [_ [i [c [x [n [H1 [H2 [H3 [H4 H5]]]]]]]]].
  assert (Hp : p = firstn i p ++ star :: c :: skipn (S (S i)) p).
  { rewrite <- (skipn_nth _ _ _ _ H2), <- (skipn_nth _ _ _ _ H1), firstn_skipn. reflexivity. }
  assert (Hu : u = firstn n u ++ [x]).
  { rewrite <- (firstn_skipn n u) at 1. f_equal.
    rewrite (skipn_nth _ _ _ _ H4), skipn_all_len by lia. reflexivity. }
  destruct (Hl _ _ _ Hp _ _ Hu) as [Hq Hs].
  apply runes_match_spec in H5.
  - tauto.
  - intros ->. pose proof (nas_skipn i p Hn) as Hk.
    rewrite (skipn_nth _ _ _ _ H1), (skipn_nth _ _ _ _ H2) in Hk.
    inversion Hk; subst. tauto.
Qed.

Lemma glob_no_panic_suffix : forall ci u p, no_adjacent_stars p ->
  ~ In "*"%char (removelast p) ->
  exists b, regex_segment_match u p ci = GRet b.
Proof.
  intros ci u p Hn Hi. apply glob_no_panic; auto.
  intros a c b E. exfalso. apply Hi. subst p.
  rewrite removelast_app by discriminate. apply in_or_app. right. left. reflexivity.
Qed.

Lemma glob_panic_only_refused : forall ci u p, no_adjacent_stars p ->
  regex_segment_match u p ci = GPanic -> ~ accepts ci p u.
Proof.
  intros ci u p Hn E. pose proof (glob_outcomes ci u p Hn) as H. rewrite E in H. tauto.
Qed.

Lemma glob_readme_refuted : exists ci u p,
  no_adjacent_stars p /\ accepts_readme ci p u /\ regex_segment_match u p ci = GRet false.
Proof.
  exists false, (str "ab"), (str "ab*"). split; [|split].
  - repeat (constructor; [intros [H1 H2]; discriminate|]). constructor.
  - repeat (apply accr_char; [discriminate|discriminate|reflexivity|]).
    apply (accr_star false [] [] []). apply accr_end.
  - reflexivity.
Qed.

Lemma glob_readme : forall ci u p, no_adjacent_stars p ->
  (last p "a"%char <> "*"%char -> (regex_segment_match u p ci = GRet true <-> accepts_readme ci p u)) /\
  (regex_segment_match u p ci = GRet true -> accepts_readme ci p u).
Proof.
  intros ci u p Hn. rewrite glob_true_iff by assumption. split.
  - intros Hl. split; [apply accepts_readme_of|].
    intros H. apply accepts_of_readme; assumption.
  - apply accepts_readme_of.
Qed.

Lemma accepts_final_star : forall ic w t,
  accepts ic (w ++ ["*"%char]) t <->
  exists t1 x t2, t = t1 ++ x :: t2 /\ accepts_readme ic w t1.
Proof.
  intros ic w. split.
  - remember (w ++ ["*"%char]) as w0 eqn:E. intros H. revert w E.
    induction H; intros w0 E.
    + destruct w0; discriminate.
    + destruct w0 as [|c w0]; [discriminate|]. simpl in E. injection E as <- ->.
      destruct (IHaccepts w0 eq_refl) as [t1 [y [t2 [-> Hr]]]].
      exists (x :: t1), y, t2. split; auto. apply accr_any; assumption.
    + destruct w0 as [|d w0]; [simpl in E; injection E as -> _; congruence|].
      simpl in E. injection E as <- ->.
      destruct (IHaccepts w0 eq_refl) as [t1 [y [t2 [-> Hr]]]].
      exists (x :: t1), y, t2. split; auto. apply accr_char; assumption.
    + destruct w0 as [|d w0].
      * exists [], x, t. split; auto. apply accr_end.
      * simpl in E. injection E as _ E. destruct w0; discriminate.
    + destruct w0 as [|d w0]; [simpl in E; injection E as ->; congruence|].
      simpl in E. injection E as <- ->.
      destruct (IHaccepts w0 eq_refl) as [t1 [y [t2 [-> Hr]]]].
      exists (run ++ t1), y, t2. split; [rewrite app_assoc; reflexivity|].
      apply accr_star; assumption.
  - intros [t1 [x [t2 [-> H]]]]. induction H; simpl.
    + apply acc_last_star.
    + apply acc_any; assumption.
    + apply acc_char; assumption.
    + rewrite <- app_assoc. apply acc_inner_star; [destruct w; discriminate|assumption].
Qed.

(** A final star is the README star with at least one character. *)
Lemma glob_final_star : forall ci u w, no_adjacent_stars (w ++ ["*"%char]) ->
  (regex_segment_match u (w ++ ["*"%char]) ci = GRet true <->
   exists t1 x t2, u = t1 ++ x :: t2 /\ accepts_readme ci w t1).
Proof.
  intros ci u w Hn. rewrite glob_true_iff by assumption. apply accepts_final_star.
Qed.
