(** * Exactly when the wildcard segment matcher reads past the end (C02). *)
From Coq Require Import List NArith Ascii String Bool Lia Arith.
From Verif Require Import GoBase Glob_Model Glob_Spec Glob_Proofs.
Import ListNotations.
Local Open Scope string_scope.
Local Open Scope list_scope.
Local Open Scope nat_scope.

(** ** Lists *)

Lemma nth_firstn : forall (A : Type) (l : list A) b n, n < b -> nth_error (firstn b l) n = nth_error l n.
Proof.
  induction l as [|y l IH]; intros [|b] [|n] Hb; simpl; auto; try lia. apply IH. lia.
Qed.

Lemma nth_skipn : forall (A : Type) (l : list A) b n, nth_error (skipn b l) n = nth_error l (b + n).
Proof. induction l as [|y l IH]; intros [|b] n; simpl; auto. destruct n; auto. Qed.

Lemma firstn_S : forall (A : Type) (l : list A) n x, nth_error l n = Some x -> firstn (S n) l = firstn n l ++ [x].
Proof.
  induction l as [|y l IH]; intros [|n] x H; simpl in *; try discriminate.
  - congruence.
  - f_equal. apply (IH n x H).
Qed.

Lemma nas_firstn : forall n w, no_adjacent_stars w -> no_adjacent_stars (firstn n w).
Proof.
  induction n as [|n IH]; intros w H; [constructor|].
  destruct w as [|c w]; [constructor|].
  destruct n as [|n]; [constructor|]. destruct w as [|d w]; [constructor|].
  inversion H; subst. cbn [firstn]. constructor; [assumption|]. apply (IH (d :: w)). assumption.
Qed.

(** ** Reading from left to right *)

Lemma readme_snoc : forall ic w t c x, c <> star -> runes_match ic x c = true ->
  accepts_readme ic w t -> accepts_readme ic (w ++ [c]) (t ++ [x]).
Proof.
  intros ic w t c x Hc Hm H. apply (runes_match_spec ic x c Hc) in Hm.
  induction H; simpl.
  - destruct Hm as [->|[Hq Hs]]; [apply accr_any|apply accr_char; auto]; apply accr_end.
  - apply accr_any; assumption.
  - apply accr_char; assumption.
  - rewrite <- app_assoc. apply accr_star. assumption.
Qed.

Lemma readme_snoc_star : forall ic w t run,
  accepts_readme ic w t -> accepts_readme ic (w ++ [star]) (t ++ run).
Proof.
  intros ic w t run H. induction H; simpl.
  - change ([star]) with (star :: @nil ascii). rewrite <- (app_nil_r run). apply accr_star. apply accr_end.
  - apply accr_any; assumption.
  - apply accr_char; assumption.
  - rewrite <- app_assoc. apply accr_star. assumption.
Qed.

Section Exact.
Variables (ci : bool) (u p : bytes).
Hypothesis Hnas : no_adjacent_stars p.

Definition upto (e : nat) : bytes := firstn (S e) p.

Lemma upto_len : forall e, nth_error p e = Some star -> List.length (upto e) = S e.
Proof.
  intros e H. assert (e < List.length p) by (apply nth_error_Some; congruence).
  unfold upto. rewrite firstn_length. lia.
Qed.

Lemma upto_nth : forall e i, i <= e -> nth_error (upto e) i = nth_error p i.
Proof. intros e i H. apply nth_firstn. lia. Qed.

Lemma upto_nas : forall e, no_adjacent_stars (upto e).
Proof. intros e. apply nas_firstn. exact Hnas. Qed.

Lemma star_then : forall i c, nth_error p i = Some star -> nth_error p (S i) = Some c -> c <> star.
Proof.
  intros i c H1 H2 ->. pose proof (nas_skipn i p Hnas) as Hk.
  rewrite (skipn_nth _ _ _ _ H1), (skipn_nth _ _ _ _ H2) in Hk. inversion Hk; subst. tauto.
Qed.

(** The states of the loop are the same for a text and for its beginning up to a
    star, until this star is reached. *)
Lemma step_upto : forall st e, nth_error p e = Some star -> inv u p st -> g_p st <= e ->
  (g_p st = e /\ g_restore st = false /\ g_u st < List.length u) \/
  glob_step ci u (upto e) st = glob_step ci u p st.
Proof.
  intros [pi ui rs ck] e He [Hp [Hu [Hck Hrs]]] Hle. cbn [g_p g_u g_restore g_ck] in *.
  pose proof (upto_len e He) as Hl.
  assert (Hlt : e < List.length p) by (apply nth_error_Some; congruence).
  unfold glob_step; cbn [g_p g_u g_restore g_ck]. rewrite Hl.
  assert (E1 : Nat.eqb pi (S e) = false) by (apply Nat.eqb_neq; lia).
  assert (E2 : Nat.eqb pi (List.length p) = false) by (apply Nat.eqb_neq; lia).
  rewrite E1, E2. cbn [andb].
  destruct (rs || false || Nat.eqb ui (List.length u)) eqn:Er.
  - right. destruct ck as [[cp cu]|]; [|reflexivity].
    unfold ck_ok in Hck; cbn [g_p g_u g_ck] in Hck.
    destruct Hck as [Hcs [Hle' [Hcl [Hcu [Heq Hno]]]]].
    rewrite (upto_nth e cp) by lia. rewrite Hcs.
    destruct (nth_error u (cu + 1)); [|reflexivity].
    change (Ascii.eqb star qmark) with false. change (Ascii.eqb star star) with true. cbv iota.
    rewrite (skip_stars_nas p cp Hnas Hcs).
    rewrite (skip_stars_nas (upto e) cp (upto_nas e)) by (rewrite upto_nth by lia; exact Hcs).
    replace (Nat.eqb cp (S e - 1)) with false by (symmetry; apply Nat.eqb_neq; lia).
    replace (Nat.eqb cp (List.length p - 1)) with false by (symmetry; apply Nat.eqb_neq; lia).
    rewrite (upto_nth e (S cp)) by lia. reflexivity.
  - apply orb_false_iff in Er. destruct Er as [Er Eu]. rewrite orb_false_r in Er. subst rs.
    apply Nat.eqb_neq in Eu.
    destruct (Nat.eq_dec pi e) as [->|Hne]; [left; repeat split; lia|]. right.
    rewrite (upto_nth e pi) by lia.
    destruct (nth_error u ui); [|reflexivity].
    destruct (nth_error p pi) as [pc|] eqn:Ep; [|reflexivity].
    destruct (Ascii.eqb pc qmark); [reflexivity|].
    destruct (Ascii.eqb pc star) eqn:Es; [|reflexivity].
    apply Ascii.eqb_eq in Es. subst pc.
    rewrite (skip_stars_nas p pi Hnas Ep).
    rewrite (skip_stars_nas (upto e) pi (upto_nas e)) by (rewrite upto_nth by lia; exact Ep).
    replace (Nat.eqb pi (S e - 1)) with false by (symmetry; apply Nat.eqb_neq; lia).
    replace (Nat.eqb pi (List.length p - 1)) with false by (symmetry; apply Nat.eqb_neq; lia).
    rewrite (upto_nth e (S pi)) by lia. reflexivity.
Qed.

(** What has been read so far. *)
Definition read (st : gstate) : Prop :=
  accepts_readme ci (firstn (g_p st) p) (firstn (g_u st) u) /\
  match g_ck st with
  | None => forall i, i < g_p st -> nth_error p i <> Some star
  | Some (cp, cu) => exists j, j <= cu /\ accepts_readme ci (firstn cp p) (firstn j u)
  end.

Definition follows (st : gstate) (e : nat) : Prop :=
  inv u (upto e) st /\ (accepts ci (upto e) u <-> answer ci u (upto e) st).

Definition live (st : gstate) : Prop :=
  inv u p st /\ ck_fits ci u p st /\ read st /\
  forall e, nth_error p e = Some star -> g_p st <= e -> follows st e.

(** The state after a search for the character behind a star that found nothing. *)
Definition lost (st : gstate) : Prop :=
  exists i c, st = GState i (List.length u) false None /\
    nth_error p i = Some star /\ nth_error p (S i) = Some c /\
    accepts ci (upto i) u /\
    (forall x n, List.length u = S n -> nth_error u n = Some x -> runes_match ci x c = false) /\
    forall e, nth_error p e = Some star -> i < e -> ~ accepts ci (upto e) u.

Lemma upto_accepts : forall i j, nth_error p i = Some star -> j < List.length u ->
  accepts_readme ci (firstn i p) (firstn j u) -> accepts ci (upto i) u.
Proof.
  intros i j Hi Hj H. unfold upto. rewrite (firstn_S _ _ _ _ Hi). apply accepts_final_star.
  destruct (nth_error u j) as [x|] eqn:E; [|apply nth_error_None in E; lia].
  exists (firstn j u), x, (skipn (S j) u). split; [|exact H].
  rewrite <- (skipn_nth _ _ _ _ E). symmetry. apply firstn_skipn.
Qed.

Lemma firstn_run : forall i j, i <= j -> firstn j u = firstn i u ++ skipn i (firstn j u).
Proof.
  intros i j H. rewrite <- (firstn_skipn i (firstn j u)) at 1. f_equal.
  rewrite firstn_firstn. f_equal. lia.
Qed.

(** The star branch keeps the state live, or the text is lost. *)
Lemma live_star : forall st st' pi ui j,
  live st -> nth_error p pi = Some star -> pi <= g_p st -> ui < List.length u -> j <= ui ->
  accepts_readme ci (firstn pi p) (firstn j u) ->
  (forall i, pi < i -> i < g_p st -> nth_error p i <> Some star) ->
  glob_step ci u p st =
    (if Nat.eqb pi (List.length p - 1) then inr (GRet true)
     else match nth_error p (S pi) with
          | None => inr GPanic
          | Some pc' =>
              match find_next ci (skipn ui u) ui pc' with
              | Some k => inl (GState (S pi) k false (Some (pi, k)))
              | None => inl (GState pi (List.length u) false None)
              end
          end) ->
  glob_step ci u p st = inl st' -> live st' \/ lost st'.
Proof.
  intros st st' pi ui j L Hs Hpi Hui Hj Hr Hno Hst Hst'. pose proof L as [Hinv [Hfit [Hrd Hfo]]].
  assert (Hlt : pi < List.length p) by (apply nth_error_Some; congruence).
  rewrite Hst in Hst'.
  destruct (Nat.eqb pi (List.length p - 1)) eqn:E; [discriminate|]. apply Nat.eqb_neq in E.
  destruct (nth_error p (S pi)) as [c|] eqn:Ec; [|discriminate].
  assert (Hff : forall e, nth_error p e = Some star -> pi < e -> follows st' e).
  { intros e He Hlte. assert (Hge : g_p st <= e).
    { destruct (le_lt_dec (g_p st) e) as [|H]; [assumption|]. exfalso. apply (Hno e Hlte H He). }
    destruct (Hfo e He Hge) as [Hi1 Hi2].
    destruct (step_upto st e He Hinv Hge) as [[H1 [H2 H3]]|Heq].
    - (* the star of this prefix is being processed: then pi would be e *)
      exfalso. assert (Hge2 : g_p st <> pi) by lia.
      revert Hst. unfold glob_step. rewrite H1, H2.
      replace (Nat.eqb e (List.length p)) with false
        by (symmetry; apply Nat.eqb_neq; assert (e < List.length p) by (apply nth_error_Some; congruence); lia).
      replace (Nat.eqb (g_u st) (List.length u)) with false by (symmetry; apply Nat.eqb_neq; lia).
      cbn [andb orb]. rewrite He.
      destruct (nth_error u (g_u st)) eqn:Eu; [|apply nth_error_None in Eu; lia].
      change (Ascii.eqb star qmark) with false. change (Ascii.eqb star star) with true. cbv iota.
      rewrite (skip_stars_nas p e Hnas He).
      destruct (Nat.eqb e (List.length p - 1)); [destruct (find_next ci (skipn ui u) ui c); discriminate|].
      destruct (nth_error p (S e)) as [c'|]; [|destruct (find_next ci (skipn ui u) ui c); discriminate].
      destruct (find_next ci (skipn (g_u st) u) (g_u st) c'), (find_next ci (skipn ui u) ui c); intros X; inversion X; lia.
    - pose proof (step_correct ci u (upto e) (upto_nas e) st Hi1) as Hc. unfold step_ok in Hc.
      rewrite Heq, Hst, Hst' in Hc. destruct Hc as [Hc1 [Hc2 _]]. split; [exact Hc1|]. rewrite Hi2. exact Hc2. }
  destruct (find_next ci (skipn ui u) ui c) as [k|] eqn:Ef; injection Hst' as <-.
  - left. pose proof Ef as Ef'. apply find_next_some in Ef. destruct Ef as [H1 [H2 [[x [H3 H4]] H5]]].
    rewrite skipn_length in H2.
    assert (S pi < List.length p) by (apply nth_error_Some; congruence).
    split; [|split; [|split]].
    + unfold inv, ck_ok; cbn [g_p g_u g_restore g_ck]. repeat split; try lia; auto; try discriminate.
    + unfold ck_fits; cbn [g_ck]. exists c, x. rewrite nth_skipn in H3.
      replace (ui + (k - ui)) with k in H3 by lia. auto.
    + unfold read; cbn [g_p g_u g_ck]. split; [|exists j; split; [lia|exact Hr]].
      rewrite (firstn_S _ _ _ _ Hs), (firstn_run j k) by lia. apply readme_snoc_star. exact Hr.
    + cbn [g_p]. intros e He Hle. apply Hff; [exact He|lia].
  - right. exists pi, c. split; [reflexivity|]. split; [exact Hs|]. split; [exact Ec|].
    split; [apply (upto_accepts pi j); [exact Hs|lia|exact Hr]|]. split.
    + intros x n Hn Hx. apply (find_next_none _ _ _ _ Ef (n - ui) x). rewrite nth_skipn.
      replace (ui + (n - ui)) with n by lia. exact Hx.
    + intros e He Hlte. destruct (Hff e He Hlte) as [_ ->]. unfold answer; cbn [g_p g_u g_restore g_ck].
      intros [[_ H]|[]]. rewrite (skipn_all_len _ u) in H by lia. revert H.
      apply acc_nonempty_nil; [apply nas_skipn; apply upto_nas|].
      apply skipn_nil_or. rewrite (upto_len e He). lia.
Qed.

Lemma live_step : forall st st', live st -> glob_step ci u p st = inl st' -> live st' \/ lost st'.
Proof.
  intros st st' L Hst. pose proof L as [Hinv [Hfit [Hrd Hfo]]].
  pose proof (step_correct ci u p Hnas st Hinv) as Hc. unfold step_ok in Hc. rewrite Hst in Hc.
  destruct Hc as [Hinv' _].
  pose proof (step_panic ci u p Hnas st Hinv Hfit) as Hfit'. rewrite Hst in Hfit'.
  destruct st as [pi ui rs ck]. pose proof Hinv as [Hp [Hu [Hck Hrs]]]. cbn [g_p g_u g_restore g_ck] in *.
  pose proof Hst as Hst0. unfold glob_step in Hst; cbn [g_p g_u g_restore g_ck] in Hst.
  destruct (Nat.eqb pi (List.length p) && Nat.eqb ui (List.length u)) eqn:Eboth; [discriminate|].
  destruct (rs || Nat.eqb pi (List.length p) || Nat.eqb ui (List.length u)) eqn:Er.
  - destruct ck as [[cp cu]|]; [|discriminate].
    unfold ck_ok in Hck; cbn [g_p g_u g_ck] in Hck. destruct Hck as [Hcs [Hle [Hcl [Hcu [Heq Hno]]]]].
    destruct Hrd as [_ [j [Hj Hr]]]. cbn [g_ck] in *.
    destruct (nth_error u (cu + 1)) as [uc|] eqn:Eu; [|discriminate].
    assert (cu + 1 < List.length u) by (apply nth_error_Some; congruence).
    rewrite Hcs in Hst. change (Ascii.eqb star qmark) with false in Hst.
    change (Ascii.eqb star star) with true in Hst. cbv iota in Hst.
    rewrite (skip_stars_nas p cp Hnas Hcs) in Hst.
    apply (live_star (GState pi ui rs (Some (cp, cu))) st' cp (cu + 1) j); auto; cbn [g_p]; try lia.
    rewrite Hst0. symmetry. exact Hst.
  - apply orb_false_iff in Er. destruct Er as [Er Eu].
    apply orb_false_iff in Er. destruct Er as [-> Ep]. apply Nat.eqb_neq in Eu, Ep.
    destruct (nth_error u ui) as [uc|] eqn:Enu; [|discriminate].
    destruct (nth_error p pi) as [pc|] eqn:Enp; [|discriminate].
    assert (Hsame : forall e, nth_error p e = Some star -> pi < e \/ pc <> star /\ pi <= e -> follows st' e).
    { intros e He Hd. assert (Hge : pi <= e) by lia.
      destruct (Hfo e He Hge) as [Hi1 Hi2].
      destruct (step_upto (GState pi ui false ck) e He Hinv Hge) as [[H1 _]|Heq].
      - cbn [g_p] in H1. subst e. destruct Hd as [Hd|[Hd _]]; [lia|]. congruence.
      - pose proof (step_correct ci u (upto e) (upto_nas e) _ Hi1) as Hc. unfold step_ok in Hc.
        rewrite Heq, Hst0 in Hc. destruct Hc as [Hc1 [Hc2 _]]. split; [exact Hc1|]. rewrite Hi2. exact Hc2. }
    assert (Hadv : pc <> star -> runes_match ci uc pc = true -> st' = GState (S pi) (S ui) false ck -> live st' \/ lost st').
    { intros Hns Hm ->. left. split; [exact Hinv'|]. split; [exact Hfit'|]. split.
      - destruct Hrd as [Hr1 Hr2]. unfold read; cbn [g_p g_u g_ck] in *. split.
        + rewrite (firstn_S _ _ _ _ Enp), (firstn_S _ _ _ _ Enu). apply readme_snoc; assumption.
        + destruct ck as [[cp cu]|]; [exact Hr2|]. intros i Hi.
          destruct (Nat.eq_dec i pi) as [->|]; [congruence|apply Hr2; lia].
      - cbn [g_p]. intros e He Hle. apply Hsame; [exact He|]. lia. }
    destruct (Ascii.eqb pc qmark) eqn:Eq.
    { injection Hst as <-. apply Hadv; [apply Ascii.eqb_eq in Eq; subst; discriminate| |reflexivity].
      unfold runes_match. rewrite Eq. reflexivity. }
    destruct (Ascii.eqb pc star) eqn:Es.
    + apply Ascii.eqb_eq in Es. subst pc. rewrite (skip_stars_nas p pi Hnas Enp) in Hst.
      destruct Hrd as [Hr1 _]. cbn [g_p g_u] in Hr1.
      apply (live_star (GState pi ui false ck) st' pi ui ui); auto; cbn [g_p]; try lia.
      rewrite Hst0. symmetry. exact Hst.
    + apply Ascii.eqb_neq in Es. destruct (runes_match ci uc pc) eqn:Em.
      * injection Hst as <-. apply Hadv; auto.
      * injection Hst as <-. left. split; [exact Hinv'|]. split; [exact Hfit'|]. split; [exact Hrd|].
        cbn [g_p]. intros e He Hle. apply Hsame; [exact He|]. right. split; assumption.
Qed.

(** A split of the text at a star, and the position of the star. *)
Lemma split_star : forall a b, p = a ++ star :: b ->
  nth_error p (List.length a) = Some star /\ upto (List.length a) = a ++ [star] /\
  nth_error p (S (List.length a)) = nth_error b 0.
Proof.
  intros a b E. assert (H : nth_error p (List.length a) = Some star).
  { rewrite E, nth_error_app2, Nat.sub_diag by lia. reflexivity. }
  split; [exact H|]. split.
  - unfold upto. rewrite (firstn_S _ _ _ _ H). f_equal. rewrite E, firstn_app, Nat.sub_diag, firstn_all. simpl. apply app_nil_r.
  - rewrite E, nth_error_app2 by lia. replace (S (List.length a) - List.length a) with 1 by lia. reflexivity.
Qed.

Lemma star_split : forall i, nth_error p i = Some star -> p = firstn i p ++ star :: skipn (S i) p /\ List.length (firstn i p) = i.
Proof.
  intros i H. assert (i < List.length p) by (apply nth_error_Some; congruence). split.
  - rewrite <- (skipn_nth _ _ _ _ H). symmetry. apply firstn_skipn.
  - rewrite firstn_length. lia.
Qed.

Lemma live_panic : forall st, live st -> glob_step ci u p st = inr GPanic -> ~ accepts ci p u -> overruns ci p u.
Proof.
  intros st L Hst Hna. pose proof L as [Hinv [Hfit [Hrd Hfo]]].
  destruct st as [pi ui rs ck]. pose proof Hinv as [Hp [Hu [Hck Hrs]]]. cbn [g_p g_u g_restore g_ck] in *.
  pose proof Hst as Hst0. unfold glob_step in Hst; cbn [g_p g_u g_restore g_ck] in Hst.
  destruct (Nat.eqb pi (List.length p) && Nat.eqb ui (List.length u)) eqn:Eboth; [discriminate|].
  assert (Hstar : forall i ui0, nth_error p i = Some star ->
    (if Nat.eqb i (List.length p - 1) then inr (GRet true)
     else match nth_error p (S i) with
          | None => inr GPanic
          | Some pc' =>
              match find_next ci (skipn ui0 u) ui0 pc' with
              | Some k => inl (GState (S i) k false (Some (i, k)))
              | None => inl (GState i (List.length u) false None)
              end
          end) <> inr GPanic).
  { intros i ui0 Hi. assert (i < List.length p) by (apply nth_error_Some; congruence).
    destruct (Nat.eqb i (List.length p - 1)) eqn:E; [discriminate|]. apply Nat.eqb_neq in E.
    destruct (nth_error p (S i)) eqn:Ec; [|apply nth_error_None in Ec; lia].
    destruct (find_next ci (skipn ui0 u) ui0 a); discriminate. }
  destruct (rs || Nat.eqb pi (List.length p) || Nat.eqb ui (List.length u)) eqn:Er.
  - destruct ck as [[cp cu]|]; [|discriminate].
    unfold ck_ok in Hck; cbn [g_p g_u g_ck] in Hck. destruct Hck as [Hcs [Hle [Hcl [Hcu [Heq Hno]]]]].
    unfold ck_fits in Hfit; cbn [g_ck] in Hfit. destruct Hfit as [c [x [_ [Hf2 [Hf3 Hf4]]]]].
    destruct Hrd as [_ [j [Hj Hr]]]. cbn [g_ck] in *.
    destruct (nth_error u (cu + 1)) as [uc|] eqn:Eu.
    + exfalso. rewrite Hcs in Hst. change (Ascii.eqb star qmark) with false in Hst.
      change (Ascii.eqb star star) with true in Hst. cbv iota in Hst.
      rewrite (skip_stars_nas p cp Hnas Hcs) in Hst. apply (Hstar cp (cu + 1) Hcs Hst).
    + apply nth_error_None in Eu. clear Hst.
      destruct (star_split cp Hcs) as [Hsp Hln].
      split; [exact Hna|].
      exists (firstn cp p), c, (skipn (S (S cp)) p), (firstn cu u), x.
      split; [rewrite <- (skipn_nth _ _ _ _ Hf2); exact Hsp|].
      split.
      { rewrite <- (firstn_skipn cu u) at 1. f_equal.
        rewrite (skipn_nth _ _ _ _ Hf3), skipn_all_len by lia. reflexivity. }
      split.
      { apply (runes_match_spec ci x c (star_then cp c Hcs Hf2)) in Hf4. tauto. }
      split.
      { change (accepts ci (firstn cp p ++ [star]) u). rewrite <- (firstn_S _ _ _ _ Hcs). apply (upto_accepts cp j); [exact Hcs|lia|exact Hr]. }
      intros a' b' E Hlt. rewrite Hln in Hlt. destruct (split_star a' b' E) as [He [Hup _]].
      change (~ accepts ci (a' ++ [star]) u). rewrite <- Hup. set (e := List.length a') in *.
      assert (Hge : pi <= e).
      { destruct (le_lt_dec pi e) as [|H]; [assumption|]. exfalso. apply (Hno e Hlt H He). }
      destruct (Hfo e He Hge) as [Hi1 Hi2]. rewrite Hi2.
      destruct (step_upto _ e He Hinv Hge) as [[H1 [H2 H3]]|Heq'].
      * exfalso. cbn [g_p g_u g_restore] in *. subst rs pi. cbn [orb] in Er.
        apply orb_true_iff in Er. rewrite !Nat.eqb_eq in Er.
        assert (e < List.length p) by (apply nth_error_Some; congruence). lia.
      * pose proof (step_panic ci u (upto e) (upto_nas e) _ Hi1) as Hc.
        rewrite Heq', Hst0 in Hc. apply Hc. unfold ck_fits; cbn [g_ck]. exists c, x.
        rewrite (upto_nth e cp), (upto_nth e (S cp)) by lia. auto.
  - exfalso. apply orb_false_iff in Er. destruct Er as [Er Eu].
    apply orb_false_iff in Er. destruct Er as [-> Ep]. apply Nat.eqb_neq in Eu, Ep.
    destruct (nth_error u ui) as [uc|] eqn:Enu; [|apply nth_error_None in Enu; lia].
    destruct (nth_error p pi) as [pc|] eqn:Enp; [|apply nth_error_None in Enp; lia].
    destruct (Ascii.eqb pc qmark); [discriminate|].
    destruct (Ascii.eqb pc star) eqn:Es.
    + apply Ascii.eqb_eq in Es. subst pc. rewrite (skip_stars_nas p pi Hnas Enp) in Hst. apply (Hstar pi ui Enp Hst).
    + destruct (runes_match ci uc pc); discriminate.
Qed.

Lemma live_refused : forall st, live st -> glob_step ci u p st = inr (GRet false) -> ~ overruns ci p u.
Proof.
  intros st L Hst [_ [a [c [b [t' [x [E1 [E2 [E3 [E4 E5]]]]]]]]]]. pose proof L as [Hinv [Hfit [Hrd Hfo]]].
  destruct st as [pi ui rs ck]. pose proof Hinv as [Hp [Hu [Hck Hrs]]]. cbn [g_p g_u g_restore g_ck] in *.
  destruct (split_star a (c :: b) E1) as [He [Hup _]]. change (accepts ci (a ++ [star]) u) in E4. rewrite <- Hup in E4.
  set (e := List.length a) in *.
  assert (Hck0 : ck = None).
  { destruct ck as [[cp cu]|]; [|reflexivity]. exfalso.
    unfold ck_ok in Hck; cbn [g_p g_u g_ck] in Hck. destruct Hck as [Hcs [Hle [Hcl [Hcu [Heq Hno]]]]].
    unfold glob_step in Hst; cbn [g_p g_u g_restore g_ck] in Hst.
    destruct (Nat.eqb pi (List.length p) && Nat.eqb ui (List.length u)); [discriminate|].
    destruct (rs || Nat.eqb pi (List.length p) || Nat.eqb ui (List.length u)).
    - destruct (nth_error u (cu + 1)); [|discriminate]. rewrite Hcs in Hst.
      change (Ascii.eqb star qmark) with false in Hst. change (Ascii.eqb star star) with true in Hst. cbv iota in Hst.
      destruct (Nat.eqb (skip_stars (skipn (S cp) p) (S cp) cp) (List.length p - 1)); [discriminate|].
      destruct (nth_error p (S (skip_stars (skipn (S cp) p) (S cp) cp))); [|discriminate].
      destruct (find_next ci (skipn (cu + 1) u) (cu + 1) a1); discriminate.
    - destruct (nth_error u ui); [|discriminate]. destruct (nth_error p pi); [|discriminate].
      destruct (Ascii.eqb a1 qmark); [discriminate|]. destruct (Ascii.eqb a1 star).
      + destruct (Nat.eqb (skip_stars (skipn (S pi) p) (S pi) pi) (List.length p - 1)); [discriminate|].
        destruct (nth_error p (S (skip_stars (skipn (S pi) p) (S pi) pi))); [|discriminate].
        destruct (find_next ci (skipn ui u) ui a2); discriminate.
      + destruct (runes_match ci a0 a1); discriminate. }
  subst ck. destruct Hrd as [_ Hno]. cbn [g_ck g_p] in Hno.
  assert (Hge : pi <= e).
  { destruct (le_lt_dec pi e) as [|H]; [assumption|]. exfalso. apply (Hno e H He). }
  destruct (Hfo e He Hge) as [Hi1 Hi2].
  destruct (step_upto _ e He Hinv Hge) as [[H1 [H2 H3]]|Heq'].
  - cbn [g_p g_u g_restore] in *. subst rs pi. unfold glob_step in Hst; cbn [g_p g_u g_restore g_ck] in Hst.
    assert (e < List.length p) by (apply nth_error_Some; congruence).
    replace (Nat.eqb e (List.length p)) with false in Hst by (symmetry; apply Nat.eqb_neq; lia).
    replace (Nat.eqb ui (List.length u)) with false in Hst by (symmetry; apply Nat.eqb_neq; lia).
    cbn [andb orb] in Hst. rewrite He in Hst.
    destruct (nth_error u ui); [|discriminate].
    change (Ascii.eqb star qmark) with false in Hst. change (Ascii.eqb star star) with true in Hst. cbv iota in Hst.
    destruct (Nat.eqb (skip_stars (skipn (S e) p) (S e) e) (List.length p - 1)); [discriminate|].
    destruct (nth_error p (S (skip_stars (skipn (S e) p) (S e) e))); [|discriminate].
    destruct (find_next ci (skipn ui u) ui a1); discriminate.
  - pose proof (step_correct ci u (upto e) (upto_nas e) _ Hi1) as Hc. unfold step_ok in Hc.
    rewrite Heq', Hst in Hc. apply Hi2 in E4. apply Hc in E4. discriminate.
Qed.

Lemma lost_step : forall st, lost st -> glob_step ci u p st = inr (GRet false) /\ ~ overruns ci p u.
Proof.
  intros st [i [c [-> [Hs [Hc [Ha [Hn Hf]]]]]]].
  assert (S i < List.length p) by (apply nth_error_Some; congruence). split.
  - unfold glob_step; cbn [g_p g_u g_restore g_ck].
    replace (Nat.eqb i (List.length p)) with false by (symmetry; apply Nat.eqb_neq; lia).
    rewrite Nat.eqb_refl. reflexivity.
  - intros [_ [a [c' [b [t' [x [E1 [E2 [E3 [E4 E5]]]]]]]]]].
    destruct (split_star a (c' :: b) E1) as [He [Hup Hnx]]. change (nth_error (c' :: b) 0) with (Some c') in Hnx. change (accepts ci (a ++ [star]) u) in E4. rewrite <- Hup in E4.
    set (e := List.length a) in *.
    destruct (lt_eq_lt_dec i e) as [[H1|H1]|H1].
    + apply (Hf e He H1 E4).
    + subst i. rewrite Hnx in Hc. injection Hc as <-.
      assert (Hx : nth_error u (List.length t') = Some x).
      { rewrite E2, nth_error_app2, Nat.sub_diag by lia. reflexivity. }
      assert (Hl : List.length u = S (List.length t')) by (rewrite E2, app_length; simpl; lia).
      pose proof (Hn x _ Hl Hx) as Hm.
      assert (runes_match ci x c' = true).
      { apply (runes_match_spec ci x c' (star_then e c' He Hnx)).
        destruct (ascii_dec c' qmark); [left; assumption|right]. destruct E3 as [E3|E3]; [contradiction|tauto]. }
      congruence.
    + destruct (star_split i Hs) as [Hsp Hln]. apply (E5 (firstn i p) (skipn (S i) p) Hsp); [lia|].
      change (accepts ci (firstn i p ++ [star]) u). rewrite <- (firstn_S _ _ _ _ Hs). exact Ha.
Qed.

Lemma live_loop : forall fuel st, live st -> ~ accepts ci p u ->
  match glob_loop fuel ci u p st with
  | GRet false => ~ overruns ci p u
  | GPanic => overruns ci p u
  | _ => True
  end.
Proof.
  induction fuel as [|f IH]; intros st L Hna; [exact I|]. cbn [glob_loop].
  destruct (glob_step ci u p st) as [st'|r] eqn:E.
  - destruct (live_step st st' L E) as [L'|D]; [apply IH; assumption|].
    destruct f as [|f]; [exact I|]. cbn [glob_loop]. destruct (lost_step st' D) as [-> H]. exact H.
  - destruct r as [[|]| |]; try exact I.
    + apply (live_refused st L E).
    + apply (live_panic st L E Hna).
Qed.

Lemma live_init : live (GState 0 0 false None).
Proof.
  split; [apply inv_init|]. split; [exact I|]. split.
  - split; [apply accr_end|]. cbn. intros i Hi. lia.
  - cbn [g_p]. intros e He _. split; [apply inv_init|]. unfold answer; simpl. tauto.
Qed.

End Exact.

(** ** The statements used elsewhere *)

Lemma glob_panic_iff : forall ci u p, no_adjacent_stars p ->
  (regex_segment_match u p ci = GPanic <-> overruns ci p u).
Proof.
  intros ci u p Hn. pose proof (glob_outcomes ci u p Hn) as H.
  destruct (regex_segment_match u p ci) as [[|]| |] eqn:E.
  - split; [discriminate|]. intros [H1 _]. contradiction.
  - split; [discriminate|]. unfold regex_segment_match in E.
    destruct (negb (existsb (fun c => Ascii.eqb c star) p)
            && negb (Nat.eqb (List.length u) (List.length p))) eqn:E0.
    + apply andb_true_iff in E0. destruct E0 as [E1 _]. apply negb_true_iff in E1. apply existsb_star in E1.
      intros [_ [a [c [b [t' [x [-> _]]]]]]]. exfalso. apply E1. apply in_or_app. right. left. reflexivity.
    + pose proof (live_loop ci u p Hn (glob_fuel u p) _ (live_init ci u p) H) as L. rewrite E in L. intros X. contradiction.
  - split; [intros _|reflexivity]. destruct H as [H _]. unfold regex_segment_match in E.
    destruct (negb (existsb (fun c => Ascii.eqb c star) p)
            && negb (Nat.eqb (List.length u) (List.length p))); [discriminate|].
    pose proof (live_loop ci u p Hn (glob_fuel u p) _ (live_init ci u p) H) as L. rewrite E in L. exact L.
  - contradiction.
Qed.

Lemma calm_accepts : forall ci w t, accepts ci w t -> calm ci w t.
Proof. intros ci w t H [H' _]. contradiction. Qed.

Lemma calm_last_star : forall ci w t, ~ In "*"%char (removelast w) -> calm ci w t.
Proof.
  intros ci w t Hi [_ [a [c [b [t' [x [-> _]]]]]]]. apply Hi.
  rewrite removelast_app by discriminate. apply in_or_app. right. left. reflexivity.
Qed.

Lemma calm_last_letter : forall ci w t,
  (forall a c b, w = a ++ "*"%char :: c :: b ->
     forall t' x, t = t' ++ [x] -> c <> "?"%char /\ ~ same_letter ci x c) -> calm ci w t.
Proof.
  intros ci w t H [_ [a [c [b [t' [x [E1 [E2 [E3 _]]]]]]]]]. destruct (H a c b E1 t' x E2). tauto.
Qed.

Lemma glob_panic_case : overruns false (str "a*bc*de") (str "axbcdxd").
Proof.
  apply glob_panic_iff; [|reflexivity].
  repeat (constructor; [intros [H1 H2]; discriminate|]). constructor.
Qed.
