(** * Lemmas about permissions. *)
From Coq Require Import List NArith ZArith Ascii String Bool Lia Arith.
From Verif Require Import GoBase Glob_Proofs Auth_Model Auth_Spec.
Import ListNotations.
Local Open Scope string_scope.
Local Open Scope list_scope.
Local Open Scope nat_scope.

Lemma beqb_iff : forall a b, beqb a b = true <-> a = b.
Proof.
  induction a as [|x a IH]; intros [|y b]; cbn; split; intros H; try discriminate; try reflexivity.
  - apply andb_true_iff in H. destruct H as [H1 H2]. apply Ascii.eqb_eq in H1. apply IH in H2. congruence.
  - injection H as -> ->. rewrite Ascii.eqb_refl. apply IH. reflexivity.
Qed.
Lemma beqb_no : forall a b, beqb a b = false <-> a <> b.
Proof.
  intros a b. destruct (beqb a b) eqn:E; split; intros H; try discriminate; try reflexivity.
  - apply beqb_iff in E. contradiction.
  - intros A. apply beqb_iff in A. congruence.
Qed.

(** ** Levels *)
Lemma split_no : forall s, ~ In "/"%char s -> split_on "/"%char s = [s].
Proof.
  induction s as [|c s IH]; intros H; [reflexivity|]. cbn [split_on].
  destruct (Ascii.eqb_spec c "/"%char) as [->|N]; [exfalso; apply H; left; reflexivity|].
  rewrite IH; [reflexivity|]. intros A. apply H. right. assumption.
Qed.
Lemma split_app : forall x s, ~ In "/"%char x -> split_on "/"%char (x ++ "/"%char :: s) = x :: split_on "/"%char s.
Proof.
  induction x as [|c x IH]; intros s H; [reflexivity|]. cbn [split_on app].
  destruct (Ascii.eqb_spec c "/"%char) as [->|N]; [exfalso; apply H; left; reflexivity|].
  rewrite IH; [reflexivity|]. intros A. apply H. right. assumption.
Qed.
Lemma split_levels : forall s, levels s (split_on "/"%char s).
Proof.
  assert (G : forall n s, List.length s <= n -> levels s (split_on "/"%char s)).
  2:{ intros s. exact (G _ s (le_n _)). }
  induction n as [|n IH]; intros s Hn.
  - destruct s; [|cbn in Hn; lia]. apply lv_last. intros [].
  - destruct (in_dec ascii_dec "/"%char s) as [I|I].
    + apply in_split in I.
      assert (exists x s', s = x ++ "/"%char :: s' /\ ~ In "/"%char x) as [x [s' [-> Hx]]].
      { destruct I as [l1 [l2 E]]. subst. clear. induction l1 as [|c l1 IH].
        - exists [], l2. split; [reflexivity|intros []].
        - destruct (ascii_dec c "/"%char) as [->|N].
          + exists [], (l1 ++ "/"%char :: l2). split; [reflexivity|intros []].
          + destruct IH as [x [s' [E H]]]. exists (c :: x), s'. cbn. rewrite E. split; [reflexivity|].
            intros [A|A]; [congruence|contradiction]. }
      rewrite split_app by assumption. apply lv_more; [assumption|]. apply IH. rewrite app_length in Hn. cbn in Hn. lia.
    + rewrite split_no by assumption. apply lv_last. assumption.
Qed.
Lemma levels_split : forall s l, levels s l -> split_on "/"%char s = l.
Proof. intros s l H. induction H; [apply split_no; assumption|]. rewrite split_app by assumption. congruence. Qed.
Lemma levels_some : forall s l, levels s l -> l <> [].
Proof. intros s l H. destruct H; discriminate. Qed.

(** ** Implies *)
Definition lev (x y : bytes) : Prop := x = wild \/ x = y.
Lemma lev_test : forall x y, negb (beqb x (str "*")) && negb (beqb x y) = false <-> lev x y.
Proof.
  intros x y. change (str "*") with wild. rewrite andb_false_iff, !negb_false_iff, !beqb_iff. reflexivity.
Qed.
Lemma loop_nil : forall ips s, implies_loop s [] ips = true <-> Forall (lev s) ips.
Proof.
  induction ips as [|y ips IH]; intros s; cbn [implies_loop].
  - split; [constructor|reflexivity].
  - destruct (negb _ && negb _) eqn:E.
    + split; [discriminate|]. intros H. inversion H; subst. apply lev_test in H2. congruence.
    + apply lev_test in E. rewrite IH. split; intros H; [constructor; assumption|inversion H; assumption].
Qed.
Lemma last_default : forall (x : bytes) l d d', last (x :: l) d = last (x :: l) d'.
Proof. intros x l. revert x. induction l as [|y l IH]; intros x d d'; [reflexivity|]. exact (IH y d d'). Qed.
Lemma loop_iff : forall ps s0 ips, List.length ps <= List.length ips ->
  implies_loop s0 ps ips = true <->
  exists a b, ips = a ++ b /\ Forall2 lev ps a /\ Forall (lev (last ps s0)) b.
Proof.
  induction ps as [|p ps IH]; intros s0 ips Hl.
  - rewrite loop_nil. cbn [last]. split.
    + intros H. exists [], ips. repeat split; [constructor|assumption].
    + intros [a [b [-> [F G]]]]. inversion F; subst. assumption.
  - destruct ips as [|y ips]; [cbn in Hl; lia|]. cbn [List.length] in Hl. cbn [implies_loop].
    assert (L : forall q, last (p :: ps) q = last ps p).
    { intros q. destruct ps as [|x ps]; [reflexivity|]. apply (last_default x ps). }
    destruct (negb _ && negb _) eqn:E.
    + split; [discriminate|]. intros [a [b [Ha [F G]]]]. inversion F; subst. cbn in Ha. injection Ha as -> ->.
      apply lev_test in H1. congruence.
    + apply lev_test in E. rewrite IH by lia. rewrite L. split.
      * intros [a [b [-> [F G]]]]. exists (y :: a), b. repeat split; [constructor; assumption|assumption].
      * intros [a [b [Ha [F G]]]]. inversion F; subst. cbn in Ha. injection Ha as -> ->. eexists. exists b. repeat split; eassumption.
Qed.

Lemma lev_covers : forall p s, Forall2 lev p s -> covers p s.
Proof.
  intros p s H. induction H as [|x y p s [->| ->] _ IH]; [constructor|apply cv_star; assumption|apply cv_same; assumption].
Qed.
Lemma covers_deep : forall p a b, Forall2 lev (p ++ [wild]) a -> covers (p ++ [wild]) (a ++ b).
Proof.
  induction p as [|x p IH]; intros a b H; cbn [app] in *; inversion H; subst.
  - inversion H4; subst. cbn. apply cv_deeper.
  - cbn [app]. destruct H2 as [->| ->]; [apply cv_star; auto|apply cv_same; auto].
Qed.
Lemma covers_lev : forall p s, covers p s ->
  exists a b, s = a ++ b /\ Forall2 lev p a /\ (b = [] \/ exists p', p = p' ++ [wild]).
Proof.
  intros p s H. induction H as [|x p s _ [a [b [-> [F G]]]]|x p s _ [a [b [-> [F G]]]]|x s].
  - exists [], []. repeat split; [constructor|left; reflexivity].
  - exists (x :: a), b. repeat split; [constructor; [right; reflexivity|assumption]|].
    destruct G as [G|[p' ->]]; [left; assumption|right; exists (x :: p'); reflexivity].
  - exists (x :: a), b. repeat split; [constructor; [left; reflexivity|assumption]|].
    destruct G as [G|[p' ->]]; [left; assumption|right; exists (wild :: p'); reflexivity].
  - exists [x], s. repeat split; [constructor; [left; reflexivity|constructor]|]. right. exists []. reflexivity.
Qed.
Lemma forall2_length : forall A B (R : A -> B -> Prop) a b, Forall2 R a b -> List.length a = List.length b.
Proof. intros A B R a b H. induction H; cbn; congruence. Qed.
Lemma covers_len : forall p s, covers p s -> List.length p <= List.length s.
Proof. intros p s H. induction H; cbn; lia. Qed.

Lemma grants_land : forall a b, N.land a b = b <-> grants a b.
Proof.
  intros a b. unfold grants. split.
  - intros H k Hk. rewrite <- H in Hk. rewrite N.land_spec in Hk. apply andb_true_iff in Hk. apply Hk.
  - intros H. apply N.bits_inj. intros k. rewrite N.land_spec. specialize (H k).
    destruct (N.testbit b k); [rewrite H by reflexivity; reflexivity|apply andb_false_r].
Qed.

Lemma last_snoc : forall (l : list bytes) x d, last (l ++ [x]) d = x.
Proof. intros l x d. apply last_last. Qed.
Lemma scope_iff : forall ps ips, ps <> [] ->
  (List.length ps <= List.length ips /\ implies_loop [] ps ips = true) <-> (covers ps ips \/ repeats ps ips).
Proof.
  intros ps ips Hne. destruct (exists_last Hne) as [p [x Hp]]. subst ps. split.
  - intros [Hl H]. apply (loop_iff _ _ _ Hl) in H. destruct H as [a [b [-> [F G]]]].
    rewrite last_snoc in G. destruct b as [|y b].
    + left. rewrite app_nil_r. apply lev_covers. assumption.
    + destruct (list_eq_dec ascii_dec x wild) as [->|N].
      * left. apply covers_deep. assumption.
      * right. apply Forall2_app_inv_l in F. destruct F as [a1 [a2 [F1 [F2 ->]]]].
        inversion F2; subst. inversion H3; subst. destruct H1 as [E|E]; [contradiction|]. subst y0.
        rewrite <- app_assoc. cbn [app]. apply rp_intro; [|eapply Forall_impl; [|exact G]|discriminate].
        -- apply lev_covers. apply Forall2_app; [assumption|constructor; [right; reflexivity|constructor]].
        -- intros z [E|E]; [contradiction|assumption].
  - intros [H|H].
    + pose proof (covers_len _ _ H) as L. split; [assumption|]. apply loop_iff; [assumption|].
      apply covers_lev in H. destruct H as [a [b [-> [F G]]]]. exists a, b. repeat split; [assumption|].
      rewrite last_snoc. destruct G as [->|[p' E]]; [constructor|]. apply app_inj_tail in E. destruct E as [_ ->].
      apply Forall_forall. intros z _. left. reflexivity.
    + inversion H as [p0 x0 s1 s2 C E N Hp Hi]. apply app_inj_tail in Hp. destruct Hp as [-> ->]. subst ips.
      pose proof (covers_len _ _ C) as L. rewrite !app_length in L. cbn in L.
      assert (LL : List.length (p ++ [x]) <= List.length (s1 ++ x :: s2)).
      { rewrite !app_length. cbn. lia. }
      split; [assumption|]. apply loop_iff; [assumption|].
      apply covers_lev in C. destruct C as [a [b [Es [F G]]]]. exists a, (b ++ s2).
      repeat split; [|assumption|].
      * rewrite app_assoc, <- Es, <- app_assoc. reflexivity.
      * rewrite last_snoc. apply Forall_app. split.
        -- destruct G as [->|[p' E']]; [constructor|]. apply app_inj_tail in E'. destruct E' as [_ ->].
           apply Forall_forall. intros z _. left. reflexivity.
        -- eapply Forall_impl; [|exact E]. intros z ->. right. reflexivity.
Qed.

Lemma implies_iff : forall p q lp lq, levels (pm_scope p) lp -> levels (pm_scope q) lq ->
  implies p q = true <-> grants (pm_access p) (pm_access q) /\ (covers lp lq \/ repeats lp lq).
Proof.
  intros p q lp lq Hp Hq. unfold implies, scope_separator. rewrite (levels_split _ _ Hp), (levels_split _ _ Hq).
  rewrite <- scope_iff by (eapply levels_some; eassumption). rewrite <- grants_land.
  destruct (Nat.ltb_spec (List.length lq) (List.length lp)) as [L|L].
  - split; [discriminate|]. intros [_ [A _]]. lia.
  - destruct (N.eqb_spec (N.land (pm_access p) (pm_access q)) (pm_access q)) as [E|E]; cbn [negb].
    + split; [intros A; repeat split; assumption|intros [_ [_ A]]; assumption].
    + split; [discriminate|]. intros [A _]. contradiction.
Qed.

(** Exact if the permission ends with a star or is as deep as the request. *)
Lemma repeats_deeper : forall lp lq, repeats lp lq -> ~ covers lp lq ->
  List.length lp < List.length lq /\ last lp [] <> wild.
Proof.
  intros lp lq H N. destruct H as [p x s1 s2 C E N2]. split.
  - pose proof (covers_len _ _ C) as L. rewrite !app_length in *. cbn in *. destruct s2; [congruence|]. cbn. lia.
  - rewrite last_snoc. intros ->. apply N. apply covers_lev in C. destruct C as [a [b [Es [F G]]]].
    change (s1 ++ wild :: s2) with (s1 ++ [wild] ++ s2). rewrite app_assoc, Es, <- app_assoc. apply covers_deep. assumption.
Qed.

(** A decision for [covers]. *)
Lemma covers_dec : forall lp lq, covers lp lq \/ ~ covers lp lq.
Proof.
  induction lp as [|x lp IH]; intros lq.
  - destruct lq; [left; constructor|right; intros H; inversion H].
  - destruct lq as [|y lq]; [right; intros H; inversion H|]. destruct (IH lq) as [C|C].
    + destruct (list_eq_dec ascii_dec x y) as [->|N]; [left; apply cv_same; assumption|].
      destruct (list_eq_dec ascii_dec x wild) as [->|N2]; [left; apply cv_star; assumption|].
      right. intros H. inversion H; subst; contradiction.
    + destruct lp as [|x2 lp].
      * destruct (list_eq_dec ascii_dec x wild) as [->|N2]; [left; apply cv_deeper|].
        right. intros H. inversion H; subst; contradiction.
      * right. intros H. inversion H; subst; contradiction.
Qed.
Lemma implies_covers : forall p q lp lq, levels (pm_scope p) lp -> levels (pm_scope q) lq ->
  last lp [] = wild \/ List.length lp = List.length lq ->
  implies p q = true <-> grants (pm_access p) (pm_access q) /\ covers lp lq.
Proof.
  intros p q lp lq Hp Hq H. rewrite (implies_iff _ _ _ _ Hp Hq). split; [|tauto].
  intros [G [C|R]]; [tauto|]. split; [assumption|].
  destruct (covers_dec lp lq) as [C|C]; [assumption|].
  destruct (repeats_deeper _ _ R C) as [A B]. destruct H; [contradiction|lia].
Qed.

Lemma implies_more : exists p q lp lq, levels (pm_scope p) lp /\ levels (pm_scope q) lq /\
  implies p q = true /\ ~ covers lp lq.
Proof.
  exists (Perm (str "a") 1), (Perm (str "a/a") 1), [str "a"], [str "a"; str "a"].
  split; [apply (split_levels (str "a"))|]. split; [apply (split_levels (str "a/a"))|].
  split; [vm_compute; reflexivity|]. intros H. inversion H; subst. inversion H1.
Qed.

(** Implication is a preorder. *)
Lemma implies_refl : forall p, implies p p = true.
Proof.
  intros p. apply (implies_iff _ _ _ _ (split_levels _) (split_levels _)). split; [intros k H; assumption|].
  left. apply lev_covers. generalize (split_on "/"%char (pm_scope p)). induction l; constructor; [right; reflexivity|assumption].
Qed.
Definition pad (l : list bytes) (i : nat) : bytes := nth i l (last l []).
Lemma pad_iff : forall ps ips, ps <> [] ->
  (covers ps ips \/ repeats ps ips) <->
  (List.length ps <= List.length ips /\ forall i, i < List.length ips -> lev (pad ps i) (nth i ips [])).
Proof.
  intros ps ips Hne. rewrite <- scope_iff by assumption. split.
  - intros [L H]. split; [assumption|]. apply (loop_iff _ _ _ L) in H. destruct H as [a [b [-> [F G]]]].
    intros i Hi. pose proof (forall2_length _ _ _ _ _ F) as E. unfold pad.
    destruct (Nat.lt_ge_cases i (List.length ps)) as [A|A].
    + rewrite app_nth1 by lia. clear G L Hi E Hne. generalize (last ps []) as d. revert i A.
      induction F as [|x y ps a Hxy _ IH]; intros i A d; [cbn in A; lia|].
      destruct i; [assumption|]. cbn in *. apply IH. lia.
    + rewrite nth_overflow by lia. rewrite app_nth2 by lia. rewrite Forall_forall in G. apply G. apply nth_In.
      rewrite app_length in Hi. lia.
  - intros [L H]. split; [assumption|]. apply loop_iff; [assumption|].
    exists (firstn (List.length ps) ips), (skipn (List.length ps) ips). split; [rewrite firstn_skipn; reflexivity|]. split.
    + assert (Q : forall (ps' ips' : list bytes) d, List.length ps' <= List.length ips' ->
        (forall i, i < List.length ps' -> lev (nth i ps' d) (nth i ips' [])) -> Forall2 lev ps' (firstn (List.length ps') ips')).
      { clear. induction ps' as [|x ps' IH]; intros ips' d L H; [constructor|]. destruct ips' as [|y ips']; [cbn in L; lia|].
        cbn. constructor; [apply (H 0); cbn; lia|]. apply (IH _ d); [cbn in L; lia|]. intros i Hi. apply (H (S i)). cbn. lia. }
      apply (Q _ _ (last ps []) L). intros i Hi. apply H. lia.
    + apply Forall_forall. intros y Hy. apply (In_nth _ _ []) in Hy. destruct Hy as [i [Hi <-]].
      rewrite skipn_length in Hi. specialize (H (List.length ps + i)). unfold pad in H. rewrite nth_overflow in H by lia.
      assert (E : nth (List.length ps + i) ips [] = nth i (skipn (List.length ps) ips) []).
      { clear. revert ips. induction (List.length ps) as [|n IH]; intros ips; [reflexivity|]. destruct ips; [destruct i; reflexivity|]. cbn. apply IH. }
      rewrite <- E. apply H. lia.
Qed.
Lemma last_nth : forall (l : list bytes) d, l <> [] -> last l d = nth (List.length l - 1) l d.
Proof.
  induction l as [|x l IH]; intros d H; [congruence|]. destruct l as [|y l]; [reflexivity|].
  change (last (x :: y :: l) d) with (last (y :: l) d). rewrite IH by discriminate. cbn. rewrite Nat.sub_0_r. reflexivity.
Qed.
Lemma implies_trans : forall p q r, implies p q = true -> implies q r = true -> implies p r = true.
Proof.
  intros p q r. rewrite (implies_iff p q _ _ (split_levels _) (split_levels _)),
    (implies_iff q r _ _ (split_levels _) (split_levels _)), (implies_iff p r _ _ (split_levels _) (split_levels _)).
  pose proof (levels_some _ _ (split_levels (pm_scope p))) as Np.
  pose proof (levels_some _ _ (split_levels (pm_scope q))) as Nq.
  generalize dependent (split_on "/"%char (pm_scope p)). intros lp Np.
  generalize dependent (split_on "/"%char (pm_scope q)). intros lq Nq.
  generalize (split_on "/"%char (pm_scope r)). intros lr.
  rewrite (pad_iff lp lq Np), (pad_iff lq lr Nq), (pad_iff lp lr Np).
  intros [G1 [L1 H1]] [G2 [L2 H2]]. split; [intros k Hk; auto|]. split; [lia|].
  intros i Hi. specialize (H2 i Hi).
  assert (Q : lev (pad lp i) (pad lq i)).
  { unfold pad at 2. destruct (Nat.lt_ge_cases i (List.length lq)) as [A|A].
    - rewrite (nth_indep _ _ []) by assumption. apply H1. assumption.
    - rewrite nth_overflow by lia. unfold pad. rewrite nth_overflow by lia.
      rewrite (last_nth lq) by assumption. specialize (H1 (List.length lq - 1)).
      unfold pad in H1. assert (B : List.length lq - 1 < List.length lq) by (destruct lq; [congruence|cbn; lia]).
      specialize (H1 B). destruct (Nat.lt_ge_cases (List.length lq - 1) (List.length lp)) as [C|C].
      + assert (E : List.length lq = List.length lp) by lia. rewrite E in *.
        rewrite last_nth by assumption. rewrite (nth_indep lp [] (last lp [])) by lia. assumption.
      + rewrite nth_overflow in H1 by lia. assumption. }
  destruct Q as [Q|Q]; [left; assumption|]. rewrite Q. assumption.
Qed.

(** ** Roles, groups, users *)
Lemma any_implies_iff : forall l q, any_implies l q = true <-> exists p, In p l /\ implies p q = true.
Proof.
  induction l as [|p l IH]; intros q; cbn.
  - split; [discriminate|intros [p [[] _]]].
  - destruct (implies p q) eqn:E.
    + split; [intros _; exists p; tauto|reflexivity].
    + rewrite IH. split; intros [x [A B]]; exists x; [tauto|]. destruct A as [->|A]; [congruence|tauto].
Qed.
Lemma any_implies_no : forall l q, any_implies l q = false <-> forall p, In p l -> implies p q = false.
Proof.
  intros l q. destruct (any_implies l q) eqn:E.
  - split; [discriminate|]. intros H. apply any_implies_iff in E. destruct E as [p [A B]]. rewrite H in B by assumption. discriminate.
  - split; [|reflexivity]. intros _ p Hp. destruct (implies p q) eqn:F; [|reflexivity].
    rewrite (proj2 (any_implies_iff l q)) in E; [discriminate|eauto].
Qed.
Lemma role_has_iff : forall r q, role_has r q = true <->
  (forall d, In d (rl_denied r) -> implies d q = false) /\ exists p, In p (rl_allowed r) /\ implies p q = true.
Proof.
  intros r q. unfold role_has. rewrite <- any_implies_no, <- any_implies_iff.
  destruct (any_implies (rl_denied r) q); intuition congruence.
Qed.

Definition bit (k : N) : N := (2 ^ k)%N.
Lemma grants_bit : forall a k, grants a (bit k) <-> N.testbit a k = true.
Proof.
  intros a k. unfold grants, bit. split.
  - intros H. apply H. apply N.pow2_bits_true.
  - intros H j Hj. destruct (N.eq_dec k j) as [->|N]; [assumption|]. rewrite N.pow2_bits_false in Hj by congruence. discriminate.
Qed.

(** C31 *)
Lemma deny_bypassed : exists r d q k ld lq,
  In d (rl_denied r) /\ levels (pm_scope d) ld /\ levels (pm_scope q) lq /\ covers ld lq /\
  N.testbit (pm_access d) k = true /\ N.testbit (pm_access q) k = true /\ role_has r q = true.
Proof.
  exists (Role (str "editor") (str "may edit") [Perm (str "docs/*") 511] [Perm (str "docs/secret") 8]), (Perm (str "docs/secret") 8),
    (Perm (str "docs/secret") 9), 3%N, [str "docs"; str "secret"], [str "docs"; str "secret"].
  split; [left; reflexivity|]. split; [apply (split_levels (str "docs/secret"))|].
  split; [apply (split_levels (str "docs/secret"))|].
  split; [apply cv_same; apply cv_same; apply cv_end|]. repeat split; vm_compute; reflexivity.
Qed.
Lemma single_bit_deny : forall r d k scope ld lq,
  In d (rl_denied r) -> levels (pm_scope d) ld -> levels scope lq -> covers ld lq ->
  N.testbit (pm_access d) k = true -> role_has r (Perm scope (bit k)) = false.
Proof.
  intros r d k scope ld lq Hd Hl Hq C B. unfold role_has.
  rewrite (proj2 (any_implies_iff (rl_denied r) (Perm scope (bit k)))); [reflexivity|].
  exists d. split; [assumption|]. apply (implies_iff d (Perm scope (bit k)) _ _ Hl Hq). split; [|left; assumption].
  cbn [pm_access]. apply grants_bit. assumption.
Qed.
Lemma whole_deny : forall r d q ld lq,
  In d (rl_denied r) -> levels (pm_scope d) ld -> levels (pm_scope q) lq -> covers ld lq ->
  grants (pm_access d) (pm_access q) -> role_has r q = false.
Proof.
  intros r d q ld lq Hd Hl Hq C B. unfold role_has.
  rewrite (proj2 (any_implies_iff (rl_denied r) q)); [reflexivity|].
  exists d. split; [assumption|]. apply (implies_iff d q _ _ Hl Hq). split; [assumption|left; assumption].
Qed.
Lemma allowed_grant : forall r p q lp lq,
  In p (rl_allowed r) -> levels (pm_scope p) lp -> levels (pm_scope q) lq -> covers lp lq ->
  grants (pm_access p) (pm_access q) ->
  (forall d ld, In d (rl_denied r) -> levels (pm_scope d) ld -> ~ (grants (pm_access d) (pm_access q) /\ (covers ld lq \/ repeats ld lq))) ->
  role_has r q = true.
Proof.
  intros r p q lp lq Hp Hl Hq C B Hd. apply role_has_iff. split.
  - intros d Hin. destruct (implies d q) eqn:E; [|reflexivity]. exfalso.
    apply (implies_iff d q _ _ (split_levels _) Hq) in E. exact (Hd _ _ Hin (split_levels _) E).
  - exists p. split; [assumption|]. apply (implies_iff p q _ _ Hl Hq). split; [assumption|left; assumption].
Qed.
Lemma deny_partial : forall r scope lq, levels scope lq ->
  (forall d ld q, pm_scope q = scope -> In d (rl_denied r) -> levels (pm_scope d) ld -> covers ld lq ->
     grants (pm_access d) (pm_access q) -> role_has r q = false) /\
  (forall d ld k, In d (rl_denied r) -> levels (pm_scope d) ld -> covers ld lq ->
     N.testbit (pm_access d) k = true -> role_has r (Perm scope (2 ^ k)%N) = false).
Proof.
  intros r scope lq Hq. split.
  - intros d ld q <- Hd Hl C G. eapply whole_deny; eassumption.
  - intros d ld k Hd Hl C B. eapply single_bit_deny; eassumption.
Qed.

(** C32 *)
Lemma roles_permit_iff : forall l q, roles_permit l q = true <-> exists r, In r l /\ role_has r q = true.
Proof.
  induction l as [|p l IH]; intros q; cbn.
  - split; [discriminate|intros [p [[] _]]].
  - destruct (role_has p q) eqn:E.
    + split; [intros _; exists p; tauto|reflexivity].
    + rewrite IH. split; intros [x [A B]]; exists x; [tauto|]. destruct A as [->|A]; [congruence|tauto].
Qed.
Lemma groups_permit_iff : forall l q, groups_permit l q = true <-> exists g, In g l /\ group_has g q = true.
Proof.
  induction l as [|p l IH]; intros q; cbn.
  - split; [discriminate|intros [p [[] _]]].
  - destruct (group_has p q) eqn:E.
    + split; [intros _; exists p; tauto|reflexivity].
    + rewrite IH. split; intros [x [A B]]; exists x; [tauto|]. destruct A as [->|A]; [congruence|tauto].
Qed.
Lemma roles_named_iff : forall l q, roles_named l q = true <-> exists r, In r l /\ rl_name r = q.
Proof.
  induction l as [|p l IH]; intros q; cbn.
  - split; [discriminate|intros [p [[] _]]].
  - destruct (beqb q (rl_name p)) eqn:E.
    + apply beqb_iff in E. split; [intros _; exists p; split; [left; reflexivity|congruence]|reflexivity].
    + apply beqb_no in E. rewrite IH. split; intros [x [A B]]; exists x; [tauto|]. destruct A as [->|A]; [congruence|tauto].
Qed.
Lemma groups_named_iff : forall l q, groups_named l q = true <-> exists g, In g l /\ group_has_role g q = true.
Proof.
  induction l as [|p l IH]; intros q; cbn.
  - split; [discriminate|intros [p [[] _]]].
  - destruct (group_has_role p q) eqn:E.
    + split; [intros _; exists p; tauto|reflexivity].
    + rewrite IH. split; intros [x [A B]]; exists x; [tauto|]. destruct A as [->|A]; [congruence|tauto].
Qed.
Lemma user_grants : forall u q name,
  (user_has u q = true <-> exists g r, In g (us_groups u) /\ In r (gr_roles g) /\
     (forall d, In d (rl_denied r) -> implies d q = false) /\ exists p, In p (rl_allowed r) /\ implies p q = true) /\
  (user_has_role u name = true <-> exists g r, In g (us_groups u) /\ In r (gr_roles g) /\ rl_name r = name).
Proof.
  intros u q name. unfold user_has, user_has_role. rewrite groups_permit_iff, groups_named_iff. split; split.
  - intros [g [Hg H]]. apply roles_permit_iff in H. destruct H as [r [Hr H]]. apply role_has_iff in H. exists g, r. tauto.
  - intros [g [r [Hg [Hr H]]]]. exists g. split; [assumption|]. apply roles_permit_iff. exists r. split; [assumption|].
    apply role_has_iff. assumption.
  - intros [g [Hg H]]. apply roles_named_iff in H. destruct H as [r H]. exists g, r. tauto.
  - intros [g [r [Hg H]]]. exists g. split; [assumption|]. apply roles_named_iff. exists r. assumption.
Qed.
(** More groups, roles or allowed permissions never take a grant away. *)
Lemma user_monotone : forall u q g, user_has u q = true -> user_has (User (us_id u) (us_name u) (us_platform u) (g :: us_groups u)) q = true.
Proof.
  intros u q g H. unfold user_has in *. rewrite groups_permit_iff in *. destruct H as [x [A B]]. exists x. split; [right; assumption|assumption].
Qed.
