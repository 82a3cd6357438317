(** * Lemmas about printed permissions. *)
From Coq Require Import List NArith ZArith Ascii String Bool Lia Arith.
From Verif Require Import GoBase Auth_Model Auth_Spec Auth_Proofs.
Import ListNotations.
Local Open Scope string_scope.
Local Open Scope list_scope.
Local Open Scope nat_scope.

Lemma digit_digit : forall d, (d < 10)%N -> digit_of (digit d) d.
Proof.
  intros d H. split; [assumption|]. unfold digit. apply N_ascii_embedding. lia.
Qed.
Lemma itoa_fuel_numeral : forall f n acc, (n < 2 ^ N.of_nat f)%N -> (0 < f) ->
  exists ds, itoa_fuel f n acc = ds ++ acc /\ numeral ds n.
Proof.
  induction f as [|f IH]; intros n acc H Hf; [lia|]. cbn [itoa_fuel].
  destruct (N.ltb_spec n 10) as [L|L].
  - exists [digit (n mod 10)]. split; [reflexivity|]. rewrite N.mod_small by assumption. apply nm_one. apply digit_digit. assumption.
  - assert (H2 : (n / 10 < 2 ^ N.of_nat f)%N).
    { apply N.div_lt_upper_bound; [lia|]. rewrite Nat2N.inj_succ, N.pow_succ_r' in H. lia. }
    assert (Hf2 : 0 < f). { destruct f; [cbn in H; lia|lia]. }
    destruct (IH (n / 10)%N (digit (n mod 10) :: acc) H2 Hf2) as [ds [E M]].
    exists (ds ++ [digit (n mod 10)]). split; [rewrite E, <- app_assoc; reflexivity|].
    rewrite (N.div_mod n 10) at 2 by lia. apply nm_more; [assumption|]. apply digit_digit. apply N.mod_lt. lia.
Qed.
Lemma itoa_numeral : forall n, numeral (itoa n) n.
Proof.
  intros n. unfold itoa. destruct (itoa_fuel_numeral (S (N.to_nat (N.log2 n))) n []) as [ds [E M]]; [|lia|].
  - rewrite Nat2N.inj_succ, N2Nat.id. destruct (N.eq_dec n 0) as [->|N]; [cbn; lia|]. apply N.log2_spec. lia.
  - rewrite E, app_nil_r. assumption.
Qed.

Lemma numeral_some : forall ds n, numeral ds n -> ds <> [].
Proof. intros ds n H. destruct H; [discriminate|]. destruct ds; discriminate. Qed.
Lemma digit_of_test : forall c d, digit_of c d -> is_digit c = true /\ (code c - 48 = d)%N.
Proof.
  intros c d [A B]. unfold is_digit, code. rewrite B. split; [|lia].
  apply andb_true_iff. split; apply N.leb_le; lia.
Qed.
Lemma test_digit_of : forall c, is_digit c = true -> digit_of c (code c - 48).
Proof.
  intros c H. unfold is_digit in H. apply andb_true_iff in H. destruct H as [A B]. apply N.leb_le in A, B.
  unfold digit_of, code in *. lia.
Qed.
Lemma parse_snoc : forall ds c a, parse_digits (ds ++ [c]) a =
  match parse_digits ds a with Some n => parse_digits [c] n | None => None end.
Proof.
  induction ds as [|x ds IH]; intros c a; [reflexivity|]. cbn [app parse_digits].
  destruct (is_digit x); [|reflexivity]. destruct (4294967295 <? _)%N; [reflexivity|]. apply IH.
Qed.
Lemma parse_one : forall c a n, parse_digits [c] a = Some n <->
  digit_of c (code c - 48) /\ n = (10 * a + (code c - 48))%N /\ (n < 4294967296)%N.
Proof.
  intros c a n. cbn [parse_digits]. destruct (is_digit c) eqn:E.
  - apply test_digit_of in E. destruct (N.ltb_spec 4294967295 (a * 10 + (code c - 48))) as [L|L].
    + split; [discriminate|]. intros [_ [-> H]]. lia.
    + split; [intros [= <-]|intros [_ [-> _]]]; [repeat split; try apply E; lia|f_equal; lia].
  - split; [discriminate|]. intros [A _]. apply digit_of_test in A. destruct A. congruence.
Qed.
Lemma parse_numeral : forall ds n, ds <> [] -> (parse_digits ds 0 = Some n <-> numeral ds n /\ (n < 4294967296)%N).
Proof.
  intros ds. induction ds as [|c ds IH] using rev_ind; intros n Hne; [congruence|].
  rewrite parse_snoc. destruct ds as [|x ds].
  - cbn [app]. change (parse_digits [] 0) with (Some 0%N). rewrite parse_one. split.
    + intros [A [-> B]]. split; [|assumption]. apply nm_one. destruct A. split; [lia|]. lia.
    + intros [A B]. inversion A as [c0 d Hd|ds0 n0 c0 d Hn Hd E]; subst.
      * destruct (digit_of_test _ _ Hd) as [_ Hd2]. rewrite Hd2. split; [exact Hd|split; [lia|assumption]].
      * apply numeral_some in Hn. destruct ds0; [congruence|]. destruct ds0; discriminate.
  - assert (Hx : x :: ds <> []) by discriminate. specialize (fun n => IH n Hx). generalize dependent (x :: ds). intros l IH Hl.
    split.
    + destruct (parse_digits l 0) as [m|] eqn:E; [|discriminate]. intros H. apply parse_one in H. destruct H as [A [-> B]].
      pose proof (proj1 (IH m) eq_refl) as E'. split; [apply nm_more; [apply E'|assumption]|assumption].
    + intros [A B]. inversion A as [c0 d Hd E|ds0 n0 c0 d Hn Hd E]; subst.
      * destruct l; [congruence|]. destruct l; discriminate.
      * apply app_inj_tail in E. destruct E as [-> ->].
        rewrite (proj2 (IH n0)) by (split; [assumption|lia]).
        apply parse_one. destruct (digit_of_test _ _ Hd) as [_ Hd2]. rewrite Hd2. split; [exact Hd|split; [reflexivity|assumption]].
Qed.

Lemma colon_no_digit : forall d, ~ digit_of ":"%char d.
Proof. intros d [A B]. change (N_of_ascii ":"%char) with 58%N in B. lia. Qed.

(** ** The last colon *)
Lemma last_colon_at : forall l r n, ~ In ":"%char l -> last_colon (l ++ ":"%char :: r) n = Some (n - List.length l - 1).
Proof.
  induction l as [|c l IH]; intros r n H.
  - cbn. f_equal. lia.
  - cbn [app last_colon]. destruct (Ascii.eqb_spec c ":"%char) as [->|N]; [exfalso; apply H; left; reflexivity|].
    rewrite IH; [f_equal; cbn; lia|]. intros A. apply H. right. assumption.
Qed.
Lemma last_colon_none : forall l n, ~ In ":"%char l -> last_colon l n = None.
Proof.
  induction l as [|c l IH]; intros n H; [reflexivity|]. cbn [last_colon].
  destruct (Ascii.eqb_spec c ":"%char) as [->|N]; [exfalso; apply H; left; reflexivity|].
  apply IH. intros A. apply H. right. assumption.
Qed.
Lemma first_colon : forall l, In ":"%char l -> exists a b, l = a ++ ":"%char :: b /\ ~ In ":"%char a.
Proof.
  induction l as [|c l IH]; intros H; [destruct H|]. destruct (ascii_dec c ":"%char) as [->|N].
  - exists [], l. split; [reflexivity|intros []].
  - destruct H as [H|H]; [contradiction|]. destruct (IH H) as [a [b [-> A]]]. exists (c :: a), b. split; [reflexivity|].
    intros [B|B]; [contradiction|contradiction].
Qed.

(** ** Levels *)
Fixpoint slashes (s : bytes) : nat :=
  match s with [] => 0 | c :: s' => (if Ascii.eqb c "/"%char then 1 else 0) + slashes s' end.
Lemma too_many_count : forall s c, c <= 2 -> (too_many_levels s c = false <-> c + slashes s <= 2).
Proof.
  induction s as [|x s IH]; intros c Hc; cbn [too_many_levels slashes]; [split; [intros _; lia|reflexivity]|].
  unfold scope_separator. destruct (Ascii.eqb x "/"%char).
  - destruct (Nat.ltb_spec 2 (S c)); [split; [discriminate|lia]|]. rewrite IH by lia. split; lia.
  - destruct (Nat.ltb_spec 2 c); [lia|]. rewrite IH by lia. reflexivity.
Qed.
Lemma split_count : forall s, List.length (split_on "/"%char s) = S (slashes s).
Proof.
  induction s as [|x s IH]; [reflexivity|]. cbn [split_on slashes]. destruct (Ascii.eqb x "/"%char); [cbn; lia|].
  destruct (split_on "/"%char s); [cbn in IH; lia|]. cbn in *. lia.
Qed.
Lemma new_permission_iff : forall s a p, new_permission s a = Some p <-> p = Perm s a /\ three_levels s.
Proof.
  intros s a p. unfold new_permission, three_levels.
  assert (E : too_many_levels s 0 = false <-> (exists l, levels s l /\ List.length l <= 3)).
  { rewrite too_many_count by lia. split.
    - intros H. exists (split_on "/"%char s). split; [apply split_levels|]. rewrite split_count. lia.
    - intros [l [H L]]. apply levels_split in H. subst. rewrite split_count in L. lia. }
  destruct (too_many_levels s 0).
  - split; [discriminate|]. intros [_ A]. apply E in A. discriminate.
  - split; [intros [= <-]; split; [reflexivity|apply E; reflexivity]|intros [-> _]; reflexivity].
Qed.

Lemma parse_permission_iff : forall s p, parse_permission s = Some p <->
  exists ds, s = pm_scope p ++ ":"%char :: ds /\ numeral ds (pm_access p) /\
    (pm_access p < 4294967296)%N /\ three_levels (pm_scope p).
Proof.
  assert (Q : forall a b, ~ In ":"%char b -> parse_permission (a ++ ":"%char :: b) =
    match b with [] => None | _ => match parse_digits b 0 with None => None | Some n => new_permission a n end end).
  { intros a b Hb. unfold parse_permission. rewrite rev_app_distr. cbn [rev]. rewrite <- app_assoc. cbn [app].
    rewrite last_colon_at by (rewrite <- in_rev; assumption).
    rewrite rev_length, app_length. cbn [List.length].
    replace (List.length a + S (List.length b) - List.length b - 1) with (List.length a) by lia.
    assert (S1 : skipn (S (List.length a)) (a ++ ":"%char :: b) = b).
    { change (":"%char :: b) with ([":"%char] ++ b). rewrite app_assoc.
      replace (S (List.length a)) with (List.length (a ++ [":"%char])) by (rewrite app_length; cbn; lia).
      rewrite skipn_app, skipn_all, Nat.sub_diag. reflexivity. }
    assert (S2 : firstn (List.length a) (a ++ ":"%char :: b) = a).
    { rewrite firstn_app, firstn_all, Nat.sub_diag. cbn. apply app_nil_r. }
    rewrite S1, S2. destruct b as [|c b].
    - cbn [List.length]. replace (List.length a + 1 - 1) with (List.length a) by lia. rewrite Nat.eqb_refl. reflexivity.
    - destruct (Nat.eqb_spec (List.length a) (List.length a + S (List.length (c :: b)) - 1)) as [E|E]; [cbn in E; lia|]. reflexivity. }
  assert (D : forall ds n, numeral ds n -> ~ In ":"%char ds).
  { intros ds n H. induction H as [c d H|ds n c d _ IH H].
    - intros [->|[]]. exact (colon_no_digit _ H).
    - intros A. apply in_app_or in A. destruct A as [A|[->|[]]]; [contradiction|]. exact (colon_no_digit _ H). }
  intros s p. split.
  - intros H. destruct (in_dec ascii_dec ":"%char s) as [I|I].
    + assert (I2 : In ":"%char (rev s)) by (apply -> in_rev; assumption).
      apply first_colon in I2. destruct I2 as [a [b [E Ha]]].
      assert (Es : s = rev b ++ ":"%char :: rev a).
      { rewrite <- (rev_involutive s), E, rev_app_distr. cbn [rev]. rewrite <- app_assoc. reflexivity. }
      rewrite Es in H. assert (Hra : ~ In ":"%char (rev a)) by (rewrite <- in_rev; assumption).
      rewrite (Q _ _ Hra) in H. destruct (rev a) as [|c0 a0] eqn:Ea; [discriminate|].
      destruct (parse_digits (c0 :: a0) 0) as [n|] eqn:En; [|discriminate].
      apply parse_numeral in En; [|discriminate]. apply new_permission_iff in H. destruct H as [-> H].
      exists (c0 :: a0). cbn [pm_scope pm_access]. split; [congruence|]. destruct En. auto.
    + unfold parse_permission in H. rewrite last_colon_none in H; [discriminate|]. rewrite <- in_rev. assumption.
  - intros [ds [-> [H1 [H2 H3]]]]. rewrite Q by (eapply D; eassumption).
    pose proof (numeral_some _ _ H1) as Hne. destruct ds as [|c ds]; [congruence|].
    rewrite (proj2 (parse_numeral (c :: ds) (pm_access p) Hne)) by (split; assumption).
    apply new_permission_iff. split; [destruct p; reflexivity|assumption].
Qed.
Lemma print_parse : forall p, (pm_access p < 4294967296)%N -> three_levels (pm_scope p) ->
  parse_permission (perm_string p) = Some p.
Proof.
  intros p H1 H2. apply parse_permission_iff. exists (itoa (pm_access p)). split; [reflexivity|].
  split; [apply itoa_numeral|]. split; assumption.
Qed.
Lemma print_injective : forall p q, perm_string p = perm_string q -> p = q.
Proof.
  (* the text after the last colon is the numeral *)
  intros p q H. unfold perm_string in H.
  assert (D : forall n, ~ In ":"%char (itoa n)).
  { intros n. pose proof (itoa_numeral n) as M. induction M as [c d M|ds m c d _ IH M].
    - intros [->|[]]. exact (colon_no_digit _ M).
    - intros A. apply in_app_or in A. destruct A as [A|[->|[]]]; [contradiction|]. exact (colon_no_digit _ M). }
  assert (U : forall a b a' b' : bytes, ~ In ":"%char b -> ~ In ":"%char b' -> a ++ ":"%char :: b = a' ++ ":"%char :: b' -> a = a' /\ b = b').
  { induction a as [|c a IH]; intros b [|c' a'] b' Hb Hb' E; cbn in E.
    - injection E as ->. split; reflexivity.
    - injection E as <- E. subst. exfalso. apply Hb. apply in_or_app. right. left. reflexivity.
    - injection E as -> E. exfalso. apply Hb'. rewrite <- E. apply in_or_app. right. left. reflexivity.
    - injection E as -> E. destruct (IH _ _ _ Hb Hb' E) as [-> ->]. split; reflexivity. }
  destruct (U _ _ _ _ (D _) (D _) H) as [A B].
  destruct p as [s a], q as [s' a']. cbn [pm_scope pm_access] in *. subst. f_equal.
  assert (NU : forall ds n, numeral ds n -> forall m, numeral ds m -> n = m).
  { intros ds n M. induction M as [c d M|ds n c d M IH Mc]; intros m M2.
    - inversion M2 as [c0 d0 X|ds0 n0 c0 d0 X Y Z]; subst.
      + destruct M, X. lia.
      + apply numeral_some in X. destruct ds0; [congruence|]. destruct ds0; discriminate.
    - inversion M2 as [c0 d0 X Z|ds0 n0 c0 d0 X Y Z]; subst.
      + apply numeral_some in M. destruct ds; [congruence|]. destruct ds; discriminate.
      + apply app_inj_tail in Z. destruct Z as [-> ->]. rewrite (IH _ X). destruct Mc, Y. lia. }
  eapply NU; [apply itoa_numeral|]. rewrite B. apply itoa_numeral.
Qed.

(** ** AllPermissions *)
Lemma access_all_value : access_all = 511%N.
Proof. vm_compute. reflexivity. Qed.
Lemma all_permissions_implies : forall q, implies all_permissions q = true <-> forall k, N.testbit (pm_access q) k = true -> (k < 9)%N.
Proof.
  intros q. rewrite (implies_covers all_permissions q [wild] _ (split_levels (str "*")) (split_levels _)) by (left; reflexivity).
  split.
  - intros [G _] k Hk. specialize (G k Hk). cbn [all_permissions pm_access] in G. rewrite access_all_value in G.
    change 511%N with (N.ones 9) in G. destruct (N.lt_ge_cases k 9) as [A|A]; [assumption|].
    rewrite N.ones_spec_high in G by assumption. discriminate.
  - intros H. split.
    + intros k Hk. cbn [all_permissions pm_access]. rewrite access_all_value. change 511%N with (N.ones 9).
      apply N.ones_spec_low. auto.
    + pose proof (levels_some _ _ (split_levels (pm_scope q))) as N. destruct (split_on "/"%char (pm_scope q)); [congruence|].
      apply cv_deeper.
Qed.

(** ** Cases *)
Lemma implies_case :
  levels (str "admin/*") [str "admin"; wild] /\ levels (str "admin/sheet/team1") [str "admin"; str "sheet"; str "team1"] /\
  last [str "admin"; wild] [] = wild /\
  implies (Perm (str "admin/*") 7) (Perm (str "admin/sheet/team1") 5) = true /\
  implies (Perm (str "admin/*") 7) (Perm (str "user/sheet/team1") 5) = false /\
  implies (Perm (str "admin/*") 7) (Perm (str "admin/sheet/team1") 9) = false /\
  implies (Perm (str "admin/*/team1") 7) (Perm (str "admin/sheet/team1") 1) = true /\
  implies (Perm (str "admin/*/team1") 7) (Perm (str "admin/sheet/team2") 1) = false /\
  implies (Perm (str "admin/sheet") 7) (Perm (str "admin") 1) = false.
Proof.
  split; [apply (split_levels (str "admin/*"))|]. split; [apply (split_levels (str "admin/sheet/team1"))|].
  repeat split; vm_compute; reflexivity.
Qed.
Definition editor : role := Role (str "editor") (str "may edit") [Perm (str "docs/*") 511] [Perm (str "docs/secret") 8].
Definition editor_user : user := User (str "u1") (str "Una") [] [Group (str "g1") []; Group (str "g2") [editor]].
Lemma deny_case :
  levels (str "docs/secret") [str "docs"; str "secret"] /\
  covers [str "docs"; str "secret"] [str "docs"; str "secret"] /\ N.testbit 8 3 = true /\
  role_has editor (Perm (str "docs/secret") 8) = false /\ role_has editor (Perm (str "docs/secret") 1) = true /\
  role_has editor (Perm (str "docs/open") 8) = true.
Proof.
  split; [apply (split_levels (str "docs/secret"))|]. split; [apply cv_same; apply cv_same; apply cv_end|].
  repeat split; vm_compute; reflexivity.
Qed.
Lemma user_case : user_has editor_user (Perm (str "docs/open") 3) = true /\
  user_has editor_user (Perm (str "other") 3) = false /\ user_has_role editor_user (str "editor") = true /\
  user_has_role editor_user (str "admin") = false.
Proof. repeat split; vm_compute; reflexivity. Qed.
Lemma three_case : three_levels (str "a:b/*/c").
Proof. exists (split_on "/"%char (str "a:b/*/c")). split; [apply split_levels|]. vm_compute. repeat constructor. Qed.
Lemma parse_case : perm_string (Perm (str "a:b/*/c") 511) = str "a:b/*/c:511" /\
  parse_permission (str "a:b/*/c:0511") = Some (Perm (str "a:b/*/c") 511) /\
  parse_permission (str "a/b/c/d:1") = None /\ parse_permission (str "a:4294967296") = None /\
  parse_permission (str "a:") = None /\ parse_permission (str "a") = None /\ parse_permission (str "a:+1") = None.
Proof. repeat split; vm_compute; reflexivity. Qed.
