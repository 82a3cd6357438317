(** * Proofs about pattern parsing. *)
From Coq Require Import List NArith ZArith Ascii String Bool Lia Arith.
From Verif Require Import GoBase Glob_Model Glob_Spec Pattern_Model Pattern_Spec.
Import ListNotations.
Local Open Scope string_scope.
Local Open Scope list_scope.
Local Open Scope nat_scope.

Lemma beqb_eq : forall a b, beqb a b = true <-> a = b.
Proof.
  induction a as [|x a IH]; destruct b as [|y b]; simpl; split; intros H;
    try discriminate; auto.
  - apply andb_true_iff in H. destruct H as [H1 H2].
    apply Ascii.eqb_eq in H1. apply IH in H2. congruence.
  - injection H as -> ->. rewrite Ascii.eqb_refl. apply IH. reflexivity.
Qed.

Lemma beqb_neq : forall a b, beqb a b = false <-> a <> b.
Proof.
  intros a b. rewrite <- beqb_eq. destruct (beqb a b); intuition congruence.
Qed.

Lemma beqb_refl : forall a, beqb a a = true.
Proof. intros; apply beqb_eq; reflexivity. Qed.

(** ** Single pieces *)

Lemma last_is_snoc : forall c s x, last_is c (s ++ [x]) = Ascii.eqb x c.
Proof. intros. unfold last_is. rewrite rev_app_distr. reflexivity. Qed.

Lemma snoc_cases : forall (A : Type) (l : list A), l = [] \/ exists l' x, l = l' ++ [x].
Proof.
  intros A l. destruct l as [|a l] using rev_ind; [left; reflexivity|right; eauto].
Qed.

Lemma last_is_last : forall c s, s <> [] -> c <> "a"%char ->
  (last_is c s = true <-> last s "a"%char = c).
Proof.
  intros c s Hs Hc. destruct (snoc_cases _ s) as [->|[s' [x ->]]]; [congruence|].
  rewrite last_is_snoc, last_last. apply Ascii.eqb_eq.
Qed.

Lemma first_is_hd : forall c s, c <> "a"%char -> (first_is c s = true <-> hd "a"%char s = c).
Proof.
  intros c [|x s] Hc; simpl.
  - split; [discriminate|congruence].
  - apply Ascii.eqb_eq.
Qed.

Lemma two_stars_one : forall s, two_stars s 1 = match s with
  | [] => false
  | c :: s' => if Ascii.eqb c star then true else two_stars s' 0 end.
Proof. destruct s as [|c s]; auto. simpl. destruct (Ascii.eqb c star); reflexivity. Qed.

Lemma two_stars_spec : forall s, two_stars s 0 = false <-> no_adjacent_stars s.
Proof.
  induction s as [|c s IH].
  - split; intros; constructor.
  - cbn [two_stars]. destruct (Ascii.eqb c star) eqn:E.
    + cbn [Nat.leb]. rewrite two_stars_one. apply Ascii.eqb_eq in E. subst c.
      destruct s as [|d s]; [split; intros; constructor|].
      destruct (Ascii.eqb d star) eqn:Ed.
      * apply Ascii.eqb_eq in Ed. subst d. split; [discriminate|].
        intros H. inversion H; subst. tauto.
      * assert (Hd : two_stars s 0 = two_stars (d :: s) 0).
        { cbn [two_stars]. rewrite Ed. reflexivity. }
        rewrite Hd, IH. split.
        -- intros H. constructor; auto. intros [_ ->]. discriminate Ed.
        -- intros H; inversion H; subst; assumption.
    + cbn [Nat.leb]. rewrite IH. apply Ascii.eqb_neq in E. split.
      * intros H. destruct s; constructor; auto. tauto.
      * intros H; inversion H; subst; [constructor|assumption].
Qed.

Lemma nas_app_inv : forall a b, no_adjacent_stars (a ++ b) -> no_adjacent_stars a /\ no_adjacent_stars b.
Proof.
  induction a as [|c a IH]; intros b H; simpl in *.
  - split; [constructor|assumption].
  - destruct a as [|d a].
    + split; [constructor|]. inversion H; subst; [constructor|assumption].
    + simpl in *. inversion H as [| |? ? ? Hcd Hn]; subst.
      destruct (IH b Hn). split; [constructor|]; assumption.
Qed.

Lemma nas_cons_nonstar : forall c w, c <> star -> no_adjacent_stars w -> no_adjacent_stars (c :: w).
Proof. intros c w Hc H. destruct w; constructor; auto. tauto. Qed.

Lemma nas_snoc_nonstar : forall w c, c <> star -> no_adjacent_stars w -> no_adjacent_stars (w ++ [c]).
Proof.
  induction w as [|d w IH]; intros c Hc H; simpl; [constructor|].
  destruct w as [|e w].
  - simpl. constructor; [tauto|constructor].
  - inversion H; subst. simpl. constructor; auto. apply IH; assumption.
Qed.

Lemma nas_app_nonstar : forall a c b, c <> star ->
  no_adjacent_stars a -> no_adjacent_stars b -> no_adjacent_stars (a ++ c :: b).
Proof.
  induction a as [|d a IH]; intros c b Hc Ha Hb; simpl.
  - apply nas_cons_nonstar; assumption.
  - destruct a as [|e a]; simpl.
    + constructor; [tauto|apply nas_cons_nonstar; assumption].
    + inversion Ha; subst. constructor; auto. apply IH; assumption.
Qed.

(** [bad_colon] on the text after the opening brace. *)
Lemma bad_colon_mid : forall s pos len,
  2 <= pos -> pos + List.length s = len ->
  bad_colon s pos len = true <-> exists s' x, s = s' ++ [colon; x].
Proof.
  induction s as [|c s IH]; intros pos len Hp Hl; simpl in *.
  - split; [discriminate|]. intros [s' [x H]]. destruct s'; discriminate.
  - destruct (Nat.ltb pos (len - 1)) eqn:E.
    + apply Nat.ltb_lt in E. rewrite orb_true_iff, IH by lia.
      rewrite andb_true_iff, orb_true_iff, !Nat.eqb_eq, Ascii.eqb_eq. split.
      * intros [[-> [H|H]]|[s' [x ->]]]; [lia| |exists (c :: s'), x; reflexivity].
        destruct s as [|x [|y s]]; simpl in *; try lia. exists [], x. reflexivity.
      * intros [[|d s'] [x Hx]].
        -- injection Hx as -> ->. simpl in *. left. split; auto. right. lia.
        -- injection Hx as -> ->. right. eauto.
    + apply Nat.ltb_ge in E. split; [discriminate|].
      intros [[|d s'] [x Hx]].
      * injection Hx as -> ->. simpl in *. lia.
      * injection Hx as -> ->. rewrite app_length in *. simpl in *. lia.
Qed.

Lemma braces_shape : forall s,
  first_is obrace s = true -> last_is cbrace s = true ->
  exists inner, s = obrace :: inner ++ [cbrace].
Proof.
  intros [|c s] H1 H2; [discriminate|]. simpl in H1. apply Ascii.eqb_eq in H1. subst c.
  destruct (snoc_cases _ s) as [->|[s' [x ->]]]; [discriminate|].
  change (obrace :: s' ++ [x]) with ((obrace :: s') ++ [x]) in H2.
  rewrite last_is_snoc in H2. apply Ascii.eqb_eq in H2. subst x. eauto.
Qed.

Lemma braces_first : forall inner, first_is obrace (obrace :: inner ++ [cbrace]) = true.
Proof. reflexivity. Qed.
Lemma braces_last : forall inner, last_is cbrace (obrace :: inner ++ [cbrace]) = true.
Proof.
  intros. change (obrace :: inner ++ [cbrace]) with ((obrace :: inner) ++ [cbrace]).
  rewrite last_is_snoc. reflexivity.
Qed.

(** The check on the braces: no colon first or last inside. *)
Lemma bad_colon_braces : forall inner,
  inner <> [] ->
  (bad_colon (skipn 1 (obrace :: inner ++ [cbrace])) 1 (List.length (obrace :: inner ++ [cbrace])) = true
   <-> hd "a"%char inner = colon \/ last inner "a"%char = colon).
Proof.
  intros inner Hne. simpl skipn.
  replace (List.length (obrace :: inner ++ [cbrace])) with (List.length inner + 2)
    by (simpl; rewrite app_length; simpl; lia).
  destruct inner as [|c inner]; [congruence|]. simpl app. cbn [bad_colon hd].
  replace (Nat.ltb 1 (List.length (c :: inner) + 2 - 1)) with true
    by (symmetry; apply Nat.ltb_lt; simpl; lia).
  rewrite orb_true_iff, bad_colon_mid.
  2: lia.
  2: rewrite app_length; simpl; lia.
  rewrite andb_true_iff, Ascii.eqb_eq. simpl Nat.eqb at 1. rewrite orb_true_l.
  split.
  - intros [[H _]|[s' [x H]]]; [left; assumption|right].
    destruct (snoc_cases _ inner) as [->|[i' [y ->]]].
    + destruct s' as [|a [|b s']]; discriminate.
    + rewrite <- app_assoc in H. simpl in H.
      change [colon; x] with ([colon] ++ [x]) in H. change [y; cbrace] with ([y] ++ [cbrace]) in H.
      rewrite !app_assoc in H. apply app_inj_tail in H. destruct H as [H _].
      apply app_inj_tail in H. destruct H as [_ ->].
      change (c :: i' ++ [colon]) with ((c :: i') ++ [colon]). apply last_last.
  - intros [H|H]; [left; auto|].
    destruct (snoc_cases _ inner) as [->|[i' [y ->]]].
    + simpl in H. left. auto.
    + change (c :: i' ++ [y]) with ((c :: i') ++ [y]) in H. rewrite last_last in H. subst y.
      right. exists i', cbrace. rewrite <- app_assoc. reflexivity.
Qed.

Definition mt_of (k : piece) : mtype :=
  match k with
  | Lit _ => MTLiteral | Constrained _ _ => MTConstraint | Var _ => MTCapture
  | Glob _ => MTRegex | One => MTSingle | Any => MTMulti
  end.

Lemma existsb_colon : forall s, existsb (Ascii.eqb colon) s = true <-> In colon s.
Proof.
  intros s. rewrite existsb_exists. split.
  - intros [x [H1 H2]]. apply Ascii.eqb_eq in H2. subst. assumption.
  - intros H. exists colon. split; auto.
Qed.

Lemma existsb_wild : forall s,
  existsb (fun c => Ascii.eqb c qmark || Ascii.eqb c star) s = true <-> In star s \/ In qmark s.
Proof.
  intros s. rewrite existsb_exists. split.
  - intros [x [H1 H2]]. apply orb_true_iff in H2. rewrite !Ascii.eqb_eq in H2.
    destruct H2 as [->| ->]; auto.
  - intros [H|H]; [exists star|exists qmark]; split; auto.
Qed.

Lemma split_first_colon : forall s, In colon s ->
  s = before_colon s ++ colon :: after_colon s /\ ~ In colon (before_colon s).
Proof.
  induction s as [|c s IH]; intros H; simpl in *; [contradiction|].
  destruct (Ascii.eqb c colon) eqn:E.
  - apply Ascii.eqb_eq in E. subst. split; [reflexivity|intros []].
  - apply Ascii.eqb_neq in E. destruct H as [H|H]; [congruence|].
    destruct (IH H) as [H1 H2]. split.
    + simpl. f_equal. assumption.
    + intros [H3|H3]; [congruence|contradiction].
Qed.

Lemma before_colon_app : forall a b, ~ In colon a -> before_colon (a ++ colon :: b) = a.
Proof.
  induction a as [|c a IH]; intros b H; simpl.
  - reflexivity.
  - destruct (Ascii.eqb c colon) eqn:E.
    + apply Ascii.eqb_eq in E. exfalso. apply H. left. auto.
    + f_equal. apply IH. intros Hin. apply H. right. assumption.
Qed.
Lemma after_colon_app : forall a b, ~ In colon a -> after_colon (a ++ colon :: b) = b.
Proof.
  induction a as [|c a IH]; intros b H; simpl.
  - reflexivity.
  - destruct (Ascii.eqb c colon) eqn:E.
    + apply Ascii.eqb_eq in E. exfalso. apply H. left. auto.
    + apply IH. intros Hin. apply H. right. assumption.
Qed.

Lemma validate_nonempty : forall s, validate_path_segment s = true -> s <> [].
Proof. intros s H ->. discriminate. Qed.

(** The parser's check implies a reading. *)
Lemma validate_reads : forall s, validate_path_segment s = true ->
  exists k, reads s k /\ determine_match_type s = mt_of k.
Proof.
  intros s H. pose proof (validate_nonempty s H) as Hne.
  unfold validate_path_segment in H.
  destruct (Nat.eqb (List.length s) 0); [discriminate|].
  destruct (first_is obrace s) eqn:Ef; destruct (last_is cbrace s) eqn:El; cbn [andb negb] in H;
    try discriminate.
  - (* braces *)
    destruct (braces_shape s Ef El) as [inner ->].
    destruct (Nat.eqb (List.length (obrace :: inner ++ [cbrace])) 2) eqn:E2; [discriminate H|].
    rewrite orb_false_l in H.
    destruct (bad_colon (skipn 1 (obrace :: inner ++ [cbrace])) 1
                (List.length (obrace :: inner ++ [cbrace]))) eqn:Eb; [discriminate H|].
    assert (Hin : inner <> []) by (intros ->; discriminate E2).
    assert (Hnb : ~ (hd "a"%char inner = colon \/ last inner "a"%char = colon)).
    { rewrite <- bad_colon_braces by assumption. rewrite Eb. discriminate. }
    assert (Hstar : beqb (obrace :: inner ++ [cbrace]) (str "*")
                    || beqb (obrace :: inner ++ [cbrace]) (str "**") = false).
    { apply orb_false_iff. rewrite !beqb_neq. split; discriminate. }
    rewrite Hstar in H. apply negb_true_iff in H. apply two_stars_spec in H.
    assert (Hnas : no_adjacent_stars inner).
    { apply (nas_app_inv [obrace]) in H. destruct H as [_ H].
      apply nas_app_inv in H. tauto. }
    apply orb_false_iff in Hstar. destruct Hstar as [Hs1 Hs2].
    unfold determine_match_type. rewrite Hs1, Hs2, braces_first, braces_last. simpl andb.
    destruct (existsb (Ascii.eqb colon) (obrace :: inner ++ [cbrace])) eqn:Ec.
    + apply existsb_colon in Ec.
      assert (Hci : In colon inner).
      { destruct Ec as [Ec|Ec]; [discriminate|]. apply in_app_or in Ec.
        destruct Ec as [Ec|[Ec|[]]]; [assumption|discriminate]. }
      destruct (split_first_colon inner Hci) as [Hsp Hnc].
      revert Hsp Hnc. generalize (before_colon inner) (after_colon inner).
      intros b a Hsp Hnc. subst inner.
      exists (Constrained b a).
      split; [|reflexivity]. rewrite <- app_assoc. apply reads_constrained.
      * intros ->. apply Hnb. left. reflexivity.
      * assumption.
      * intros ->. apply Hnb. right. apply last_last.
      * intros E. apply Hnb. right.
        destruct (snoc_cases _ a) as [->|[l [x ->]]]; [discriminate|].
        rewrite last_last in E. subst x.
        change (colon :: l ++ [":"%char]) with ((colon :: l) ++ [colon]).
        rewrite app_assoc. apply last_last.
      * assumption.
    + exists (Var inner). split; [|reflexivity]. apply reads_var; auto.
      intros Hi. apply not_true_iff_false in Ec. apply Ec. apply existsb_colon.
      right. apply in_or_app. left. assumption.
  - (* no braces *)
    unfold determine_match_type.
    destruct (beqb s (str "*")) eqn:E1.
    { apply beqb_eq in E1. subst. exists One. split; [constructor|reflexivity]. }
    destruct (beqb s (str "**")) eqn:E2.
    { apply beqb_eq in E2. subst. exists Any. split; [constructor|reflexivity]. }
    simpl in H. apply negb_true_iff in H. apply two_stars_spec in H.
    rewrite Ef. simpl andb. cbv iota.
    assert (Hf : hd "a"%char s <> "{"%char).
    { intros E. apply not_true_iff_false in Ef. apply Ef. apply first_is_hd; [discriminate|assumption]. }
    assert (Hl : last s "a"%char <> "}"%char).
    { intros E. apply not_true_iff_false in El. apply El. apply last_is_last; [assumption|discriminate|assumption]. }
    destruct (existsb (fun c => Ascii.eqb c qmark || Ascii.eqb c star) s) eqn:Ew.
    + apply existsb_wild in Ew. apply beqb_neq in E1. exists (Glob s). split; [|reflexivity].
      apply reads_glob; auto.
    + exists (Lit s). split; [|reflexivity]. apply not_true_iff_false in Ew.
      rewrite existsb_wild in Ew. apply reads_lit; auto; tauto.
Qed.

Lemma reads_validate : forall s k, reads s k ->
  validate_path_segment s = true /\ determine_match_type s = mt_of k.
Proof.
  assert (HB : forall inner, inner <> [] -> hd "a"%char inner <> colon ->
            last inner "a"%char <> colon -> no_adjacent_stars inner ->
            validate_path_segment (obrace :: inner ++ [cbrace]) = true /\
            determine_match_type (obrace :: inner ++ [cbrace]) =
              if existsb (Ascii.eqb colon) inner then MTConstraint else MTCapture).
  { intros inner Hne Hh Hl Hn.
    assert (Hstar : beqb (obrace :: inner ++ [cbrace]) (str "*")
                    || beqb (obrace :: inner ++ [cbrace]) (str "**") = false).
    { apply orb_false_iff. rewrite !beqb_neq. split; discriminate. }
    assert (Hlen : List.length (obrace :: inner ++ [cbrace]) <> 2).
    { simpl. rewrite app_length. simpl. destruct inner; [congruence|simpl; lia]. }
    split.
    - unfold validate_path_segment. rewrite Hstar.
      replace (Nat.eqb (List.length (obrace :: inner ++ [cbrace])) 0) with false by reflexivity.
      apply Nat.eqb_neq in Hlen. rewrite Hlen.
      rewrite braces_first, braces_last. cbn [negb andb orb].
      assert (Eb : bad_colon (skipn 1 (obrace :: inner ++ [cbrace])) 1
                 (List.length (obrace :: inner ++ [cbrace])) = false).
      { apply not_true_iff_false. rewrite bad_colon_braces by assumption. tauto. }
      rewrite Eb. apply negb_true_iff. apply two_stars_spec.
      apply nas_cons_nonstar; [discriminate|]. apply nas_snoc_nonstar; [discriminate|assumption].
    - apply orb_false_iff in Hstar. destruct Hstar as [Hs1 Hs2].
      unfold determine_match_type. rewrite Hs1, Hs2, braces_first, braces_last. simpl andb.
      cbv iota.
      replace (existsb (Ascii.eqb colon) (obrace :: inner ++ [cbrace]))
        with (existsb (Ascii.eqb colon) inner); [reflexivity|].
      simpl. rewrite existsb_app. simpl. rewrite orb_false_r. reflexivity. }
  intros s k H. destruct H.
  - split; reflexivity.
  - split; reflexivity.
  - destruct (HB name) as [H3 H4]; auto.
    + destruct name as [|c n]; simpl; [congruence|]. intros ->. apply H0. left. reflexivity.
    + intros E. apply H0. destruct (snoc_cases _ name) as [->|[l [x ->]]]; [congruence|].
      rewrite last_last in E. subst. apply in_or_app. right. left. reflexivity.
    + split; [exact H3|]. etransitivity; [exact H4|].
      destruct (existsb (Ascii.eqb colon) name) eqn:E; [|reflexivity].
      apply existsb_colon in E. contradiction.
  - destruct (HB (name ++ ":"%char :: re)) as [H5 H6]; auto.
    + destruct name; discriminate.
    + destruct name as [|c n]; simpl; [congruence|]. intros ->. apply H0. left. reflexivity.
    + intros E. apply H2. destruct (snoc_cases _ re) as [->|[l [x ->]]]; [congruence|].
      rewrite last_last.
      change (":"%char :: l ++ [x]) with ((":"%char :: l) ++ [x]) in E.
      rewrite app_assoc, last_last in E. assumption.
    + replace ("{"%char :: name ++ ":"%char :: re ++ ["}"%char])
        with (obrace :: (name ++ ":"%char :: re) ++ [cbrace])
        by (rewrite <- app_assoc; reflexivity).
      split; [exact H5|]. etransitivity; [exact H6|].
      replace (existsb (Ascii.eqb colon) (name ++ ":"%char :: re)) with true; [reflexivity|].
      symmetry. apply existsb_colon. apply in_or_app. right. left. reflexivity.
  - assert (Hne : t <> []) by (intros ->; simpl in H; tauto).
    assert (Ef : first_is obrace t = false).
    { apply not_true_iff_false. rewrite first_is_hd by discriminate. assumption. }
    assert (El : last_is cbrace t = false).
    { apply not_true_iff_false. rewrite last_is_last by (assumption || discriminate). assumption. }
    assert (E1 : beqb t (str "*") = false) by (apply beqb_neq; assumption).
    assert (E2 : beqb t (str "**") = false).
    { apply beqb_neq. intros ->. inversion H1; subst. tauto. }
    split.
    + unfold validate_path_segment. rewrite Ef, El, E1, E2. simpl.
      replace (Nat.eqb (List.length t) 0) with false
        by (destruct t; [congruence|reflexivity]).
      apply negb_true_iff. apply two_stars_spec. assumption.
    + unfold determine_match_type. rewrite E1, E2, Ef. simpl.
      apply existsb_wild in H. rewrite H. reflexivity.
  - assert (Ef : first_is obrace t = false).
    { apply not_true_iff_false. rewrite first_is_hd by discriminate. assumption. }
    assert (El : last_is cbrace t = false).
    { apply not_true_iff_false. rewrite last_is_last by (assumption || discriminate). assumption. }
    assert (E1 : beqb t (str "*") = false).
    { apply beqb_neq. intros ->. apply H0. left. reflexivity. }
    assert (E2 : beqb t (str "**") = false).
    { apply beqb_neq. intros ->. apply H0. left. reflexivity. }
    assert (Hn : no_adjacent_stars t).
    { clear - H0. induction t as [|c t IH]; [constructor|].
      apply nas_cons_nonstar; [intros ->; apply H0; left; reflexivity|].
      apply IH. intros Hi. apply H0. right. assumption. }
    split.
    + unfold validate_path_segment. rewrite Ef, El, E1, E2. simpl.
      replace (Nat.eqb (List.length t) 0) with false
        by (destruct t; [congruence|reflexivity]).
      apply negb_true_iff. apply two_stars_spec. assumption.
    + unfold determine_match_type. rewrite E1, E2, Ef. simpl.
      destruct (existsb (fun c => Ascii.eqb c qmark || Ascii.eqb c star) t) eqn:E; [|reflexivity].
      apply existsb_wild in E. tauto.
Qed.

(** The segment made for a piece shows it. *)
Lemma make_segment_spec : forall re ci s k, reads s k ->
  match make_segment re ci s with
  | Some (sg, cap) => shows ci sg s k /\ cap = named k /\
       (forall n r, k = Constrained n r -> re_ok re (constraint_source ci r) = true)
  | None => exists n r, k = Constrained n r /\ re_ok re (constraint_source ci r) = false
  end.
Proof.
  intros re ci s k H. unfold make_segment.
  rewrite (proj2 (reads_validate s k H)).
  destruct H; cbn [mt_of]; try (unfold shows; simpl; repeat split; auto; discriminate).
  - assert (E : skipn 1 (removelast ("{"%char :: name ++ ["}"%char])) = name).
    { change ("{"%char :: name ++ ["}"%char]) with (("{"%char :: name) ++ ["}"%char]).
      rewrite removelast_last. reflexivity. }
    rewrite E. unfold shows; cbn [s_val s_mt s_name s_re]. repeat split; auto. discriminate.
  - assert (E : removelast (after_colon ("{"%char :: name ++ ":"%char :: re0 ++ ["}"%char])) = re0).
    { change ("{"%char :: name ++ ":"%char :: re0 ++ ["}"%char])
        with (("{"%char :: name) ++ colon :: (re0 ++ ["}"%char])).
      rewrite after_colon_app; [apply removelast_last|].
      intros [Hx|Hx]; [discriminate|contradiction]. }
    assert (E' : skipn 1 (before_colon ("{"%char :: name ++ ":"%char :: re0 ++ ["}"%char])) = name).
    { change ("{"%char :: name ++ ":"%char :: re0 ++ ["}"%char])
        with (("{"%char :: name) ++ colon :: (re0 ++ ["}"%char])).
      rewrite before_colon_app; [reflexivity|].
      intros [Hx|Hx]; [discriminate|contradiction]. }
    rewrite E, E'. change (if ci then str "(?i)" ++ re0 else re0) with (constraint_source ci re0).
    destruct (re_ok re (constraint_source ci re0)) eqn:Er.
    + unfold shows; simpl. repeat split; auto. intros n r Hk. injection Hk as -> ->. assumption.
    + exists name, re0. auto.
Qed.

(** ** The pieces seen by the loop *)

Fixpoint pieces_of (rest cur : bytes) : list bytes :=
  match rest with
  | [] => []
  | c :: rest' =>
      if Ascii.eqb c slash then rev cur :: pieces_of rest' []
      else match rest' with
           | [] => [rev (c :: cur)]
           | _ => pieces_of rest' (c :: cur)
           end
  end.

Fixpoint add_all (re : engine) (ci : bool) (ps : list bytes) (st : pstate) : presult + pstate :=
  match ps with
  | [] => inr st
  | p :: ps' => match add_piece re ci p st with
                | inl r => inl r
                | inr st' => add_all re ci ps' st'
                end
  end.

Lemma parse_loop_pieces : forall re ci rest cur st,
  parse_loop re ci rest cur st = add_all re ci (pieces_of rest cur) st.
Proof.
  induction rest as [|c rest IH]; intros cur st; [reflexivity|].
  cbn [parse_loop pieces_of]. destruct (Ascii.eqb c slash).
  - cbn [add_all]. destruct (add_piece re ci (rev cur) st); [reflexivity|apply IH].
  - destruct rest as [|d rest]; [|apply IH].
    cbn [add_all]. destruct (add_piece _ _ _ _); reflexivity.
Qed.

Lemma pieces_of_noslash : forall rest cur, ~ In slash cur ->
  Forall (fun p => ~ In slash p) (pieces_of rest cur).
Proof.
  induction rest as [|c rest IH]; intros cur H; cbn [pieces_of]; [constructor|].
  destruct (Ascii.eqb c slash) eqn:E.
  - constructor; [rewrite <- in_rev; assumption|]. apply IH. intros [].
  - apply Ascii.eqb_neq in E.
    assert (H' : ~ In slash (c :: cur)) by (intros [Hx|Hx]; [congruence|contradiction]).
    destruct rest as [|d rest]; [|apply IH; assumption].
    constructor; [|constructor]. rewrite <- in_rev. assumption.
Qed.

Lemma pieces_of_spelled : forall rest cur, rest <> [] \/ cur = [] ->
  slash :: rev cur ++ rest = spelled (pieces_of rest cur) /\ pieces_of rest cur <> [] \/
  slash :: rev cur ++ rest = spelled (pieces_of rest cur) ++ [slash].
Proof.
  induction rest as [|c rest IH]; intros cur H; cbn [pieces_of].
  - destruct H as [H| ->]; [congruence|]. right. reflexivity.
  - destruct (Ascii.eqb c slash) eqn:E.
    + apply Ascii.eqb_eq in E. subst c. cbn [spelled].
      destruct (IH [] (or_intror eq_refl)) as [[H1 _]|H1]; cbn [rev app] in H1.
      * left. split; [|discriminate]. rewrite <- H1. reflexivity.
      * right. change ("/"%char) with slash. cbn [app]. rewrite <- app_assoc, <- H1. reflexivity.
    + destruct rest as [|d rest].
      * left. split; [|discriminate]. cbn [spelled]. rewrite app_nil_r. reflexivity.
      * destruct (IH (c :: cur)) as [[H1 H2]|H1]; [left; discriminate| |];
          cbn [rev] in H1; rewrite <- app_assoc in H1; [left; split; auto|right; auto].
Qed.

(** The pieces are determined by the text. *)
Lemma pieces_of_skip : forall p rest cur, ~ In slash p -> rest <> [] ->
  pieces_of (p ++ rest) cur = pieces_of rest (rev p ++ cur).
Proof.
  induction p as [|c p IH]; intros rest cur Hp Hr; [reflexivity|].
  cbn [app pieces_of]. destruct (Ascii.eqb c slash) eqn:E.
  { apply Ascii.eqb_eq in E. exfalso. apply Hp. left. auto. }
  assert (Hne : p ++ rest <> []) by (destruct p; [assumption|discriminate]).
  destruct (p ++ rest) as [|d l] eqn:El; [congruence|]. rewrite <- El.
  rewrite IH by (try assumption; intros Hi; apply Hp; right; assumption).
  cbn [rev]. rewrite <- app_assoc. reflexivity.
Qed.

Lemma pieces_of_last : forall p cur, ~ In slash p -> p <> [] ->
  pieces_of p cur = [rev cur ++ p].
Proof.
  induction p as [|c p IH]; intros cur Hp Hr; [congruence|].
  cbn [pieces_of]. destruct (Ascii.eqb c slash) eqn:E.
  { apply Ascii.eqb_eq in E. exfalso. apply Hp. left. auto. }
  destruct p as [|d p]; [reflexivity|].
  rewrite IH by (try discriminate; intros Hi; apply Hp; right; assumption).
  cbn [rev]. rewrite <- app_assoc. reflexivity.
Qed.

Lemma spells_pieces : forall ps rest,
  Forall (fun p => p <> []) ps -> spells ps (slash :: rest) -> pieces_of rest [] = ps.
Proof.
  assert (H1 : forall ps rest, Forall (fun p => p <> []) ps ->
     Forall (fun p => ~ In slash p) ps -> ps <> [] -> slash :: rest = spelled ps ->
     pieces_of rest [] = ps).
  { induction ps as [|p ps IH]; intros rest Hne Hs Hps E; [congruence|].
    inversion Hne; subst. inversion Hs; subst. cbn [spelled] in E. injection E as ->.
    destruct ps as [|q ps].
    - cbn [spelled]. rewrite app_nil_r. apply pieces_of_last; assumption.
    - rewrite pieces_of_skip by (try assumption; discriminate).
      cbn [spelled]. cbn [pieces_of]. change (Ascii.eqb "/"%char slash) with true. cbv iota.
      rewrite app_nil_r, rev_involutive. f_equal.
      apply IH; auto. discriminate. }
  assert (H2 : forall ps rest, Forall (fun p => p <> []) ps ->
     Forall (fun p => ~ In slash p) ps -> slash :: rest = spelled ps ++ [slash] ->
     pieces_of rest [] = ps).
  { induction ps as [|p ps IH]; intros rest Hne Hs E.
    - injection E as ->. reflexivity.
    - inversion Hne; subst. inversion Hs; subst. cbn [spelled app] in E. injection E as ->.
      rewrite <- app_assoc.
      rewrite pieces_of_skip; [|assumption|destruct (spelled ps); discriminate].
      destruct ps as [|q ps].
      + cbn [spelled app pieces_of]. change (Ascii.eqb slash slash) with true. cbv iota.
        rewrite app_nil_r, rev_involutive. reflexivity.
      + cbn [spelled app pieces_of]. change (Ascii.eqb "/"%char slash) with true. cbv iota.
        rewrite app_nil_r, rev_involutive. f_equal. apply IH; auto. }
  intros ps rest Hne [Hs [[E Hps]|E]]; eauto.
Qed.

Lemma spells_first : forall ps t, spells ps t -> exists rest, t = slash :: rest.
Proof.
  intros ps t [_ [[-> H]| ->]].
  - destruct ps; [congruence|]. simpl. eauto.
  - destruct ps; simpl; eauto.
Qed.

Lemma reads_nonempty : forall s k, reads s k -> s <> [].
Proof.
  intros s k H. apply reads_validate in H. apply validate_nonempty. tauto.
Qed.

(** ** The fold over the pieces *)

Lemma update_spec : forall (A : Type) (l : list A) i v,
  i < List.length l -> exists l', update l i v = Some l' /\ List.length l' = List.length l /\
    nth_error l' i = Some v /\ (forall j, j <> i -> nth_error l' j = nth_error l j) /\
    firstn i l' = firstn i l /\ firstn (S i) l' = firstn i l ++ [v].
Proof.
  induction l as [|x l IH]; intros i v Hi; simpl in Hi; [lia|].
  destruct i as [|i]; simpl.
  - exists (v :: l). repeat split; auto. intros [|j] Hj; [congruence|reflexivity].
  - destruct (IH i v) as [l' [E [H1 [H2 [H3 [H4 H5]]]]]]; [lia|].
    rewrite E. exists (x :: l'). simpl. repeat split; auto.
    + intros [|j] Hj; simpl; auto.
    + f_equal. assumption.
    + change (x :: firstn (S i) l' = x :: (firstn i l ++ [v])). rewrite H5. reflexivity.
Qed.

Lemma update_none : forall (A : Type) (l : list A) i v,
  List.length l <= i -> update l i v = None.
Proof.
  induction l as [|x l IH]; intros [|i] v H; simpl in *; auto; try lia.
  rewrite IH by lia. reflexivity.
Qed.

Lemma mt_eqb_eq : forall a b, mt_eqb a b = true <-> a = b.
Proof. intros a b; destruct a, b; unfold mt_eqb; simpl; split; intros; auto; discriminate. Qed.

Definition legal_tail (last : mtype) (ks : list piece) : Prop :=
  no_adjacent_any ks /\ (last = MTMulti -> hd One ks <> Any).
Definition compiles_all (re : engine) (ci : bool) (ks : list piece) : Prop :=
  forall n r, In (Constrained n r) ks -> re_ok re (constraint_source ci r) = true.
Definition named_count (ks : list piece) : nat := List.length (filter named ks).
Definition filled (segs : list (option segment)) (n : nat) : Prop :=
  forall i, i < n -> exists s, nth_error segs i = Some (Some s).

Lemma naa_cons_iff : forall k ks, no_adjacent_any (k :: ks) <->
  (no_adjacent_any ks /\ (k = Any -> hd One ks <> Any)).
Proof.
  intros k ks. destruct ks as [|k2 ks]; simpl.
  - split; intros; [split; [constructor|discriminate]|constructor].
  - split.
    + intros H. inversion H; subst. split; [assumption|tauto].
    + intros [H1 H2]. constructor; [tauto|assumption].
Qed.

Lemma mt_of_any : forall k, mt_of k = MTMulti <-> k = Any.
Proof. destruct k; simpl; split; intros; try discriminate; auto. Qed.

Definition max_mt (a b : mtype) : mtype := if N.ltb (mt_code a) (mt_code b) then b else a.

Lemma add_all_spec : forall re ci ps st L,
  L + List.length ps <= List.length (ps_segs st) ->
  ps_count st = (N.of_nat L mod 256)%N ->
  filled (ps_segs st) (Nat.min L 256) ->
  match add_all re ci ps st with
  | inl PErr => ~ exists ks, Forall2 reads ps ks /\ legal_tail (ps_last st) ks /\ compiles_all re ci ks
  | inl _ => False
  | inr st' =>
      exists ks, Forall2 reads ps ks /\ legal_tail (ps_last st) ks /\ compiles_all re ci ks /\
        List.length (ps_segs st') = List.length (ps_segs st) /\
        ps_count st' = (N.of_nat (L + List.length ps) mod 256)%N /\
        filled (ps_segs st') (Nat.min (L + List.length ps) 256) /\
        (ps_caps st < 256 -> ps_caps st' = (ps_caps st + N.of_nat (named_count ks)) mod 256)%N /\
        ps_max st' = fold_left max_mt (map mt_of ks) (ps_max st) /\
        (L + List.length ps <= 255 -> exists sgs, shows_all ci sgs ps ks /\
           firstn (L + List.length ps) (ps_segs st') = firstn L (ps_segs st) ++ map Some sgs)
  end.
Proof.
  induction ps as [|p ps IH]; intros st L Hcap Hcnt Hfill.
  - cbn [add_all List.length]. rewrite !Nat.add_0_r. exists []. repeat split; auto.
    + constructor.
    + discriminate.
    + intros n r [].
    + intros Hc. unfold named_count. simpl. rewrite N.add_0_r, N.mod_small; auto.
    + intros _. exists []. split; [constructor|]. simpl. rewrite app_nil_r. reflexivity.
  - cbn [add_all]. unfold add_piece.
    destruct (validate_path_segment p) eqn:Ev; cbn [negb].
    2:{ intros [ks [Hr _]]. inversion Hr; subst. apply reads_validate in H1.
        destruct H1 as [H1 _]. congruence. }
    destruct (validate_reads p Ev) as [k [Hk Hmt]]. rewrite Hmt.
    destruct (mt_eqb (ps_last st) MTMulti && mt_eqb (mt_of k) MTMulti) eqn:Eadj.
    { apply andb_true_iff in Eadj. rewrite !mt_eqb_eq in Eadj. destruct Eadj as [E1 E2].
      intros [ks [Hr [[_ Hl] _]]]. inversion Hr; subst. apply (Hl E1). simpl.
      apply reads_validate in H1. destruct H1 as [_ H1]. rewrite Hmt in H1.
      apply mt_of_any. congruence. }
    assert (Hadj : ps_last st = MTMulti -> k <> Any).
    { intros E1 ->. rewrite E1 in Eadj. discriminate. }
    pose proof (make_segment_spec re ci p k Hk) as Hms.
    destruct (make_segment re ci p) as [[sg cap]|] eqn:Ems.
    2:{ intros [ks [Hr [_ Hc]]]. inversion Hr; subst.
        pose proof (make_segment_spec re ci p y H1) as Hms'. rewrite Ems in Hms'.
        destruct Hms' as [n [r [-> Hf]]]. rewrite (Hc n r) in Hf; [discriminate|left; reflexivity]. }
    destruct Hms as [Hsh [Hcapk Hcomp]].
    assert (Hmod : N.to_nat (ps_count st) = L mod 256).
    { rewrite Hcnt. replace 256%N with (N.of_nat 256) by reflexivity.
      rewrite <- Nat2N.inj_mod, Nat2N.id. reflexivity. }
    assert (HL : L mod 256 <= L) by (apply Nat.mod_le; lia).
    cbn [List.length] in Hcap.
    destruct (update_spec _ (ps_segs st) (N.to_nat (ps_count st)) (Some sg))
      as [segs' [Eu [Hlen [Hnth [Hoth [Hf1 Hf2]]]]]]; [lia|].
    rewrite Eu.
    assert (Hfill' : filled segs' (Nat.min (L + 1) 256)).
    { intros i Hi. destruct (Nat.eq_dec i (L mod 256)) as [->|Hn].
      - rewrite Hmod in Hnth. rewrite Hnth. eauto.
      - rewrite Hoth by lia. apply Hfill.
        destruct (le_lt_dec 256 L); [lia|]. rewrite Nat.mod_small in Hn by assumption. lia. }
    set (st1 := PState (u8 (ps_count st + 1)) (if cap then u8 (ps_caps st + 1) else ps_caps st)
                  (mt_of k) (if (mt_code (ps_max st) <? mt_code (mt_of k))%N then mt_of k else ps_max st) segs').
    specialize (IH st1 (L + 1)). cbn [ps_segs ps_count st1] in IH.
    assert (Hcnt1 : u8 (ps_count st + 1) = (N.of_nat (L + 1) mod 256)%N).
    { unfold u8. rewrite Hcnt. rewrite Nat2N.inj_add.
      rewrite N.add_mod_idemp_l by discriminate. reflexivity. }
    specialize (IH ltac:(lia) Hcnt1 Hfill').
    destruct (add_all re ci ps st1) as [[]|st'].
    + intros [ks [Hr [[Hn Hl] Hc]]]. apply IH. inversion Hr; subst.
      exists l'. split; [assumption|]. apply naa_cons_iff in Hn. destruct Hn as [Hn1 Hn2].
      split.
      * split; [assumption|]. cbn [ps_last st1]. intros E.
        apply Hn2. apply mt_of_any. apply reads_validate in H1. destruct H1 as [_ H1].
        congruence.
      * intros n r Hi. apply (Hc n r). right. assumption.
    + contradiction.
    + contradiction.
    + contradiction.
    + destruct IH as [ks [Hr [[Hn Hl] [Hc [Hlen' [Hcnt' [Hfill2 [Hcaps [Hmax Hshow]]]]]]]]].
      exists (k :: ks). cbn [List.length].
      replace (L + S (List.length ps)) with (L + 1 + List.length ps) by lia.
      repeat split.
      * constructor; assumption.
      * apply naa_cons_iff. split; [assumption|]. intros ->. apply Hl. reflexivity.
      * simpl. assumption.
      * intros n r [->|Hi]; [eauto|eauto].
      * congruence.
      * assumption.
      * assumption.
      * intros Hc256. cbn [ps_caps st1] in Hcaps.
        assert (Hlt : ((if cap then u8 (ps_caps st + 1) else ps_caps st) < 256)%N).
        { destruct cap; [apply N.mod_lt; discriminate|assumption]. }
        rewrite (Hcaps Hlt). unfold named_count. cbn [filter]. rewrite <- Hcapk.
        destruct cap; cbn [List.length].
        -- unfold u8. rewrite N.add_mod_idemp_l by discriminate. f_equal. lia.
        -- reflexivity.
      * rewrite Hmax. reflexivity.
      * intros HL255. destruct (Hshow HL255) as [sgs [Hs Hfst]].
        exists (sg :: sgs). split; [constructor; assumption|].
        rewrite Hfst. cbn [map]. rewrite Hmod in Hf2. rewrite Nat.mod_small in Hf2 by lia.
        replace (L + 1) with (S L) by lia. rewrite Hf2. rewrite <- app_assoc. reflexivity.
Qed.

(** ** The whole parser *)

Lemma all_some_map : forall l, all_some (map Some l) = Some l.
Proof. induction l as [|s l IH]; simpl; [reflexivity|rewrite IH; reflexivity]. Qed.

Lemma all_some_filled : forall l, (forall i, i < List.length l -> exists s, nth_error l i = Some (Some s)) ->
  exists r, all_some l = Some r /\ l = map Some r.
Proof.
  induction l as [|x l IH]; intros H.
  - exists []. split; reflexivity.
  - destruct (H 0) as [s Hs]; [simpl; lia|]. simpl in Hs. injection Hs as ->.
    destruct IH as [r [E1 E2]].
    + intros i Hi. apply (H (S i)). simpl. lia.
    + exists (s :: r). simpl. rewrite E1. split; [reflexivity|].
      rewrite <- E2. reflexivity.
Qed.

Lemma nth_error_firstn_lt : forall (A : Type) (l : list A) n i, i < n ->
  nth_error (firstn n l) i = nth_error l i.
Proof.
  induction l as [|x l IH]; intros [|n] [|i] H; simpl; auto; try lia. apply IH. lia.
Qed.

Lemma slash_count_pieces : forall rest cur,
  List.length (pieces_of rest cur) <= 1 + List.length (filter (Ascii.eqb slash) rest).
Proof.
  induction rest as [|c rest IH]; intros cur; cbn [pieces_of filter]; [simpl; lia|].
  rewrite (Ascii.eqb_sym slash c). destruct (Ascii.eqb c slash); cbn [List.length].
  - specialize (IH []). lia.
  - destruct rest; [simpl; lia|]. apply IH.
Qed.

Lemma fold_max_multi : forall ks m, (fold_left max_mt (map mt_of ks) m = MTMulti) <->
  m = MTMulti \/ In Any ks.
Proof.
  induction ks as [|k ks IH]; intros m; simpl.
  - tauto.
  - rewrite IH. unfold max_mt. split.
    + intros [H|H]; [|auto]. destruct (mt_code m <? mt_code (mt_of k))%N; [|auto].
      apply mt_of_any in H. auto.
    + intros [->|[->|H]]; auto.
      * left. destruct k; reflexivity.
      * left. destruct m; reflexivity.
Qed.

Lemma forall2_len : forall (A B : Type) (R : A -> B -> Prop) l l',
  Forall2 R l l' -> List.length l = List.length l'.
Proof. intros A B R l l' H. induction H; simpl; congruence. Qed.

(** Parsing, in one statement: refused exactly without a reading, never a
    panic, and what an accepted pattern shows. *)
Lemma parse_pattern_spec : forall fuel re t ci,
  match parse_pattern fuel re t ci with
  | PErr => ~ exists ps ks, means (re_ok re) ci t ps ks
  | PPanic => False
  | PFuel => exists ps ks, means (re_ok re) ci t ps ks
  | POk p => exists ps ks, means (re_ok re) ci t ps ks /\
      p_ci p = ci /\ p_raw p = t /\ p_att p = None /\
      (List.length ps <= 255 -> shows_all ci (p_segs p) ps ks /\
         p_caps p = N.of_nat (named_count ks) /\
         (In Any ks -> p_max p = 255%N) /\
         (~ In Any ks -> p_max p = N.of_nat (List.length ps))) /\
      (N.of_nat (List.length (p_segs p)) = N.of_nat (List.length ps) mod 256)%N /\
      (ps <> [] -> compute_priority fuel (p_segs p) = Some (p_prio p))
  end.
Proof.
  intros fuel re t ci. unfold parse_pattern.
  destruct t as [|c rest].
  { intros [ps [ks [Hs _]]]. apply spells_first in Hs. destruct Hs as [r Hr]. discriminate. }
  destruct (Ascii.eqb c slash) eqn:Ec; cbn [negb].
  2:{ intros [ps [ks [Hs _]]]. apply spells_first in Hs. destruct Hs as [r Hr].
      injection Hr as -> ->. discriminate. }
  apply Ascii.eqb_eq in Ec. subst c.
  destruct rest as [|c rest].
  { exists [], []. cbn [p_ci p_raw p_att p_segs p_caps p_max p_prio].
    split; [|split; [|split; [|split; [|split; [|split]]]]]; try reflexivity.
    - split; [split; [constructor|right; reflexivity]|].
      split; [constructor|]. split; [constructor|]. intros n r [].
    - intros _. split; [constructor|]. split; [reflexivity|]. split; [intros []|reflexivity]. }
  remember (c :: rest) as body eqn:Eb.
  assert (Hbody : body <> []) by (subst; discriminate).
  assert (Hgoal : forall X : presult,
    X = (match parse_loop re ci body []
                (PState 0 0 MTUnknown MTUnknown
                   (repeat None (List.length (filter (Ascii.eqb slash) (slash :: body))))) with
         | inl r => r
         | inr st =>
             match all_some (firstn (N.to_nat (ps_count st)) (ps_segs st)) with
             | None => PPanic
             | Some segs =>
                 match compute_priority fuel segs with
                 | None => PFuel
                 | Some prio =>
                     POk (Pat ci (ps_caps st)
                            (if mt_eqb (ps_max st) MTMulti then greedy_max else ps_count st)
                            prio segs (slash :: body) None)
                 end
             end
         end) ->
    match X with
    | PErr => ~ exists ps ks, means (re_ok re) ci (slash :: body) ps ks
    | PPanic => False
    | PFuel => exists ps ks, means (re_ok re) ci (slash :: body) ps ks
    | POk p => exists ps ks, means (re_ok re) ci (slash :: body) ps ks /\
        p_ci p = ci /\ p_raw p = slash :: body /\ p_att p = None /\
        (List.length ps <= 255 -> shows_all ci (p_segs p) ps ks /\
           p_caps p = N.of_nat (named_count ks) /\
           (In Any ks -> p_max p = 255%N) /\
           (~ In Any ks -> p_max p = N.of_nat (List.length ps))) /\
        (N.of_nat (List.length (p_segs p)) = N.of_nat (List.length ps) mod 256)%N /\
        (ps <> [] -> compute_priority fuel (p_segs p) = Some (p_prio p))
    end).
  2:{ subst body. apply Hgoal. reflexivity. }
  intros X ->. rewrite parse_loop_pieces.
  set (st0 := PState 0 0 MTUnknown MTUnknown
                 (repeat None (List.length (filter (Ascii.eqb slash) (slash :: body))))).
  pose proof (slash_count_pieces body []) as Hsc.
  assert (Hsp : spells (pieces_of body []) (slash :: body)).
  { split; [apply pieces_of_noslash; intros []|].
    apply (pieces_of_spelled body [] (or_introl Hbody)). }
  assert (Huniq : forall ps ks, means (re_ok re) ci (slash :: body) ps ks -> ps = pieces_of body []).
  { intros ps ks [Hs [Hr _]]. symmetry. apply spells_pieces; [|assumption].
    clear - Hr. induction Hr; constructor; auto. eapply reads_nonempty; eauto. }
  pose proof (add_all_spec re ci (pieces_of body []) st0 0) as H.
  assert (Hcap0 : 0 + List.length (pieces_of body []) <= List.length (ps_segs st0)).
  { unfold st0. cbn [ps_segs]. rewrite repeat_length. cbn [filter].
    change (Ascii.eqb slash slash) with true. cbv iota. cbn [List.length]. lia. }
  specialize (H Hcap0 eq_refl).
  assert (Hf0 : filled (ps_segs st0) (Nat.min 0 256)) by (intros i Hi; simpl in Hi; lia).
  specialize (H Hf0).
  destruct (add_all re ci (pieces_of body []) st0) as [[]|st'].
  - intros [ps [ks Hm]]. apply H. pose proof (Huniq ps ks Hm) as ->.
    destruct Hm as [_ [Hr [Hn Hc]]]. exists ks. repeat split; auto. discriminate.
  - contradiction.
  - contradiction.
  - contradiction.
  - destruct H as [ks [Hr [[Hn Hl] [Hc [Hlen [Hcnt [Hfill [Hcaps [Hmax Hshow]]]]]]]]].
    cbn [Nat.add] in *.
    assert (Hm : means (re_ok re) ci (slash :: body) (pieces_of body []) ks) by (repeat split; auto; apply Hsp).
    assert (Hcn : N.to_nat (ps_count st') = List.length (pieces_of body []) mod 256).
    { rewrite Hcnt. replace 256%N with (N.of_nat 256) by reflexivity.
      rewrite <- Nat2N.inj_mod, Nat2N.id. reflexivity. }
    assert (Hml : List.length (pieces_of body []) mod 256 <= List.length (pieces_of body []))
      by (apply Nat.mod_le; lia).
    assert (Hm256 : List.length (pieces_of body []) mod 256 < 256) by (apply Nat.mod_upper_bound; lia).
    destruct (all_some_filled (firstn (N.to_nat (ps_count st')) (ps_segs st'))) as [segs [Eas Emap]].
    { intros i Hi. rewrite firstn_length in Hi. rewrite nth_error_firstn_lt by lia.
      apply Hfill. lia. }
    rewrite Eas.
    assert (Hsl : List.length segs = List.length (pieces_of body []) mod 256).
    { rewrite <- (map_length Some segs), <- Emap, firstn_length. lia. }
    destruct (compute_priority fuel segs) as [prio|] eqn:Ep; [|eauto].
    exists (pieces_of body []), ks. cbn [p_ci p_raw p_att p_segs p_caps p_max p_prio].
    repeat split; auto; try apply Hsp.
    + destruct (Hshow H) as [sgs [Hs1 Hs2]]. rewrite Hcn, Nat.mod_small in Emap by lia.
      rewrite Hs2 in Emap. simpl in Emap.
      assert (Hsg : sgs = segs).
      { clear - Emap. revert segs Emap. induction sgs as [|a sgs IH]; intros [|b segs] E;
          simpl in E; try discriminate; auto. injection E as -> E. f_equal. apply IH. assumption. }
      rewrite <- Hsg. assumption.
    + rewrite Hcaps by reflexivity. simpl. apply N.mod_small.
      assert (Hle : named_count ks <= List.length (pieces_of body [])).
      { apply forall2_len in Hr. rewrite Hr. unfold named_count.
        clear. induction ks as [|k ks IH]; simpl; [lia|]. destruct (named k); simpl; lia. }
      lia.
    + intros Hany. replace (ps_max st') with MTMulti; [reflexivity|].
      symmetry. rewrite Hmax. apply fold_max_multi. right. assumption.
    + intros Hany. destruct (mt_eqb (ps_max st') MTMulti) eqn:E.
      * apply mt_eqb_eq in E. rewrite Hmax in E. apply fold_max_multi in E.
        destruct E as [E|E]; [discriminate|contradiction].
      * rewrite Hcnt. apply N.mod_small. lia.
    + rewrite Hsl. replace 256%N with (N.of_nat 256) by reflexivity.
      rewrite <- Nat2N.inj_mod. reflexivity.
Qed.

(** ** A text has at most one reading *)

Lemma reads_functional : forall s k1 k2, reads s k1 -> reads s k2 -> k1 = k2.
Proof.
  intros s k1 k2 H1 H2.
  assert (Hm : mt_of k1 = mt_of k2).
  { apply reads_validate in H1. apply reads_validate in H2. destruct H1, H2. congruence. }
  pose proof (make_segment_spec (Engine (fun _ => true) (fun _ _ => true)) false s k1 H1) as M1.
  pose proof (make_segment_spec (Engine (fun _ => true) (fun _ _ => true)) false s k2 H2) as M2.
  destruct (make_segment _ false s) as [[sg cap]|].
  - destruct M1 as [[_ M1] _]. destruct M2 as [[_ M2] _].
    assert (T1 : forall t, (k1 = Lit t \/ k1 = Glob t) -> t = s).
    { intros t [->| ->]; inversion H1; reflexivity. }
    assert (T2 : forall t, (k2 = Lit t \/ k2 = Glob t) -> t = s).
    { intros t [->| ->]; inversion H2; reflexivity. }
    destruct k1, k2; simpl in Hm; try discriminate; try reflexivity.
    + rewrite (T1 t), (T2 t0) by auto. reflexivity.
    + destruct M1 as [_ [M1a M1b]]. destruct M2 as [_ [M2a M2b]].
      unfold constraint_source in *. congruence.
    + destruct M1 as [_ [M1a _]]. destruct M2 as [_ [M2a _]]. congruence.
    + rewrite (T1 t), (T2 t0) by auto. reflexivity.
  - destruct M1 as [n [r [_ M1]]]. discriminate.
Qed.

Lemma forall2_reads_functional : forall ps ks1 ks2,
  Forall2 reads ps ks1 -> Forall2 reads ps ks2 -> ks1 = ks2.
Proof.
  intros ps ks1 ks2 H. revert ks2. induction H; intros ks2 H2; inversion H2; subst; auto.
  f_equal; [eapply reads_functional; eauto|auto].
Qed.

Lemma means_unique : forall c ic t ps1 ks1 ps2 ks2,
  means c ic t ps1 ks1 -> means c ic t ps2 ks2 -> ps1 = ps2 /\ ks1 = ks2.
Proof.
  intros c ic t ps1 ks1 ps2 ks2 [S1 [R1 _]] [S2 [R2 _]].
  assert (E : ps1 = ps2).
  { destruct (spells_first _ _ S1) as [rest ->].
    assert (N : forall ps ks, Forall2 reads ps ks -> Forall (fun p => p <> []) ps).
    { intros ps ks H. induction H; constructor; auto. eapply reads_nonempty; eauto. }
    rewrite <- (spells_pieces ps1 rest (N _ _ R1) S1).
    apply (spells_pieces ps2 rest (N _ _ R2) S2). }
  subst ps2. split; [reflexivity|]. eapply forall2_reads_functional; eauto.
Qed.

Lemma parse_shows : forall fuel re t ci p ps ks,
  parse_pattern fuel re t ci = POk p -> means (re_ok re) ci t ps ks ->
  (List.length ps <= 255)%nat ->
  shows_all ci (p_segs p) ps ks /\ p_ci p = ci /\ p_raw p = t /\
  p_caps p = N.of_nat (named_count ks) /\
  (In Any ks -> p_max p = 255%N) /\ (~ In Any ks -> p_max p = N.of_nat (List.length ps)) /\
  (ps <> [] -> compute_priority fuel (p_segs p) = Some (p_prio p)).
Proof.
  intros fuel re t ci p ps ks Hp Hm Hl.
  pose proof (parse_pattern_spec fuel re t ci) as H. rewrite Hp in H.
  destruct H as [ps' [ks' [Hm' [H1 [H2 [H3 [H4 [H5 H6]]]]]]]].
  destruct (means_unique _ _ _ _ _ _ _ Hm Hm') as [-> ->].
  destruct (H4 Hl) as [H7 [H8 [H9 H10]]]. tauto.
Qed.
