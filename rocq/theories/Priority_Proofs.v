(** * Proofs about the numeric rank of patterns. *)
From Coq Require Import List NArith ZArith Ascii String Bool Lia Arith.
From Verif Require Import GoBase Glob_Model Glob_Spec Pattern_Model Pattern_Spec Priority_Spec Pattern_Proofs.
Import ListNotations.
Local Open Scope string_scope.
Local Open Scope list_scope.
Local Open Scope N_scope.

(** ** Decimal values *)

Definition dval_from (a : N) (l : list N) : N := fold_left (fun a d => a * 10 + d) l a.
Definition dval (l : list N) : N := dval_from 0 l.

Lemma dval_from_app : forall l a b, dval_from a (l ++ b) = dval_from (dval_from a l) b.
Proof. intros. unfold dval_from. apply fold_left_app. Qed.

Lemma dval_from_value : forall l a,
  dval_from a l = a * 10 ^ N.of_nat (List.length l) + dval l.
Proof.
  induction l as [|d l IH]; intros a.
  - unfold dval, dval_from. simpl. lia.
  - change (dval_from a (d :: l)) with (dval_from (a * 10 + d) l).
    change (dval (d :: l)) with (dval_from (0 * 10 + d) l).
    rewrite (IH (a * 10 + d)), (IH (0 * 10 + d)).
    replace (N.of_nat (List.length (d :: l))) with (1 + N.of_nat (List.length l)) by (cbn [List.length]; lia).
    rewrite N.pow_add_r. change (10 ^ 1) with 10. lia.
Qed.

Definition digits (l : list N) : Prop := Forall (fun d => d < 10) l.

Lemma dval_bound : forall l, digits l -> dval l < 10 ^ N.of_nat (List.length l).
Proof.
  induction l as [|d l IH]; intros H.
  - reflexivity.
  - inversion H; subst. specialize (IH H3).
    change (dval (d :: l)) with (dval_from (0 * 10 + d) l).
    rewrite dval_from_value.
    replace (N.of_nat (List.length (d :: l))) with (1 + N.of_nat (List.length l)) by (cbn [List.length]; lia).
    rewrite N.pow_add_r. change (10 ^ 1) with 10.
    assert (d * 10 ^ N.of_nat (List.length l) <= 9 * 10 ^ N.of_nat (List.length l))
      by (apply N.mul_le_mono_r; lia).
    lia.
Qed.

(** Lexicographic comparison of digit lists. *)
Inductive dlex : list N -> list N -> Prop :=
| dlex_here : forall a b l1 l2, a < b -> dlex (a :: l1) (b :: l2)
| dlex_later : forall a l1 l2, dlex l1 l2 -> dlex (a :: l1) (a :: l2).

Lemma dval_cons : forall d l, dval (d :: l) = d * 10 ^ N.of_nat (List.length l) + dval l.
Proof.
  intros. change (dval (d :: l)) with (dval_from (0 * 10 + d) l).
  rewrite dval_from_value. f_equal.
Qed.

Lemma dval_lex : forall l1 l2, digits l1 -> digits l2 -> List.length l1 = List.length l2 ->
  (dval l1 < dval l2 <-> dlex l1 l2).
Proof.
  induction l1 as [|a l1 IH]; intros [|b l2] H1 H2 Hl; simpl in Hl; try discriminate.
  - split; [unfold dval, dval_from; simpl; lia|intros H; inversion H].
  - injection Hl as Hl. inversion H1; subst. inversion H2; subst.
    specialize (IH l2 H4 H6 Hl). rewrite !dval_cons, <- Hl.
    pose proof (dval_bound l1 H4) as B1. pose proof (dval_bound l2 H6) as B2.
    rewrite <- Hl in B2. set (m := 10 ^ N.of_nat (List.length l1)) in *.
    destruct (N.lt_trichotomy a b) as [Hab|[<-|Hab]].
    + split; [intros _; constructor; assumption|]. intros _.
      assert ((a + 1) * m <= b * m) by (apply N.mul_le_mono_r; lia). lia.
    + split.
      * intros H. apply dlex_later. apply IH. lia.
      * intros H. inversion H as [? ? ? ? Hlt|? ? ? Hl12]; subst; [lia|]. apply IH in Hl12. lia.
    + split.
      * intros H. assert ((b + 1) * m <= a * m) by (apply N.mul_le_mono_r; lia). lia.
      * intros H. inversion H; subst; lia.
Qed.

(** ** The rank without overflow *)

Definition codes (segs : list segment) : list N := map (fun s => mt_code (s_mt s)) segs.

Lemma codes_digits : forall segs, digits (codes segs).
Proof.
  intros segs. unfold digits, codes. apply Forall_forall. intros d H.
  apply in_map_iff in H. destruct H as [s [<- _]]. destruct (s_mt s); reflexivity.
Qed.

Definition big : N := 18446744073709551616.
Lemma pow19_big : 10 ^ 19 < big.
Proof. reflexivity. Qed.

Lemma u64_small : forall n, n < 10 ^ 19 -> u64 n = n.
Proof. intros n H. unfold u64. apply N.mod_small. pose proof pow19_big. unfold big in *. lia. Qed.

Lemma pow_le19 : forall k, (k <= 19)%nat -> 10 ^ N.of_nat k <= 10 ^ 19.
Proof. intros k H. apply N.pow_le_mono_r; lia. Qed.

Lemma dval_app_digits : forall l1 l2, digits l1 -> digits l2 -> digits (l1 ++ l2).
Proof. intros. apply Forall_app. split; assumption. Qed.

Lemma base_priority_from : forall segs done,
  digits done -> (List.length done + List.length segs <= 19)%nat ->
  fold_left (fun acc s => u64 (u64 (acc * 10) + mt_code (s_mt s))) segs (dval done)
  = dval (done ++ codes segs).
Proof.
  induction segs as [|s segs IH]; intros done Hd Hl.
  - simpl. rewrite app_nil_r. reflexivity.
  - cbn [fold_left codes map]. simpl in Hl.
    assert (Hd' : digits (done ++ [mt_code (s_mt s)])).
    { apply dval_app_digits; auto. constructor; [destruct (s_mt s); reflexivity|constructor]. }
    assert (E : dval done * 10 + mt_code (s_mt s) = dval (done ++ [mt_code (s_mt s)])).
    { unfold dval. rewrite dval_from_app. reflexivity. }
    assert (B : dval (done ++ [mt_code (s_mt s)]) < 10 ^ 19).
    { eapply N.lt_le_trans; [apply dval_bound; assumption|]. apply pow_le19.
      rewrite app_length. simpl. lia. }
    rewrite (u64_small (dval done * 10)) by lia.
    rewrite E. rewrite (u64_small _ B).
    rewrite IH; [|assumption|rewrite app_length; simpl; lia].
    rewrite <- app_assoc. reflexivity.
Qed.

Lemma base_priority_value : forall segs, (List.length segs <= 19)%nat ->
  base_priority segs = dval (codes segs).
Proof.
  intros segs H. unfold base_priority.
  change 0 with (dval []) at 1. rewrite base_priority_from; [reflexivity|constructor|simpl; lia].
Qed.

Lemma dval_zeros : forall l k, dval (l ++ repeat 0 k) = dval l * 10 ^ N.of_nat k.
Proof.
  intros l k. unfold dval at 1. rewrite dval_from_app, dval_from_value, repeat_length.
  replace (dval (repeat 0 k)) with 0; [unfold dval; lia|].
  induction k as [|k IH]; [reflexivity|]. cbn [repeat]. rewrite dval_cons, <- IH. lia.
Qed.

Lemma decimal_divider_pow : forall k, (k <= 18)%nat ->
  decimal_divider (Z.of_nat k) = 10 ^ N.of_nat k.
Proof.
  intros k H. unfold decimal_divider.
  destruct k as [|k]; [reflexivity|].
  replace ((1 <=? Z.of_nat (S k)) && (Z.of_nat (S k) <=? 18))%Z with true.
  - f_equal; lia.
  - symmetry. apply andb_true_iff. split; apply Z.leb_le; lia.
Qed.

Lemma append_six_value : forall k l, digits l -> (List.length l + k <= 19)%nat ->
  append_six k (dval l) = dval (l ++ repeat 6 k).
Proof.
  induction k as [|k IH]; intros l Hd Hl.
  - simpl. rewrite app_nil_r. reflexivity.
  - cbn [append_six].
    assert (Hd' : digits (l ++ [6])) by (apply dval_app_digits; [assumption|repeat constructor]).
    assert (E : dval l * 10 + 6 = dval (l ++ [6])).
    { unfold dval. rewrite dval_from_app. reflexivity. }
    assert (B : dval (l ++ [6]) < 10 ^ 19).
    { eapply N.lt_le_trans; [apply dval_bound; assumption|]. apply pow_le19.
      rewrite app_length. simpl. lia. }
    rewrite (u64_small (dval l * 10)) by lia.
    rewrite E, (u64_small _ B), IH.
    + rewrite <- app_assoc. reflexivity.
    + assumption.
    + rewrite app_length. simpl. lia.
Qed.

(** The 19 digits of a pattern whose ** is only last. *)
Definition rank_digits (segs : list segment) : list N :=
  codes segs ++ repeat (if mt_eqb (s_mt (last segs (Seg [] MTUnknown [] None))) MTMulti then 6 else 0)
                       (19 - List.length segs).

Definition multi_only_last (segs : list segment) : Prop :=
  forall s, In s (removelast segs) -> s_mt s <> MTMulti.

Lemma multi_count_zero : forall segs, (forall s, In s segs -> s_mt s <> MTMulti) -> multi_count segs = 0%nat.
Proof.
  intros segs H. unfold multi_count. induction segs as [|s segs IH]; [reflexivity|].
  cbn [filter]. destruct (mt_eqb (s_mt s) MTMulti) eqn:E.
  - apply mt_eqb_eq in E. exfalso. apply (H s); [left; reflexivity|assumption].
  - apply IH. intros s' Hs'. apply H. right. assumption.
Qed.

Lemma rank_value : forall fuel segs, (0 < fuel)%nat -> (List.length segs <= 19)%nat ->
  multi_only_last segs -> compute_priority fuel segs = Some (dval (rank_digits segs)).
Proof.
  intros fuel segs Hf Hl Hm. destruct (snoc_cases _ segs) as [->|[pre [x ->]]].
  { reflexivity. }
  unfold multi_only_last in Hm. rewrite removelast_last in Hm.
  assert (Hc : multi_count (pre ++ [x]) = if mt_eqb (s_mt x) MTMulti then 1%nat else 0%nat).
  { unfold multi_count. rewrite filter_app, app_length.
    change (List.length (filter (fun s => mt_eqb (s_mt s) MTMulti) pre)) with (multi_count pre).
    rewrite (multi_count_zero pre Hm). simpl. destruct (mt_eqb (s_mt x) MTMulti); reflexivity. }
  unfold compute_priority, rank_digits. rewrite Hc, last_last.
  rewrite (base_priority_value _ Hl).
  pose proof (codes_digits (pre ++ [x])) as Hdig.
  rewrite app_length in Hl |- *. cbn [List.length] in Hl |- *.
  assert (Hcl : List.length (codes (pre ++ [x])) = (List.length pre + 1)%nat).
  { unfold codes. rewrite map_length, app_length. reflexivity. }
  destruct (mt_eqb (s_mt x) MTMulti) eqn:Ex.
  - apply mt_eqb_eq in Ex. cbn [Nat.eqb]. unfold spread.
    assert (Ecx : codes (pre ++ [x]) = codes pre ++ [6]).
    { unfold codes. rewrite map_app. simpl. rewrite Ex. reflexivity. }
    rewrite Ecx.
    assert (Edv : dval (codes pre ++ [6]) = dval (codes pre) * 10 + 6).
    { unfold dval. rewrite dval_from_app. reflexivity. }
    assert (Hsp : get_split_index fuel (dval (codes pre ++ [6])) 1 = Some 1%Z).
    { unfold get_split_index. destruct fuel as [|f]; [lia|]. cbn [split_index_loop].
      rewrite Edv. replace (dval (codes pre) * 10 + 6 =? 0) with false by (symmetry; apply N.eqb_neq; lia).
      replace ((dval (codes pre) * 10 + 6) mod 10) with 6; [reflexivity|].
      rewrite N.add_comm, N.mod_add by discriminate. reflexivity. }
    rewrite Hsp. cbn [Nat.eqb]. change (decimal_divider 1) with 10.
    rewrite Edv.
    replace ((dval (codes pre) * 10 + 6) / 10) with (dval (codes pre)).
    2:{ rewrite N.add_comm, N.div_add by discriminate. reflexivity. }
    replace ((dval (codes pre) * 10 + 6) mod 10) with 6.
    2:{ rewrite N.add_comm, N.mod_add by discriminate. reflexivity. }
    replace (Z.to_nat (Z.quot (19 - Z.of_nat (List.length pre + 1)) (Z.of_nat 1)
                        + Z.rem (19 - Z.of_nat (List.length pre + 1)) (Z.of_nat 1)))
      with (19 - (List.length pre + 1))%nat.
    2:{ change (Z.of_nat 1) with 1%Z. rewrite Z.quot_1_r, Z.rem_1_r. lia. }
    assert (Hcp : List.length (codes pre) = List.length pre) by (unfold codes; apply map_length).
    rewrite append_six_value; [|apply codes_digits|lia].
    assert (E2 : dval (codes pre ++ repeat 6 (19 - (List.length pre + 1))) * 10 + 6 =
                 dval ((codes pre ++ [6]) ++ repeat 6 (19 - (List.length pre + 1)))).
    { replace ((codes pre ++ [6]) ++ repeat 6 (19 - (List.length pre + 1)))
        with ((codes pre ++ repeat 6 (19 - (List.length pre + 1))) ++ [6]).
      - unfold dval at 2. rewrite dval_from_app. reflexivity.
      - rewrite <- !app_assoc. f_equal. symmetry. apply repeat_cons. }
    assert (B : dval ((codes pre ++ [6]) ++ repeat 6 (19 - (List.length pre + 1))) < 10 ^ 19).
    { eapply N.lt_le_trans; [apply dval_bound|apply pow_le19].
      - apply dval_app_digits; [apply dval_app_digits; [apply codes_digits|repeat constructor]|].
        apply Forall_forall. intros d Hd. apply repeat_spec in Hd. subst. reflexivity.
      - rewrite !app_length, repeat_length, Hcp. cbn [List.length]. lia. }
    rewrite (u64_small (dval (codes pre ++ repeat 6 (19 - (List.length pre + 1))) * 10))
      by (rewrite <- E2 in B; lia).
    rewrite E2, (u64_small _ B). reflexivity.
  - cbn [Nat.eqb]. rewrite dval_zeros.
    assert (B : dval (codes (pre ++ [x])) * 10 ^ N.of_nat (19 - (List.length pre + 1)) < 10 ^ 19).
    { rewrite <- dval_zeros. eapply N.lt_le_trans; [apply dval_bound|apply pow_le19].
      - apply dval_app_digits; [assumption|].
        apply Forall_forall. intros d Hd. apply repeat_spec in Hd. subst. reflexivity.
      - rewrite app_length, repeat_length, Hcl. lia. }
    replace (19 - Z.of_nat (List.length pre + 1))%Z
      with (Z.of_nat (19 - (List.length pre + 1))) by lia.
    rewrite decimal_divider_pow by lia. rewrite (u64_small _ B). reflexivity.
Qed.

Lemma rank_digits_ok : forall segs, (List.length segs <= 19)%nat ->
  digits (rank_digits segs) /\ List.length (rank_digits segs) = 19%nat.
Proof.
  intros segs H. unfold rank_digits. split.
  - apply dval_app_digits; [apply codes_digits|].
    apply Forall_forall. intros d Hd. apply repeat_spec in Hd. subst.
    destruct (mt_eqb _ _); reflexivity.
  - rewrite app_length, repeat_length. unfold codes. rewrite map_length. lia.
Qed.

(** ** Comparison with the specification *)

Lemma shows_code : forall ci sg s k, shows ci sg s k -> mt_code (s_mt sg) = N.of_nat (kind_rank k).
Proof. intros ci sg s k [_ H]. destruct k; destruct H as [-> _]; reflexivity. Qed.

Lemma shows_mt : forall ci sg s k, shows ci sg s k -> s_mt sg = mt_of k.
Proof. intros ci sg s k [_ H]. destruct k; destruct H as [-> _]; reflexivity. Qed.

Definition kdigits (ks : list piece) : list N :=
  map (fun k => N.of_nat (kind_rank k)) ks ++
  repeat (match last ks One with Any => 6 | _ => 0 end) (19 - List.length ks).

Lemma shows_all_len : forall ci sgs ss ks, shows_all ci sgs ss ks ->
  List.length sgs = List.length ks /\ List.length ss = List.length ks.
Proof. intros ci sgs ss ks H. induction H; simpl; [auto|]. destruct IHshows_all. split; congruence. Qed.

Lemma shows_all_codes : forall ci sgs ss ks, shows_all ci sgs ss ks ->
  codes sgs = map (fun k => N.of_nat (kind_rank k)) ks.
Proof.
  intros ci sgs ss ks H. induction H; simpl; [reflexivity|].
  f_equal; [eapply shows_code; eauto|assumption].
Qed.

Lemma shows_all_mts : forall ci sgs ss ks, shows_all ci sgs ss ks ->
  map s_mt sgs = map mt_of ks.
Proof.
  intros ci sgs ss ks H. induction H; simpl; [reflexivity|].
  f_equal; [eapply shows_mt; eauto|assumption].
Qed.

Lemma shows_all_rank : forall ci sgs ss ks, shows_all ci sgs ss ks ->
  rank_digits sgs = kdigits ks.
Proof.
  intros ci sgs ss ks H. unfold rank_digits, kdigits.
  rewrite (shows_all_codes _ _ _ _ H). f_equal.
  rewrite (proj1 (shows_all_len _ _ _ _ H)). f_equal.
  assert (E : s_mt (last sgs (Seg [] MTUnknown [] None)) = MTMulti <-> last ks One = Any).
  { pose proof (shows_all_mts _ _ _ _ H) as Hm.
    destruct (snoc_cases _ sgs) as [->|[a [x ->]]]; destruct (snoc_cases _ ks) as [->|[b [y ->]]].
    - simpl. split; discriminate.
    - rewrite map_app in Hm. destruct (map mt_of b); discriminate.
    - rewrite map_app in Hm. destruct (map s_mt a); discriminate.
    - rewrite !map_app in Hm. simpl in Hm. apply app_inj_tail in Hm. destruct Hm as [_ Hm].
      rewrite !last_last, Hm. apply mt_of_any. }
  destruct (mt_eqb (s_mt (last sgs (Seg [] MTUnknown [] None))) MTMulti) eqn:Em.
  - apply mt_eqb_eq in Em. apply E in Em. rewrite Em. reflexivity.
  - destruct (last ks One) eqn:El; try reflexivity.
    assert (Hx : s_mt (last sgs (Seg [] MTUnknown [] None)) = MTMulti) by (apply E; reflexivity).
    rewrite Hx in Em. discriminate.
Qed.

Lemma kind_rank_pos : forall k, (1 <= kind_rank k <= 6)%nat.
Proof. destruct k; simpl; lia. Qed.

(** Padding with a run that is shorter on one side. *)
Definition padded (n : nat) (ks : list piece) : list N :=
  map (fun k => N.of_nat (kind_rank k)) ks ++
  repeat (match last ks One with Any => 6 | _ => 0 end) (n - List.length ks).

Lemma aol_tail : forall k ks, any_only_last (k :: ks) -> any_only_last ks.
Proof.
  intros k ks H Hi. apply H. destruct ks; [contradiction|]. simpl in *. right. assumption.
Qed.

Lemma aol_head : forall k k' ks, any_only_last (k :: k' :: ks) -> k <> Any.
Proof. intros k k' ks H ->. apply H. left. reflexivity. Qed.

Lemma last_cons_ne : forall (k k' : piece) ks d, last (k :: k' :: ks) d = last (k' :: ks) d.
Proof. reflexivity. Qed.

Lemma padded_cons : forall n k ks, ks <> [] ->
  padded (S n) (k :: ks) = N.of_nat (kind_rank k) :: padded n ks.
Proof.
  intros n k ks H. destruct ks as [|k' ks]; [congruence|]. reflexivity.
Qed.

Lemma rank_six : forall k, kind_rank k = 6%nat -> k = Any.
Proof. destruct k; simpl; intros; try lia. reflexivity. Qed.

Lemma dlex_repeat_eq : forall x k, ~ dlex (repeat x k) (repeat x k).
Proof. induction k as [|k IH]; simpl; intros H; inversion H; subst; [lia|auto]. Qed.

Lemma padded_one : forall n k, k <> Any -> padded (S n) [k] = N.of_nat (kind_rank k) :: repeat 0 n.
Proof.
  intros n k H. unfold padded. cbn [map app List.length last]. rewrite Nat.sub_1_r. simpl.
  destruct k; try reflexivity. congruence.
Qed.

Lemma padded_nil : forall n, padded n [] = repeat 0 n.
Proof. intros n. unfold padded. simpl. rewrite Nat.sub_0_r. reflexivity. Qed.

Lemma padded_any : forall n, padded (S n) [Any] = 6 :: repeat 6 n.
Proof. intros n. unfold padded. simpl. rewrite Nat.sub_0_r. reflexivity. Qed.

Lemma dlex_irrefl_head : forall a l1 l2, dlex (a :: l1) (a :: l2) <-> dlex l1 l2.
Proof.
  intros a l1 l2. split; [intros H; inversion H; subst; [lia|assumption]|apply dlex_later].
Qed.

Lemma dlex_neq_head : forall a b l1 l2, a <> b -> (dlex (a :: l1) (b :: l2) <-> a < b).
Proof.
  intros a b l1 l2 Hn. split; [intros H; inversion H; subst; [assumption|congruence]|apply dlex_here].
Qed.

Lemma padded_lex : forall n ks1 ks2, (List.length ks1 <= n)%nat -> (List.length ks2 <= n)%nat ->
  any_only_last ks1 -> any_only_last ks2 ->
  (dlex (padded n ks1) (padded n ks2) <-> more_specific ks1 ks2).
Proof.
  induction n as [|n IH]; intros ks1 ks2 H1 H2 A1 A2.
  - destruct ks1; destruct ks2; simpl in *; try lia. split; intros H; inversion H.
  - assert (Htl : forall k ks, any_only_last (k :: ks) ->
       padded (S n) (k :: ks) = N.of_nat (kind_rank k) :: match ks with [] => match k with Any => repeat 6 n | _ => repeat 0 n end | _ => padded n ks end).
    { intros k ks A. destruct ks as [|k' ks].
      - destruct k; try (apply padded_one; discriminate). apply padded_any.
      - apply padded_cons. discriminate. }
    destruct ks1 as [|k1 ks1]; destruct ks2 as [|k2 ks2].
    + split; [|intros H; inversion H]. intros H. exfalso. eapply dlex_repeat_eq. rewrite padded_nil in H. exact H.
    + split; [intros _; constructor|]. intros _. rewrite padded_nil, (Htl k2 ks2 A2).
      cbn [repeat]. apply dlex_here. pose proof (kind_rank_pos k2). lia.
    + split; [|intros H; inversion H]. rewrite padded_nil, (Htl k1 ks1 A1). cbn [repeat].
      pose proof (kind_rank_pos k1). rewrite dlex_neq_head by lia. lia.
    + rewrite (Htl k1 ks1 A1), (Htl k2 ks2 A2). simpl in H1, H2.
      destruct (Nat.eq_dec (kind_rank k1) (kind_rank k2)) as [E|E].
      * rewrite E, dlex_irrefl_head.
        assert (Hms : more_specific (k1 :: ks1) (k2 :: ks2) <-> more_specific ks1 ks2).
        { split; [intros H; inversion H; subst; [lia|assumption]|apply ms_later; assumption]. }
        rewrite Hms. pose proof (aol_tail _ _ A1) as T1. pose proof (aol_tail _ _ A2) as T2.
        destruct ks1 as [|k1' ks1]; destruct ks2 as [|k2' ks2].
        -- assert (Hsame : match k1 with Any => repeat 6 n | _ => repeat 0 n end =
                           match k2 with Any => repeat 6 n | _ => repeat 0 n end :> list N).
           { destruct k1, k2; simpl in E; try lia; reflexivity. }
           rewrite Hsame. split; [|intros H; inversion H].
           intros H. exfalso. destruct k2; eapply dlex_repeat_eq; exact H.
        -- assert (K2 : k2 <> Any) by (eapply aol_head; eauto).
           assert (K1 : k1 <> Any) by (intros ->; apply K2; apply rank_six; simpl in E; lia).
           replace (match k1 with Any => repeat 6 n | _ => repeat 0 n end) with (padded n []).
           2:{ rewrite padded_nil. destruct k1; try reflexivity. congruence. }
           apply IH; auto; simpl in *; lia.
        -- assert (K1 : k1 <> Any) by (eapply aol_head; eauto).
           assert (K2 : k2 <> Any) by (intros ->; apply K1; apply rank_six; simpl in E; lia).
           replace (match k2 with Any => repeat 6 n | _ => repeat 0 n end) with (padded n []).
           2:{ rewrite padded_nil. destruct k2; try reflexivity. congruence. }
           apply IH; auto; simpl in *; lia.
        -- apply IH; auto; simpl in *; lia.
      * rewrite dlex_neq_head by lia. split.
        -- intros H. apply ms_here. lia.
        -- intros H. inversion H; subst; lia.
Qed.

Lemma shows_multi_only_last : forall ci sgs ss ks, shows_all ci sgs ss ks ->
  any_only_last ks -> multi_only_last sgs.
Proof.
  intros ci sgs ss ks H. unfold any_only_last, multi_only_last.
  induction H as [|sg s k sgs ss ks Hs Hall IH]; intros A x Hx; [contradiction|].
  destruct Hall as [|sg2 s2 k2 sgs2 ss2 ks2 Hs2 Hall2]; [contradiction|].
  destruct Hx as [->|Hx].
  - intros E. rewrite (shows_mt _ _ _ _ Hs) in E. apply mt_of_any in E. subst k.
    apply A. left. reflexivity.
  - apply IH; [|assumption]. intros Hi. apply A. right. assumption.
Qed.

(** The rank of parsed patterns orders them as the specification does. *)
Lemma rank_more_specific : forall re fuel1 fuel2 t1 t2 ci1 ci2 p1 p2 ps1 ps2 ks1 ks2,
  parse_pattern fuel1 re t1 ci1 = POk p1 -> parse_pattern fuel2 re t2 ci2 = POk p2 ->
  means (re_ok re) ci1 t1 ps1 ks1 -> means (re_ok re) ci2 t2 ps2 ks2 ->
  (0 < fuel1)%nat -> (0 < fuel2)%nat ->
  (1 <= List.length ps1 <= 19)%nat -> (1 <= List.length ps2 <= 19)%nat ->
  any_only_last ks1 -> any_only_last ks2 ->
  (p_prio p1 < p_prio p2 <-> more_specific ks1 ks2).
Proof.
  intros re fuel1 fuel2 t1 t2 ci1 ci2 p1 p2 ps1 ps2 ks1 ks2 P1 P2 M1 M2 F1 F2 L1 L2 A1 A2.
  destruct (parse_shows _ _ _ _ _ _ _ P1 M1) as [S1 [_ [_ [_ [_ [_ C1]]]]]]; [lia|].
  destruct (parse_shows _ _ _ _ _ _ _ P2 M2) as [S2 [_ [_ [_ [_ [_ C2]]]]]]; [lia|].
  destruct (shows_all_len _ _ _ _ S1) as [E1 E1']. destruct (shows_all_len _ _ _ _ S2) as [E2 E2'].
  rewrite rank_value in C1 by (try assumption; try lia; eapply shows_multi_only_last; eauto).
  rewrite rank_value in C2 by (try assumption; try lia; eapply shows_multi_only_last; eauto).
  assert (N1 : ps1 <> []) by (intros ->; simpl in L1; lia).
  assert (N2 : ps2 <> []) by (intros ->; simpl in L2; lia).
  specialize (C1 N1). specialize (C2 N2). injection C1 as <-. injection C2 as <-.
  destruct (rank_digits_ok (p_segs p1)) as [D1 Q1]; [lia|].
  destruct (rank_digits_ok (p_segs p2)) as [D2 Q2]; [lia|].
  rewrite dval_lex by (try assumption; congruence).
  rewrite (shows_all_rank _ _ _ _ S1), (shows_all_rank _ _ _ _ S2).
  apply (padded_lex 19); auto; lia.
Qed.

(** ** Termination of the ranking *)

Lemma split_loop_terminates : forall m, 2 <= m -> forall n, exists f, forall idx,
  split_index_loop f n m idx <> None.
Proof.
  intros m Hm. apply (well_founded_induction N.lt_wf_0).
  intros n IH. destruct (N.eq_dec n 0) as [->|Hn].
  - exists 1%nat. intros idx. simpl. discriminate.
  - destruct (IH (n / m)) as [f Hf]; [apply N.div_lt; lia|].
    exists (S f). intros idx. cbn [split_index_loop].
    destruct (n =? 0); [discriminate|]. destruct (n mod 10 =? 6); [discriminate|]. apply Hf.
Qed.

Lemma compute_priority_terminates : forall segs, (multi_count segs <= 1)%nat ->
  exists fuel, compute_priority fuel segs <> None.
Proof.
  intros segs H. destruct (split_loop_terminates 10 ltac:(lia) (base_priority segs)) as [f Hf].
  exists f. unfold compute_priority.
  destruct (multi_count segs) as [|[|n]]; [discriminate| |lia].
  cbn [Nat.eqb spread]. unfold get_split_index. change (decimal_divider 1) with 10.
  specialize (Hf 0%Z). destruct (split_index_loop f (base_priority segs) 10 0); [discriminate|congruence].
Qed.

Lemma split_loop_diverges : forall f n idx, n <> 0 -> n mod 10 <> 6 ->
  split_index_loop f n 1 idx = None.
Proof.
  induction f as [|f IH]; intros n idx Hn H6; [reflexivity|]. cbn [split_index_loop].
  apply N.eqb_neq in Hn. apply N.eqb_neq in H6. rewrite Hn, H6.
  rewrite N.div_1_r. apply IH; apply N.eqb_neq; assumption.
Qed.

Lemma split_loop_more : forall f k n m idx r, split_index_loop f n m idx = Some r ->
  split_index_loop (f + k) n m idx = Some r.
Proof.
  induction f as [|f IH]; intros k n m idx r H; [discriminate|].
  cbn [Nat.add split_index_loop] in *.
  destruct (n =? 0); [assumption|]. destruct (n mod 10 =? 6); [assumption|]. auto.
Qed.

Lemma spread_more : forall f k i prio d ps rm r, spread f i prio d ps rm = Some r ->
  spread (f + k) i prio d ps rm = Some r.
Proof.
  induction i as [|i IH]; intros prio d ps rm r H; [assumption|].
  cbn [spread] in *. unfold get_split_index in *.
  destruct (split_index_loop f prio (decimal_divider d) 0) as [x|] eqn:E; [|discriminate].
  rewrite (split_loop_more _ k _ _ _ _ E). apply IH. assumption.
Qed.

Lemma compute_priority_more : forall f k segs r, compute_priority f segs = Some r ->
  compute_priority (f + k) segs = Some r.
Proof.
  intros f k segs r H. unfold compute_priority in *.
  destruct (Nat.eqb (multi_count segs) 0); [assumption|]. apply spread_more. assumption.
Qed.

(** The witness: eight ** among seventeen pieces. *)
Definition hang_text : bytes := str "/a/**/a/**/a/**/a/**/a/**/a/**/a/**/a/**/a".
Definition hang_segs : list segment :=
  let a := Seg (str "a") MTLiteral [] None in
  let m := Seg (str "**") MTMulti [] None in
  [a; m; a; m; a; m; a; m; a; m; a; m; a; m; a; m; a].

Lemma hang_priority : forall f, compute_priority f hang_segs = None.
Proof.
  assert (K : forall f, compute_priority (30 + f) hang_segs = None).
  { intros f. unfold compute_priority.
    change (multi_count hang_segs) with 8%nat. cbn [Nat.eqb].
    change (base_priority hang_segs) with 16161616161616161.
    change (List.length hang_segs) with 17%nat.
    change (Z.quot (19 - Z.of_nat 17) (Z.of_nat 8)) with 0%Z.
    change (Z.rem (19 - Z.of_nat 17) (Z.of_nat 8)) with 2%Z.
    assert (S1 : forall i d s, get_split_index 30 16161616161616161 d = Some s ->
      (1 <= i)%nat ->
      u64 (u64 (16161616161616161 / decimal_divider s * decimal_divider s)
           + 16161616161616161 mod decimal_divider s) = 16161616161616161 ->
      spread (30 + f) (S i) 16161616161616161 d 0 2 =
      spread (30 + f) i 16161616161616161 s 0 2).
    { intros i d s H Hi Hu. cbn [spread]. unfold get_split_index in *.
      destruct (split_index_loop 30 16161616161616161 (decimal_divider d) 0) as [x|] eqn:E;
        [|discriminate].
      rewrite (split_loop_more 30 f _ _ _ _ E). injection H as H. rewrite H.
      destruct i as [|i]; [lia|]. cbn [Nat.eqb]. change (Z.to_nat 0) with 0%nat.
      cbn [append_six]. rewrite Hu. rewrite Z.add_0_r. reflexivity. }
    rewrite (S1 7%nat 1%Z 2%Z) by (vm_compute; try reflexivity; lia).
    rewrite (S1 6%nat 2%Z 11%Z) by (vm_compute; try reflexivity; lia).
    rewrite (S1 5%nat 11%Z 12%Z) by (vm_compute; try reflexivity; lia).
    rewrite (S1 4%nat 12%Z 14%Z) by (vm_compute; try reflexivity; lia).
    rewrite (S1 3%nat 14%Z 16%Z) by (vm_compute; try reflexivity; lia).
    rewrite (S1 2%nat 16%Z 18%Z) by (vm_compute; try reflexivity; lia).
    rewrite (S1 1%nat 18%Z 19%Z) by (vm_compute; try reflexivity; lia).
    cbn [spread]. unfold get_split_index. change (decimal_divider 19) with 1.
    rewrite split_loop_diverges by (vm_compute; discriminate). reflexivity. }
  intros f. destruct (compute_priority f hang_segs) as [r|] eqn:E; [|reflexivity].
  apply (compute_priority_more f 30) in E. rewrite Nat.add_comm in E. rewrite K in E. discriminate.
Qed.

Lemma hang_parse : forall fuel re, parse_pattern fuel re hang_text false = PFuel.
Proof.
  intros fuel re. unfold parse_pattern, hang_text.
  cbn [str list_ascii_of_string]. change (Ascii.eqb "/"%char slash) with true. cbn [negb].
  match goal with |- match ?X with inl r => r | inr st => _ end = _ =>
    let v := eval vm_compute in X in change X with v end.
  cbv iota.
  match goal with |- match ?X with Some _ => _ | None => _ end = _ =>
    change X with (Some hang_segs) end.
  cbv iota. rewrite hang_priority. reflexivity.
Qed.

(** ** Statements used by Pattern_Props *)

Lemma grammar_exact : forall fuel re t ci,
  (parse_pattern fuel re t ci <> PErr <-> exists ps ks, means (re_ok re) ci t ps ks) /\
  parse_pattern fuel re t ci <> PPanic.
Proof.
  intros fuel re t ci. pose proof (parse_pattern_spec fuel re t ci) as H.
  destruct (parse_pattern fuel re t ci) as [| | |p].
  - split; [split; [congruence|contradiction]|discriminate].
  - contradiction.
  - split; [split; [auto|discriminate]|discriminate].
  - destruct H as [ps [ks [H _]]]. split; [split; [eauto|discriminate]|discriminate].
Qed.

Lemma shows_all_vals : forall ci sgs ss ks, shows_all ci sgs ss ks -> map s_val sgs = ss.
Proof. intros ci sgs ss ks H. induction H as [|sg s k sgs ss ks [Hv _] Hall IH]; simpl; congruence. Qed.

Lemma parsed_not_confused : forall fuel1 fuel2 re ci t1 t2 p1 p2 ps1 ps2 ks1 ks2,
  parse_pattern fuel1 re t1 ci = POk p1 -> parse_pattern fuel2 re t2 ci = POk p2 ->
  means (re_ok re) ci t1 ps1 ks1 -> means (re_ok re) ci t2 ps2 ks2 ->
  (List.length ps1 <= 255)%nat -> (List.length ps2 <= 255)%nat ->
  p_segs p1 = p_segs p2 -> ps1 = ps2.
Proof.
  intros fuel1 fuel2 re ci t1 t2 p1 p2 ps1 ps2 ks1 ks2 P1 P2 M1 M2 L1 L2 E.
  destruct (parse_shows _ _ _ _ _ _ _ P1 M1 L1) as [S1 _].
  destruct (parse_shows _ _ _ _ _ _ _ P2 M2 L2) as [S2 _].
  apply shows_all_vals in S1. apply shows_all_vals in S2. congruence.
Qed.

Definition long_pieces : list bytes := repeat (str "a") 256.

Lemma long_confused : forall re, exists t ps ks p,
  means (re_ok re) false t ps ks /\ List.length ps = 256%nat /\
  parse_pattern 1 re t false = POk p /\ p_segs p = [] /\ p_max p = 0 /\ p_caps p = 0.
Proof.
  intros re. exists (spelled long_pieces), long_pieces, (repeat (Lit (str "a")) 256).
  eexists. split; [|split; [reflexivity|split; [vm_compute; reflexivity|repeat split]]].
  assert (R : forall n, Forall2 reads (repeat (str "a") n) (repeat (Lit (str "a")) n)).
  { induction n; simpl; constructor; auto. apply reads_lit; simpl; try discriminate; intuition discriminate. }
  split; [|split; [apply R|split]].
  - split; [|left; split; [reflexivity|discriminate]].
    apply Forall_forall. intros x Hx. apply repeat_spec in Hx. subst x. simpl. intuition discriminate.
  - generalize 256%nat. induction n as [|n IH]; simpl; [constructor|].
    destruct n; simpl in *; constructor; auto. intros [H _]. discriminate.
  - intros name r Hi. apply repeat_spec in Hi. discriminate.
Qed.

Lemma hang_means : forall re, exists ps ks, means (re_ok re) false hang_text ps ks.
Proof.
  intros re. pose proof (parse_pattern_spec 1 re hang_text false) as H.
  rewrite hang_parse in H. assumption.
Qed.

Lemma register_hangs : forall re, exists t,
  (exists ps ks, means (re_ok re) false t ps ks) /\ forall fuel, parse_pattern fuel re t false = PFuel.
Proof.
  intros re. exists hang_text. split; [apply hang_means|]. intros fuel. apply hang_parse.
Qed.

Fixpoint any_count (ks : list piece) : nat :=
  match ks with [] => 0 | Any :: ks' => S (any_count ks') | _ :: ks' => any_count ks' end%nat.

Lemma multi_count_cons : forall s segs, multi_count (s :: segs) =
  ((if mt_eqb (s_mt s) MTMulti then 1 else 0) + multi_count segs)%nat.
Proof. intros s segs. unfold multi_count. simpl. destruct (mt_eqb (s_mt s) MTMulti); reflexivity. Qed.

Lemma shows_all_count : forall ci sgs ss ks, shows_all ci sgs ss ks ->
  multi_count sgs = any_count ks.
Proof.
  intros ci sgs ss ks H. induction H as [|sg s k sgs ss ks Hs Hall IH]; [reflexivity|].
  rewrite multi_count_cons, IH, (shows_mt _ _ _ _ Hs). destruct k; reflexivity.
Qed.

Lemma parse_fuel_independent : forall re t ci fuel segs st,
  parse_loop re ci (tl t) [] (PState 0 0 MTUnknown MTUnknown
     (repeat None (List.length (filter (Ascii.eqb slash) t)))) = inr st ->
  all_some (firstn (N.to_nat (ps_count st)) (ps_segs st)) = Some segs ->
  parse_pattern fuel re t ci = PFuel -> compute_priority fuel segs = None.
Proof.
  intros re t ci fuel segs st H1 H2 H3. unfold parse_pattern in H3.
  destruct t as [|c [|d rest]]; try discriminate.
  - destruct (negb (Ascii.eqb c slash)); discriminate.
  - destruct (negb (Ascii.eqb c slash)); [discriminate|].
    cbn [tl] in H1. rewrite H1, H2 in H3.
    destruct (compute_priority fuel segs); [discriminate|reflexivity].
Qed.

Lemma register_ends : forall re t ci ps ks,
  means (re_ok re) ci t ps ks -> (List.length ps <= 255)%nat -> (any_count ks <= 1)%nat ->
  exists fuel p, parse_pattern fuel re t ci = POk p.
Proof.
  intros re t ci ps ks Hm Hl Hc.
  (* the segments do not depend on the fuel *)
  destruct (spells_first _ _ (proj1 Hm)) as [rest ->].
  destruct rest as [|c rest].
  { exists 1%nat. eexists. reflexivity. }
  destruct (parse_loop re ci (c :: rest) [] (PState 0 0 MTUnknown MTUnknown
     (repeat None (List.length (filter (Ascii.eqb slash) (slash :: c :: rest)))))) as [r|st] eqn:El.
  - pose proof (parse_pattern_spec 1 re (slash :: c :: rest) ci) as H. unfold parse_pattern in H.
    cbn [negb] in H. change (Ascii.eqb slash slash) with true in H. cbn [negb] in H.
    rewrite El in H.
    (* the loop only fails with an error *)
    destruct r as [| | |p].
    + exfalso. apply H. eauto.
    + contradiction.
    + exfalso. clear H. rewrite parse_loop_pieces in El.
      pose proof (slash_count_pieces (c :: rest) []) as Hsc.
      pose proof (add_all_spec re ci (pieces_of (c :: rest) [])
        (PState 0 0 MTUnknown MTUnknown
           (repeat None (List.length (filter (Ascii.eqb slash) (slash :: c :: rest))))) 0) as A.
      rewrite El in A. apply A.
      * cbn [ps_segs]. rewrite repeat_length. cbn [filter].
        change (Ascii.eqb slash slash) with true. cbv iota. cbn [List.length filter] in *. lia.
      * reflexivity.
      * intros i Hi. simpl in Hi. lia.
    + exfalso. clear H. rewrite parse_loop_pieces in El.
      pose proof (slash_count_pieces (c :: rest) []) as Hsc.
      pose proof (add_all_spec re ci (pieces_of (c :: rest) [])
        (PState 0 0 MTUnknown MTUnknown
           (repeat None (List.length (filter (Ascii.eqb slash) (slash :: c :: rest))))) 0) as A.
      rewrite El in A. apply A.
      * cbn [ps_segs]. rewrite repeat_length. cbn [filter].
        change (Ascii.eqb slash slash) with true. cbv iota. cbn [List.length filter] in *. lia.
      * reflexivity.
      * intros i Hi. simpl in Hi. lia.
  - assert (Has : exists segs, all_some (firstn (N.to_nat (ps_count st)) (ps_segs st)) = Some segs).
    { pose proof (parse_pattern_spec 1 re (slash :: c :: rest) ci) as H. unfold parse_pattern in H.
      change (Ascii.eqb slash slash) with true in H. cbn [negb] in H. rewrite El in H.
      destruct (all_some (firstn (N.to_nat (ps_count st)) (ps_segs st))) as [segs|]; [eauto|contradiction]. }
    destruct Has as [segs Has].
    assert (Hmc : (multi_count segs <= 1)%nat).
    { pose proof (fun fuel p => parse_shows fuel re (slash :: c :: rest) ci p ps ks) as HS.
      (* the count does not depend on the ranking: read it off the loop *)
      rewrite parse_loop_pieces in El.
      pose proof (slash_count_pieces (c :: rest) []) as Hsc.
      pose proof (add_all_spec re ci (pieces_of (c :: rest) [])
        (PState 0 0 MTUnknown MTUnknown
           (repeat None (List.length (filter (Ascii.eqb slash) (slash :: c :: rest))))) 0) as A.
      rewrite El in A. cbn [ps_segs] in A.
      assert (Hps : ps = pieces_of (c :: rest) []).
      { symmetry. apply spells_pieces; [|apply (proj1 Hm)].
        destruct Hm as [_ [Hr _]]. clear - Hr. induction Hr; constructor; auto. eapply reads_nonempty; eauto. }
      destruct A as [ks' [Hr [_ [_ [Hlen [Hcnt [_ [_ [_ Hshow]]]]]]]]].
      * rewrite repeat_length. cbn [filter].
        change (Ascii.eqb slash slash) with true. cbv iota. cbn [List.length filter] in *. lia.
      * reflexivity.
      * intros i Hi. simpl in Hi. lia.
      * rewrite <- Hps in *. cbn [Nat.add] in *.
        destruct (Hshow Hl) as [sgs [Hsh Hf]]. simpl in Hf.
        assert (Hks : ks' = ks) by (eapply forall2_reads_functional; [exact Hr|apply Hm]). subst ks'.
        rewrite Hcnt, N.mod_small in Has by lia. rewrite Nat2N.id in Has.
        rewrite Hf, all_some_map in Has. injection Has as <-.
        rewrite (shows_all_count _ _ _ _ Hsh). assumption. }
    destruct (compute_priority_terminates segs Hmc) as [fuel Hf]. exists fuel.
    unfold parse_pattern. change (Ascii.eqb slash slash) with true. cbn [negb].
    rewrite El, Has. destruct (compute_priority fuel segs); [eauto|congruence].
Qed.
