(** * Proofs about the rank of patterns that have a ** inside. *)
From Coq Require Import List NArith ZArith Ascii String Bool Lia Arith.
From Verif Require Import GoBase Glob_Model Glob_Spec Pattern_Model Pattern_Spec Priority_Spec Pattern_Proofs
  Priority_Proofs Spin_Proofs Witness_Proofs Filled_Spec.
Import ListNotations.
Local Open Scope string_scope.
Local Open Scope list_scope.
Local Open Scope N_scope.

Definition ranks (ks : list piece) : list N := map (fun k => N.of_nat (kind_rank k)) ks.
Definition padded0 (n : nat) (ks : list piece) : list N := ranks ks ++ repeat 0 (n - List.length ks).

Lemma rank_range : forall k, (1 <= kind_rank k <= 6)%nat.
Proof. destruct k; cbn; lia. Qed.

Lemma ranks_digits : forall ks, digits (ranks ks).
Proof.
  intros ks. unfold digits, ranks. apply Forall_forall. intros d H. apply in_map_iff in H.
  destruct H as [k [<- _]]. pose proof (rank_range k). lia.
Qed.

Lemma padded0_lex : forall n a b, (List.length a <= n)%nat -> (List.length b <= n)%nat ->
  (dlex (padded0 n a) (padded0 n b) <-> more_specific a b).
Proof.
  induction n as [|n IH]; intros a b La Lb.
  - destruct a; [|cbn in La; lia]. destruct b; [|cbn in Lb; lia]. split; intros H; inversion H.
  - destruct a as [|x a]; destruct b as [|y b]; unfold padded0 in *; cbn [ranks map app List.length] in *.
    + split; [|intros H; inversion H]. intros H. exfalso. eapply dlex_repeat_eq. exact H.
    + split; [intros _; constructor|]. intros _. cbn [Nat.sub repeat]. apply dlex_here.
      pose proof (rank_range y). lia.
    + split; [|intros H; inversion H]. cbn [Nat.sub repeat]. pose proof (rank_range x).
      rewrite dlex_neq_head by lia. lia.
    + cbn [Nat.sub]. change (map (fun k => N.of_nat (kind_rank k)) a) with (ranks a).
      change (map (fun k => N.of_nat (kind_rank k)) b) with (ranks b).
      destruct (Nat.eq_dec (kind_rank x) (kind_rank y)) as [E|E].
      * rewrite E, dlex_irrefl_head, IH by lia. split.
        -- intros H. apply ms_later; assumption.
        -- intros H. inversion H; subst; [lia|assumption].
      * rewrite dlex_neq_head by lia. split.
        -- intros H. apply ms_here. lia.
        -- intros H. inversion H; subst; [lia|congruence].
Qed.

Lemma lsplit_at : forall a b fuel idx, Forall (fun d => d <> 0 /\ d <> 6) a -> (List.length a < fuel)%nat ->
  lsplit fuel (a ++ 6 :: b) 1 idx = Some (idx + Z.of_nat (List.length a))%Z.
Proof.
  induction a as [|d a IH]; intros b fuel idx H Hf; (destruct fuel as [|f]; [cbn in Hf; lia|]).
  - cbn [app lsplit List.length]. cbn [nought forallb]. cbn. f_equal. lia.
  - inversion H; subst. destruct H2 as [N0 N6]. cbn [app lsplit].
    assert (E0 : nought (d :: a ++ 6 :: b) = false).
    { cbn [nought forallb]. destruct (N.eqb_spec 0 d); [congruence|reflexivity]. }
    rewrite E0. cbn [hd]. destruct (N.eqb_spec d 6); [congruence|].
    cbn [skipn]. rewrite IH; [|assumption|cbn in Hf; lia]. f_equal. cbn [List.length]. lia.
Qed.

(** One [**]: the digits around it are moved apart. *)
Lemma one_any_value : forall sgs a b, codes sgs = ranks a ++ 6 :: ranks b ->
  (List.length sgs <= 19)%nat -> multi_count sgs = 1%nat -> ~ In Any b ->
  compute_priority 20 sgs = Some (dval (ranks a ++ repeat 6 (20 - List.length sgs) ++ ranks b)).
Proof.
  intros sgs a b E Hl Hc Hb. unfold compute_priority. rewrite Hc. cbn [Nat.eqb spread].
  assert (Ll : List.length sgs = (List.length a + S (List.length b))%nat).
  { unfold codes, ranks in E. apply (f_equal (@List.length _)) in E. rewrite app_length, !map_length in E.
    cbn [List.length] in E. rewrite map_length in E. exact E. }
  rewrite (base_priority_value _ Hl), dval_lval.
  assert (Er : rev (codes sgs) = rev (ranks b) ++ 6 :: rev (ranks a)).
  { rewrite E, rev_app_distr. cbn [rev]. rewrite <- app_assoc. reflexivity. }
  assert (Hd : digits (rev (codes sgs))) by (unfold digits; apply Forall_rev, codes_digits).
  assert (Hs : lsplit 20 (rev (codes sgs)) (cut 1) 0%Z = Some (Z.of_nat (List.length b))).
  { rewrite Er. change (cut 1) with 1%nat. rewrite lsplit_at.
    - f_equal. unfold ranks. rewrite rev_length, map_length. lia.
    - apply Forall_rev. unfold ranks. apply Forall_forall. intros d H. apply in_map_iff in H.
      destruct H as [k [<- Hk]]. pose proof (rank_range k). split; [lia|].
      intros H6. assert (kind_rank k = 6%nat) by lia. apply rank_six in H0. subst k. contradiction.
    - unfold ranks. rewrite rev_length, map_length. lia. }
  unfold get_split_index. rewrite divider_cut, (split_on_digits _ _ _ _ Hd), Hs.
  rewrite divider_cut.
  change (Z.of_nat 1) with 1%Z. rewrite Z.quot_1_r, Z.rem_1_r.
  replace (Z.to_nat (19 - Z.of_nat (List.length sgs) + 0)) with (19 - List.length sgs)%nat by lia.
  assert (Hw : widened (rev (codes sgs)) (cut (Z.of_nat (List.length b) + 1)) (19 - List.length sgs)
             = rev (ranks a ++ repeat 6 (20 - List.length sgs) ++ ranks b)).
  { assert (Rp : forall n, rev (repeat 6 n) = repeat 6 n).
    { induction n as [|n IH]; [reflexivity|]. cbn [repeat rev]. rewrite IH.
      clear. induction n as [|n IH]; [reflexivity|]. cbn [repeat app]. f_equal. assumption. }
    rewrite !rev_app_distr, Rp. rewrite <- app_assoc.
    replace (20 - List.length sgs)%nat with (S (19 - List.length sgs)) by lia.
    unfold widened, cut.
    destruct ((1 <=? Z.of_nat (List.length b) + 1)%Z && (Z.of_nat (List.length b) + 1 <=? 18)%Z) eqn:Ec.
    - replace (Z.to_nat (Z.of_nat (List.length b) + 1)) with (List.length (rev (ranks b) ++ [6])).
      2:{ rewrite app_length, rev_length. unfold ranks. rewrite map_length. cbn. lia. }
      rewrite Er. replace (rev (ranks b) ++ 6 :: rev (ranks a)) with ((rev (ranks b) ++ [6]) ++ rev (ranks a))
        by (rewrite <- app_assoc; reflexivity).
      rewrite <- app_assoc. rewrite firstn_app, Nat.sub_diag, firstn_all.
      rewrite skipn_app, Nat.sub_diag, skipn_all. cbn [firstn skipn app]. rewrite app_nil_r.
      rewrite <- app_assoc. cbn [app repeat]. reflexivity.
    - apply andb_false_iff in Ec.
      assert (Lb : (18 <= List.length b)%nat) by (destruct Ec as [Ec|Ec]; apply Z.leb_gt in Ec; lia).
      assert (L19 : List.length sgs = 19%nat) by lia.
      rewrite L19, Er. cbn [Nat.sub repeat firstn skipn app]. reflexivity. }
  rewrite (widened_value _ _ _ Hd).
  - f_equal. rewrite Hw. symmetry. apply dval_lval.
  - rewrite Hw, rev_length, !app_length, repeat_length. unfold ranks. rewrite !map_length. lia.
Qed.

Lemma some_inj : forall a b : N, Some a = Some b -> a = b.
Proof. intros a b H. congruence. Qed.

Lemma no_any_count : forall ks, any_count ks = 0%nat -> ~ In Any ks.
Proof.
  induction ks as [|k ks IH]; intros H; [intros []|].
  destruct k; cbn [any_count] in H; try discriminate;
    (intros [E|E]; [discriminate|exact (IH H E)]).
Qed.
Lemma one_any_split : forall ks, any_count ks = 1%nat ->
  exists a b, ks = a ++ Any :: b /\ ~ In Any a /\ ~ In Any b.
Proof.
  induction ks as [|k ks IH]; intros H; [discriminate|].
  assert (D : k = Any \/ k <> Any) by (destruct k; auto; right; discriminate). destruct D as [->|Hk].
  - exists [], ks. cbn [any_count] in H. injection H as H. split; [reflexivity|]. split; [intros []|apply no_any_count, H].
  - assert (H' : any_count ks = 1%nat) by (destruct k; try exact H; congruence).
    destruct (IH H') as [a [b [-> [Ha Hb]]]]. exists (k :: a), b. split; [reflexivity|].
    split; [|assumption]. intros [E|E]; [congruence|contradiction].
Qed.

Lemma filled_plain : forall n ks, ~ In Any ks ->
  flat_map (fun k => match k with Any => repeat Any n | _ => [k] end) ks = ks.
Proof.
  intros n. induction ks as [|k ks IH]; intros H; [reflexivity|]. cbn [flat_map].
  rewrite IH by (intros Hi; apply H; right; assumption).
  destruct k; try reflexivity. exfalso. apply H. left. reflexivity.
Qed.

Lemma filled_one : forall a b, ~ In Any a -> ~ In Any b ->
  filled (a ++ Any :: b) = a ++ repeat Any (20 - List.length (a ++ Any :: b)) ++ b.
Proof.
  intros a b Ha Hb. unfold filled. rewrite flat_map_app. cbn [flat_map].
  rewrite !filled_plain by assumption. reflexivity.
Qed.

Lemma filled_none : forall ks, ~ In Any ks -> filled ks = ks.
Proof. intros ks H. apply filled_plain. assumption. Qed.

Lemma filled_length : forall ks, (any_count ks <= 1)%nat -> (List.length ks <= 19)%nat ->
  (List.length (filled ks) <= 19)%nat.
Proof.
  intros ks H Hl. destruct (any_count ks) as [|[|n]] eqn:E; [| |lia].
  - rewrite filled_none by (apply no_any_count; assumption). assumption.
  - destruct (one_any_split _ E) as [a [b [-> [Ha Hb]]]]. rewrite filled_one by assumption.
    rewrite !app_length in *. rewrite repeat_length. cbn [List.length] in *. lia.
Qed.

Lemma rank_filled : forall ci sgs ss ks f v, shows_all ci sgs ss ks ->
  (List.length ks <= 19)%nat -> (any_count ks <= 1)%nat ->
  compute_priority f sgs = Some v -> v = dval (padded0 19 (filled ks)).
Proof.
  intros ci sgs ss ks f v H Hl Hc Hv. destruct (shows_all_len _ _ _ _ H) as [L1 _].
  pose proof (shows_all_codes _ _ _ _ H) as Hcd.
  destruct (any_count ks) as [|[|n]] eqn:E; [| |lia].
  - rewrite filled_none by (apply no_any_count; assumption). unfold padded0.
    rewrite dval_zeros.
    unfold compute_priority in Hv. rewrite (shows_all_count _ _ _ _ H), E in Hv. cbn [Nat.eqb] in Hv.
    apply some_inj in Hv. rewrite <- Hv. rewrite base_priority_value by lia. rewrite Hcd. change (map (fun k => N.of_nat (kind_rank k)) ks) with (ranks ks).
    replace (19 - Z.of_nat (List.length sgs))%Z with (Z.of_nat (19 - List.length ks)) by lia.
    assert (B : dval (ranks ks) * 10 ^ N.of_nat (19 - List.length ks) < 10 ^ 19).
    { rewrite <- dval_zeros. eapply N.lt_le_trans; [apply dval_bound; apply dval_app_digits; [apply ranks_digits|apply digits_repeat; reflexivity]|].
      apply pow_le19. rewrite app_length, repeat_length. unfold ranks. rewrite map_length. lia. }
    destruct (Nat.le_gt_cases (List.length ks) 0) as [Z|Z].
    + destruct ks; [|cbn in Z; lia]. reflexivity.
    + rewrite decimal_divider_pow by lia. apply u64_small. assumption.
  - destruct (one_any_split _ E) as [a [b [Ek [Ha Hb]]]].
    assert (V : compute_priority 20 sgs = Some (dval (ranks a ++ repeat 6 (20 - List.length sgs) ++ ranks b))).
    { apply one_any_value; [|lia|rewrite (shows_all_count _ _ _ _ H); assumption|assumption].
      rewrite Hcd, Ek. change (map (fun k => N.of_nat (kind_rank k)) (a ++ Any :: b)) with (ranks (a ++ Any :: b)).
      unfold ranks. rewrite map_app. reflexivity. }
    apply (compute_priority_more _ 20) in Hv. apply (compute_priority_more _ f) in V.
    rewrite Nat.add_comm in V. rewrite V in Hv. apply some_inj in Hv. rewrite <- Hv. f_equal.
    rewrite L1, Ek, filled_one by assumption. unfold padded0.
    replace (19 - _)%nat with 0%nat.
    2:{ rewrite Ek in Hl. rewrite !app_length in *. rewrite repeat_length. cbn [List.length] in *. lia. }
    cbn [repeat]. rewrite app_nil_r. unfold ranks. rewrite !map_app. f_equal. f_equal.
    generalize (20 - List.length (a ++ Any :: b))%nat. intros n. clear. induction n as [|n IH]; [reflexivity|].
    cbn [repeat map]. rewrite <- IH. reflexivity.
Qed.

(** The rank of patterns with at most one [**]. *)
Lemma rank_inner : forall re fuel1 fuel2 t1 t2 ci1 ci2 p1 p2 ps1 ps2 ks1 ks2,
  parse_pattern fuel1 re t1 ci1 = POk p1 -> parse_pattern fuel2 re t2 ci2 = POk p2 ->
  means (re_ok re) ci1 t1 ps1 ks1 -> means (re_ok re) ci2 t2 ps2 ks2 ->
  (1 <= List.length ps1 <= 19)%nat -> (1 <= List.length ps2 <= 19)%nat ->
  (any_count ks1 <= 1)%nat -> (any_count ks2 <= 1)%nat ->
  (p_prio p1 < p_prio p2 <-> more_specific (filled ks1) (filled ks2)).
Proof.
  intros re fuel1 fuel2 t1 t2 ci1 ci2 p1 p2 ps1 ps2 ks1 ks2 P1 P2 M1 M2 L1 L2 A1 A2.
  destruct (parse_shows _ _ _ _ _ _ _ P1 M1) as [S1 [_ [_ [_ [_ [_ C1]]]]]]; [lia|].
  destruct (parse_shows _ _ _ _ _ _ _ P2 M2) as [S2 [_ [_ [_ [_ [_ C2]]]]]]; [lia|].
  destruct (shows_all_len _ _ _ _ S1) as [E1 E1']. destruct (shows_all_len _ _ _ _ S2) as [E2 E2'].
  assert (N1 : ps1 <> []) by (intros ->; simpl in L1; lia).
  assert (N2 : ps2 <> []) by (intros ->; simpl in L2; lia).
  rewrite (rank_filled _ _ _ _ _ _ S1 ltac:(lia) A1 (C1 N1)).
  rewrite (rank_filled _ _ _ _ _ _ S2 ltac:(lia) A2 (C2 N2)).
  pose proof (filled_length ks1 A1 ltac:(lia)) as F1. pose proof (filled_length ks2 A2 ltac:(lia)) as F2.
  assert (Dp : forall ks, digits (padded0 19 ks)).
  { intros ks. apply dval_app_digits; [apply ranks_digits|apply digits_repeat; reflexivity]. }
  rewrite dval_lex; [apply padded0_lex; assumption|apply Dp|apply Dp|].
  unfold padded0, ranks. rewrite !app_length, !repeat_length, !map_length. lia.
Qed.

Ltac any_means :=
  split; [split; [repeat (constructor; [not_in|]); constructor|left; split; [reflexivity|discriminate]]|];
  split; [repeat (constructor; [show_reads|]); constructor|];
  split; [repeat first [apply naa_nil|apply naa_one|apply naa_cons; [intros [? ?]; discriminate|]]|];
  let H := fresh in intros ? ? H; cbn in H; repeat (destruct H as [H|H]; [discriminate|]); contradiction.

(** With two [**] the rank can contradict both comparisons. *)
Lemma rank_two_wrong : forall re, exists t1 t2 ps1 ps2 ks1 ks2 p1 p2,
  means (re_ok re) false t1 ps1 ks1 /\ means (re_ok re) false t2 ps2 ks2 /\
  parse_pattern 20 re t1 false = POk p1 /\ parse_pattern 20 re t2 false = POk p2 /\
  any_count ks1 = 1%nat /\ any_count ks2 = 2%nat /\
  more_specific ks1 ks2 /\ more_specific (filled ks1) (filled ks2) /\ p_prio p2 < p_prio p1.
Proof.
  intros re. exists (str "/**/a/a"), (str "/**/a/**"), [str "**"; str "a"; str "a"], [str "**"; str "a"; str "**"],
    [Any; Lit (str "a"); Lit (str "a")], [Any; Lit (str "a"); Any]. eexists. eexists.
  split; [any_means|].
  split; [any_means|].
  split; [vm_compute; reflexivity|]. split; [vm_compute; reflexivity|].
  split; [reflexivity|]. split; [reflexivity|].
  split; [apply ms_later; [reflexivity|]; apply ms_later; [reflexivity|]; apply ms_here; cbn; lia|].
  split; [|vm_compute; reflexivity].
  cbn. do 17 (apply ms_later; [reflexivity|]). apply ms_later; [reflexivity|]. apply ms_here; cbn; lia.
Qed.

(** A case: a longer rest behind the [**] ranks better. *)
Lemma rank_inner_case : forall re, exists p1 p2,
  parse_pattern 20 re (str "/a/**/{x}/b") false = POk p1 /\ parse_pattern 20 re (str "/a/**/b") false = POk p2 /\
  p_prio p1 < p_prio p2 /\
  more_specific (filled [Lit (str "a"); Any; Var (str "x"); Lit (str "b")]) (filled [Lit (str "a"); Any; Lit (str "b")]).
Proof.
  intros re. eexists. eexists. split; [vm_compute; reflexivity|]. split; [vm_compute; reflexivity|].
  split; [vm_compute; reflexivity|]. cbn. do 17 (apply ms_later; [reflexivity|]). apply ms_here; cbn; lia.
Qed.
