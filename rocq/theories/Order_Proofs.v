(** * Proofs about which of two patterns has the higher priority. *)
From Coq Require Import List NArith ZArith Ascii String Bool Lia Arith.
From Verif Require Import GoBase Pattern_Model Pattern_Spec Priority_Spec Pattern_Proofs
  Priority_Proofs Spin_Proofs Filled_Spec Filled_Proofs.
Import ListNotations.
Local Open Scope string_scope.
Local Open Scope list_scope.
Local Open Scope N_scope.

Lemma code_same : forall c d, code c = code d -> c = d.
Proof.
  intros c d H. unfold code in H. rewrite <- (ascii_N_embedding c), <- (ascii_N_embedding d). rewrite H. reflexivity.
Qed.

Lemma bcompare_before : forall a b,
  match bcompare a b with Lt => text_before a b | Eq => a = b | Gt => text_before b a end.
Proof.
  induction a as [|c a IH]; intros [|d b]; cbn [bcompare]; try constructor.
  destruct (N.compare_spec (code c) (code d)) as [E|E|E].
  - apply code_same in E. subst d. specialize (IH b).
    destruct (bcompare a b); [subst; reflexivity|apply tb_later; assumption|apply tb_later; assumption].
  - apply tb_here. assumption.
  - apply tb_here. assumption.
Qed.

Lemma before_irrefl : forall a, ~ text_before a a.
Proof.
  induction a as [|c a IH]; intros H; inversion H; subst; [lia|contradiction].
Qed.
Lemma before_trans : forall a b c, text_before a b -> text_before b c -> text_before a c.
Proof.
  intros a b c H. revert c. induction H as [x s|x y s t L|x s t H IH]; intros c H2; inversion H2; subst.
  - constructor.
  - constructor.
  - apply tb_here. lia.
  - apply tb_here. lia.
  - apply tb_here. lia.
  - apply tb_later. apply IH. assumption.
Qed.

Lemma lt_before : forall a b, (match bcompare a b with Lt => true | _ => false end) = true <-> text_before a b.
Proof.
  intros a b. pose proof (bcompare_before a b) as H. destruct (bcompare a b).
  - subst b. split; [discriminate|]. intros H. exfalso. eapply before_irrefl; eassumption.
  - split; [intros _; assumption|reflexivity].
  - split; [discriminate|]. intros H2. exfalso. eapply before_irrefl. eapply before_trans; eassumption.
Qed.

Lemma high_iff : forall p q, high_priority_than p q = true <->
  p_prio p < p_prio q \/ p_prio p = p_prio q /\ text_before (p_raw p) (p_raw q).
Proof.
  intros p q. unfold high_priority_than. destruct (N.eqb_spec (p_prio p) (p_prio q)) as [E|E].
  - rewrite lt_before. split; [auto|]. intros [H|[_ H]]; [lia|assumption].
  - rewrite N.ltb_lt. split; [auto|]. intros [H|[H _]]; [assumption|contradiction].
Qed.

(** A strict order, for all patterns, total up to the text. *)
Lemma high_order : forall p q r,
  high_priority_than p p = false /\
  (high_priority_than p q = true -> high_priority_than q r = true -> high_priority_than p r = true) /\
  (p_raw p <> p_raw q -> high_priority_than p q = true \/ high_priority_than q p = true).
Proof.
  intros p q r. split; [|split].
  - destruct (high_priority_than p p) eqn:H; [|reflexivity]. exfalso. apply high_iff in H.
    destruct H as [H|[_ H]]; [lia|]. eapply before_irrefl; eassumption.
  - rewrite !high_iff. intros [H1|[H1 T1]] [H2|[H2 T2]]; try (left; lia).
    right. split; [congruence|]. eapply before_trans; eassumption.
  - intros Hn. rewrite !high_iff. destruct (N.lt_total (p_prio p) (p_prio q)) as [H|[H|H]]; auto.
    pose proof (bcompare_before (p_raw p) (p_raw q)) as B.
    destruct (bcompare (p_raw p) (p_raw q)); [contradiction|left|right]; right; auto.
Qed.

Lemma specific_cases : forall a b, more_specific a b \/ more_specific b a \/ map kind_rank a = map kind_rank b.
Proof.
  induction a as [|x a IH]; intros [|y b].
  - right. right. reflexivity.
  - left. constructor.
  - right. left. constructor.
  - destruct (Nat.lt_total (kind_rank x) (kind_rank y)) as [H|[H|H]].
    + left. apply ms_here. assumption.
    + destruct (IH b) as [I|[I|I]].
      * left. apply ms_later; assumption.
      * right. left. apply ms_later; [symmetry|]; assumption.
      * right. right. cbn [map]. f_equal; assumption.
    + right. left. apply ms_here. assumption.
Qed.

Lemma specific_not_same : forall a b, more_specific a b -> map kind_rank a <> map kind_rank b.
Proof.
  intros a b H. induction H; cbn [map]; intros E; [discriminate| |]; injection E as E1 E2; [lia|contradiction].
Qed.

Lemma high_inner : forall re fuel1 fuel2 t1 t2 ci1 ci2 p1 p2 ps1 ps2 ks1 ks2,
  parse_pattern fuel1 re t1 ci1 = POk p1 -> parse_pattern fuel2 re t2 ci2 = POk p2 ->
  means (re_ok re) ci1 t1 ps1 ks1 -> means (re_ok re) ci2 t2 ps2 ks2 ->
  (1 <= List.length ps1 <= 19)%nat -> (1 <= List.length ps2 <= 19)%nat ->
  (any_count ks1 <= 1)%nat -> (any_count ks2 <= 1)%nat ->
  (high_priority_than p1 p2 = true <->
   more_specific (filled ks1) (filled ks2) \/
   map kind_rank (filled ks1) = map kind_rank (filled ks2) /\ text_before t1 t2).
Proof.
  intros re fuel1 fuel2 t1 t2 ci1 ci2 p1 p2 ps1 ps2 ks1 ks2 P1 P2 M1 M2 L1 L2 A1 A2.
  destruct (parse_shows _ _ _ _ _ _ _ P1 M1) as [_ [_ [R1 _]]]; [lia|].
  destruct (parse_shows _ _ _ _ _ _ _ P2 M2) as [_ [_ [R2 _]]]; [lia|].
  rewrite high_iff, R1, R2.
  pose proof (rank_inner _ _ _ _ _ _ _ _ _ _ _ _ _ P1 P2 M1 M2 L1 L2 A1 A2) as I12.
  pose proof (rank_inner _ _ _ _ _ _ _ _ _ _ _ _ _ P2 P1 M2 M1 L2 L1 A2 A1) as I21.
  rewrite I12. split; intros [H|[H T]]; [left; assumption| |left; assumption|]; right; (split; [|assumption]).
  - destruct (specific_cases (filled ks1) (filled ks2)) as [S|[S|S]]; [| |assumption].
    + apply I12 in S. lia.
    + apply I21 in S. lia.
  - destruct (N.lt_total (p_prio p1) (p_prio p2)) as [S|[S|S]]; [|assumption|].
    + apply I12 in S. apply specific_not_same in S. contradiction.
    + apply I21 in S. apply specific_not_same in S. congruence.
Qed.
