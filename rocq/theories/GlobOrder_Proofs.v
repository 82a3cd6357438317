(** * Proofs for C148: texts for which the work is that much *)
From Coq Require Import List NArith Ascii String Bool Lia Arith.
From Verif Require Import GoBase Glob_Model Glob_Spec Glob_Proofs GlobWork_Model.
Import ListNotations.
Local Open Scope string_scope.
Local Open Scope list_scope.
Local Open Scope nat_scope.

Section Order.
Variables n m : nat.
Hypothesis M1 : 1 <= m.
Definition hard_text : bytes := repeat "a"%char n.
Definition hard_piece : bytes := "*"%char :: repeat "a"%char m ++ ["b"%char].
Local Notation u := hard_text.
Local Notation p := hard_piece.

Lemma text_at i : i < n -> nth_error u i = Some "a"%char.
Proof. apply nth_error_repeat. Qed.
Lemma piece_at i : i < m -> nth_error p (S i) = Some "a"%char.
Proof. intro L. unfold hard_piece. cbn [nth_error]. rewrite nth_error_app1 by (rewrite repeat_length; lia). now apply nth_error_repeat. Qed.
Lemma piece_b : nth_error p (S m) = Some "b"%char.
Proof. unfold hard_piece. cbn [nth_error]. rewrite nth_error_app2 by (rewrite repeat_length; lia). rewrite repeat_length, Nat.sub_diag. reflexivity. Qed.
Lemma piece_len : List.length p = m + 2.
Proof. unfold hard_piece. cbn [List.length]. rewrite app_length, repeat_length. cbn. lia. Qed.
Lemma text_len : List.length u = n.
Proof. apply repeat_length. Qed.

Lemma step_a k i : k + i < n -> i < m ->
  glob_step false u p (GState (S i) (k + i) false (Some (0, k))) = inl (GState (S (S i)) (S (k + i)) false (Some (0, k))) /\
  step_rounds false u p (GState (S i) (k + i) false (Some (0, k))) = 1.
Proof.
  intros L1 L2. unfold glob_step, step_rounds. cbn [g_p g_u g_restore g_ck]. rewrite piece_len, text_len.
  destruct (Nat.eqb_spec (S i) (m + 2)); [lia|]. destruct (Nat.eqb_spec (k + i) n); [lia|]. cbn [andb orb].
  rewrite (text_at (k + i)) by lia. rewrite (piece_at i) by lia. split; reflexivity.
Qed.
Lemma step_b k : k + m < n ->
  glob_step false u p (GState (S m) (k + m) false (Some (0, k))) = inl (GState (S m) (k + m) true (Some (0, k))) /\
  step_rounds false u p (GState (S m) (k + m) false (Some (0, k))) = 1.
Proof.
  intros L1. unfold glob_step, step_rounds. cbn [g_p g_u g_restore g_ck]. rewrite piece_len, text_len.
  destruct (Nat.eqb_spec (S m) (m + 2)); [lia|]. destruct (Nat.eqb_spec (k + m) n); [lia|]. cbn [andb orb].
  rewrite (text_at (k + m)) by lia. rewrite piece_b. split; reflexivity.
Qed.
Lemma skip_here : skip_stars (skipn 1 p) 1 0 = 0.
Proof. destruct m as [|m'] eqn:E; [lia|]. unfold hard_piece. rewrite E. reflexivity. Qed.
Lemma text_from i : i < n -> exists l, skipn i u = "a"%char :: l.
Proof. intro L. exists (skipn (S i) u). apply skipn_nth. now apply text_at. Qed.
Lemma step_back k : k + m < n ->
  glob_step false u p (GState (S m) (k + m) true (Some (0, k))) = inl (GState 1 (S k) false (Some (0, S k))) /\
  step_rounds false u p (GState (S m) (k + m) true (Some (0, k))) = 2.
Proof.
  intros L1. unfold glob_step, step_rounds. cbn [g_p g_u g_restore g_ck]. rewrite piece_len, text_len.
  destruct (Nat.eqb_spec (S m) (m + 2)); [lia|]. cbn [andb orb].
  replace (k + 1) with (S k) by lia. rewrite (text_at (S k)) by lia.
  change (nth_error p 0) with (Some star). change (Ascii.eqb star qmark) with false. change (Ascii.eqb star star) with true. cbv iota zeta.
  rewrite skip_here. destruct (Nat.eqb_spec 0 (m + 2 - 1)); [lia|]. rewrite (piece_at 0) by lia.
  destruct (text_from (S k)) as (l & ->); [lia|]. cbn. split; reflexivity.
Qed.

Lemma run_a k f : forall j, j <= m -> k + j <= n ->
  loop_rounds (j + f) false u p (GState 1 k false (Some (0, k))) = j + loop_rounds f false u p (GState (S j) (k + j) false (Some (0, k))).
Proof.
  intros j. revert f. induction j as [|j IH]; intros f L1 L2; [rewrite Nat.add_0_r; reflexivity|].
  replace (S j + f) with (j + S f) by lia. rewrite IH by lia. cbn [loop_rounds].
  destruct (step_a k j) as (-> & ->); [lia|lia|]. replace (k + S j) with (S (k + j)) by lia. lia.
Qed.
Lemma run_k k f : k + m < n ->
  loop_rounds (m + 2 + f) false u p (GState 1 k false (Some (0, k))) = (m + 3) + loop_rounds f false u p (GState 1 (S k) false (Some (0, S k))).
Proof.
  intro L. replace (m + 2 + f) with (m + S (S f)) by lia. rewrite run_a by lia.
  assert (E : forall st, loop_rounds (S (S f)) false u p st = step_rounds false u p st + match glob_step false u p st with inl st' => loop_rounds (S f) false u p st' | inr _ => 0 end) by reflexivity.
  rewrite E. destruct (step_b k L) as (-> & ->).
  assert (E2 : forall st, loop_rounds (S f) false u p st = step_rounds false u p st + match glob_step false u p st with inl st' => loop_rounds f false u p st' | inr _ => 0 end) by reflexivity.
  rewrite E2. destruct (step_back k L) as (-> & ->). lia.
Qed.
Lemma run_all : forall j k, k + j + m <= n ->
  j * (m + 3) <= loop_rounds (j * (m + 2)) false u p (GState 1 k false (Some (0, k))).
Proof.
  induction j as [|j IH]; intros k L; [apply Nat.le_0_l|]. rewrite !Nat.mul_succ_l. replace (j * (m + 2) + (m + 2)) with (m + 2 + j * (m + 2)) by lia.
  rewrite run_k by lia. specialize (IH (S k) ltac:(lia)). lia.
Qed.

Lemma hard_rounds : m < n -> (n - m) * (m + 3) <= segment_rounds (S ((n - m) * (m + 2))) false u p.
Proof.
  intro L. unfold segment_rounds. cbv zeta. assert (E : existsb (fun c => Ascii.eqb c star) p = true) by reflexivity. rewrite E. cbn [negb andb loop_rounds].
  assert (G : glob_step false u p (GState 0 0 false None) = inl (GState 1 0 false (Some (0, 0)))).
  { unfold glob_step. cbn [g_p g_u g_restore g_ck]. rewrite piece_len, text_len. destruct (Nat.eqb_spec 0 (m + 2)); [lia|]. destruct (Nat.eqb_spec 0 n); [lia|]. cbn [andb orb].
    rewrite (text_at 0) by lia. change (nth_error p 0) with (Some star). change (Ascii.eqb star qmark) with false. change (Ascii.eqb star star) with true. cbv iota zeta.
    rewrite skip_here. destruct (Nat.eqb_spec 0 (m + 2 - 1)); [lia|]. rewrite (piece_at 0) by lia. destruct (text_from 0) as (l & ->); [lia|]. reflexivity. }
  rewrite G. pose proof (run_all (n - m) 0 ltac:(lia)) as R. lia.
Qed.
End Order.

(** The search behind a star. *)
Lemma find_far x y n : x <> y -> y <> "?"%char -> forall i, find_next false (repeat x n ++ [y]) i y = Some (i + n) /\ find_rounds false (repeat x n ++ [y]) y = S n.
Proof.
  intros N Q. assert (Yq : Ascii.eqb y qmark = false) by now apply Ascii.eqb_neq.
  induction n as [|n IH]; intro i; cbn [repeat List.app find_next find_rounds]; unfold runes_match; rewrite Yq.
  - rewrite Ascii.eqb_refl, Nat.add_0_r. split; reflexivity.
  - destruct (Ascii.eqb_spec x y); [congruence|]. destruct (IH (S i)) as (A & B). rewrite A, B. split; [apply f_equal; lia|reflexivity].
Qed.
Lemma far_rounds x y n f : x <> y -> y <> "?"%char -> y <> "*"%char -> segment_rounds (3 + f) false (repeat x n ++ [y]) ["*"%char; y] = n + 4.
Proof.
  intros N Q R. unfold segment_rounds. cbv zeta. assert (E : existsb (fun c => Ascii.eqb c star) ["*"%char; y] = true) by reflexivity. rewrite E. cbn [negb andb].
  assert (Yq : Ascii.eqb y qmark = false) by now apply Ascii.eqb_neq. assert (Ys : Ascii.eqb y star = false) by now apply Ascii.eqb_neq.
  assert (LU : List.length (repeat x n ++ [y]) = S n) by (rewrite app_length, repeat_length; cbn; lia).
  destruct (find_far x y n N Q 0) as (F1 & F2). set (u := repeat x n ++ [y]) in *.
  assert (U0 : exists c, nth_error u 0 = Some c) by (destruct (nth_error u 0) eqn:Z; [eauto|apply nth_error_None in Z; lia]). destruct U0 as (c0 & U0).
  assert (Un : nth_error u n = Some y) by (unfold u; rewrite nth_error_app2 by (rewrite repeat_length; lia); rewrite repeat_length, Nat.sub_diag; reflexivity).
  assert (SK : skip_stars [y] 1 0 = 0) by (cbn [skip_stars]; rewrite Ys; reflexivity).
  assert (S1 : glob_step false u ["*"%char; y] (GState 0 0 false None) = inl (GState 1 n false (Some (0, n))) /\ step_rounds false u ["*"%char; y] (GState 0 0 false None) = S (S n)).
  { unfold glob_step, step_rounds. cbn [g_p g_u g_restore g_ck List.length]. rewrite LU. cbn [Nat.eqb andb orb]. rewrite U0. cbn [nth_error].
    change (Ascii.eqb "*" qmark) with false. change (Ascii.eqb "*" star) with true. cbv iota zeta. change (skipn 1 ["*"%char; y]) with [y]. rewrite SK. cbn [Nat.eqb Nat.sub nth_error skipn].
    rewrite F1, F2. split; reflexivity. }
  assert (S2 : glob_step false u ["*"%char; y] (GState 1 n false (Some (0, n))) = inl (GState 2 (S n) false (Some (0, n))) /\ step_rounds false u ["*"%char; y] (GState 1 n false (Some (0, n))) = 1).
  { unfold glob_step, step_rounds. cbn [g_p g_u g_restore g_ck List.length]. rewrite LU. destruct (Nat.eqb_spec n (S n)); [lia|]. cbn [Nat.eqb andb orb]. rewrite Un. cbn [nth_error].
    rewrite Yq, Ys. unfold runes_match. rewrite Yq, Ascii.eqb_refl. split; reflexivity. }
  assert (S3 : glob_step false u ["*"%char; y] (GState 2 (S n) false (Some (0, n))) = inr (GRet true) /\ step_rounds false u ["*"%char; y] (GState 2 (S n) false (Some (0, n))) = 1).
  { unfold glob_step, step_rounds. cbn [g_p g_u g_restore g_ck List.length]. rewrite LU. rewrite !Nat.eqb_refl. split; reflexivity. }
  change (3 + f) with (S (S (S f))). cbn [loop_rounds]. destruct S1 as (-> & ->). destruct S2 as (-> & ->). destruct S3 as (-> & ->). lia.
Qed.
