(** * The states of logins follow from earlier ones *)
From Coq Require Import List NArith ZArith Ascii String Bool Lia Arith.
From Verif Require Import GoBase OAuth_Model OAuth_Spec Rand_Model Rand_Spec.
Import ListNotations.
Local Open Scope Z_scope.

(** ** The words after some calls *)

Fixpoint after (n : nat) (g : rng) : rng := match n with O => g | S m => snd (rng_uint64 (after m g)) end.
Definition out (g : rng) (n : nat) : N := fst (rng_uint64 (after n g)).

(** The word that call [n] writes. *)
Definition spot (g : rng) (n : nat) : Z := (rg_feed g - 1 - Z.of_nat n) mod 607.

Lemma down_mod i k : 0 <= i < 607 -> i = k mod 607 -> step_down i = (k - 1) mod 607.
Proof.
  intros R ->. unfold step_down. pose proof (Z.mod_pos_bound k 607 ltac:(lia)) as B.
  pose proof (Z.div_mod k 607 ltac:(lia)) as D. destruct (Z.ltb_spec (k mod 607 - 1) 0) as [L|L].
  - apply Z.mod_unique with (q := k / 607 - 1); lia.
  - apply Z.mod_unique with (q := k / 607); lia.
Qed.
Lemma after_spots g n : in_use g -> rg_feed (after n g) = (rg_feed g - Z.of_nat n) mod 607 /\ rg_tap (after n g) = (rg_tap g - Z.of_nat n) mod 607.
Proof.
  intros (L & T & F & D). induction n as [|n [IHf IHt]].
  - cbn [after]. rewrite !Z.sub_0_r, !Z.mod_small by lia. auto.
  - cbn [after rng_uint64 snd rg_feed rg_tap].
    assert (Bf : 0 <= rg_feed (after n g) < 607) by (rewrite IHf; apply Z.mod_pos_bound; lia).
    assert (Bt : 0 <= rg_tap (after n g) < 607) by (rewrite IHt; apply Z.mod_pos_bound; lia).
    rewrite (down_mod _ _ Bf IHf), (down_mod _ _ Bt IHt). split; f_equal; lia.
Qed.
Lemma put_length : forall l i x, List.length (put_word i x l) = List.length l.
Proof. induction l as [|y l IH]; intros [|i] x; cbn; auto. Qed.
Lemma put_same : forall l i x, (i < List.length l)%nat -> nth i (put_word i x l) 0%N = x.
Proof. induction l as [|y l IH]; intros [|i] x H; cbn in *; [lia|lia|reflexivity|apply IH; lia]. Qed.
Lemma put_other : forall l i j x, i <> j -> nth j (put_word i x l) 0%N = nth j l 0%N.
Proof. induction l as [|y l IH]; intros [|i] [|j] x H; cbn; try reflexivity; [congruence|apply IH; congruence]. Qed.
Lemma after_length g n : List.length (rg_vec (after n g)) = List.length (rg_vec g).
Proof. induction n as [|n IH]; [reflexivity|]. cbn [after rng_uint64 snd rg_vec]. rewrite put_length. exact IH. Qed.

(** The word of a call stays until 607 calls later. *)
Lemma mod_same a b : a mod 607 = b mod 607 -> exists k, a = b + 607 * k.
Proof.
  intros E. exists (a / 607 - b / 607). pose proof (Z.div_mod a 607 ltac:(lia)). pose proof (Z.div_mod b 607 ltac:(lia)). lia.
Qed.
Lemma written g n : in_use g -> forall m, (m < n)%nat -> (n - m <= 607)%nat -> word_at (spot g m) (rg_vec (after n g)) = out g m.
Proof.
  intros U. pose proof U as (L & _). induction n as [|n IH]; intros m M N; [lia|].
  destruct (after_spots g n U) as [Fn _].
  assert (Bn : 0 <= (rg_feed g - Z.of_nat n) mod 607 < 607) by (apply Z.mod_pos_bound; lia).
  assert (Sn : step_down (rg_feed (after n g)) = spot g n).
  { rewrite (down_mod _ (rg_feed g - Z.of_nat n)); [unfold spot; f_equal; lia|rewrite Fn; exact Bn|exact Fn]. }
  cbn [after rng_uint64 snd rg_vec]. rewrite Sn. unfold word_at at 1.
  assert (B : forall j, 0 <= spot g j < 607) by (intros j; apply Z.mod_pos_bound; lia).
  destruct (Nat.eq_dec m n) as [->|Ne].
  - rewrite put_same; [unfold out, rng_uint64; rewrite Sn; reflexivity|]. rewrite after_length, L. specialize (B n). lia.
  - rewrite put_other; [apply IH; lia|]. intros E. pose proof (B n). pose proof (B m). apply Z2Nat.inj in E; try lia.
    unfold spot in E. apply mod_same in E. destruct E as [k E]. nia.
Qed.

(** The recurrence. *)
Lemma recurrence g n : in_use g -> (607 <= n)%nat -> out g n = ((out g (n - 607) + out g (n - 273)) mod 2 ^ 64)%N.
Proof.
  intros U N. destruct (after_spots g n U) as [Fn Tn]. pose proof U as (L & T & F & D).
  assert (Sf : step_down (rg_feed (after n g)) = spot g (n - 607)).
  { rewrite (down_mod _ (rg_feed g - Z.of_nat n)); [|rewrite Fn; apply Z.mod_pos_bound; lia|exact Fn].
    unfold spot. rewrite Nat2Z.inj_sub by lia. replace (rg_feed g - 1 - (Z.of_nat n - Z.of_nat 607)) with (rg_feed g - Z.of_nat n - 1 + 1 * 607) by lia.
    rewrite Z_mod_plus_full. reflexivity. }
  assert (St : step_down (rg_tap (after n g)) = spot g (n - 273)).
  { rewrite (down_mod _ (rg_tap g - Z.of_nat n)); [|rewrite Tn; apply Z.mod_pos_bound; lia|exact Tn].
    unfold spot. rewrite Nat2Z.inj_sub by lia. destruct D as [D|D].
    - replace (rg_feed g - 1 - (Z.of_nat n - Z.of_nat 273)) with (rg_tap g - Z.of_nat n - 1 + 1 * 607) by lia. rewrite Z_mod_plus_full. reflexivity.
    - f_equal. lia. }
  unfold out at 1, rng_uint64. cbn [fst]. rewrite Sf, St, !written by (try exact U; lia). reflexivity.
Qed.

(** ** Letters *)

Definition draw (g : rng) (n : nat) : N := (out g n mod 2 ^ 63)%N.

Lemma draw_sum a b : let y := (((a + b) mod 2 ^ 64) mod 2 ^ 63)%N in
  (y mod 36 = (a mod 2 ^ 63 mod 36 + b mod 2 ^ 63 mod 36) mod 36 \/ y mod 36 = (a mod 2 ^ 63 mod 36 + b mod 2 ^ 63 mod 36 + 28) mod 36)%N.
Proof.
  cbv zeta.
  assert (E : (((a + b) mod 2 ^ 64) mod 2 ^ 63 = (a mod 2 ^ 63 + b mod 2 ^ 63) mod 2 ^ 63)%N).
  { rewrite <- N.add_mod by discriminate. change (2 ^ 64)%N with (2 ^ 63 * 2)%N. rewrite N.mod_mul_r by discriminate.
    rewrite N.mul_comm, N.mod_add by discriminate. apply N.mod_mod. discriminate. }
  rewrite E. set (u := (a mod 2 ^ 63)%N). set (v := (b mod 2 ^ 63)%N).
  assert (Hu : (u < 2 ^ 63)%N) by (apply N.mod_lt; discriminate). assert (Hv : (v < 2 ^ 63)%N) by (apply N.mod_lt; discriminate). clearbody u v. clear E a b.
  destruct (N.lt_ge_cases (u + v) (2 ^ 63)) as [C|C].
  - left. rewrite (N.mod_small (u + v)) by exact C. apply N.add_mod. discriminate.
  - right. assert (M : ((u + v) mod 2 ^ 63 = u + v - 2 ^ 63)%N) by (symmetry; apply N.mod_unique with (q := 1%N); lia). rewrite M.
    rewrite <- (N.add_mod_idemp_l (u mod 36 + v mod 36)), <- (N.add_mod u v) by discriminate. rewrite N.add_mod_idemp_l by discriminate.
    replace (u + v + 28)%N with (u + v - 2 ^ 63 + 256204778801521551 * 36)%N; [symmetry; apply N.mod_add; discriminate|].
    change (2 ^ 63)%N with 9223372036854775808%N in *. lia.
Qed.

Definition letters : bytes := Eval compute in str "abcdefghijklmnopqrstuvwxyz1234567890".
Definition letter (n : N) : byte := nth (N.to_nat n) letters "?"%char.
Fixpoint place (c : byte) (l : bytes) : N := match l with [] => 0 | d :: r => if Ascii.eqb d c then 0 else N.succ (place c r) end.

Lemma all_letters : forallb (fun n => (place (letter n) letters =? n)%N) (map N.of_nat (seq 0 36)) = true.
Proof. vm_compute. reflexivity. Qed.
Lemma place_letter n : (n < 36)%N -> place (letter n) letters = n.
Proof.
  intros H. pose proof all_letters as A. rewrite forallb_forall in A. apply N.eqb_eq, A. apply in_map_iff. exists (N.to_nat n).
  split; [apply N2Nat.id|]. apply in_seq. lia.
Qed.
Lemma letter_place c : In c letters -> (place c letters < 36)%N /\ letter (place c letters) = c.
Proof.
  intros H. assert (A : forallb (fun c => (place c letters <? 36)%N && Ascii.eqb (letter (place c letters)) c) letters = true) by (vm_compute; reflexivity).
  rewrite forallb_forall in A. specialize (A c H). apply andb_true_iff in A. destruct A as [A B]. apply N.ltb_lt in A. apply Ascii.eqb_eq in B. auto.
Qed.

(** Letter [i] of a state. *)
Lemma unique_nth : forall len rnd i, (i < len)%nat -> nth i (generate_unique_id len rnd) "?"%char = letter (rnd i mod 36).
Proof.
  induction len as [|len IH]; intros rnd i H; [lia|]. cbn [generate_unique_id]. destruct i as [|i]; [reflexivity|]. cbn [nth]. apply (IH (fun i => rnd (S i))). lia.
Qed.
Lemma unique_length : forall len rnd, List.length (generate_unique_id len rnd) = len.
Proof. induction len as [|len IH]; intros rnd; cbn; auto. Qed.

(** The draws of the requests. *)
Lemma int63_out g : rng_int63 g = (draw g 0, after 1 g).
Proof. unfold rng_int63, draw, out. cbn [after]. destruct (rng_uint64 g). reflexivity. Qed.
Lemma after_add n m g : after n (after m g) = after (n + m) g.
Proof. induction n as [|n IH]; [reflexivity|]. cbn [after Nat.add]. rewrite IH. reflexivity. Qed.
Lemma draw_after g m n : draw (after m g) n = draw g (n + m).
Proof. unfold draw, out. rewrite after_add. reflexivity. Qed.
Lemma draws_are : forall len g, snd (rng_draws len g) = after len g /\ forall i, (i < len)%nat -> nth i (fst (rng_draws len g)) 0%N = draw g i.
Proof.
  induction len as [|len IH]; intros g; [split; [reflexivity|intros; lia]|].
  cbn [rng_draws]. rewrite int63_out. destruct (IH (after 1 g)) as [A B]. destruct (rng_draws len (after 1 g)) as [ys g2]. cbn [fst snd] in *.
  split; [rewrite A, after_add, Nat.add_1_r; reflexivity|]. intros [|i] H; [reflexivity|]. cbn [nth]. rewrite B by lia. rewrite draw_after, Nat.add_1_r. reflexivity.
Qed.

Lemma turn_letters : forall qs g k q i, in_turn g qs -> nth_error qs k = Some q -> (i < 12)%nat ->
  nth i (state_of q) "?"%char = letter (draw g (12 * k + i) mod 36).
Proof.
  induction qs as [|q0 qs IH]; intros g k q i T N I; [destruct k; discriminate|]. cbn [in_turn] in T. destruct T as [H T].
  destruct (draws_are 12 g) as [A B]. destruct k as [|k].
  - cbn in N. injection N as <-. unfold state_of. rewrite unique_nth by exact I. rewrite H, B by exact I. reflexivity.
  - cbn [nth_error] in N. rewrite A in T. rewrite (IH _ _ _ _ T N I), draw_after. do 3 f_equal. lia.
Qed.

Lemma step_letters g n : in_use g -> (607 <= n)%nat ->
  In (letter (draw g n mod 36))
    [letter ((place (letter (draw g (n - 607) mod 36)) letters + place (letter (draw g (n - 273) mod 36)) letters) mod 36);
     letter ((place (letter (draw g (n - 607) mod 36)) letters + place (letter (draw g (n - 273) mod 36)) letters + 28) mod 36)].
Proof.
  intros U N. rewrite !place_letter by (apply N.mod_lt; discriminate).
  unfold draw at 1. rewrite recurrence by assumption. destruct (draw_sum (out g (n - 607)) (out g (n - 273))) as [E|E]; rewrite E; [left|right; left]; reflexivity.
Qed.

(** ** Guessing *)

Fixpoint choices (l : list (list byte)) : list bytes :=
  match l with [] => [[]] | cs :: r => flat_map (fun c => map (cons c) (choices r)) cs end.
Lemma choices_in : forall l s, Forall2 (fun c cs => In c cs) s l -> In s (choices l).
Proof.
  intros l s F. induction F as [|c cs s l H F IH]; [left; reflexivity|]. cbn [choices]. apply in_flat_map. exists c. split; [exact H|]. apply in_map. exact IH.
Qed.
Lemma choices_length : forall l, Forall (fun cs => List.length cs = 2%nat) l -> List.length (choices l) = (2 ^ List.length l)%nat.
Proof.
  intros l F. induction F as [|cs l H F IH]; [reflexivity|]. destruct cs as [|c [|d [|]]]; try discriminate.
  cbn [choices flat_map List.length Nat.pow]. rewrite !app_length, !map_length, IH. cbn [List.length]. lia.
Qed.

(** The letter at a place of the states that were seen. *)
Definition seen_letter (seen : list bytes) (n : nat) : byte := nth (n mod 12) (nth (n / 12) seen []) "?"%char.
Definition pair_for (seen : list bytes) (n : nat) : list byte :=
  let s := (place (seen_letter seen (n - 607)) letters + place (seen_letter seen (n - 273)) letters)%N in
  [letter (s mod 36); letter ((s + 28) mod 36)].
Definition guesses (skipped : nat) (seen : list bytes) : list bytes :=
  choices (map (fun i => pair_for seen (12 * (List.length seen + skipped) + i)) (seq 0 12)).

Lemma guesses_length k seen : List.length (guesses k seen) = (2 ^ 12)%nat.
Proof.
  unfold guesses. rewrite choices_length; [rewrite map_length, seq_length; reflexivity|]. apply Forall_forall. intros cs H.
  apply in_map_iff in H. destruct H as [i [<- _]]. reflexivity.
Qed.

Lemma seen_at g seen rest n : in_turn g (seen ++ rest) -> (n < 12 * List.length seen)%nat ->
  seen_letter (map state_of seen) n = letter (draw g n mod 36).
Proof.
  intros T N. unfold seen_letter. pose proof (Nat.div_mod n 12 ltac:(discriminate)) as D. pose proof (Nat.mod_upper_bound n 12 ltac:(discriminate)) as M.
  destruct (nth_error seen (n / 12)) as [q|] eqn:E.
  - assert (E1 : nth (n / 12) (map state_of seen) [] = state_of q) by (apply nth_error_nth; rewrite nth_error_map, E; reflexivity).
    rewrite E1. rewrite (turn_letters (seen ++ rest) g (n / 12) q (n mod 12) T); [rewrite <- D; reflexivity| |exact M].
    rewrite nth_error_app1; [exact E|]. apply nth_error_Some. congruence.
  - apply nth_error_None in E. apply Nat.div_le_lower_bound in E || idtac. exfalso. assert (X : (12 * List.length seen <= n)%nat) by lia. lia.
Qed.

Lemma Forall2_nth (A B : Type) (R : A -> B -> Prop) (l : list A) (l' : list B) d d' : List.length l = List.length l' ->
  (forall i, (i < List.length l)%nat -> R (nth i l d) (nth i l' d')) -> Forall2 R l l'.
Proof.
  revert l'. induction l as [|x l IH]; intros [|y l'] L H; try discriminate; constructor.
  - apply (H 0%nat). cbn. lia.
  - apply IH; [cbn in L; congruence|]. intros i I. apply (H (S i)). cbn. lia.
Qed.

Lemma predicted : exists guesses : nat -> list bytes -> list bytes,
  (forall k seen, List.length (guesses k seen) = (2 ^ 12)%nat) /\
  forall g seen between q, in_use g -> in_turn g (seen ++ between ++ [q]) ->
    (51 <= List.length seen)%nat -> (List.length between <= 21)%nat ->
    In (state_of q) (guesses (List.length between) (map state_of seen)).
Proof.
  exists guesses. split; [exact guesses_length|]. intros g seen between q U T L1 L2. apply choices_in.
  apply Forall2_nth with (d := "?"%char) (d' := []); [unfold state_of; rewrite unique_length, map_length, seq_length; reflexivity|].
  unfold state_of at 1. rewrite unique_length. intros i I.
  rewrite (nth_indep _ [] (pair_for (map state_of seen) (12 * (List.length (map state_of seen) + List.length between) + 0))) by (rewrite map_length, seq_length; exact I).
  rewrite (map_nth (fun i => pair_for (map state_of seen) (12 * (List.length (map state_of seen) + List.length between) + i)) (seq 0 12) 0%nat i).
  rewrite seq_nth by exact I. rewrite map_length. cbn [Nat.add].
  assert (E : nth_error (seen ++ between ++ [q]) (List.length seen + List.length between) = Some q).
  { rewrite nth_error_app2 by lia. rewrite nth_error_app2 by lia. replace (_ - _ - _)%nat with 0%nat by lia. reflexivity. }
  rewrite (turn_letters _ g _ q i T E I). set (n := (12 * (List.length seen + List.length between) + i)%nat).
  unfold pair_for. rewrite !(seen_at g seen (between ++ [q])) by (try exact T; unfold n; lia). cbv zeta. apply step_letters; [exact U|unfold n; lia].
Qed.

(** ** Every text can be among the first fifty *)

Lemma untouched g n i : in_use g -> (forall m, (m < n)%nat -> spot g m <> i) -> 0 <= i < 607 -> word_at i (rg_vec (after n g)) = word_at i (rg_vec g).
Proof.
  intros U. induction n as [|n IH]; intros H R; [reflexivity|]. destruct (after_spots g n U) as [Fn _].
  assert (Bn : 0 <= rg_feed (after n g) < 607) by (rewrite Fn; apply Z.mod_pos_bound; lia).
  assert (Sn : step_down (rg_feed (after n g)) = spot g n) by (rewrite (down_mod _ _ Bn Fn); unfold spot; f_equal; lia).
  cbn [after rng_uint64 snd rg_vec]. rewrite Sn. unfold word_at at 1. rewrite put_other; [apply IH; [intros; apply H; lia|exact R]|].
  intros E. pose proof (Z.mod_pos_bound (rg_feed g - 1 - Z.of_nat n) 607 ltac:(lia)) as B. fold (spot g n) in B. apply Z2Nat.inj in E; try lia.
  exact (H n ltac:(lia) E).
Qed.

(** The words that make the first 607 numbers these. *)
Definition word_for (x : nat -> Z) (i : nat) : N :=
  Z.to_N ((if (i <=? 60)%nat then x (333 - i)%nat - x (60 - i)%nat
           else if (i <=? 333)%nat then x (333 - i)%nat - x (667 - i)%nat + x (394 - i)%nat
           else x (940 - i)%nat - x (667 - i)%nat) mod 2 ^ 64).
Definition made (x : nat -> Z) : rng := Rng 0 334 (map (word_for x) (seq 0 607)).

Lemma made_use x : in_use (made x).
Proof. unfold in_use, made. cbn [rg_vec rg_tap rg_feed]. rewrite map_length, seq_length. repeat split; lia. Qed.
Lemma made_word x i : 0 <= i < 607 -> word_at i (rg_vec (made x)) = word_for x (Z.to_nat i).
Proof.
  intros R. unfold word_at, made. cbn [rg_vec]. rewrite (nth_indep _ 0%N (word_for x 0)) by (rewrite map_length, seq_length; lia).
  rewrite (map_nth (word_for x) (seq 0 607) 0%nat), seq_nth by lia. reflexivity.
Qed.
Lemma word_sum (a b c : Z) : 0 <= c < 2 ^ 64 -> (exists k, a + b = c + 2 ^ 64 * k) ->
  ((Z.to_N (a mod 2 ^ 64) + Z.to_N (b mod 2 ^ 64)) mod 2 ^ 64)%N = Z.to_N c.
Proof.
  intros C [k E]. pose proof (Z.mod_pos_bound a (2 ^ 64) ltac:(lia)). pose proof (Z.mod_pos_bound b (2 ^ 64) ltac:(lia)).
  apply N2Z.inj. rewrite N2Z.inj_mod, N2Z.inj_add, !Z2N.id by lia. change (Z.of_N (2 ^ 64)) with (2 ^ 64).
  rewrite <- Z.add_mod by lia. rewrite E, Z.mul_comm, Z_mod_plus_full. apply Z.mod_small. exact C.
Qed.
Lemma made_spot x n : (n < 607)%nat -> spot (made x) n = if (n <=? 333)%nat then 333 - Z.of_nat n else 940 - Z.of_nat n.
Proof.
  intros H. unfold spot, made. cbn [rg_feed]. destruct (Nat.leb_spec n 333).
  - rewrite Z.mod_small by lia. lia.
  - symmetry. apply Z.mod_unique with (q := -1); lia.
Qed.

Lemma made_out x : (forall n, 0 <= x n < 2 ^ 64) -> forall n, (n < 607)%nat -> out (made x) n = Z.to_N (x n).
Proof.
  intros X. induction n as [n IH] using lt_wf_ind. intros N.
  pose proof (made_use x) as U. destruct (after_spots (made x) n U) as [Fn Tn]. change (rg_feed (made x)) with 334 in Fn. change (rg_tap (made x)) with 0 in Tn.
  assert (Bf : 0 <= rg_feed (after n (made x)) < 607) by (rewrite Fn; apply Z.mod_pos_bound; lia).
  assert (Bt : 0 <= rg_tap (after n (made x)) < 607) by (rewrite Tn; apply Z.mod_pos_bound; lia).
  assert (Sf : step_down (rg_feed (after n (made x))) = spot (made x) n) by (rewrite (down_mod _ _ Bf Fn); unfold spot; f_equal; change (rg_feed (made x)) with 334; lia).
  assert (St : step_down (rg_tap (after n (made x))) = 606 - Z.of_nat n).
  { rewrite (down_mod _ _ Bt Tn). symmetry. apply Z.mod_unique with (q := -1); lia. }
  assert (Wf : word_at (spot (made x) n) (rg_vec (after n (made x))) = word_for x (Z.to_nat (spot (made x) n))).
  { rewrite untouched; [apply made_word|exact U| |]; try (apply Z.mod_pos_bound; lia).
    intros m M. rewrite !made_spot by lia. destruct (Nat.leb_spec m 333), (Nat.leb_spec n 333); lia. }
  unfold out, rng_uint64. cbn [fst]. rewrite Sf, St, Wf, made_spot by exact N.
  destruct (Nat.lt_ge_cases n 273) as [L|L].
  - rewrite untouched; [|exact U| |lia].
    2:{ intros m M. rewrite made_spot by lia. destruct (Nat.leb_spec m 333); lia. }
    rewrite made_word by lia. destruct (Nat.leb_spec n 333); [|lia].
    unfold word_for. destruct (Nat.leb_spec (Z.to_nat (333 - Z.of_nat n)) 60); [lia|]. destruct (Nat.leb_spec (Z.to_nat (333 - Z.of_nat n)) 333); [|lia].
    destruct (Nat.leb_spec (Z.to_nat (606 - Z.of_nat n)) 60); [lia|]. destruct (Nat.leb_spec (Z.to_nat (606 - Z.of_nat n)) 333); [lia|].
    replace (333 - Z.to_nat (333 - Z.of_nat n))%nat with n by lia. replace (940 - Z.to_nat (606 - Z.of_nat n))%nat with (667 - Z.to_nat (333 - Z.of_nat n))%nat by lia.
    replace (667 - Z.to_nat (606 - Z.of_nat n))%nat with (394 - Z.to_nat (333 - Z.of_nat n))%nat by lia.
    apply word_sum; [apply X|]. exists 0. lia.
  - assert (Es : 606 - Z.of_nat n = spot (made x) (n - 273)) by (rewrite made_spot by lia; destruct (Nat.leb_spec (n - 273) 333); lia).
    rewrite Es, written by (try exact U; lia). rewrite IH by lia.
    assert (Small : Z.to_N (x (n - 273)%nat) = Z.to_N (x (n - 273)%nat mod 2 ^ 64)) by (rewrite Z.mod_small by apply X; reflexivity). rewrite Small.
    destruct (Nat.leb_spec n 333) as [M|M]; unfold word_for.
    + destruct (Nat.leb_spec (Z.to_nat (333 - Z.of_nat n)) 60); [|lia].
      replace (333 - Z.to_nat (333 - Z.of_nat n))%nat with n by lia. replace (60 - Z.to_nat (333 - Z.of_nat n))%nat with (n - 273)%nat by lia.
      apply word_sum; [apply X|]. exists 0. lia.
    + destruct (Nat.leb_spec (Z.to_nat (940 - Z.of_nat n)) 60); [lia|]. destruct (Nat.leb_spec (Z.to_nat (940 - Z.of_nat n)) 333); [lia|].
      replace (940 - Z.to_nat (940 - Z.of_nat n))%nat with n by lia. replace (667 - Z.to_nat (940 - Z.of_nat n))%nat with (n - 273)%nat by lia.
      apply word_sum; [apply X|]. exists 0. lia.
Qed.

Lemma turn_from : forall qs g, (forall k q i, nth_error qs k = Some q -> (i < 12)%nat -> oq_random q i = draw g (12 * k + i)) -> in_turn g qs.
Proof.
  induction qs as [|q qs IH]; intros g H; [exact I|]. cbn [in_turn]. destruct (draws_are 12 g) as [A B]. split.
  - intros i Hi. rewrite B by exact Hi. rewrite (H 0%nat q i eq_refl Hi). f_equal.
  - apply IH. intros k q' i N Hi. rewrite A, draw_after, (H (S k) q' i N Hi). f_equal. lia.
Qed.

(** A request of a visitor with these numbers drawn. *)
Definition request_with (r : nat -> N) : oreq := OReq true [] [] 0 r.

Lemma any_first (ss : list bytes) : (List.length ss <= 50)%nat -> Forall state_text ss ->
  exists g qs, in_use g /\ in_turn g qs /\ map state_of qs = ss.
Proof.
  intros L F. pose (x := fun n => Z.of_N (place (seen_letter ss n) letters)).
  assert (P : forall n, (n < 12 * List.length ss)%nat -> In (seen_letter ss n) letters).
  { intros n H. unfold seen_letter. assert (K : (n / 12 < List.length ss)%nat) by (apply Nat.div_lt_upper_bound; lia).
    rewrite Forall_forall in F. destruct (F (nth (n / 12) ss []) (nth_In _ _ K)) as [A B]. change (str "abcdefghijklmnopqrstuvwxyz1234567890") with letters in B.
    apply B, nth_In. rewrite A. apply Nat.mod_upper_bound. discriminate. }
  assert (Pl : forall c, (place c letters <= 36)%N).
  { intros c. unfold letters. cbn [place]. repeat (match goal with |- context [if ?b then _ else _] => destruct b; [lia|] end). lia. }
  assert (X : forall n, 0 <= x n < 2 ^ 64) by (intros n; unfold x; specialize (Pl (seen_letter ss n)); lia).
  set (qs := map (fun k => request_with (fun i => draw (made x) (12 * k + i))) (seq 0 (List.length ss))).
  assert (N : forall k, (k < List.length ss)%nat -> nth_error qs k = Some (request_with (fun i => draw (made x) (12 * k + i)))).
  { intros k K. unfold qs. rewrite nth_error_map, (nth_error_nth' _ 0%nat) by (rewrite seq_length; exact K). rewrite seq_nth by exact K. reflexivity. }
  assert (T : in_turn (made x) qs).
  { apply turn_from. intros k q i E I. assert (K : (k < List.length ss)%nat) .
    { assert (E' : nth_error qs k <> None) by congruence. apply nth_error_Some in E'. unfold qs in E'. rewrite map_length, seq_length in E'. exact E'. }
    rewrite (N k K) in E. injection E as <-. reflexivity. }
  exists (made x), qs. split; [apply made_use|]. split; [exact T|].
  apply (nth_ext _ _ [] []); [unfold qs; rewrite !map_length, seq_length; reflexivity|]. intros k K. unfold qs in K. rewrite !map_length, seq_length in K.
  specialize (N k K). rewrite (nth_error_nth (map state_of qs) k [] (x := state_of (request_with (fun i => draw (made x) (12 * k + i))))) by (rewrite nth_error_map, N; reflexivity).
  rewrite Forall_forall in F. destruct (F (nth k ss []) (nth_In _ _ K)) as [A _].
  apply (nth_ext _ _ "?"%char "?"%char); [rewrite A; apply unique_length|]. unfold state_of at 1. rewrite unique_length. intros i I.
  rewrite (turn_letters qs (made x) k _ i T N I). unfold draw. rewrite made_out by (try exact X; lia). unfold x. rewrite N2Z.id.
  assert (Q : ((12 * k + i) / 12 = k)%nat) by (symmetry; apply Nat.div_unique with (r := i); lia).
  assert (R : ((12 * k + i) mod 12 = i)%nat) by (symmetry; apply Nat.mod_unique with (q := k); lia).
  assert (Sl : seen_letter ss (12 * k + i) = nth i (nth k ss []) "?"%char) by (unfold seen_letter; rewrite Q, R; reflexivity).
  destruct (letter_place (seen_letter ss (12 * k + i)) (P (12 * k + i)%nat ltac:(lia))) as [B C].
  rewrite (N.mod_small _ (2 ^ 63)), N.mod_small by (try exact B; change (2 ^ 63)%N with 9223372036854775808%N; lia). rewrite C, Sl. reflexivity.
Qed.

(** A generator with words from a small recurrence, and fifty-two visitors. *)
Fixpoint filled (n : nat) (w : N) : list N := match n with O => [] | S m => w :: filled m ((w * 6364136223846793005 + 1442695040888963407) mod 2 ^ 64) end.
Definition some_rng : rng := Rng 0 334 (filled 607 1).
Fixpoint visitors (n : nat) (g : rng) : list oreq :=
  match n with O => [] | S m => request_with (fun i => nth i (fst (rng_draws 12 g)) 0%N) :: visitors m (snd (rng_draws 12 g)) end.
Lemma visitors_turn : forall n g, in_turn g (visitors n g).
Proof. induction n as [|n IH]; intros g; [exact I|]. cbn [visitors in_turn]. split; [reflexivity|apply IH]. Qed.

Lemma rand_case :
  in_use some_rng /\ (exists seen q, visitors 52 some_rng = seen ++ [] ++ [q] /\ List.length seen = 51%nat /\ in_turn some_rng (seen ++ [] ++ [q]) /\
    state_of q = str "7vwdmbcl7j92") /\
  (exists seen q, visitors 73 some_rng = seen ++ firstn 21 (skipn 51 (visitors 73 some_rng)) ++ [q] /\ List.length seen = 51%nat /\
    state_of q = str "ucmces3gqsm5") /\
  Forall state_text (repeat (str "state0state1") 50).
Proof.
  split; [unfold in_use, some_rng; cbn [rg_tap rg_feed]; split; [vm_compute; reflexivity|lia]|].
  split; [|split].
  - exists (firstn 51 (visitors 52 some_rng)), (nth 51 (visitors 52 some_rng) (request_with (fun _ => 0%N))).
    assert (E : visitors 52 some_rng = firstn 51 (visitors 52 some_rng) ++ [] ++ [nth 51 (visitors 52 some_rng) (request_with (fun _ => 0%N))]) by reflexivity.
    split; [exact E|]. split; [reflexivity|]. split; [rewrite <- E; apply visitors_turn|]. vm_compute. reflexivity.
  - exists (firstn 51 (visitors 73 some_rng)), (nth 72 (visitors 73 some_rng) (request_with (fun _ => 0%N))).
    split; [reflexivity|]. split; [reflexivity|]. vm_compute. reflexivity.
  - apply Forall_forall. intros s H. apply repeat_spec in H. subst s. split; [reflexivity|]. intros c H. cbn in H. cbn. tauto.
Qed.
