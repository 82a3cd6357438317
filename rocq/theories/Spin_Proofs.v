(** * Proofs about which patterns the ranking never finishes. *)
From Coq Require Import List NArith ZArith Ascii String Bool Lia Arith.
From Verif Require Import GoBase Glob_Model Glob_Spec Pattern_Model Pattern_Spec Priority_Spec Pattern_Proofs
  Priority_Proofs Spin_Spec.
Import ListNotations.
Local Open Scope list_scope.
Local Open Scope N_scope.

(** ** Numbers as lists of digits, the last digit first *)

Fixpoint lval (l : list N) : N := match l with [] => 0 | d :: l' => d + 10 * lval l' end.

Lemma lval_app : forall a b, lval (a ++ b) = lval a + 10 ^ N.of_nat (List.length a) * lval b.
Proof.
  induction a as [|d a IH]; intros b; [cbn [app List.length lval N.of_nat]; rewrite N.pow_0_r; lia|].
  cbn [app lval]. rewrite IH.
  replace (N.of_nat (List.length (d :: a))) with (1 + N.of_nat (List.length a)) by (cbn [List.length]; lia).
  rewrite N.pow_add_r. change (10 ^ 1) with 10. lia.
Qed.

Lemma lval_bound : forall l, digits l -> lval l < 10 ^ N.of_nat (List.length l).
Proof.
  induction l as [|d l IH]; intros H; [reflexivity|]. inversion H; subst. specialize (IH H3).
  cbn [lval]. replace (N.of_nat (List.length (d :: l))) with (1 + N.of_nat (List.length l)) by (cbn [List.length]; lia).
  rewrite N.pow_add_r. change (10 ^ 1) with 10. lia.
Qed.

Lemma dval_lval : forall l, dval l = lval (rev l).
Proof.
  intros l. induction l as [|d l IH]; [reflexivity|].
  rewrite dval_cons, IH. cbn [rev]. rewrite lval_app, rev_length. cbn [lval]. lia.
Qed.

Lemma lval_dval : forall l, lval l = dval (rev l).
Proof. intros l. rewrite dval_lval, rev_involutive. reflexivity. Qed.

Definition nought (l : list N) : bool := forallb (N.eqb 0) l.

Lemma lval_nought : forall l, (lval l =? 0) = nought l.
Proof.
  induction l as [|d l IH]; [reflexivity|]. cbn [lval nought forallb].
  change (forallb (N.eqb 0) l) with (nought l). rewrite <- IH.
  destruct (N.eqb_spec (d + 10 * lval l) 0); destruct (N.eqb_spec 0 d); destruct (N.eqb_spec (lval l) 0);
    cbn; try reflexivity; exfalso; lia.
Qed.

Lemma lval_head : forall l, digits l -> lval l mod 10 = hd 0 l.
Proof.
  intros [|d l] H; [reflexivity|]. inversion H; subst. cbn [lval hd].
  rewrite N.mul_comm, N.mod_add by discriminate. apply N.mod_small. assumption.
Qed.

Lemma digits_skipn : forall k l, digits l -> digits (skipn k l).
Proof.
  intros k l H. unfold digits in *. rewrite <- (firstn_skipn k l) in H. apply Forall_app in H. apply H.
Qed.
Lemma digits_firstn : forall k l, digits l -> digits (firstn k l).
Proof.
  intros k l H. unfold digits in *. rewrite <- (firstn_skipn k l) in H. apply Forall_app in H. apply H.
Qed.
Lemma digits_repeat : forall k d, d < 10 -> digits (repeat d k).
Proof. intros k d H. induction k as [|k IH]; constructor; auto. Qed.

Lemma lval_parts : forall k l, digits l ->
  lval l / 10 ^ N.of_nat k = lval (skipn k l) /\ lval l mod 10 ^ N.of_nat k = lval (firstn k l).
Proof.
  intros k l H.
  assert (P : 10 ^ N.of_nat k <> 0) by (apply N.pow_nonzero; discriminate).
  assert (B : lval (firstn k l) < 10 ^ N.of_nat k).
  { eapply N.lt_le_trans; [apply lval_bound, digits_firstn, H|].
    apply N.pow_le_mono_r; [discriminate|]. rewrite firstn_length. lia. }
  assert (E : lval l = 10 ^ N.of_nat k * lval (skipn k l) + lval (firstn k l)).
  { rewrite <- (firstn_skipn k l) at 1. rewrite lval_app.
    destruct (Nat.le_gt_cases (List.length l) k) as [L|L].
    - rewrite (skipn_all2 l L). cbn [lval]. lia.
    - rewrite firstn_length_le by lia. lia. }
  split.
  - symmetry. apply (N.div_unique _ _ _ (lval (firstn k l))); assumption.
  - symmetry. apply (N.mod_unique _ _ (lval (skipn k l))); assumption.
Qed.

(** ** The loops on digits *)

Fixpoint lsplit (fuel : nat) (l : list N) (k : nat) (idx : Z) : option Z :=
  match fuel with
  | O => None
  | S f => if nought l then Some idx else if hd 0 l =? 6 then Some idx
           else lsplit f (skipn k l) k (idx + 1)%Z
  end.

Lemma split_on_digits : forall k fuel l idx, digits l ->
  split_index_loop fuel (lval l) (10 ^ N.of_nat k) idx = lsplit fuel l k idx.
Proof.
  intros k. induction fuel as [|f IH]; intros l idx H; [reflexivity|].
  cbn [split_index_loop lsplit]. rewrite lval_nought, (lval_head l H).
  destruct (nought l); [reflexivity|]. destruct (hd 0 l =? 6); [reflexivity|].
  rewrite (proj1 (lval_parts k l H)). apply IH, digits_skipn, H.
Qed.

(** How many digits [getDecimalDivider] cuts. *)
Definition cut (z : Z) : nat := if ((1 <=? z) && (z <=? 18))%Z then Z.to_nat z else O.
Lemma divider_cut : forall z, decimal_divider z = 10 ^ N.of_nat (cut z).
Proof.
  intros z. unfold decimal_divider, cut. destruct (((1 <=? z) && (z <=? 18))%Z); [|reflexivity].
  f_equal. lia.
Qed.

Inductive verdict := Ends | Spins | Unknown.

Definition widened (l : list N) (j add : nat) : list N :=
  firstn j (l ++ repeat 0 j) ++ repeat 6 add ++ skipn j l.

Fixpoint lspread (i : nat) (l : list N) (dd q : Z) : verdict :=
  match i with
  | O => Ends
  | S i' =>
      match lsplit 20 l (cut dd) 0%Z with
      | None => if Nat.eqb (cut dd) 0 then Spins else Unknown
      | Some idx =>
          if Nat.eqb i' 0 then Ends
          else
            let l' := widened l (cut (idx + dd)) (Z.to_nat q) in
            if Nat.leb (List.length l') 19 then lspread i' l' (idx + dd + q)%Z q else Unknown
      end
  end.

Lemma split_loop_det : forall f1 f2 n m idx r1 r2,
  split_index_loop f1 n m idx = Some r1 -> split_index_loop f2 n m idx = Some r2 -> r1 = r2.
Proof.
  intros f1 f2 n m idx r1 r2 H1 H2.
  apply (split_loop_more _ f2) in H1. apply (split_loop_more _ f1) in H2.
  rewrite Nat.add_comm in H2. congruence.
Qed.

Lemma lsplit_spins : forall f l idx, lsplit (S f) l 0 idx = None -> nought l = false /\ (hd 0 l =? 6) = false.
Proof.
  intros f l idx H. cbn [lsplit] in H. destruct (nought l); [discriminate|].
  destruct (hd 0 l =? 6); [discriminate|]. auto.
Qed.

Lemma widened_digits : forall l j add, digits l -> digits (widened l j add).
Proof.
  intros. unfold widened. repeat apply dval_app_digits.
  - apply digits_firstn, dval_app_digits; [assumption|apply digits_repeat; reflexivity].
  - apply digits_repeat; reflexivity.
  - apply digits_skipn; assumption.
Qed.

Lemma lval_noughts : forall k, lval (repeat 0 k) = 0.
Proof. induction k; cbn [repeat lval]; lia. Qed.

Lemma widened_value : forall l j add, digits l -> (List.length (widened l j add) <= 19)%nat ->
  u64 (u64 (append_six add (lval l / 10 ^ N.of_nat j) * 10 ^ N.of_nat j) + lval l mod 10 ^ N.of_nat j)
  = lval (widened l j add).
Proof.
  intros l j add Hd Hl. destruct (lval_parts j l Hd) as [-> ->].
  assert (L1 : List.length (firstn j (l ++ repeat 0 j)) = j).
  { apply firstn_length_le. rewrite app_length, repeat_length. lia. }
  assert (V1 : lval (firstn j (l ++ repeat 0 j)) = lval (firstn j l)).
  { rewrite firstn_app, lval_app.
    assert (E : firstn (j - List.length l) (repeat 0 j) = repeat 0 (j - List.length l)).
    { generalize (j - List.length l)%nat (Nat.le_sub_l j (List.length l)). intros n. revert j Hl L1.
      intros j _ _ Hn. revert j Hn. induction n as [|n IH]; intros [|j] Hn; try reflexivity; try lia.
      cbn [repeat firstn]. f_equal. apply IH. lia. }
    rewrite E, lval_noughts. lia. }
  assert (A : append_six add (lval (skipn j l)) = lval (repeat 6 add ++ skipn j l)).
  { rewrite lval_dval, append_six_value.
    - rewrite lval_dval, rev_app_distr. f_equal. f_equal.
      clear. induction add as [|n IH]; [reflexivity|]. cbn [repeat rev]. rewrite <- IH.
      clear. induction n as [|n IH]; [reflexivity|]. cbn [repeat app]. f_equal. assumption.
    - unfold digits. apply Forall_rev. apply digits_skipn. assumption.
    - rewrite rev_length. unfold widened in Hl. rewrite !app_length, repeat_length in Hl. lia. }
  rewrite A. pose proof (widened_digits l j add Hd) as Hw.
  pose proof (lval_bound _ Hw) as B. pose proof (pow_le19 _ Hl) as B19.
  assert (E : lval (widened l j add) =
              lval (repeat 6 add ++ skipn j l) * 10 ^ N.of_nat j + lval (firstn j l)).
  { unfold widened. rewrite lval_app, L1, V1. lia. }
  rewrite (u64_small (_ * _)) by lia. rewrite u64_small by lia. symmetry. assumption.
Qed.

Lemma spread_follows : forall i l dd q rem, digits l -> (0 <= q)%Z ->
  match lspread i l dd q with
  | Ends => spread 20 i (lval l) dd q rem <> None
  | Spins => forall f, spread f i (lval l) dd q rem = None
  | Unknown => True
  end.
Proof.
  induction i as [|i IH]; intros l dd q rem Hd Hq; [discriminate|].
  cbn [lspread spread]. unfold get_split_index.
  rewrite divider_cut, (split_on_digits _ _ _ _ Hd).
  destruct (lsplit 20 l (cut dd) 0%Z) as [idx|] eqn:Es.
  - destruct (Nat.eqb_spec i 0) as [->|Hi]; [cbn [spread]; discriminate|].
    destruct (Nat.leb_spec (List.length (widened l (cut (idx + dd)) (Z.to_nat q))) 19) as [Hl|Hl]; [|exact I].
    pose proof (IH (widened l (cut (idx + dd)) (Z.to_nat q)) (idx + dd + q)%Z q rem
      (widened_digits _ _ _ Hd) Hq) as H.
    destruct (lspread i (widened l (cut (idx + dd)) (Z.to_nat q)) (idx + dd + q)%Z q); [| |exact I].
    + rewrite divider_cut, (widened_value _ _ _ Hd Hl). exact H.
    + intros f. rewrite (split_on_digits _ _ _ _ Hd).
      destruct (lsplit f l (cut dd) 0%Z) as [idx'|] eqn:Ef; [|reflexivity].
      rewrite <- (split_on_digits _ _ _ _ Hd) in Es. rewrite <- (split_on_digits _ _ _ _ Hd) in Ef.
      rewrite (split_loop_det _ _ _ _ _ _ _ Ef Es).
      rewrite divider_cut, (widened_value _ _ _ Hd Hl). apply H.
  - destruct (Nat.eqb_spec (cut dd) 0) as [E|_]; [|exact I].
    rewrite E in *. destruct (lsplit_spins _ _ _ Es) as [N0 N6]. intros f.
    change (10 ^ N.of_nat 0) with 1. rewrite split_loop_diverges; [reflexivity| |].
    + apply N.eqb_neq. rewrite lval_nought. assumption.
    + rewrite (lval_head _ Hd). apply N.eqb_neq. assumption.
Qed.

(** ** Only the places of the ** matter *)

Definition plain (d : N) : N := if d =? 6 then 6 else if d =? 0 then 0 else 1.

Lemma nought_plain : forall l, nought (map plain l) = nought l.
Proof.
  induction l as [|d l IH]; [reflexivity|]. cbn [map nought forallb].
  change (forallb (N.eqb 0) (map plain l)) with (nought (map plain l)).
  change (forallb (N.eqb 0) l) with (nought l). rewrite IH. f_equal.
  unfold plain. destruct (N.eqb_spec d 6); [subst; reflexivity|].
  destruct (N.eqb_spec d 0); [subst; reflexivity|].
  destruct (N.eqb_spec 0 d); [congruence|reflexivity].
Qed.

Lemma hd_plain : forall l, (hd 0 (map plain l) =? 6) = (hd 0 l =? 6).
Proof.
  intros [|d l]; [reflexivity|]. cbn [map hd]. unfold plain.
  destruct (N.eqb_spec d 6); [reflexivity|]. destruct (N.eqb_spec d 0); reflexivity.
Qed.

Lemma lsplit_plain : forall k fuel l idx, lsplit fuel (map plain l) k idx = lsplit fuel l k idx.
Proof.
  intros k. induction fuel as [|f IH]; intros l idx; [reflexivity|].
  cbn [lsplit]. rewrite nought_plain, hd_plain, skipn_map, IH. reflexivity.
Qed.

Lemma map_plain_repeat : forall d k, plain d = d -> map plain (repeat d k) = repeat d k.
Proof. intros d k H. induction k as [|k IH]; [reflexivity|]. cbn [repeat map]. rewrite H, IH. reflexivity. Qed.

Lemma widened_plain : forall l j add, widened (map plain l) j add = map plain (widened l j add).
Proof.
  intros. unfold widened. rewrite !map_app, <- firstn_map, map_app, skipn_map.
  rewrite !map_plain_repeat by reflexivity. reflexivity.
Qed.

Lemma lspread_plain : forall i l dd q, lspread i (map plain l) dd q = lspread i l dd q.
Proof.
  induction i as [|i IH]; intros l dd q; [reflexivity|].
  cbn [lspread]. rewrite lsplit_plain. destruct (lsplit 20 l (cut dd) 0%Z); [|reflexivity].
  destruct (Nat.eqb i 0); [reflexivity|]. rewrite widened_plain, map_length, IH. reflexivity.
Qed.

(** ** All shapes of at most 19 pieces *)

Definition stars (sh : list bool) : nat := List.length (filter (fun b => b) sh).
Definition digits_of (sh : list bool) : list N := rev (map (fun b : bool => if b then 6 else 1) sh).

Definition judged (sh : list bool) : verdict :=
  if Nat.eqb (stars sh) 0 then Ends
  else lspread (stars sh) (digits_of sh) 1%Z
         (Z.quot (19 - Z.of_nat (List.length sh)) (Z.of_nat (stars sh))).

Fixpoint shapes (n : nat) : list (list bool) :=
  match n with
  | O => [[]]
  | S n' => flat_map (fun l => match l with
                               | true :: _ => [false :: l]
                               | _ => [false :: l; true :: l]
                               end) (shapes n')
  end.

Lemma shape_listed : forall ks, no_adjacent_any ks -> In (shape ks) (shapes (List.length ks)).
Proof.
  intros ks H. induction H as [|k|k1 k2 ks Hn H IH].
  - left. reflexivity.
  - destruct k; cbn; auto.
  - cbn [List.length]. cbn [List.length] in IH.
    change (shapes (S (S (List.length ks)))) with
      (flat_map (fun l => match l with
                               | true :: _ => [false :: l]
                               | _ => [false :: l; true :: l]
                               end) (shapes (S (List.length ks)))).
    apply in_flat_map. exists (shape (k2 :: ks)). split; [exact IH|].
    change (shape (k1 :: k2 :: ks)) with (is_any k1 :: shape (k2 :: ks)).
    cbn [shape map]. destruct (is_any k2) eqn:E2.
    + left. f_equal. destruct k1; try reflexivity. exfalso. apply Hn. split; [reflexivity|].
      destruct k2; try discriminate. reflexivity.
    + destruct (is_any k1); [right; left|left]; reflexivity.
Qed.

Definition shape_eq_dec : forall a b : list bool, {a = b} + {a <> b} := list_eq_dec bool_dec.
Definition listed (sh : list bool) : bool := if in_dec shape_eq_dec sh spinning then true else false.

Definition as_listed (sh : list bool) : bool :=
  match judged sh with Ends => negb (listed sh) | Spins => listed sh | Unknown => false end.

Lemma all_as_listed : forallb (fun n => forallb as_listed (shapes n)) (seq 0 20) = true.
Proof. vm_cast_no_check (@eq_refl bool true). Qed.

Lemma shape_as_listed : forall ks, no_adjacent_any ks -> (List.length ks <= 19)%nat ->
  as_listed (shape ks) = true.
Proof.
  intros ks Hn Hl. pose proof all_as_listed as A. rewrite forallb_forall in A.
  assert (I : In (List.length ks) (seq 0 20)) by (apply in_seq; lia).
  specialize (A _ I). rewrite forallb_forall in A. apply A, shape_listed, Hn.
Qed.

(** ** From the shape to the ranking *)

Lemma stars_any : forall ks, stars (shape ks) = any_count ks.
Proof.
  unfold stars. induction ks as [|k ks IH]; [reflexivity|].
  cbn [shape map filter any_count]. destruct k; cbn [is_any]; try exact IH.
  cbn [List.length]. f_equal. exact IH.
Qed.

Lemma digits_shape : forall ci sgs ss ks, shows_all ci sgs ss ks ->
  map plain (rev (codes sgs)) = digits_of (shape ks).
Proof.
  intros ci sgs ss ks H. rewrite (shows_all_codes _ _ _ _ H). unfold digits_of, shape.
  rewrite map_rev, !map_map. f_equal. apply map_ext. intros []; reflexivity.
Qed.

Lemma rank_follows : forall ci sgs ss ks, shows_all ci sgs ss ks -> (List.length ks <= 19)%nat ->
  match judged (shape ks) with
  | Ends => compute_priority 20 sgs <> None
  | Spins => forall f, compute_priority f sgs = None
  | Unknown => True
  end.
Proof.
  intros ci sgs ss ks H Hl. unfold judged, compute_priority.
  rewrite stars_any, <- (shows_all_count _ _ _ _ H).
  unfold shape at 2. rewrite map_length. destruct (shows_all_len _ _ _ _ H) as [L1 _].
  rewrite <- L1 in *. destruct (Nat.eqb_spec (multi_count sgs) 0) as [_|Hc]; [discriminate|].
  rewrite <- (digits_shape _ _ _ _ H), lspread_plain.
  rewrite (base_priority_value _ Hl), dval_lval.
  pose proof (spread_follows (multi_count sgs) (rev (codes sgs)) 1
    (Z.quot (19 - Z.of_nat (List.length sgs)) (Z.of_nat (multi_count sgs)))
    (Z.rem (19 - Z.of_nat (List.length sgs)) (Z.of_nat (multi_count sgs)))) as S.
  apply S.
  - unfold digits. apply Forall_rev, codes_digits.
  - apply Z.quot_pos; lia.
Qed.

(** What parsing a legal pattern of at most 255 pieces comes down to. *)
Lemma parse_is_rank : forall re t ci ps ks,
  means (re_ok re) ci t ps ks -> (List.length ps <= 255)%nat ->
  exists sgs, shows_all ci sgs ps ks /\ forall fuel,
    match compute_priority fuel sgs with
    | None => parse_pattern fuel re t ci = PFuel
    | Some _ => exists p, parse_pattern fuel re t ci = POk p
    end.
Proof.
  intros re t ci ps ks Hm Hl.
  assert (Hps : forall c rest, t = slash :: c :: rest -> ps = pieces_of (c :: rest) []).
  { intros c rest ->. symmetry. apply spells_pieces; [|apply (proj1 Hm)].
    destruct Hm as [_ [Hr _]]. clear - Hr. induction Hr; constructor; auto. eapply reads_nonempty; eauto. }
  destruct (spells_first _ _ (proj1 Hm)) as [rest ->].
  destruct rest as [|c rest].
  { assert (Hpl : exists p, parse_pattern 0 re [slash] ci = POk p) by (eexists; reflexivity).
    destruct Hpl as [p Hp]. destruct (parse_shows _ _ _ _ _ _ _ Hp Hm Hl) as [Hsh _].
    exists (p_segs p). split; [assumption|]. intros fuel.
    assert (E : p_segs p = []) by (injection Hp as <-; reflexivity). rewrite E.
    cbn. eexists. reflexivity. }
  specialize (Hps _ _ eq_refl).
  destruct (parse_loop re ci (c :: rest) [] (PState 0 0 MTUnknown MTUnknown
     (repeat None (List.length (filter (Ascii.eqb slash) (slash :: c :: rest)))))) as [r|st] eqn:El.
  - exfalso. pose proof (parse_pattern_spec 1 re (slash :: c :: rest) ci) as H. unfold parse_pattern in H.
    change (Ascii.eqb slash slash) with true in H. cbn [negb] in H.
    rewrite El in H.
    rewrite parse_loop_pieces in El.
    pose proof (slash_count_pieces (c :: rest) []) as Hsc.
    pose proof (add_all_spec re ci (pieces_of (c :: rest) [])
      (PState 0 0 MTUnknown MTUnknown
         (repeat None (List.length (filter (Ascii.eqb slash) (slash :: c :: rest))))) 0) as A.
    rewrite El in A.
    destruct r as [| | |p].
    + apply H. eauto.
    + contradiction.
    + apply A.
      * cbn [ps_segs]. rewrite repeat_length. cbn [filter].
        change (Ascii.eqb slash slash) with true. cbv iota. cbn [List.length filter] in *. lia.
      * reflexivity.
      * intros i Hi. simpl in Hi. lia.
    + apply A.
      * cbn [ps_segs]. rewrite repeat_length. cbn [filter].
        change (Ascii.eqb slash slash) with true. cbv iota. cbn [List.length filter] in *. lia.
      * reflexivity.
      * intros i Hi. simpl in Hi. lia.
  - rewrite parse_loop_pieces in El.
    pose proof (slash_count_pieces (c :: rest) []) as Hsc.
    pose proof (add_all_spec re ci (pieces_of (c :: rest) [])
      (PState 0 0 MTUnknown MTUnknown
         (repeat None (List.length (filter (Ascii.eqb slash) (slash :: c :: rest))))) 0) as A.
    rewrite El in A. cbn [ps_segs] in A.
    destruct A as [ks' [Hr [_ [_ [Hlen [Hcnt [_ [_ [_ Hshow]]]]]]]]].
    + rewrite repeat_length. cbn [filter].
      change (Ascii.eqb slash slash) with true. cbv iota. cbn [List.length filter] in *. lia.
    + reflexivity.
    + intros i Hi. simpl in Hi. lia.
    + rewrite <- Hps in *. cbn [Nat.add] in *.
      destruct (Hshow Hl) as [sgs [Hsh Hf]]. simpl in Hf.
      assert (Hks : ks' = ks) by (eapply forall2_reads_functional; [exact Hr|apply Hm]). subst ks'.
      exists sgs. split; [assumption|]. intros fuel. unfold parse_pattern.
      change (Ascii.eqb slash slash) with true. cbn [negb].
      rewrite parse_loop_pieces, <- Hps, El, Hcnt, N.mod_small by lia.
      rewrite Nat2N.id, Hf, all_some_map.
      destruct (compute_priority fuel sgs); [eauto|reflexivity].
Qed.

(** ** Which patterns are never registered *)

Lemma parse_spins_or_ends : forall re t ci ps ks,
  means (re_ok re) ci t ps ks -> (List.length ps <= 19)%nat ->
  (In (shape ks) spinning -> forall fuel, parse_pattern fuel re t ci = PFuel) /\
  (~ In (shape ks) spinning -> forall fuel, (20 <= fuel)%nat ->
     exists p, parse_pattern fuel re t ci = POk p).
Proof.
  intros re t ci ps ks Hm Hl.
  destruct (parse_is_rank _ _ _ _ _ Hm ltac:(lia)) as [sgs [Hsh Hp]].
  assert (Hk : (List.length ks <= 19)%nat) by (rewrite <- (proj2 (shows_all_len _ _ _ _ Hsh)); assumption).
  pose proof (rank_follows _ _ _ _ Hsh Hk) as R.
  pose proof (shape_as_listed ks (proj1 (proj2 (proj2 Hm))) Hk) as A.
  unfold as_listed, listed in A.
  destruct (in_dec shape_eq_dec (shape ks) spinning) as [I|I]; destruct (judged (shape ks)); try discriminate.
  - split; [|contradiction]. intros _ fuel. specialize (Hp fuel). rewrite R in Hp. assumption.
  - split; [contradiction|]. intros _ fuel Hf. specialize (Hp fuel).
    destruct (compute_priority 20 sgs) as [r|] eqn:E; [|congruence].
    apply (compute_priority_more _ (fuel - 20)) in E.
    replace (20 + (fuel - 20))%nat with fuel in E by lia. rewrite E in Hp. assumption.
Qed.

Definition harmless (sh : list bool) : bool :=
  Nat.leb (List.length sh) 16 || Nat.leb (stars sh) 6 || last sh false.

Lemma spinning_not_harmless : forall sh, In sh spinning -> harmless sh = false.
Proof.
  intros sh H.
  assert (A : forallb (fun sh => negb (harmless sh)) spinning = true) by reflexivity.
  rewrite forallb_forall in A. apply negb_true_iff, A, H.
Qed.

Lemma parse_ends : forall re t ci ps ks,
  means (re_ok re) ci t ps ks -> (List.length ps <= 19)%nat ->
  (List.length ps <= 16)%nat \/ (any_count ks <= 6)%nat \/ last ks One = Any ->
  forall fuel, (20 <= fuel)%nat -> exists p, parse_pattern fuel re t ci = POk p.
Proof.
  intros re t ci ps ks Hm Hl Hc.
  apply (proj2 (parse_spins_or_ends _ _ _ _ _ Hm Hl)). intros I.
  apply spinning_not_harmless in I. unfold harmless in I.
  apply orb_false_iff in I. destruct I as [I I3]. apply orb_false_iff in I. destruct I as [I1 I2].
  apply Nat.leb_gt in I1, I2. unfold shape in I1. rewrite map_length in I1. rewrite stars_any in I2.
  assert (Lk : List.length ps = List.length ks).
  { destruct Hm as [_ [Hr _]]. clear - Hr. induction Hr; simpl; congruence. }
  destruct Hc as [Hc|[Hc|Hc]]; [lia|lia|].
  assert (E : last (shape ks) false = is_any (last ks One)).
  { clear. induction ks as [|k [|k' ks] IH]; [reflexivity|reflexivity|]. exact IH. }
  rewrite E, Hc in I3. discriminate.
Qed.
