(** * Proofs about the event source of the example. *)
From Coq Require Import List NArith ZArith Ascii String Bool Lia Arith.
From Verif Require Import GoBase Mux_Model Auth_Model Auth_Spec AuthText_Proofs Resp_Model EvtGen_Model EvtGen_Spec.
Import ListNotations.
Local Open Scope string_scope.
Local Open Scope list_scope.
Local Open Scope Z_scope.

(** ** Numbers *)

Lemma value_snoc : forall ds c a, digits_value (ds ++ [c]) a =
  match digits_value ds a with Some n => digits_value [c] n | None => None end.
Proof.
  induction ds as [|x ds IH]; intros c a; [reflexivity|]. cbn [app digits_value]. destruct (is_digit x); [apply IH|reflexivity].
Qed.
Lemma value_one : forall c a n, digits_value [c] a = Some n <-> digit_of c (code c - 48) /\ n = (10 * a + (code c - 48))%N.
Proof.
  intros c a n. cbn [digits_value]. destruct (is_digit c) eqn:E.
  - apply test_digit_of in E. split; [intros [= <-]; split; [exact E|lia]|intros [_ ->]; f_equal; lia].
  - split; [discriminate|]. intros [A _]. apply digit_of_test in A. destruct A. congruence.
Qed.
Lemma value_numeral : forall ds n, ds <> [] -> (digits_value ds 0 = Some n <-> numeral ds n).
Proof.
  intros ds. induction ds as [|c ds IH] using rev_ind; intros n Hne; [congruence|].
  rewrite value_snoc. destruct ds as [|x ds].
  - cbn [app]. change (digits_value [] 0) with (Some 0%N). rewrite value_one. split.
    + intros [A ->]. apply nm_one. destruct A. split; lia.
    + intros A. inversion A as [c0 d Hd|ds0 n0 c0 d Hn Hd E]; subst.
      * destruct (digit_of_test _ _ Hd) as [_ Hd2]. rewrite Hd2. split; [exact Hd|lia].
      * apply numeral_some in Hn. destruct ds0; [congruence|]. destruct ds0; discriminate.
  - assert (Hx : x :: ds <> []) by discriminate. specialize (fun n => IH n Hx). generalize dependent (x :: ds). intros l IH Hl.
    split.
    + destruct (digits_value l 0) as [m|] eqn:E; [|discriminate]. intros H. apply value_one in H. destruct H as [A ->].
      pose proof (proj1 (IH m) eq_refl) as E'. apply nm_more; assumption.
    + intros A. inversion A as [c0 d Hd E|ds0 n0 c0 d Hn Hd E]; subst.
      * destruct l; [congruence|]. destruct l; discriminate.
      * apply app_inj_tail in E. destruct E as [-> ->]. rewrite (proj2 (IH n0) Hn).
        apply value_one. destruct (digit_of_test _ _ Hd) as [_ Hd2]. rewrite Hd2. split; [exact Hd|reflexivity].
Qed.
Lemma number_iff : forall s n, number s = Some n <-> numeral s n.
Proof.
  intros s n. destruct s as [|c s].
  - split; [discriminate|]. intros H. apply numeral_some in H. contradiction.
  - apply value_numeral. discriminate.
Qed.
Lemma in_int64_iff : forall z y, in_int64 z = Some y <-> y = z /\ - 2 ^ 63 <= z < 2 ^ 63.
Proof.
  intros z y. unfold in_int64. destruct (Z.leb_spec (- 2 ^ 63) z), (Z.ltb_spec z (2 ^ 63)); cbn [andb]; split; intros E; try discriminate.
  - injection E as <-. lia.
  - destruct E as [-> _]. reflexivity.
  - lia.
  - lia.
  - lia.
Qed.
Lemma numeral_head : forall s n c s', numeral s n -> s = c :: s' -> exists d, digit_of c d.
Proof.
  intros s n c s' M. revert c s'. induction M as [x d D|ds m x d M IH D]; intros c s' E.
  - injection E as <- <-. exists d. exact D.
  - destruct ds as [|y ds]; [injection E as <- <-; exists d; exact D|]. injection E as <- <-. exact (IH y ds eq_refl).
Qed.
Lemma atoi_iff : forall s z, atoi s = Some z <-> says_number s z.
Proof.
  intros s z. unfold says_number. destruct s as [|c s].
  - cbn. split; [discriminate|]. intros [_ [n [[M _]|[[ds [E _]]|[ds [E _]]]]]]; [apply numeral_some in M; contradiction|discriminate|discriminate].
  - cbn [atoi]. destruct (Ascii.eqb_spec c "-"%char) as [->|N1]; [|destruct (Ascii.eqb_spec c "+"%char) as [->|N2]].
    + destruct (number s) as [n|] eqn:E.
      * rewrite in_int64_iff. pose proof (proj1 (number_iff _ _) E) as M. split.
        -- intros [-> B]. split; [exact B|]. exists n. right. right. exists s. auto.
        -- intros [B [m [[K _]|[[ds [E2 _]]|[ds [E2 [K ->]]]]]]].
           ++ destruct (numeral_head _ _ _ _ K eq_refl) as [d [_ D]]. change (N_of_ascii "-"%char) with 45%N in D. lia.
           ++ discriminate.
           ++ injection E2 as <-. apply number_iff in K. rewrite E in K. injection K as <-. auto.
      * split; [discriminate|]. intros [B [m [[K _]|[[ds [E2 _]]|[ds [E2 [K ->]]]]]]].
        -- destruct (numeral_head _ _ _ _ K eq_refl) as [d [_ D]]. change (N_of_ascii "-"%char) with 45%N in D. lia.
        -- discriminate.
        -- injection E2 as <-. apply number_iff in K. congruence.
    + destruct (number s) as [n|] eqn:E.
      * rewrite in_int64_iff. pose proof (proj1 (number_iff _ _) E) as M. split.
        -- intros [-> B]. split; [exact B|]. exists n. right. left. exists s. auto.
        -- intros [B [m [[K _]|[[ds [E2 [K ->]]]|[ds [E2 _]]]]]].
           ++ destruct (numeral_head _ _ _ _ K eq_refl) as [d [_ D]]. change (N_of_ascii "+"%char) with 43%N in D. lia.
           ++ injection E2 as <-. apply number_iff in K. rewrite E in K. injection K as <-. auto.
           ++ discriminate.
      * split; [discriminate|]. intros [B [m [[K _]|[[ds [E2 [K ->]]]|[ds [E2 _]]]]]].
        -- destruct (numeral_head _ _ _ _ K eq_refl) as [d [_ D]]. change (N_of_ascii "+"%char) with 43%N in D. lia.
        -- injection E2 as <-. apply number_iff in K. congruence.
        -- discriminate.
    + destruct (number (c :: s)) as [n|] eqn:E.
      * rewrite in_int64_iff. pose proof (proj1 (number_iff _ _) E) as M. split.
        -- intros [-> B]. split; [exact B|]. exists n. left. auto.
        -- intros [B [m [[K ->]|[[ds [E2 _]]|[ds [E2 _]]]]]].
           ++ apply number_iff in K. rewrite E in K. injection K as <-. auto.
           ++ injection E2 as E2 _. contradiction.
           ++ injection E2 as E2 _. contradiction.
      * split; [discriminate|]. intros [B [m [[K _]|[[ds [E2 _]]|[ds [E2 _]]]]]].
        -- apply number_iff in K. congruence.
        -- injection E2 as E2 _. contradiction.
        -- injection E2 as E2 _. contradiction.
Qed.
Lemma atoi_none : forall s, (forall z, ~ says_number s z) -> atoi s = None.
Proof. intros s H. destruct (atoi s) as [z|] eqn:E; [|reflexivity]. apply atoi_iff in E. destruct (H z E). Qed.
Lemma itoa_says : forall n, 0 <= n < 2 ^ 63 -> atoi (itoa_z n) = Some n.
Proof.
  intros n H. apply atoi_iff. split; [lia|]. exists (Z.to_N n). left. split; [|lia].
  destruct n as [|p|p]; [apply itoa_numeral|apply itoa_numeral|lia].
Qed.

(** ** Steps *)

Lemma set_same : forall f i c, set_client f i c i = c.
Proof. intros. unfold set_client. rewrite Nat.eqb_refl. reflexivity. Qed.
Lemma set_other : forall f i c j, j <> i -> set_client f i c j = f j.
Proof. intros f i c j N. unfold set_client. apply Nat.eqb_neq in N. rewrite N. reflexivity. Qed.

Lemma set_nth_length : forall {A : Type} (l : list A) i x, List.length (set_nth l i x) = List.length l.
Proof. induction l as [|y l IH]; intros i x; destruct i; cbn; auto. Qed.
Lemma nth_set_same : forall {A : Type} (l : list A) i x d, (i < List.length l)%nat -> nth i (set_nth l i x) d = x.
Proof. induction l as [|y l IH]; intros i x d H; cbn in H; [lia|]. destruct i; cbn; [reflexivity|apply IH; lia]. Qed.
Lemma nth_set_other : forall {A : Type} (l : list A) i j x d, i <> j -> nth j (set_nth l i x) d = nth j l d.
Proof. induction l as [|y l IH]; intros i j x d N; destruct i, j; cbn; auto; try lia. Qed.

Lemma runs_erun : forall P s l s', runs_with P s l s' -> erun s l = Some s'.
Proof. intros P s l s' R. induction R as [s|s a s1 l s2 H E R IH]; [reflexivity|]. cbn. rewrite E. exact IH. Qed.

(** Rewinding to a negative number ends the process. *)
Lemma negative_crashes : forall s i last n, es_crashed s = false -> cl_phase (es_clients s i) = POutside ->
  0 <= eg_write (es_gen s) -> says_number last n -> n < 0 -> Z.rem n (cap (es_gen s)) <> 0 ->
  exists s', erun s [EConnect i last; ELoad i; ECompare i; EFetch i] = Some s' /\ es_crashed s' = true.
Proof.
  intros s i last n C P W A N R. apply atoi_iff in A.
  cbn [erun]. unfold edo at 1. rewrite C, P, A. cbn [erun]. unfold edo at 1. cbn [es_crashed es_clients es_gen es_stored eg_read eg_write eg_list]. rewrite P.
  unfold edo at 1. cbn [es_crashed es_clients es_gen es_stored eg_read eg_write eg_list]. rewrite set_same. cbn [cl_phase cl_got].
  destruct (Z.leb_spec (eg_write (es_gen s)) n) as [L|L]; [lia|].
  unfold edo at 1. cbn [es_crashed es_clients es_gen es_stored eg_read eg_write eg_list]. rewrite !set_same. cbn [cl_phase cl_got].
  assert (E : ((cap (EGen n (eg_write (es_gen s)) (eg_list (es_gen s))) =? 0) || (Z.rem n (cap (EGen n (eg_write (es_gen s)) (eg_list (es_gen s)))) <? 0))%bool = true).
  { unfold cap in *. cbn [eg_list]. destruct (Z.eqb_spec (Z.of_nat (List.length (eg_list (es_gen s)))) 0) as [Z0|Z0]; [reflexivity|].
    cbn. apply Z.ltb_lt. pose proof (Z.rem_nonpos n (Z.of_nat (List.length (eg_list (es_gen s)))) Z0 ltac:(lia)). lia. }
  rewrite E. eexists. split; [reflexivity|reflexivity].
Qed.

(** Counters do not go back, and the buffer keeps its size. *)
Lemma write_grows : forall s a s', edo s a = Some s' -> eg_write (es_gen s) <= eg_write (es_gen s') /\ cap (es_gen s') = cap (es_gen s).
Proof.
  intros s a s' E. unfold edo in E. destruct (es_crashed s); [discriminate|].
  destruct a as [| |i last|i|i|i|i];
    repeat match type of E with
      | (if ?b then _ else _) = _ => destruct b
      | match ?x with _ => _ end = _ => destruct x
      end; try discriminate; injection E as <-; cbn [es_gen eg_write]; unfold cap; cbn [eg_list]; rewrite ?set_nth_length; try lia.
  destruct (atoi last); cbn [eg_write eg_list]; lia.
Qed.
Lemma runs_grow : forall P s l s', runs_with P s l s' -> eg_write (es_gen s) <= eg_write (es_gen s') /\ cap (es_gen s') = cap (es_gen s).
Proof.
  intros P s l s' R. induction R as [s|s a s1 l s2 H E R IH]; [lia|]. apply write_grows in E. lia.
Qed.

(** Without negative numbers nothing panics. *)
Definition phase_ok (p : phase) : Prop := match p with PLoaded ri | PSlot ri => 0 <= ri | _ => True end.
Definition calm (s : esys) : Prop := es_crashed s = false /\ 0 < cap (es_gen s) /\ 0 <= eg_read (es_gen s) /\ forall i, phase_ok (cl_phase (es_clients s i)).
Lemma phase_ok_set : forall f i c, (forall j, phase_ok (cl_phase (f j))) -> phase_ok (cl_phase c) -> forall j, phase_ok (cl_phase (set_client f i c j)).
Proof. intros f i c H K j. destruct (Nat.eq_dec j i) as [->|N]; [rewrite set_same; exact K|rewrite set_other by exact N; apply H]. Qed.
Lemma calm_step : forall s a s', calm s -> never_from (fun z => z < 0) s a -> edo s a = Some s' -> calm s'.
Proof.
  intros s a s' [C [K [R F]]] N E. assert (W := write_grows _ _ _ E). destruct W as [_ W].
  unfold edo in E. rewrite C in E. destruct a as [| |i last|i|i|i|i].
  - destruct (es_stored s); [discriminate|]. destruct (Z.eqb_spec (cap (es_gen s)) 0); [lia|]. injection E as <-.
    split; [reflexivity|]. split; [lia|]. split; [exact R|exact F].
  - destruct (es_stored s); [|discriminate]. injection E as <-. split; [reflexivity|]. split; [lia|]. split; [exact R|exact F].
  - destruct (cl_phase (es_clients s i)); try discriminate. injection E as <-. split; [reflexivity|]. split; [lia|]. split; [|exact F].
    destruct (atoi last) as [z|] eqn:A; [|exact R]. apply atoi_iff in A. specialize (N z A). cbn in N |- *. lia.
  - destruct (cl_phase (es_clients s i)) eqn:P; try discriminate. injection E as <-. split; [reflexivity|]. split; [lia|]. split; [exact R|].
    cbn [es_clients]. apply phase_ok_set; [exact F|exact R].
  - destruct (cl_phase (es_clients s i)) eqn:P; try discriminate. injection E as <-. split; [reflexivity|]. split; [lia|]. split; [exact R|].
    cbn [es_clients]. apply phase_ok_set; [exact F|]. pose proof (F i) as H. rewrite P in H. cbn in H. destruct (_ <=? _); [exact I|exact H].
  - destruct (cl_phase (es_clients s i)) eqn:P; try discriminate. pose proof (F i) as H. rewrite P in H. cbn in H.
    destruct (Z.eqb_spec (cap (es_gen s)) 0); [lia|]. cbn in E. destruct (Z.ltb_spec (Z.rem ri (cap (es_gen s))) 0) as [L|L].
    + pose proof (Z.rem_nonneg ri (cap (es_gen s)) ltac:(lia) H). lia.
    + injection E as <-. split; [reflexivity|]. split; [lia|]. split; [exact R|]. cbn [es_clients]. apply phase_ok_set; [exact F|exact I].
  - destruct (cl_phase (es_clients s i)) eqn:P; try discriminate. injection E as <-. split; [reflexivity|]. split; [lia|]. split; [cbn; lia|].
    cbn [es_clients]. apply phase_ok_set; [exact F|exact I].
Qed.
Lemma calm_runs : forall s l s', runs_with (never_from (fun z => z < 0)) s l s' -> calm s -> calm s'.
Proof. intros s l s' R. induction R as [s|s a s1 l s2 H E R IH]; intros C; [exact C|]. apply IH. exact (calm_step _ _ _ C H E). Qed.

(** ** A number from the future *)
Definition silent (M : Z) (before : nat -> list event) (s : esys) : Prop :=
  eg_read (es_gen s) = M /\ (forall j, cl_got (es_clients s j) = before j) /\
  forall j, cl_phase (es_clients s j) = POutside \/ cl_phase (es_clients s j) = PLoaded M.
Lemma silent_step : forall M before s a s', silent M before s -> never_from (fun _ => True) s a -> edo s a = Some s' ->
  eg_write (es_gen s') <= M -> silent M before s'.
Proof.
  intros M before s a s' [R [G F]] N E W. pose proof (write_grows _ _ _ E) as [W2 _]. unfold edo in E. destruct (es_crashed s); [discriminate|].
  destruct a as [| |i last|i|i|i|i].
  - destruct (es_stored s); [discriminate|]. destruct (_ =? _); injection E as <-; repeat split; auto.
  - destruct (es_stored s); [|discriminate]. injection E as <-. repeat split; auto.
  - destruct (cl_phase (es_clients s i)); try discriminate. injection E as <-. destruct (atoi last) as [z|] eqn:A.
    + apply atoi_iff in A. destruct (N z A I).
    + repeat split; auto.
  - destruct (cl_phase (es_clients s i)) eqn:P; try discriminate. injection E as <-. split; [exact R|]. cbn [es_clients es_gen]. split; intros j.
    + destruct (Nat.eq_dec j i) as [->|X]; [rewrite set_same; apply G|rewrite set_other by exact X; apply G].
    + destruct (Nat.eq_dec j i) as [->|X]; [rewrite set_same; right; cbn; rewrite R; reflexivity|rewrite set_other by exact X; apply F].
  - destruct (cl_phase (es_clients s i)) eqn:P; try discriminate. pose proof (F i) as [H|H]; rewrite P in H; [discriminate|]. injection H as ->.
    cbn [es_gen] in W2, W. destruct (Z.leb_spec (eg_write (es_gen s)) M) as [L|L]; [|lia].
    injection E as <-. split; [exact R|]. cbn [es_clients es_gen]. split; intros j.
    + destruct (Nat.eq_dec j i) as [->|X]; [rewrite set_same; apply G|rewrite set_other by exact X; apply G].
    + destruct (Nat.eq_dec j i) as [->|X]; [rewrite set_same; left; reflexivity|rewrite set_other by exact X; apply F].
  - destruct (F i) as [H|H]; rewrite H in E; discriminate.
  - destruct (F i) as [H|H]; rewrite H in E; discriminate.
Qed.
Lemma silent_runs : forall M before s l s', runs_with (never_from (fun _ => True)) s l s' -> silent M before s -> eg_write (es_gen s') <= M ->
  silent M before s'.
Proof.
  intros M before s l s' R. induction R as [s|s a s1 l s2 H E R IH]; intros S W; [exact S|].
  apply IH; [|exact W]. eapply silent_step; eauto. apply runs_grow in R. lia.
Qed.

(** ** One client *)

Definition slots_right (s : esys) : Prop :=
  let g := es_gen s in
  0 <= eg_write g /\
  (forall j, 0 <= j < eg_write g -> eg_write g - cap g < j -> nth (Z.to_nat (Z.rem j (cap g))) (eg_list g) no_event = message (j + 1)) /\
  (es_stored s = false -> forall j, 0 <= j < eg_write g -> eg_write g - cap g <= j -> nth (Z.to_nat (Z.rem j (cap g))) (eg_list g) no_event = message (j + 1)) /\
  (es_stored s = true -> nth (Z.to_nat (Z.rem (eg_write g) (cap g))) (eg_list g) no_event = message (eg_write g + 1)).
Definition alone_ok (s : esys) : Prop :=
  0 < cap (es_gen s) /\ slots_right s /\
  eg_read (es_gen s) = Z.of_nat (List.length (cl_got (es_clients s 0%nat))) /\ eg_read (es_gen s) <= eg_write (es_gen s) /\
  cl_got (es_clients s 0%nat) = first_events (List.length (cl_got (es_clients s 0%nat))) /\
  match cl_phase (es_clients s 0%nat) with
  | POutside => True
  | PLoaded ri => ri = eg_read (es_gen s)
  | PSlot ri => ri = eg_read (es_gen s) /\ ri < eg_write (es_gen s)
  | PRead e => e = message (eg_read (es_gen s) + 1) /\ eg_read (es_gen s) < eg_write (es_gen s)
  end.

Lemma first_events_snoc : forall n, first_events (S n) = first_events n ++ [message (Z.of_nat (S n))].
Proof. intros n. unfold first_events. rewrite seq_S, map_app. reflexivity. Qed.
Lemma first_events_last : forall n b e, first_events n = b ++ [e] -> ev_id e = itoa_z (Z.of_nat n).
Proof.
  intros n b e H. destruct n as [|n]; [destruct b; discriminate|]. rewrite first_events_snoc in H. apply app_inj_tail in H. destruct H as [_ <-]. reflexivity.
Qed.
Lemma rem_nat : forall j c, 0 <= j -> 0 < c -> 0 <= Z.rem j c < c.
Proof. intros j c H K. apply Z.rem_bound_pos; assumption. Qed.
Lemma rem_apart : forall a b c, 0 <= a -> a < b -> b - a < c -> Z.rem a c <> Z.rem b c.
Proof.
  intros a b c A L D E. rewrite !Z.rem_mod_nonneg in E by lia. 
  assert (H : (b - a) mod c = 0) by (rewrite Zminus_mod, E, Z.sub_diag; apply Z.mod_0_l; lia).
  rewrite Z.mod_small in H by lia. lia.
Qed.

Lemma slots_store : forall s s', slots_right s -> 0 < cap (es_gen s) -> edo s EStore = Some s' -> slots_right s' /\ eg_write (es_gen s') = eg_write (es_gen s) /\ eg_read (es_gen s') = eg_read (es_gen s) /\ es_clients s' = es_clients s.
Proof.
  intros s s' [W [A [B C]]] K E. cbn zeta in *. unfold edo in E. destruct (es_crashed s); [discriminate|]. destruct (es_stored s); [discriminate|].
  destruct (Z.eqb_spec (cap (es_gen s)) 0); [lia|]. injection E as <-. cbn [es_gen es_clients eg_read eg_write]. split; [|auto].
  assert (Q : cap (EGen (eg_read (es_gen s)) (eg_write (es_gen s)) (set_nth (eg_list (es_gen s)) (Z.to_nat (Z.rem (eg_write (es_gen s)) (cap (es_gen s)))) (message (eg_write (es_gen s) + 1)))) = cap (es_gen s))
    by (unfold cap; cbn [eg_list]; rewrite set_nth_length; reflexivity).
  unfold slots_right. cbn [es_gen es_stored]. rewrite Q. cbn [eg_write eg_list]. split; [exact W|]. split; [|split; [discriminate|]].
  - intros j J L. rewrite nth_set_other; [apply A; assumption|]. intros X. apply Z2Nat.inj in X; try (apply rem_nat; lia).
    symmetry in X. revert X. apply rem_apart; lia.
  - intros _. apply nth_set_same. pose proof (rem_nat (eg_write (es_gen s)) (cap (es_gen s)) W K). unfold cap in *. lia.
Qed.
Lemma slots_bump : forall s s', slots_right s -> 0 < cap (es_gen s) -> edo s EBump = Some s' -> slots_right s' /\ eg_write (es_gen s') = eg_write (es_gen s) + 1 /\ eg_read (es_gen s') = eg_read (es_gen s) /\ es_clients s' = es_clients s.
Proof.
  intros s s' [W [A [B C]]] K E. cbn zeta in *. unfold edo in E. destruct (es_crashed s); [discriminate|]. destruct (es_stored s); [|discriminate].
  injection E as <-. cbn [es_gen es_clients eg_read eg_write]. split; [|auto].
  assert (Q : cap (EGen (eg_read (es_gen s)) (eg_write (es_gen s) + 1) (eg_list (es_gen s))) = cap (es_gen s)) by reflexivity.
  assert (D : forall j, 0 <= j < eg_write (es_gen s) + 1 -> eg_write (es_gen s) + 1 - cap (es_gen s) <= j ->
    nth (Z.to_nat (Z.rem j (cap (es_gen s)))) (eg_list (es_gen s)) no_event = message (j + 1)).
  { intros j J L. destruct (Z.eq_dec j (eg_write (es_gen s))) as [->|N]; [apply C; reflexivity|apply A; lia]. }
  unfold slots_right. cbn [es_gen es_stored]. rewrite Q. cbn [eg_write eg_list]. split; [lia|]. split; [intros j J L; apply D; lia|]. split; [intros _; exact D|discriminate].
Qed.

Lemma alone_step : forall s a s', (Z.of_nat (List.length (cl_got (es_clients s 0%nat))) < 2 ^ 63) ->
  alone_ok s -> one_client s a -> edo s a = Some s' -> alone_ok s'.
Proof.
  intros s a s' Big [K [S [R [L [G P]]]]] [Lag O] E. destruct a as [| |i last|i|i|i|i].
  - destruct (slots_store _ _ S K E) as [S' [A [B C]]]. pose proof (write_grows _ _ _ E) as [_ W].
    unfold alone_ok. rewrite W, A, B, C. auto 8.
  - destruct (slots_bump _ _ S K E) as [S' [A [B C]]]. pose proof (write_grows _ _ _ E) as [_ W].
    unfold alone_ok. rewrite W, A, B, C. split; [exact K|]. split; [exact S'|]. split; [exact R|]. split; [lia|]. split; [exact G|].
    destruct (cl_phase (es_clients s 0%nat)); auto; destruct P; split; auto; lia.
  - destruct O as [-> O]. unfold edo in E. destruct (es_crashed s); [discriminate|]. destruct (cl_phase (es_clients s 0%nat)) eqn:Ph; try discriminate.
    injection E as <-.
    assert (X : match atoi last with Some n => EGen n (eg_write (es_gen s)) (eg_list (es_gen s)) | None => es_gen s end = es_gen s).
    { destruct O as [O|[b [e [O ->]]]]; [rewrite (atoi_none _ O); reflexivity|].
      rewrite G in O. rewrite (first_events_last _ _ _ O). rewrite itoa_says by lia. rewrite <- R. destruct (es_gen s); reflexivity. }
    rewrite X. unfold alone_ok. cbn [es_gen es_clients]. rewrite Ph. split; [exact K|]. split; [exact S|]. auto.
  - subst i. unfold edo in E. destruct (es_crashed s); [discriminate|]. destruct (cl_phase (es_clients s 0%nat)) eqn:Ph; try discriminate.
    injection E as <-. unfold alone_ok. cbn [es_gen es_clients]. rewrite set_same. cbn [cl_phase cl_got]. split; [exact K|]. split; [exact S|]. auto.
  - subst i. unfold edo in E. destruct (es_crashed s); [discriminate|]. destruct (cl_phase (es_clients s 0%nat)) eqn:Ph; try discriminate.
    injection E as <-. unfold alone_ok. cbn [es_gen es_clients]. rewrite set_same. cbn [cl_phase cl_got]. split; [exact K|]. split; [exact S|].
    split; [exact R|]. split; [exact L|]. split; [exact G|]. destruct (Z.leb_spec (eg_write (es_gen s)) ri); [exact I|split; [exact P|lia]].
  - subst i. unfold edo in E. destruct (es_crashed s); [discriminate|]. destruct (cl_phase (es_clients s 0%nat)) eqn:Ph; try discriminate.
    destruct P as [-> P]. destruct (Z.eqb_spec (cap (es_gen s)) 0); [lia|]. cbn [orb] in E.
    pose proof (rem_nat (eg_read (es_gen s)) (cap (es_gen s)) ltac:(lia) K) as Q.
    destruct (Z.ltb_spec (Z.rem (eg_read (es_gen s)) (cap (es_gen s))) 0); [lia|].
    injection E as <-. unfold alone_ok. cbn [es_gen es_clients]. rewrite set_same. cbn [cl_phase cl_got]. split; [exact K|]. split; [exact S|].
    split; [exact R|]. split; [exact L|]. split; [exact G|]. split; [|exact P].
    destruct S as [_ [A _]]. cbn zeta in A. apply A; lia.
  - subst i. unfold edo in E. destruct (es_crashed s); [discriminate|]. destruct (cl_phase (es_clients s 0%nat)) eqn:Ph; try discriminate.
    destruct P as [-> P]. injection E as <-. unfold alone_ok. cbn [es_gen es_clients eg_read eg_write]. rewrite set_same. cbn [cl_phase cl_got].
    split; [exact K|]. split; [exact S|]. rewrite app_length, Nat.add_1_r. split; [cbn [List.length]; lia|]. split; [lia|]. split; [|exact I].
    rewrite first_events_snoc, <- G, R. do 3 f_equal. lia.
Qed.

Lemma alone_runs : forall s l s', runs_with one_client s l s' -> alone_ok s -> eg_write (es_gen s') < 2 ^ 63 -> alone_ok s'.
Proof.
  intros s l s' R. induction R as [s|s a s1 l s2 H E R IH]; intros A W; [exact A|]. apply IH; [|exact W].
  eapply alone_step; eauto. destruct A as [_ [_ [B [C _]]]]. apply write_grows in E. apply runs_grow in R. lia.
Qed.
Lemma alone_new : forall n, (0 < n)%nat -> alone_ok (esys_new n).
Proof.
  intros n H. unfold alone_ok, slots_right, esys_new, cap. cbn [es_gen eg_read eg_write eg_list es_stored es_clients cl_got cl_phase].
  rewrite repeat_length. split; [lia|]. split; [|repeat split; lia].
  split; [lia|]. split; [intros j J; lia|]. split; [intros _ j J; lia|discriminate].
Qed.

(** ** The properties *)

(** A negative number that is no multiple of the size ends the process, whenever. *)
Lemma client_crashes : forall (P : esys -> eact -> Prop) n l s i last z, runs_with P (esys_new n) l s -> es_crashed s = false ->
  cl_phase (es_clients s i) = POutside -> says_number last z -> z < 0 -> Z.rem z (Z.of_nat n) <> 0 ->
  exists s', erun s [EConnect i last; ELoad i; ECompare i; EFetch i] = Some s' /\ es_crashed s' = true.
Proof.
  intros P n l s i last z R C Ph A N K. apply runs_grow in R. destruct R as [W Q].
  assert (Q2 : cap (es_gen s) = Z.of_nat n) by (rewrite Q; unfold cap, esys_new; cbn [es_gen eg_list]; rewrite repeat_length; reflexivity).
  apply (negative_crashes s i last z C Ph); [exact W|exact A|exact N|rewrite Q2; exact K].
Qed.
Lemma crash_case : says_number (str "-1") (-1) /\ Z.rem (-1) (Z.of_nat 10) <> 0 /\
  exists s', erun (esys_new 10) [EConnect 0 (str "-1"); ELoad 0; ECompare 0; EFetch 0] = Some s' /\ es_crashed s' = true.
Proof.
  split; [apply atoi_iff; reflexivity|]. split; [discriminate|]. eexists. split; [vm_compute; reflexivity|reflexivity].
Qed.

(** Without negative numbers the process goes on. *)
Lemma process_lives : forall n l s, (0 < n)%nat -> runs_with (never_from (fun z => z < 0)) (esys_new n) l s -> es_crashed s = false.
Proof.
  intros n l s H R. apply calm_runs in R; [apply R|]. split; [reflexivity|].
  split; [unfold cap, esys_new; cbn [es_gen eg_list]; rewrite repeat_length; lia|]. split; [cbn; lia|intros i; exact I].
Qed.

(** A number from the future keeps all events up to it from all clients. *)
Lemma clients_silenced : forall s i last M s1 l s2, (forall j, cl_phase (es_clients s j) = POutside) ->
  says_number last M -> edo s (EConnect i last) = Some s1 -> runs_with (never_from (fun _ => True)) s1 l s2 -> eg_write (es_gen s2) <= M ->
  forall j, cl_got (es_clients s2 j) = cl_got (es_clients s j).
Proof.
  intros s i last M s1 l s2 O A E R W. apply (silent_runs M (fun j => cl_got (es_clients s j)) _ _ _ R); [|exact W].
  apply atoi_iff in A. unfold edo in E. destruct (es_crashed s); [discriminate|]. rewrite O, A in E. injection E as <-.
  split; [reflexivity|]. split; [reflexivity|]. intros j. left. apply O.
Qed.
Definition nexts (i : nat) : list eact := [ELoad i; ECompare i; EFetch i; EAdvance i].
Definition pushes (n : nat) : list eact := List.concat (repeat [EStore; EBump] n).
(** Case: the largest number, then five events; a client asks and gets nothing. *)
Lemma silence_case : says_number (str "9223372036854775807") 9223372036854775807 /\
  exists s, erun (esys_new 10) (EConnect 1 (str "9223372036854775807") :: pushes 5 ++ [ELoad 0; ECompare 0]) = Some s /\
    eg_write (es_gen s) = 5 /\ cl_got (es_clients s 0%nat) = [].
Proof.
  split; [apply atoi_iff; vm_compute; reflexivity|]. eexists. split; [vm_compute; reflexivity|split; reflexivity].
Qed.

(** Two clients share the events; both get the first and nobody the second; a client
    that is late gets the eleventh event before the second, and again after the tenth. *)
Lemma events_shared : exists s, erun (esys_new 10) (pushes 1 ++ nexts 0 ++ pushes 1 ++ nexts 1) = Some s /\
  eg_read (es_gen s) = 2 /\ eg_write (es_gen s) = 2 /\ cl_got (es_clients s 0%nat) = [message 1] /\ cl_got (es_clients s 1%nat) = [message 2].
Proof. eexists. split; [vm_compute; reflexivity|repeat split]. Qed.
Lemma event_lost : exists s, erun (esys_new 10) (pushes 2 ++ [ELoad 0; ELoad 1; ECompare 0; ECompare 1; EFetch 0; EFetch 1; EAdvance 0; EAdvance 1]) = Some s /\
  eg_read (es_gen s) = 2 /\ eg_write (es_gen s) = 2 /\ cl_got (es_clients s 0%nat) = [message 1] /\ cl_got (es_clients s 1%nat) = [message 1].
Proof. eexists. split; [vm_compute; reflexivity|repeat split]. Qed.
Lemma events_repeated : exists s, erun (esys_new 10) (pushes 11 ++ List.concat (repeat (nexts 0) 11)) = Some s /\
  cl_got (es_clients s 0%nat) = message 11 :: map message [2; 3; 4; 5; 6; 7; 8; 9; 10] ++ [message 11].
Proof. eexists. split; [vm_compute; reflexivity|vm_compute; reflexivity]. Qed.

(** One client gets all events in order, over any number of connections. *)
Lemma one_client_served : forall n l s, (0 < n)%nat -> runs_with one_client (esys_new n) l s -> eg_write (es_gen s) < 2 ^ 63 ->
  exists k, cl_got (es_clients s 0%nat) = first_events k /\ Z.of_nat k = eg_read (es_gen s) /\ Z.of_nat k <= eg_write (es_gen s) /\
    (es_crashed s = false -> cl_phase (es_clients s 0%nat) = POutside -> Z.of_nat k < eg_write (es_gen s) ->
     eg_write (es_gen s) - Z.of_nat k < Z.of_nat n ->
     exists s', erun s [ELoad 0; ECompare 0; EFetch 0; EAdvance 0] = Some s' /\ cl_got (es_clients s' 0%nat) = first_events (S k)).
Proof.
  intros n l s H R W. pose proof (alone_runs _ _ _ R (alone_new n H) W) as A. pose proof A as [K [S [B [L [G P]]]]].
  exists (List.length (cl_got (es_clients s 0%nat))). split; [exact G|]. split; [symmetry; exact B|]. split; [lia|].
  intros C Ph Lt Lag.
  assert (Q : cap (es_gen s) = Z.of_nat n).
  { apply runs_grow in R. destruct R as [_ R]. rewrite R. unfold cap, esys_new. cbn [es_gen eg_list]. rewrite repeat_length. reflexivity. }
  assert (Step : forall t a t', alone_ok t -> one_client t a -> edo t a = Some t' -> eg_write (es_gen t) < 2 ^ 63 -> alone_ok t').
  { intros t a t' At Ot Et Wt. eapply alone_step; eauto. destruct At as [_ [_ [Bt [Ct _]]]]. lia. }
  destruct (edo s (ELoad 0)) as [s1|] eqn:E1; [|unfold edo in E1; rewrite C, Ph in E1; discriminate].
  assert (A1 : alone_ok s1) by (eapply (Step s (ELoad 0%nat)); eauto; split; [lia|reflexivity]).
  pose proof E1 as F1. unfold edo in E1. rewrite C, Ph in E1. injection E1 as <-.
  match type of A1 with alone_ok ?t => set (s1 := t) in *; assert (P1 : cl_phase (es_clients s1 0%nat) = PLoaded (eg_read (es_gen s))) by reflexivity end.
  destruct (edo s1 (ECompare 0)) as [s2|] eqn:E2; [|unfold edo in E2; cbn [s1 es_crashed] in E2; rewrite P1 in E2; discriminate].
  assert (A2 : alone_ok s2) by (eapply (Step s1 (ECompare 0%nat)); eauto; split; [cbn [s1 es_gen]; lia|reflexivity]).
  pose proof E2 as F2. unfold edo in E2. rewrite P1 in E2. cbn [s1 es_crashed] in E2.
  destruct (Z.leb_spec (eg_write (es_gen s1)) (eg_read (es_gen s))) as [X|X]; [cbn [s1 es_gen] in X; lia|]. injection E2 as <-.
  match type of A2 with alone_ok ?t => set (s2 := t) in *; assert (P2 : cl_phase (es_clients s2 0%nat) = PSlot (eg_read (es_gen s))) by reflexivity end.
  destruct (edo s2 (EFetch 0)) as [s3|] eqn:E3;
    [|unfold edo in E3; cbn [s2 es_crashed] in E3; rewrite P2 in E3; destruct (_ || _); discriminate].
  assert (A3 : alone_ok s3) by (eapply (Step s2 (EFetch 0%nat)); eauto; split; [cbn [s2 s1 es_gen]; lia|reflexivity]).
  pose proof (rem_nat (eg_read (es_gen s)) (cap (es_gen s)) ltac:(lia) K) as Rm.
  pose proof E3 as F3. unfold edo in E3. rewrite P2 in E3. cbn [s2 s1 es_crashed es_gen] in E3.
  destruct (Z.eqb_spec (cap (es_gen s)) 0) as [Y|Y]; [lia|]. destruct (Z.ltb_spec (Z.rem (eg_read (es_gen s)) (cap (es_gen s))) 0) as [Z0|Z0]; [lia|].
  cbn [orb] in E3. injection E3 as <-.
  match type of A3 with alone_ok ?t => set (s3 := t) in * end.
  assert (P3 : exists e, cl_phase (es_clients s3 0%nat) = PRead e) by (eexists; reflexivity). destruct P3 as [e P3].
  destruct (edo s3 (EAdvance 0)) as [s4|] eqn:E4; [|unfold edo in E4; cbn [s3 es_crashed] in E4; rewrite P3 in E4; discriminate].
  assert (A4 : alone_ok s4) by (eapply (Step s3 (EAdvance 0%nat)); eauto; split; [cbn [s3 s2 s1 es_gen]; lia|reflexivity]).
  exists s4. split.
  - cbn [erun]. rewrite F1, F2, F3, E4. reflexivity.
  - destruct A4 as [_ [_ [B4 [_ [G4 _]]]]]. rewrite G4. f_equal. unfold edo in E4. rewrite P3 in E4. cbn [s3 es_crashed] in E4. injection E4 as <-.
    cbn [es_clients]. rewrite set_same. cbn [cl_got]. rewrite app_length. change (cl_got (es_clients s3 0%nat)) with (cl_got (es_clients s 0%nat)). cbn [List.length]. lia.
Qed.

(** Case: two events, a reconnection after the first. *)
Definition demo_run : list eact := pushes 1 ++ nexts 0 ++ [EConnect 0 (str "1")] ++ pushes 1 ++ nexts 0.
Lemma one_client_case : exists s, runs_with one_client (esys_new 10) demo_run s /\ cl_got (es_clients s 0%nat) = [message 1; message 2].
Proof.
  eexists. split.
  - unfold demo_run, pushes, nexts. cbn [repeat List.concat app].
    do 6 (eapply rw_cons; [split; [vm_compute; reflexivity|first [reflexivity|exact I]]|vm_compute; reflexivity|]).
    eapply rw_cons; [split; [vm_compute; reflexivity|split; [reflexivity|right; exists [], (message 1); split; reflexivity]]|vm_compute; reflexivity|].
    do 6 (eapply rw_cons; [split; [vm_compute; reflexivity|first [reflexivity|exact I]]|vm_compute; reflexivity|]).
    apply rw_nil.
  - vm_compute. reflexivity.
Qed.
