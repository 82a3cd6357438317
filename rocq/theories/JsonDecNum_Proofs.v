(** * The decoder reads numbers as the grammar says. *)
From Coq Require Import List NArith ZArith Ascii String Bool Lia Arith.
From Verif Require Import GoBase Json_Model Json_Spec JsonUtf8_Proofs JsonRead_Proofs OAuthWire_Model JsonDec_Model JsonDec_Spec JsonDecStr_Proofs.
Import ListNotations.
Local Open Scope string_scope.
Local Open Scope list_scope.
Local Open Scope N_scope.

Definition is_dec (b : byte) : Prop := 48 <= code b <= 57.
(** What follows does not begin with a digit. *)
Definition no_digit (r : bytes) : Prop := forall b r', r = b :: r' -> ~ is_dec b.

Lemma span_app ds r : Forall is_dec ds -> no_digit r -> span_digits (ds ++ r) = (ds, r).
Proof.
  intros F N. induction F as [|b ds B F IH].
  - destruct r as [|b r]; [reflexivity|]. cbn. destruct (between 48 57 b) eqn:E; [|reflexivity]. apply btw in E. exfalso. exact (N b r eq_refl E).
  - cbn [app span_digits]. replace (between 48 57 b) with true by (symmetry; apply btw; exact B). rewrite IH. reflexivity.
Qed.
Lemma span_sound s ds r : span_digits s = (ds, r) -> s = ds ++ r /\ Forall is_dec ds.
Proof.
  revert ds. induction s as [|b s IH]; intros ds H; cbn in H.
  - injection H as <- <-. split; [reflexivity|constructor].
  - destruct (between 48 57 b) eqn:E.
    + destruct (span_digits s) as [d r'] eqn:D. injection H as <- <-. destruct (IH d eq_refl) as [-> F]. split; [reflexivity|]. constructor; [apply btw; exact E|assumption].
    + injection H as <- <-. split; [reflexivity|constructor].
Qed.
Lemma digit_dec b : is_num b <-> is_dec b.
Proof. apply num_range. Qed.
Lemma digits_dec t n : digits t n -> Forall is_dec t.
Proof. intros H. apply digits_num in H. revert H. apply Forall_impl. intros b. apply digit_dec. Qed.
Lemma dec_value b : is_dec b -> digit_value b = Some (code b - 48).
Proof.
  intros [A B]. unfold digit_value. replace (48 <=? code b) with true by (symmetry; apply N.leb_le; assumption).
  replace (code b <=? 57) with true by (symmetry; apply N.leb_le; assumption). reflexivity.
Qed.
Lemma decimal_snoc t b : decimal_num (t ++ [b]) = decimal_num t * 10 + (code b - 48).
Proof. unfold decimal_num. rewrite fold_left_app. reflexivity. Qed.
Lemma dec_digits b t : 49 <= code b <= 57 -> Forall is_dec t -> digits (b :: t) (decimal_num (b :: t)).
Proof.
  intros B. induction t as [|x t IH] using rev_ind; intros F.
  - replace (decimal_num [b]) with (code b - 48) by (unfold decimal_num; cbn; lia). constructor; [apply dec_value; unfold is_dec; lia|lia].
  - apply Forall_app in F. destruct F as [F X]. apply Forall_inv in X. change (b :: t ++ [x]) with ((b :: t) ++ [x]). rewrite decimal_snoc.
    constructor; [apply IH; assumption|apply dec_value; assumption].
Qed.
Lemma digits_decimal t n : digits t n -> decimal_num t = n.
Proof.
  intros H. pose proof (digits_head _ _ H) as [b [t0 [-> B]]]. pose proof (digits_dec _ _ H) as F. apply Forall_inv_tail in F.
  exact (digits_fun _ _ (dec_digits b t0 B F) _ H).
Qed.

(** ** The parts *)
Definition int_part (i : bytes) : Prop := i = str "0" \/ exists n, digits i n.
Lemma int_complete i r : int_part i -> no_digit r -> scan_int (i ++ r) = Some (i, r).
Proof.
  intros [->|[n D]] N; [reflexivity|]. pose proof (digits_dec _ _ D) as F. destruct (digits_head _ _ D) as [b [t [-> B]]].
  cbn [app scan_int]. replace (code b =? 48) with false by (symmetry; apply N.eqb_neq; lia).
  replace (between 49 57 b) with true by (symmetry; apply btw; lia). change (b :: t ++ r) with ((b :: t) ++ r). rewrite span_app by assumption. reflexivity.
Qed.
Lemma int_sound s i r : scan_int s = Some (i, r) -> int_part i /\ s = i ++ r.
Proof.
  destruct s as [|b s]; [discriminate|]. cbn [scan_int]. destruct (code b =? 48) eqn:E.
  - intros H. injection H as <- <-. split; [|reflexivity]. left. apply N.eqb_eq in E. cbn. f_equal. apply code_inj. rewrite E. reflexivity.
  - destruct (between 49 57 b) eqn:B; [|discriminate]. apply btw in B. intros H. injection H as H.
    cbn [span_digits] in H. replace (between 48 57 b) with true in H by (symmetry; apply btw; lia).
    destruct (span_digits s) as [d r'] eqn:D. injection H as <- <-. destruct (span_sound _ _ _ D) as [-> F]. split; [|reflexivity].
    right. eexists. apply dec_digits; assumption.
Qed.
Lemma scan_digits_complete d r : decimals d -> no_digit r -> scan_digits (d ++ r) = Some (d, r).
Proof. intros [N F] D. unfold scan_digits. rewrite span_app by assumption. destruct d; [contradiction|reflexivity]. Qed.
Lemma scan_digits_sound s d r : scan_digits s = Some (d, r) -> decimals d /\ s = d ++ r.
Proof.
  unfold scan_digits. destruct (span_digits s) as [[|b ds] r'] eqn:E; [discriminate|]. intros H. injection H as <- <-.
  destruct (span_sound _ _ _ E) as [-> F]. split; [|reflexivity]. split; [discriminate|assumption].
Qed.
Definition frac_part (f : bytes) : Prop := f = [] \/ exists d, decimals d /\ f = str "." ++ d.
Definition exp_part (x : bytes) : Prop := x = [] \/ exists e g d, In e [str "e"; str "E"] /\ In g [[]; str "+"; str "-"] /\ decimals d /\ x = e ++ g ++ d.
Lemma frac_complete f r : frac_part f -> no_digit r -> (forall b r', r = b :: r' -> code b <> 46) -> scan_frac (f ++ r) = Some (f, r).
Proof.
  intros [->|[d [D ->]]] N P.
  - destruct r as [|b r]; [reflexivity|]. cbn. replace (code b =? 46) with false by (symmetry; apply N.eqb_neq; eapply P; reflexivity). reflexivity.
  - cbn [app str list_ascii_of_string scan_frac]. change (code "."%char =? 46) with true. cbv iota. rewrite scan_digits_complete by assumption. reflexivity.
Qed.
Lemma frac_sound s f r : scan_frac s = Some (f, r) -> frac_part f /\ s = f ++ r.
Proof.
  destruct s as [|b s]; cbn [scan_frac].
  - intros H. injection H as <- <-. split; [left; reflexivity|reflexivity].
  - destruct (code b =? 46) eqn:E; intros H.
    + apply emit_some in H. destruct H as [d [H ->]]. apply scan_digits_sound in H. destruct H as [D ->]. split; [|reflexivity]. right. exists d. split; [assumption|].
      apply N.eqb_eq in E. cbn. f_equal. apply code_inj. rewrite E. reflexivity.
    + injection H as <- <-. split; [left; reflexivity|reflexivity].
Qed.
Lemma exp_complete x r : exp_part x -> no_digit r -> (forall b r', r = b :: r' -> code b <> 101 /\ code b <> 69) -> scan_exp (x ++ r) = Some (x, r).
Proof.
  intros [->|[e [g [d [E [G [D ->]]]]]]] N P.
  - destruct r as [|b r]; [reflexivity|]. destruct (P b r eq_refl) as [A B]. cbn. replace (code b =? 101) with false by (symmetry; apply N.eqb_neq; assumption).
    replace (code b =? 69) with false by (symmetry; apply N.eqb_neq; assumption). reflexivity.
  - pose proof (scan_digits_complete d r D N) as S. pose proof D as [NE F].
    assert (K : exists b, e = [b] /\ (code b =? 101) || (code b =? 69) = true).
    { destruct E as [<-|[<-|[]]]; eexists; split; reflexivity. }
    destruct K as [b [-> K]].
    destruct G as [<-|[<-|[<-|[]]]].
    + destruct d as [|c d]; [contradiction|]. cbn [app scan_exp]. rewrite K. apply Forall_inv in F.
      replace ((code c =? 43) || (code c =? 45)) with false.
      2:{ symmetry. apply orb_false_iff. split; apply N.eqb_neq; lia. }
      cbn [app] in S. rewrite S. reflexivity.
    + cbn [app str list_ascii_of_string scan_exp]. rewrite K. change ((code "+"%char =? 43) || (code "+"%char =? 45)) with true. cbv iota. rewrite S. reflexivity.
    + cbn [app str list_ascii_of_string scan_exp]. rewrite K. change ((code "-"%char =? 43) || (code "-"%char =? 45)) with true. cbv iota. rewrite S. reflexivity.
Qed.
Lemma exp_sound s x r : scan_exp s = Some (x, r) -> exp_part x /\ s = x ++ r.
Proof.
  destruct s as [|b s]; cbn [scan_exp].
  - intros H. injection H as <- <-. split; [left; reflexivity|reflexivity].
  - destruct ((code b =? 101) || (code b =? 69)) eqn:E; intros H.
    2:{ injection H as <- <-. split; [left; reflexivity|reflexivity]. }
    assert (B : In [b] [str "e"; str "E"]).
    { apply orb_true_iff in E. rewrite !N.eqb_eq in E. destruct E as [E|E]; [left|right; left]; cbn; f_equal; apply code_inj; rewrite E; reflexivity. }
    destruct s as [|g s]; [discriminate|]. destruct ((code g =? 43) || (code g =? 45)) eqn:G; apply emit_some in H; destruct H as [d [H ->]]; apply scan_digits_sound in H; destruct H as [D S].
    + subst s. split; [|reflexivity]. right. exists [b], [g], d. split; [assumption|]. split; [|auto].
      apply orb_true_iff in G. rewrite !N.eqb_eq in G. right. destruct G as [G|G]; [left|right; left]; cbn; f_equal; apply code_inj; rewrite G; reflexivity.
    + rewrite S. split; [|reflexivity]. right. exists [b], [], d. split; [assumption|]. split; [left; reflexivity|auto].
Qed.

Lemma stop_no_digit r : stop r -> no_digit r.
Proof. intros S b r' -> D. unfold is_dec in D. cbn in S. lia. Qed.
Lemma frac_no_digit f r : frac_part f -> no_digit r -> no_digit (f ++ r).
Proof. intros [->|[d [_ ->]]] N; [assumption|]. intros b r' E D. injection E as <- _. unfold is_dec in D. cbn in D. lia. Qed.
Lemma exp_no_digit x r : exp_part x -> no_digit r -> no_digit (x ++ r).
Proof.
  intros [->|[e [g [d [E [_ [_ ->]]]]]]] N; [assumption|]. intros b r' Q D. destruct E as [<-|[<-|[]]]; injection Q as <- _; unfold is_dec in D; cbn in D; lia.
Qed.
Lemma number_complete t r : number t -> stop r -> scan_number (t ++ r) = Some (t, r).
Proof.
  intros [sg [i [f [x [-> [S [I [F X]]]]]]]] ST. pose proof (stop_no_digit _ ST) as N.
  assert (R : scan_int (i ++ f ++ x ++ r) = Some (i, f ++ x ++ r) /\ scan_frac (f ++ x ++ r) = Some (f, x ++ r) /\ scan_exp (x ++ r) = Some (x, r)).
  { split; [apply int_complete; [assumption|apply frac_no_digit; [assumption|apply exp_no_digit; assumption]]|].
    split; [apply frac_complete; [assumption|apply exp_no_digit; assumption|]|apply exp_complete; [assumption|assumption|]].
    - intros b r' E. destruct X as [->|[e [g [d [Ie [_ [_ ->]]]]]]].
      + cbn in E. subst r. cbn in ST. lia.
      + destruct Ie as [<-|[<-|[]]]; injection E as <- _; cbn; lia.
    - intros b r' ->. cbn in ST. lia. }
  destruct R as [R1 [R2 R3]]. rewrite <- !app_assoc.
  destruct S as [<-|[<-|[]]]; cbn [app str list_ascii_of_string]; unfold scan_number.
  - assert (H : exists b i', i = b :: i' /\ code b <> 45).
    { destruct I as [->|[n D]]; [exists "0"%char, []; split; [reflexivity|cbn; lia]|]. destruct (digits_head _ _ D) as [b [t0 [-> B]]]. exists b, t0. split; [reflexivity|lia]. }
    destruct H as [b [i' [-> B]]]. cbn [app] in R1 |- *. replace (code b =? 45) with false by (symmetry; apply N.eqb_neq; assumption).
    rewrite R1, R2, R3. reflexivity.
  - change (code "-"%char =? 45) with true. cbv iota beta. rewrite R1, R2, R3. reflexivity.
Qed.
Lemma number_sound s t r : scan_number s = Some (t, r) -> number t /\ s = t ++ r.
Proof.
  unfold scan_number. intros H.
  set (p := match s with b :: s' => if code b =? 45 then ([b], s') else ([], s) | [] => ([], []) end) in H.
  assert (P : In (fst p) [[]; str "-"] /\ s = fst p ++ snd p).
  { subst p. destruct s as [|b s]; [split; [left; reflexivity|reflexivity]|]. destruct (code b =? 45) eqn:E; [|split; [left; reflexivity|reflexivity]].
    apply N.eqb_eq in E. split; [|reflexivity]. right. left. cbn. f_equal. apply code_inj. rewrite E. reflexivity. }
  destruct p as [sg s1]. cbn [fst snd] in P. destruct P as [P ->].
  destruct (scan_int s1) as [[i s2]|] eqn:I; [|discriminate]. destruct (int_sound _ _ _ I) as [Hi ->].
  destruct (scan_frac s2) as [[f s3]|] eqn:F; [|discriminate]. destruct (frac_sound _ _ _ F) as [Hf ->].
  destruct (scan_exp s3) as [[x s4]|] eqn:X; [|discriminate]. destruct (exp_sound _ _ _ X) as [Hx ->].
  injection H as <- <-. split; [|rewrite <- !app_assoc; reflexivity]. exists sg, i, f, x. auto.
Qed.
Lemma number_head t : number t -> exists b t0, t = b :: t0 /\ (code b = 45 \/ is_dec b).
Proof.
  intros [sg [i [f [x [-> [S [I _]]]]]]].
  destruct S as [<-|[<-|[]]]; [|eexists; eexists; split; [reflexivity|left; reflexivity]].
  destruct I as [->|[n D]]; [eexists; eexists; split; [reflexivity|right; unfold is_dec; cbn; lia]|].
  destruct (digits_head _ _ D) as [b [t0 [-> B]]]. eexists; eexists; split; [reflexivity|right; unfold is_dec; lia].
Qed.

(** ** The values of numbers *)
Lemma dec_forallb t : forallb (between 48 57) t = true <-> Forall is_dec t.
Proof. rewrite forallb_forall, Forall_forall. split; intros H b I; specialize (H b I); apply btw in H || apply btw; assumption. Qed.
Lemma whole_complete t z : whole t z \/ t = str "-0" /\ z = 0%Z -> whole_num t = Some z.
Proof.
  intros [W|[-> ->]]; [|reflexivity]. destruct W as [|t n D|t n D]; [reflexivity| |]; pose proof (digits_dec _ _ D) as F; pose proof (digits_decimal _ _ D) as V.
  - destruct (digits_head _ _ D) as [b [t0 [-> B]]]. unfold whole_num. replace (code b =? 45) with false by (symmetry; apply N.eqb_neq; lia).
    apply dec_forallb in F. rewrite F, V. reflexivity.
  - cbn [app str list_ascii_of_string whole_num]. change (code "-"%char =? 45) with true. cbv iota. apply dec_forallb in F. rewrite F, V. reflexivity.
Qed.
Lemma no_tail f x : frac_part f -> exp_part x -> Forall is_dec (f ++ x) -> f ++ x = [].
Proof.
  intros [->|[d [_ ->]]] X F.
  - destruct X as [->|[e [g [d [E [_ [_ ->]]]]]]]; [reflexivity|]. exfalso. destruct E as [<-|[<-|[]]]; apply Forall_inv in F; unfold is_dec in F; cbn in F; lia.
  - exfalso. apply Forall_inv in F. unfold is_dec in F. cbn in F. lia.
Qed.
Lemma int_whole i : int_part i -> Forall is_dec i -> whole i (Z.of_N (decimal_num i)) /\ (whole (str "-" ++ i) (- Z.of_N (decimal_num i)) \/ i = str "0").
Proof.
  intros [->|[n D]] F; [split; [constructor|right; reflexivity]|]. rewrite (digits_decimal _ _ D). split; [constructor; assumption|left; constructor; assumption].
Qed.
Lemma whole_sound t z : number t -> whole_num t = Some z -> whole t z \/ t = str "-0" /\ z = 0%Z.
Proof.
  intros [sg [i [f [x [-> [S [I [Hf Hx]]]]]]]] H.
  assert (C : exists b i', i = b :: i' /\ code b <> 45).
  { destruct I as [->|[n D]]; [exists "0"%char, []; split; [reflexivity|cbn; lia]|]. destruct (digits_head _ _ D) as [b [t0 [-> B]]]. exists b, t0. split; [reflexivity|lia]. }
  destruct S as [<-|[<-|[]]]; cbn [app str list_ascii_of_string] in H |- *.
  - destruct C as [b [i' [Ei B]]]. subst i. cbn [app] in H |- *. unfold whole_num in H. replace (code b =? 45) with false in H by (symmetry; apply N.eqb_neq; assumption).
    destruct (forallb (between 48 57) (b :: i' ++ f ++ x)) eqn:F; [|discriminate]. apply dec_forallb in F. change (b :: i' ++ f ++ x) with ((b :: i') ++ f ++ x) in *.
    apply Forall_app in F. destruct F as [F1 F2]. rewrite (no_tail _ _ Hf Hx F2), app_nil_r in *. injection H as <-. left. apply int_whole; assumption.
  - cbn [whole_num] in H. change (code "-"%char =? 45) with true in H. cbv iota in H.
    destruct (forallb (between 48 57) (i ++ f ++ x)) eqn:F; [|discriminate]. apply dec_forallb in F. apply Forall_app in F. destruct F as [F1 F2].
    rewrite (no_tail _ _ Hf Hx F2), app_nil_r in *. injection H as <-. destruct (int_whole i I F1) as [_ [W|W]]; [left; exact W|right; subst i; split; reflexivity].
Qed.
Section Values.
Variable other : bytes -> option Z.
Lemma number_value t z : number t -> (number_of other t = Some z <-> number_is other t z).
Proof.
  intros N. unfold number_of, number_is, small_whole. change (2 ^ 53)%Z with 9007199254740992%Z.
  destruct (whole_num t) as [w|] eqn:W.
  - pose proof (whole_sound _ _ N W) as S. destruct (Z.abs w <=? 9007199254740992)%Z eqn:B; [apply Z.leb_le in B|apply Z.leb_gt in B].
    + split.
      * intros H. injection H as <-. split; [assumption|]. left. split; [assumption|lia].
      * intros [_ [[K _]|[K _]]].
        -- apply whole_complete in K. congruence.
        -- exfalso. apply (K w). split; [assumption|lia].
    + split.
      * intros H. split; [assumption|]. right. split; [|assumption]. intros z' [K R]. apply whole_complete in K. assert (z' = w) by congruence. lia.
      * intros [_ [[K R]|[_ K]]]; [|assumption]. apply whole_complete in K. assert (z = w) by congruence. lia.
  - split.
    + intros H. split; [assumption|]. right. split; [|assumption]. intros z' [K R]. apply whole_complete in K. congruence.
    + intros [_ [[K R]|[_ K]]]; [|assumption]. apply whole_complete in K. congruence.
Qed.
Lemma number_text t z : number_is other t z -> number t.
Proof. intros [N _]. assumption. Qed.
End Values.
