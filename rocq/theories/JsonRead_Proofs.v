(** * A JSON text says one thing. *)
From Coq Require Import List NArith ZArith Ascii String Bool Lia Arith.
From Verif Require Import GoBase Json_Model Json_Spec JsonUtf8_Proofs.
Import ListNotations.
Local Open Scope string_scope.
Local Open Scope list_scope.
Local Open Scope N_scope.

Ltac flat E := cbn [app str list_ascii_of_string] in E; repeat (rewrite <- app_assoc in E; cbn [app] in E).

(** ** Strings *)
Lemma hex4_len : forall h c, hex4 h = Some c -> List.length h = 4%nat.
Proof. intros [|a [|b [|c0 [|d [|]]]]] c H; try discriminate. reflexivity. Qed.
Lemma app_len_inj : forall (A : Type) (a b x y : list A), List.length a = List.length b -> a ++ x = b ++ y -> a = b /\ x = y.
Proof.
  intros A a. induction a as [|p a IH]; intros [|q b] x y L E; try discriminate; [auto|].
  cbn in E. injection E as -> E. cbn in L. destruct (IH b x y ltac:(lia) E) as [-> ->]. auto.
Qed.
Lemma hex4_split : forall h c h' c' x y, hex4 h = Some c -> hex4 h' = Some c' -> h ++ x = h' ++ y -> c = c' /\ h = h' /\ x = y.
Proof.
  intros h c h' c' x y A B E. destruct (app_len_inj _ h h' x y) as [-> ->]; [|assumption|].
  - rewrite (hex4_len _ _ A), (hex4_len _ _ B). reflexivity.
  - rewrite A in B. injection B as ->. auto.
Qed.

Lemma plain_head : forall c, scalar c -> 32 <= c -> c <> 34 -> c <> 92 -> exists b r, utf8 c = b :: r /\ code b <> 34 /\ code b <> 92.
Proof.
  intros c H A B C. destruct (utf8_cons c H) as [b [r E]]. exists b, r. split; [assumption|].
  destruct (utf8_first c b r H E) as [[_ [D _]]|[_ D]]; lia.
Qed.
Lemma escape_letter : forall e c, In (e, c) short_escapes -> e < 256 /\ e <> 117.
Proof. intros e c H. cbn in H. repeat (destruct H as [H|H]; [injection H as <- <-; lia|]). destruct H. Qed.
Lemma escape_fun : forall e c c', In (e, c) short_escapes -> In (e, c') short_escapes -> c = c'.
Proof.
  intros e c c' H H'. cbn in H, H'. repeat (destruct H as [H|H]; [injection H as <- <-;
    repeat (destruct H' as [H'|H']; [try discriminate; injection H' as <-; reflexivity|]); destruct H'|]). destruct H.
Qed.
Lemma code_eq : forall n m, n < 256 -> m < 256 -> ascii_of_N n = ascii_of_N m -> n = m.
Proof. intros n m A B E. rewrite <- (code_of n A), <- (code_of m B), E. reflexivity. Qed.

Local Notation q34 := (ascii_of_N 34).

Lemma chars_unique : forall t cs, string_chars t cs -> forall t' cs' r r', string_chars t' cs' ->
  t ++ q34 :: r = t' ++ q34 :: r' -> t = t' /\ cs = cs' /\ r = r'.
Proof.
  intros t cs H. induction H as [|c t cs Hc H1 H2 H3 H IH|e c t cs He H IH|h c t cs Hh Hc H IH|h1 h2 c1 c2 t cs Hh1 Hh2 Hc1 Hc2 H IH];
  intros t' cs' r r' D E; destruct D as [|d u ds Hd D1 D2 D3 D|g d u ds Hg D|k d u ds Hk Hd D|k1 k2 d1 d2 u ds Hk1 Hk2 Hd1 Hd2 D].
  - cbn in E. injection E as E. auto.
  - exfalso. destruct (plain_head d Hd D1 D2 D3) as [b [x [Eb [B1 _]]]]. rewrite Eb in E. cbn [app] in E. injection E as E _.
    apply B1. rewrite <- E. reflexivity.
  - exfalso. cbn [app] in E. injection E as E _. discriminate.
  - exfalso. cbn [app str list_ascii_of_string] in E. injection E as E _. discriminate.
  - exfalso. cbn [app str list_ascii_of_string] in E. injection E as E _. discriminate.
  - exfalso. destruct (plain_head c Hc H1 H2 H3) as [b [x [Eb [B1 _]]]]. rewrite Eb in E. cbn [app] in E. injection E as E _.
    apply B1. rewrite E. reflexivity.
  - rewrite <- ?app_assoc in E. destruct (utf8_prefix _ _ _ _ Hc Hd E) as [-> E']. destruct (IH _ _ _ _ D E') as [-> [-> ->]]. auto.
  - exfalso. destruct (plain_head c Hc H1 H2 H3) as [b [x [Eb [_ B1]]]]. rewrite Eb in E. cbn [app] in E. injection E as E _.
    apply B1. rewrite E. reflexivity.
  - exfalso. destruct (plain_head c Hc H1 H2 H3) as [b [x [Eb [_ B1]]]]. rewrite Eb in E. cbn [app str list_ascii_of_string] in E. injection E as E _.
    apply B1. rewrite E. reflexivity.
  - exfalso. destruct (plain_head c Hc H1 H2 H3) as [b [x [Eb [_ B1]]]]. rewrite Eb in E. cbn [app str list_ascii_of_string] in E. injection E as E _.
    apply B1. rewrite E. reflexivity.
  - exfalso. cbn [app] in E. injection E as E _. discriminate.
  - exfalso. destruct (plain_head d Hd D1 D2 D3) as [b [x [Eb [_ B1]]]]. rewrite Eb in E. cbn [app] in E. injection E as E _.
    apply B1. rewrite <- E. reflexivity.
  - cbn [app] in E. injection E as E1 E2. destruct (escape_letter _ _ He) as [L1 _]. destruct (escape_letter _ _ Hg) as [L2 _].
    apply code_eq in E1; [|assumption|assumption]. subst g. pose proof (escape_fun _ _ _ He Hg) as ->.
    destruct (IH _ _ _ _ D E2) as [-> [-> ->]]. auto.
  - exfalso. cbn [app str list_ascii_of_string] in E. injection E as E _. destruct (escape_letter _ _ He) as [L1 L2]. apply L2.
    rewrite <- (code_of e L1), E. reflexivity.
  - exfalso. cbn [app str list_ascii_of_string] in E. injection E as E _. destruct (escape_letter _ _ He) as [L1 L2]. apply L2.
    rewrite <- (code_of e L1), E. reflexivity.
  - exfalso. cbn [app str list_ascii_of_string] in E. injection E as E _. discriminate.
  - exfalso. destruct (plain_head d Hd D1 D2 D3) as [b [x [Eb [_ B1]]]]. rewrite Eb in E. cbn [app str list_ascii_of_string] in E. injection E as E _.
    apply B1. rewrite <- E. reflexivity.
  - exfalso. cbn [app str list_ascii_of_string] in E. injection E as E _. destruct (escape_letter _ _ Hg) as [L1 L2]. apply L2.
    rewrite <- (code_of g L1), <- E. reflexivity.
  - rewrite <- ?app_assoc in E. cbn [app str list_ascii_of_string] in E. injection E as E. rewrite <- ?app_assoc in E.
    destruct (hex4_split _ _ _ _ _ _ Hh Hk E) as [-> [-> E']]. destruct (IH _ _ _ _ D E') as [-> [-> ->]]. auto.
  - exfalso. rewrite <- ?app_assoc in E. cbn [app str list_ascii_of_string] in E. injection E as E. rewrite <- ?app_assoc in E.
    destruct (hex4_split _ _ _ _ _ _ Hh Hk1 E) as [-> _]. unfold scalar in Hc. lia.
  - exfalso. cbn [app str list_ascii_of_string] in E. injection E as E _. discriminate.
  - exfalso. destruct (plain_head d Hd D1 D2 D3) as [b [x [Eb [_ B1]]]]. rewrite Eb in E. cbn [app str list_ascii_of_string] in E. injection E as E _.
    apply B1. rewrite <- E. reflexivity.
  - exfalso. cbn [app str list_ascii_of_string] in E. injection E as E _. destruct (escape_letter _ _ Hg) as [L1 L2]. apply L2.
    rewrite <- (code_of g L1), <- E. reflexivity.
  - exfalso. rewrite <- ?app_assoc in E. cbn [app str list_ascii_of_string] in E. injection E as E. rewrite <- ?app_assoc in E.
    destruct (hex4_split _ _ _ _ _ _ Hh1 Hk E) as [-> _]. unfold scalar in Hd. lia.
  - rewrite <- ?app_assoc in E. cbn [app str list_ascii_of_string] in E. injection E as E. rewrite <- ?app_assoc in E.
    destruct (hex4_split _ _ _ _ _ _ Hh1 Hk1 E) as [-> [-> E']]. cbn [app] in E'. injection E' as E'. rewrite <- ?app_assoc in E'.
    destruct (hex4_split _ _ _ _ _ _ Hh2 Hk2 E') as [-> [-> E'']]. destruct (IH _ _ _ _ D E'') as [-> [-> ->]]. auto.
Qed.

(** ** Numbers *)
Definition is_num (b : byte) : Prop := exists d, digit_value b = Some d.
Lemma num_range : forall b, is_num b <-> 48 <= code b <= 57.
Proof.
  intros b. unfold is_num, digit_value. destruct ((48 <=? code b) && (code b <=? 57)) eqn:E.
  - apply andb_true_iff in E. rewrite !N.leb_le in E. split; [intros _; assumption|eauto].
  - apply andb_false_iff in E. rewrite !N.leb_gt in E. split; [intros [d D]; discriminate|lia].
Qed.
Lemma digits_num : forall t n, digits t n -> Forall is_num t.
Proof.
  intros t n H. induction H as [b d H _|t n b d _ IH H].
  - repeat constructor. exists d. assumption.
  - apply Forall_app. split; [assumption|]. repeat constructor. exists d. assumption.
Qed.
Lemma digits_head : forall t n, digits t n -> exists b t0, t = b :: t0 /\ 49 <= code b <= 57.
Proof.
  intros t n H. induction H as [b d H P|t n b d _ IH H].
  - exists b, []. split; [reflexivity|]. assert (N : is_num b) by (exists d; assumption). apply num_range in N.
    unfold digit_value in H. destruct ((48 <=? code b) && (code b <=? 57)); [|discriminate]. injection H as H. lia.
  - destruct IH as [x [t0 [-> X]]]. exists x, (t0 ++ [b]). split; [reflexivity|assumption].
Qed.
Lemma digits_fun : forall t n, digits t n -> forall m, digits t m -> n = m.
Proof.
  intros t n H. induction H as [b d H P|t n b d H IH Hd]; intros m M.
  - inversion M as [b' d' H' P' E|t n b' d' H' Hd' E]; subst.
    + congruence.
    + destruct t as [|x t]; [|destruct t; discriminate]. apply digits_head in H'. destruct H' as [? [? [? _]]]. discriminate.
  - remember (t ++ [b]) as u eqn:E. destruct M as [b' d' H' P'|t' n' b' d' H' Hd'].
    + destruct t as [|x t]; [|destruct t; discriminate]. apply digits_head in H. destruct H as [? [? [? _]]]. discriminate.
    + apply app_inj_tail in E. destruct E as [-> ->]. rewrite (IH _ H'). congruence.
Qed.

Definition stop (r : bytes) : Prop := match r with [] => True | b :: _ => In (code b) [32; 9; 10; 13; 44; 93; 125] end.
Lemma stop_not_num : forall b r, stop (b :: r) -> ~ is_num b.
Proof. intros b r H N. apply num_range in N. cbn in H. lia. Qed.

Lemma num_span : forall t t' r r', Forall is_num t -> Forall is_num t' -> stop r -> stop r' -> t ++ r = t' ++ r' -> t = t' /\ r = r'.
Proof.
  intros t t' r r' H. revert t'. induction H as [|b t Hb H IH]; intros t' H' S S' E.
  - destruct H' as [|b' t' Hb' H']; [auto|]. cbn in E. subst r. exfalso. eapply stop_not_num; eassumption.
  - destruct H' as [|b' t' Hb' H'].
    + cbn in E. subst r'. exfalso. eapply stop_not_num; eassumption.
    + cbn in E. injection E as -> E. destruct (IH _ H' S S' E) as [-> ->]. auto.
Qed.

Lemma whole_head : forall t z, whole t z -> exists b t0, t = b :: t0 /\ (code b = 45 \/ 48 <= code b <= 57).
Proof.
  intros t z H. destruct H as [|t n H|t n H].
  - exists "0"%char, []. split; [reflexivity|]. right. cbn. lia.
  - apply digits_head in H. destruct H as [b [t0 [-> H]]]. exists b, t0. split; [reflexivity|]. right. lia.
  - exists "-"%char, t. split; [reflexivity|]. left. reflexivity.
Qed.

Lemma whole_unique : forall t z, whole t z -> forall t' z' r r', whole t' z' -> stop r -> stop r' -> t ++ r = t' ++ r' -> t = t' /\ z = z'.
Proof.
  assert (Z0 : Forall is_num (str "0")).
  { repeat constructor. apply num_range. cbn. lia. }
  assert (ZD : forall t n, digits t n -> t <> str "0").
  { intros t n H E. apply digits_head in H. destruct H as [b [t0 [-> H]]]. injection E as -> _. cbn in H. lia. }
  intros t z H. destruct H as [|t n H|t n H]; intros t' z' r r' H' S S' E; destruct H' as [|t' n' H'|t' n' H'].
  - auto.
  - exfalso. destruct (num_span _ _ _ _ Z0 (digits_num _ _ H') S S' E) as [A _]. symmetry in A. revert A. apply (ZD _ _ H').
  - exfalso. discriminate.
  - exfalso. destruct (num_span _ _ _ _ (digits_num _ _ H) Z0 S S' E) as [A _]. revert A. apply (ZD _ _ H).
  - destruct (num_span _ _ _ _ (digits_num _ _ H) (digits_num _ _ H') S S' E) as [-> _]. rewrite (digits_fun _ _ H _ H'). auto.
  - exfalso. apply digits_head in H. destruct H as [b [t0 [-> H]]]. cbn in E. injection E as -> _. cbn in H. lia.
  - exfalso. discriminate.
  - exfalso. apply digits_head in H'. destruct H' as [b [t0 [-> H']]]. cbn in E. injection E as <- _. cbn in H'. lia.
  - cbn in E. injection E as E. destruct (num_span _ _ _ _ (digits_num _ _ H) (digits_num _ _ H') S S' E) as [-> _].
    rewrite (digits_fun _ _ H _ H'). auto.
Qed.

(** ** White space *)
Definition blank (b : byte) : Prop := In (code b) [32; 9; 10; 13].
Lemma white_split : forall w w' b b' x x', white w -> white w' -> ~ blank b -> ~ blank b' -> w ++ b :: x = w' ++ b' :: x' ->
  w = w' /\ b = b' /\ x = x'.
Proof.
  intros w w' b b' x x' H. revert w'. induction H as [|y w Hy H IH]; intros w' H' B B' E.
  - destruct H' as [|y' w' Hy' H']; cbn in E; injection E as E1 E2; [auto|]. subst. contradiction.
  - destruct H' as [|y' w' Hy' H']; cbn in E; injection E as E1 E2; subst; [contradiction|].
    destruct (IH _ H' B B' E2) as [-> [-> ->]]. auto.
Qed.
Lemma white_stop : forall w b x, white w -> stop (b :: x) -> stop (w ++ b :: x).
Proof. intros w b x H S. destruct H as [|y w Hy H]; [assumption|]. cbn in Hy |- *. tauto. Qed.

(** How a value begins. *)
Definition starts (b : byte) : Prop := In (code b) [110; 116; 102; 34; 91; 123; 45] \/ 48 <= code b <= 57.
Lemma starts_blank : forall b, starts b -> ~ blank b.
Proof. intros b S B. unfold starts, blank in *. cbn in S, B. lia. Qed.
Lemma json_head : forall t v, json t v -> exists b t0, t = b :: t0 /\ starts b.
Proof.
  intros t v H. destruct H; try (eexists; eexists; split; [reflexivity|]; left; cbn; tauto).
  destruct (whole_head _ _ H) as [b [t0 [-> K]]]. exists b, t0. split; [reflexivity|]. unfold starts. cbn. lia.
Qed.
Lemma elements_head : forall t l, elements t l -> exists w b t0, t = w ++ b :: t0 /\ white w /\ starts b.
Proof.
  intros t l H. destruct H as [w1 t w2 v H1 H2 H|w1 t w2 v t' l H1 H2 H _]; destruct (json_head _ _ H) as [b [t0 [-> B]]].
  - exists w1, b, (t0 ++ w2). auto.
  - exists w1, b, (t0 ++ w2 ++ str "," ++ t'). auto.
Qed.
Lemma members_head : forall t m, members t m -> exists w t0, t = w ++ q34 :: t0 /\ white w.
Proof. intros t m H. destruct H; eexists; eexists; split; try reflexivity; assumption. Qed.

(** ** Values *)
Scheme json_m := Minimality for json Sort Prop
  with elements_m := Minimality for elements Sort Prop
  with members_m := Minimality for members Sort Prop.
Combined Scheme json_all from json_m, elements_m, members_m.

Definition j_unique (t : bytes) (v : value) : Prop := forall t' v' r r', json t' v' -> t ++ r = t' ++ r' -> stop r -> stop r' -> t = t' /\ v = v'.
Definition e_unique (t : bytes) (l : list value) : Prop := forall t' l' r r', elements t' l' -> t ++ str "]" ++ r = t' ++ str "]" ++ r' -> t = t' /\ l = l'.
Definition m_unique (t : bytes) (m : list (list N * value)) : Prop := forall t' m' r r', members t' m' -> t ++ str "}" ++ r = t' ++ str "}" ++ r' -> t = t' /\ m = m'.

Ltac num_case := match goal with H : whole _ _ |- _ =>
  let b := fresh "b" in let t0 := fresh "t0" in let B := fresh in
  destruct (whole_head _ _ H) as [b [t0 [-> B]]]; match goal with E : _ = _ |- _ => cbn in E; injection E as E; subst; cbn in B; lia end end.

Lemma not_blank : forall n, n < 256 -> ~ In n [32; 9; 10; 13] -> ~ blank (ascii_of_N n).
Proof. intros n L H B. unfold blank in B. rewrite code_of in B by assumption. contradiction. Qed.
Lemma bracket : ~ blank "]"%char. Proof. intros B. cbn in B. lia. Qed.
Lemma brace : ~ blank "}"%char. Proof. intros B. cbn in B. lia. Qed.
Lemma comma : ~ blank ","%char. Proof. intros B. cbn in B. lia. Qed.
Lemma colon : ~ blank ":"%char. Proof. intros B. cbn in B. lia. Qed.
Lemma quoted : ~ blank q34. Proof. intros B. cbn in B. lia. Qed.

(** An array or object without and with something in it. *)
Lemma arr_empty : forall w t l r r', white w -> elements t l -> w ++ "]"%char :: r = t ++ "]"%char :: r' -> False.
Proof.
  intros w t l r r' W H E. destruct (elements_head _ _ H) as [w' [b [t0 [-> [W' B]]]]]. rewrite <- app_assoc in E. cbn [app] in E.
  destruct (white_split _ _ _ _ _ _ W W' bracket (starts_blank _ B) E) as [_ [<- _]]. unfold starts in B. cbn in B. lia.
Qed.
Lemma obj_empty : forall w t l r r', white w -> members t l -> w ++ "}"%char :: r = t ++ "}"%char :: r' -> False.
Proof.
  intros w t l r r' W H E. destruct (members_head _ _ H) as [w' [t0 [-> W']]]. rewrite <- app_assoc in E. cbn [app] in E.
  destruct (white_split _ _ _ _ _ _ W W' brace quoted E) as [_ [A _]]. discriminate.
Qed.

(** A value, white space, and what follows. *)
Lemma value_step : forall t v t' v' w w' b b' x x', j_unique t v -> json t' v' -> white w -> white w' ->
  stop (b :: x) -> stop (b' :: x') -> ~ blank b -> ~ blank b' ->
  t ++ w ++ b :: x = t' ++ w' ++ b' :: x' -> t = t' /\ v = v' /\ w = w' /\ b = b' /\ x = x'.
Proof.
  intros t v t' v' w w' b b' x x' IH H W W' S S' B B' E.
  destruct (IH _ _ _ _ H E) as [-> ->]; [apply white_stop; assumption|apply white_stop; assumption|].
  apply app_inv_head in E. destruct (white_split _ _ _ _ _ _ W W' B B' E) as [-> [-> ->]]. auto.
Qed.
(** White space before a value. *)
Lemma value_after : forall t v t' v' w w' x x', json t v -> json t' v' -> white w -> white w' -> w ++ t ++ x = w' ++ t' ++ x' -> w = w' /\ t ++ x = t' ++ x'.
Proof.
  intros t v t' v' w w' x x' H H' W W' E. destruct (json_head _ _ H) as [b [t0 [-> B]]]. destruct (json_head _ _ H') as [b' [t0' [-> B']]].
  cbn [app] in *. destruct (white_split _ _ _ _ _ _ W W' (starts_blank _ B) (starts_blank _ B') E) as [-> [-> ->]]. auto.
Qed.
(** A member up to its value. *)
Lemma key_step : forall w1 k cs w2 w3 w1' k' cs' w2' w3' t v x t' v' x', white w1 -> white w2 -> white w3 -> white w1' -> white w2' -> white w3' ->
  string_chars k cs -> string_chars k' cs' -> json t v -> json t' v' ->
  w1 ++ q34 :: k ++ q34 :: w2 ++ ":"%char :: w3 ++ t ++ x = w1' ++ q34 :: k' ++ q34 :: w2' ++ ":"%char :: w3' ++ t' ++ x' ->
  w1 = w1' /\ k = k' /\ cs = cs' /\ w2 = w2' /\ w3 = w3' /\ t ++ x = t' ++ x'.
Proof.
  intros w1 k cs w2 w3 w1' k' cs' w2' w3' t v x t' v' x' W1 W2 W3 W1' W2' W3' K K' J J' E.
  destruct (white_split _ _ _ _ _ _ W1 W1' quoted quoted E) as [-> [_ E2]].
  destruct (chars_unique _ _ K _ _ _ _ K' E2) as [-> [-> E3]].
  destruct (white_split _ _ _ _ _ _ W2 W2' colon colon E3) as [-> [_ E4]].
  destruct (value_after _ _ _ _ _ _ _ _ J J' W3 W3' E4) as [-> E5]. repeat split; assumption.
Qed.

Lemma stop_bracket : forall r, stop ("]"%char :: r). Proof. intros r. cbn. lia. Qed.
Lemma stop_brace : forall r, stop ("}"%char :: r). Proof. intros r. cbn. lia. Qed.
Lemma stop_comma : forall r, stop (","%char :: r). Proof. intros r. cbn. lia. Qed.

Lemma unique_all : (forall t v, json t v -> j_unique t v) /\ (forall t l, elements t l -> e_unique t l) /\ (forall t m, members t m -> m_unique t m).
Proof.
  apply json_all.
  - intros t' v' r r' D E S S'. destruct D; try (cbn in E; discriminate); [auto|num_case].
  - intros t' v' r r' D E S S'. destruct D; try (cbn in E; discriminate); [auto|num_case].
  - intros t' v' r r' D E S S'. destruct D; try (cbn in E; discriminate); [auto|num_case].
  - intros t z H t' v' r r' D E S S'. destruct D as [ | | |t' z' H'| | | | | ];
      try (destruct (whole_head _ _ H) as [bz [tz [-> B]]]; cbn in E; injection E as E; subst; cbn in B; lia).
    destruct (whole_unique _ _ H _ _ _ _ H' S S' E) as [-> ->]. auto.
  - intros t cs H t' v' r r' D E S S'. destruct D as [ | | |t' z' H'|t' cs' H'| | | | ]; try (cbn in E; discriminate); [num_case|].
    flat E. injection E as E. destruct (chars_unique _ _ H _ _ _ _ H' E) as [-> [-> _]]. auto.
  - intros w W t' v' r r' D E S S'. destruct D as [ | | |t' z' H'| |w' W'|t' v' l' H'| | ]; try (cbn in E; discriminate); [num_case| |];
    flat E; injection E as E.
    + destruct (white_split _ _ _ _ _ _ W W' bracket bracket E) as [-> _]. auto.
    + exfalso. eapply arr_empty; eassumption.
  - intros t v l H IH t' v' r r' D E S S'. destruct D as [ | | |t' z' H'| |w' W'|t' v' l' H'| | ]; try (cbn in E; discriminate); [num_case| |];
    flat E; injection E as E.
    + exfalso. symmetry in E. eapply arr_empty; eassumption.
    + destruct (IH _ _ _ _ H' E) as [-> A]. injection A as -> ->. auto.
  - intros w W t' v' r r' D E S S'. destruct D as [ | | |t' z' H'| | | |w' W'|t' v' l' H']; try (cbn in E; discriminate); [num_case| |];
    flat E; injection E as E.
    + destruct (white_split _ _ _ _ _ _ W W' brace brace E) as [-> _]. auto.
    + exfalso. eapply obj_empty; eassumption.
  - intros t v l H IH t' v' r r' D E S S'. destruct D as [ | | |t' z' H'| | | |w' W'|t' v' l' H']; try (cbn in E; discriminate); [num_case| |];
    flat E; injection E as E.
    + exfalso. symmetry in E. eapply obj_empty; eassumption.
    + destruct (IH _ _ _ _ H' E) as [-> A]. injection A as -> ->. auto.
  - intros w1 t w2 v W1 W2 J IH t' l' r r' D E. destruct D as [w1' u w2' v' W1' W2' J'|w1' u w2' v' u' l' W1' W2' J' D]; flat E;
    destruct (value_after _ _ _ _ _ _ _ _ J J' W1 W1' E) as [-> E2].
    + destruct (value_step _ _ _ _ _ _ _ _ _ _ IH J' W2 W2' (stop_bracket _) (stop_bracket _) bracket bracket E2) as [-> [-> [-> _]]]. auto.
    + destruct (value_step _ _ _ _ _ _ _ _ _ _ IH J' W2 W2' (stop_bracket _) (stop_comma _) bracket comma E2) as [_ [_ [_ [A _]]]]. discriminate.
  - intros w1 t w2 v t1 l1 W1 W2 J IH _ IHe t' l' r r' D E. destruct D as [w1' u w2' v' W1' W2' J'|w1' u w2' v' u' l' W1' W2' J' D]; flat E;
    destruct (value_after _ _ _ _ _ _ _ _ J J' W1 W1' E) as [-> E2].
    + destruct (value_step _ _ _ _ _ _ _ _ _ _ IH J' W2 W2' (stop_comma _) (stop_bracket _) comma bracket E2) as [_ [_ [_ [A _]]]]. discriminate.
    + destruct (value_step _ _ _ _ _ _ _ _ _ _ IH J' W2 W2' (stop_comma _) (stop_comma _) comma comma E2) as [-> [-> [-> [_ E3]]]].
      destruct (IHe _ _ _ _ D E3) as [-> ->]. auto.
  - intros w1 k cs w2 w3 t w4 v W1 W2 W3 W4 K J IH t' m' r r' D E.
    destruct D as [w1' k' cs' w2' w3' u w4' v' W1' W2' W3' W4' K' J'|w1' k' cs' w2' w3' u w4' v' u' l' W1' W2' W3' W4' K' J' D]; flat E;
    destruct (key_step _ _ _ _ _ _ _ _ _ _ _ _ _ _ _ _ W1 W2 W3 W1' W2' W3' K K' J J' E) as [-> [-> [-> [-> [-> E2]]]]].
    + destruct (value_step _ _ _ _ _ _ _ _ _ _ IH J' W4 W4' (stop_brace _) (stop_brace _) brace brace E2) as [-> [-> [-> _]]]. auto.
    + destruct (value_step _ _ _ _ _ _ _ _ _ _ IH J' W4 W4' (stop_brace _) (stop_comma _) brace comma E2) as [_ [_ [_ [A _]]]]. discriminate.
  - intros w1 k cs w2 w3 t w4 v t1 m1 W1 W2 W3 W4 K J IH _ IHm t' m' r r' D E.
    destruct D as [w1' k' cs' w2' w3' u w4' v' W1' W2' W3' W4' K' J'|w1' k' cs' w2' w3' u w4' v' u' l' W1' W2' W3' W4' K' J' D]; flat E;
    destruct (key_step _ _ _ _ _ _ _ _ _ _ _ _ _ _ _ _ W1 W2 W3 W1' W2' W3' K K' J J' E) as [-> [-> [-> [-> [-> E2]]]]].
    + destruct (value_step _ _ _ _ _ _ _ _ _ _ IH J' W4 W4' (stop_comma _) (stop_brace _) comma brace E2) as [_ [_ [_ [A _]]]]. discriminate.
    + destruct (value_step _ _ _ _ _ _ _ _ _ _ IH J' W4 W4' (stop_comma _) (stop_comma _) comma comma E2) as [-> [-> [-> [_ E3]]]].
      destruct (IHm _ _ _ _ D E3) as [-> ->]. auto.
Qed.

Lemma json_text_unique : forall t v v', json_text t v -> json_text t v' -> v = v'.
Proof.
  intros t v v' [w1 [u [w2 [W1 [W2 [J E]]]]]] [w1' [u' [w2' [W1' [W2' [J' E']]]]]]. subst t.
  destruct (value_after _ _ _ _ _ _ _ _ J J' W1 W1' E') as [-> E2].
  assert (SW : forall w, white w -> stop w).
  { intros w W. destruct W as [|b w B W]; [exact I|]. cbn in B |- *. tauto. }
  destruct (proj1 unique_all _ _ J _ _ _ _ J' E2 (SW _ W2) (SW _ W2')) as [_ A]. assumption.
Qed.
