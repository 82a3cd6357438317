(** * Cookies: proofs *)
From Coq Require Import List NArith ZArith Ascii String Bool Lia Arith Permutation.
From Verif Require Import GoBase Http_Model Resp_Model Resp_Spec Resp_Proofs RespMisc_Proofs Auth_Spec AuthText_Proofs.
From Verif Require Import Auth_Proofs Json_Spec JsonEnc_Proofs OAuthUrl_Proofs OAuthWire_Proofs Cookie_Model Cookie_Spec.
Import ListNotations.
Local Open Scope string_scope.
Local Open Scope list_scope.
Local Open Scope nat_scope.

(** ** Signs *)

Lemma token_iff c : token_byte c = true <->
  (48 <= code c <= 57)%N \/ (65 <= code c <= 90)%N \/ (97 <= code c <= 122)%N \/ In c (str "!#$%&'*+-.^_`|~").
Proof.
  unfold token_byte. cbv zeta. rewrite !orb_true_iff, !andb_true_iff, !N.leb_le, existsb_exists. split.
  - intros [[[H|H]|H]|(x & I1 & E)]; [auto|auto|auto|]. apply Ascii.eqb_eq in E. subst x. auto.
  - intros [H|[H|[H|H]]]; [auto|auto|auto|]. right. exists c. split; [exact H|apply Ascii.eqb_refl].
Qed.

Lemma name_iff n : cookie_name_valid n = true <-> token_name n.
Proof.
  unfold cookie_name_valid, token_name. rewrite andb_true_iff, negb_true_iff, forallb_forall. split; intros [A B]; (split; [|intros c I1; apply token_iff; auto]).
  - intros ->. discriminate A.
  - now apply beqb_ne.
Qed.

Lemma sign_ne c n : (code c =? n)%N = false <-> code c <> n.
Proof. apply N.eqb_neq. Qed.

Lemma value_sign_iff c : cookie_value_byte c = true <-> value_sign c.
Proof.
  unfold cookie_value_byte, value_sign. rewrite !andb_true_iff, !negb_true_iff, N.leb_le, N.ltb_lt, !N.eqb_neq. split.
  - intros ((((A & B) & C) & D) & E). split; [lia|]. split; [|exact E]. intros [<-|[<-|[]]]; [now apply C|now apply D].
  - intros (A & B & C). repeat split; try lia; intro X; apply B; [left|right; left]; rewrite <- (ascii_N_embedding c); unfold code in X; rewrite X; reflexivity.
Qed.

Lemma path_sign_iff c : cookie_path_byte c = true <-> path_sign c.
Proof.
  unfold cookie_path_byte, path_sign. rewrite !andb_true_iff, negb_true_iff, N.leb_le, N.ltb_lt, N.eqb_neq. split.
  - intros ((A & B) & C). split; [lia|]. intros ->. now apply C.
  - intros (A & B). repeat split; try lia. intro X. apply B. rewrite <- (ascii_N_embedding c). unfold code in X. rewrite X. reflexivity.
Qed.

Lemma only_filter (P : byte -> Prop) f : (forall c, f c = true <-> P c) -> forall s t, only P s t <-> t = filter f s.
Proof.
  intro H. induction s as [|c s IH]; intro t; cbn [filter].
  - split; [intro O; now inversion O|intros ->; constructor].
  - destruct (f c) eqn:F.
    + apply H in F. split.
      * intro O. inversion O as [|? ? ? _ O'|? ? ? N O']; subst; [|contradiction]. f_equal. now apply IH.
      * intros ->. constructor; [exact F|]. now apply IH.
    + assert (N : ~ P c) by (rewrite <- H, F; discriminate). split.
      * intro O. inversion O as [|? ? ? Y O'|? ? ? _ O']; subst; [contradiction|]. now apply IH.
      * intros ->. apply on_drop; [exact N|]. now apply IH.
Qed.

(** ** Blanks *)

Lemma skip_id s : (forall c t, s = c :: t -> blank_sign c = false) -> skip_blanks s = s.
Proof. destruct s as [|c s]; intro H; [reflexivity|]. cbn. now rewrite (H c s eq_refl). Qed.

Lemma bare_id s : (forall c t, s = c :: t -> blank_sign c = false) -> (forall t c, s = t ++ [c] -> blank_sign c = false) -> bare s = s.
Proof.
  intros A B. unfold bare. rewrite (skip_id s A). rewrite skip_id; [apply rev_involutive|].
  intros c t E. apply (B (rev t) c). rewrite <- (rev_involutive s), E. reflexivity.
Qed.

Lemma bare_none s : (forall c, In c s -> blank_sign c = false) -> bare s = s.
Proof. intro H. apply bare_id; intros; apply H; subst; [now left|apply in_app_iff; right; now left]. Qed.

Lemma blank_is s : is_blank s = blank_sign s.
Proof.
  unfold is_blank, blank_sign. f_equal. destruct (Ascii.eqb_spec s " "%char) as [->|N]; [reflexivity|]. apply N.eqb_neq. intro E. apply N.
  rewrite <- (ascii_N_embedding s). unfold code in E. rewrite E. reflexivity.
Qed.

Lemma trim_bare s : trim_blank s = bare s.
Proof.
  assert (L : forall s, trim_blank_left s = skip_blanks s). { induction s0 as [|c s0 IH]; [reflexivity|]. cbn. rewrite blank_is. now rewrite IH. }
  unfold trim_blank, bare. now rewrite !L.
Qed.

Lemma token_not c d : token_byte c = true -> token_byte d = false -> c <> d.
Proof. intros A B ->. congruence. Qed.

Lemma token_blank c : token_byte c = true -> blank_sign c = false.
Proof.
  intro T. unfold blank_sign. apply orb_false_iff. split; [apply ascii_eqb_no; exact (token_not c " "%char T eq_refl)|].
  apply N.eqb_neq. intro E. apply (token_not c (ascii_of_N 9) T eq_refl). rewrite <- (ascii_N_embedding c). unfold code in E. now rewrite E.
Qed.

Lemma value_bare v : bare (sanitize_value v) = sanitize_value v.
Proof.
  unfold sanitize_value. set (w := filter cookie_value_byte v). destruct (existsb _ w) eqn:X.
  - apply bare_id.
    + intros c t E. injection E as <- _. reflexivity.
    + intros t c E. rewrite app_assoc in E. apply app_inj_tail in E. destruct E as [_ <-]. reflexivity.
  - apply bare_none. intros c I1. assert (B : cookie_value_byte c = true) by (apply filter_In in I1; apply I1).
    unfold blank_sign. apply orb_false_iff. split.
    + destruct (Ascii.eqb_spec c " "%char) as [->|N]; [|reflexivity]. exfalso.
      assert (T : existsb (fun c => Ascii.eqb c " "%char || Ascii.eqb c ","%char) w = true) by (apply existsb_exists; exists " "%char; split; [exact I1|reflexivity]). congruence.
    + apply value_sign_iff in B. destruct B as [B _]. apply N.eqb_neq. lia.
Qed.

(** ** Semicolons *)

Lemma split_pieces p l : (forall x, In x p -> x <> ";"%char) -> (forall a x, In a l -> In x a -> x <> ";"%char) ->
  split_on ";"%char (p ++ flat_map (cons ";"%char) l) = p :: l.
Proof.
  revert p. induction l as [|a l IH]; intros p P L; cbn [flat_map].
  - rewrite app_nil_r. now apply split_none.
  - rewrite <- app_comm_cons. rewrite split_first by exact P. f_equal. apply IH; [intros x; apply L; now left|intros b x I1; apply L; now right].
Qed.

Lemma value_semi v x : In x (sanitize_value v) -> x <> ";"%char.
Proof.
  unfold sanitize_value. set (w := filter cookie_value_byte v).
  assert (W : forall y, In y w -> y <> ";"%char). { intros y I1 ->. apply filter_In in I1. destruct I1 as [_ B]. discriminate B. }
  destruct (existsb _ w); [|apply W]. rewrite !in_app_iff. intros [[<-|[]]|[I1|[<-|[]]]]; [discriminate|now apply W|discriminate].
Qed.

Lemma letter_sign_iff c : is_letter c = true <-> letter_sign c.
Proof. unfold is_letter, is_upper_ascii, is_lower_ascii, letter_sign. rewrite orb_true_iff, !andb_true_iff, !N.leb_le. tauto. Qed.
Lemma digit_sign_iff c : is_digit c = true <-> digit_sign c.
Proof. unfold is_digit, digit_sign. rewrite andb_true_iff, !N.leb_le. tauto. Qed.

(** ** Domains *)

Fixpoint dotted (ps : list bytes) : Prop :=
  match ps with
  | [] => False
  | [p] => p = [] \/ host_label p
  | p :: ps' => host_label p /\ dotted ps'
  end.

Definition last_of (cur : bytes) : byte := last cur "."%char.
Definition good_start (cur : bytes) : Prop :=
  (forall c, In c cur -> letter_sign c \/ digit_sign c \/ c = "-"%char) /\ (forall t, cur <> str "-" ++ t).

Lemma last_of_snoc cur c : last_of (cur ++ [c]) = c.
Proof. apply last_last. Qed.

Lemma good_no_dot cur : good_start cur -> forall x, In x cur -> x <> "."%char.
Proof.
  intros [G _] x I1 ->. destruct (G _ I1) as [[X|X]|[X|X]]; [| | |discriminate X]; destruct X as [X1 X2]; revert X1 X2; vm_compute; congruence.
Qed.

Lemma last_hyphen cur : good_start cur -> (Ascii.eqb (last_of cur) "-"%char = true <-> exists t, cur = t ++ str "-").
Proof.
  intros _. destruct cur as [|c0 cur0] using rev_ind; [split; [discriminate|intros (t & E); destruct t; discriminate E]|].
  rewrite last_of_snoc. split.
  - intro E. apply Ascii.eqb_eq in E. subst c0. eauto.
  - intros (t & E). apply app_inj_tail in E. destruct E as [_ ->]. reflexivity.
Qed.

Lemma last_dot cur : good_start cur -> (Ascii.eqb (last_of cur) "."%char = true <-> cur = []).
Proof.
  intros G. destruct cur as [|c0 cur0] using rev_ind; [tauto|]. rewrite last_of_snoc. split.
  - intro E. apply Ascii.eqb_eq in E. subst c0. exfalso. apply (good_no_dot _ G "."%char); [apply in_app_iff; right; now left|reflexivity].
  - intro E. destruct cur0; discriminate E.
Qed.

Lemma label_iff cur : good_start cur -> (host_label cur <-> cur <> [] /\ List.length cur <= 63 /\ Ascii.eqb (last_of cur) "-"%char = false).
Proof.
  intros G. pose proof (last_hyphen cur G) as H. unfold host_label. split.
  - intros (A & B & _ & _ & E). repeat split; auto. apply not_true_is_false. rewrite H. intros (t & X). exact (E t X).
  - intros (A & B & C). destruct G as [G1 G2]. repeat split; auto. intros t X. assert (Y : exists t, cur = t ++ str "-") by eauto. apply H in Y. congruence.
Qed.

Lemma domain_loop_iff s : forall cur ok, good_start cur ->
  domain_loop s (last_of cur) ok (List.length cur) = true <->
  dotted (split_on "."%char (cur ++ s)) /\ (ok = true \/ exists c, In c s /\ letter_sign c).
Proof.
  induction s as [|c s IH]; intros cur ok G.
  - rewrite app_nil_r, split_none by now apply good_no_dot. cbn [domain_loop dotted]. pose proof (label_iff cur G) as L. split.
    + destruct (Ascii.eqb (last_of cur) "-"%char) eqn:E; [discriminate|]. destruct (63 <? List.length cur) eqn:N; [discriminate|]. cbn. intros ->. split; [|now left].
      apply Nat.ltb_ge in N. destruct cur; [now left|right; apply L; repeat split; auto; discriminate].
    + intros (D & [->|(c & [] & _)]). destruct D as [->|D]; [reflexivity|]. apply L in D. destruct D as (_ & D & E). rewrite E. apply Nat.ltb_ge in D. now rewrite D.
  - assert (SN : forall x : byte, cur ++ x :: s = (cur ++ [x]) ++ s) by (intro; now rewrite <- app_assoc).
    assert (LN : List.length (cur ++ [c]) = S (List.length cur)) by (rewrite app_length; cbn; lia).
    assert (GG : (letter_sign c \/ digit_sign c \/ c = "-"%char) -> (c = "-"%char -> cur <> []) -> good_start (cur ++ [c])).
    { intros K1 K2. destruct G as [G1 G2]. split.
      - intros x I1. apply in_app_iff in I1. destruct I1 as [I1|[<-|[]]]; auto.
      - intros t E. destruct cur as [|y cur]; cbn in E; injection E as E E'; [now apply K2|]. apply (G2 cur). now subst y. }
    cbn [domain_loop]. destruct (is_letter c) eqn:L.
    { apply letter_sign_iff in L. rewrite SN. rewrite <- (last_of_snoc cur c) at 1. rewrite <- LN. rewrite IH.
      - split; intros (A & _); (split; [exact A|]); [right; exists c; split; [now left|exact L]|now left].
      - apply GG; [now left|]. intros ->. destruct L as [L|L]; vm_compute in L; destruct L; congruence. }
    assert (NL : ~ letter_sign c) by (rewrite <- letter_sign_iff, L; discriminate).
    assert (LI : (exists x, In x (c :: s) /\ letter_sign x) <-> exists x, In x s /\ letter_sign x).
    { split; [intros (x & [<-|I1] & X); [contradiction|eauto]|intros (x & I1 & X); exists x; split; [now right|exact X]]. }
    rewrite LI. destruct (is_digit c) eqn:D.
    { apply digit_sign_iff in D. rewrite SN. rewrite <- (last_of_snoc cur c) at 1. rewrite <- LN. apply IH. apply GG; [auto|].
      intros ->. destruct D as [D _]. vm_compute in D. congruence. }
    assert (ND : ~ digit_sign c) by (rewrite <- digit_sign_iff, D; discriminate).
    destruct (Ascii.eqb_spec c "-"%char) as [->|NH].
    { destruct (Ascii.eqb (last_of cur) "."%char) eqn:E.
      - apply (last_dot cur G) in E. subst cur. split; [discriminate|]. intros (X & _). exfalso. cbn [List.app] in X. cbn [split_on] in X.
        replace (Ascii.eqb "-"%char "."%char) with false in X by reflexivity. destruct (split_on "."%char s) as [|p [|q ps]]; cbn [dotted] in X.
        + destruct X as [X|(_ & _ & _ & X & _)]; [discriminate X|]. now apply (X []).
        + destruct X as [X|(_ & _ & _ & X & _)]; [discriminate X|]. now apply (X p).
        + destruct X as [(_ & _ & _ & X & _) _]. now apply (X p).
      - rewrite SN. rewrite <- (last_of_snoc cur "-"%char) at 1. rewrite <- LN. apply IH. apply GG; [auto|]. intros _ ->. discriminate E. }
    destruct (Ascii.eqb_spec c "."%char) as [->|NDT].
    { rewrite split_first by now apply good_no_dot. pose proof (label_iff cur G) as LB.
      assert (DD : dotted (cur :: split_on "."%char s) <-> host_label cur /\ dotted (split_on "."%char s)).
      { cbn [dotted]. destruct (split_on "."%char s) as [|p ps] eqn:SP; [destruct (proj1 (split_parts "."%char s)); exact SP|]. tauto. }
      rewrite DD. destruct (Ascii.eqb (last_of cur) "."%char) eqn:E1.
      { apply (last_dot cur G) in E1. cbn. split; [discriminate|]. intros ((X & _) & _). apply LB in X. now destruct X. }
      destruct (Ascii.eqb (last_of cur) "-"%char) eqn:E2; cbn [orb]; [split; [discriminate|intros ((X & _) & _); apply LB in X; destruct X as (_ & _ & X); discriminate X]|].
      destruct (63 <? List.length cur) eqn:E3; cbn [orb].
      { split; [discriminate|]. intros ((X & _) & _). apply LB in X. apply Nat.ltb_lt in E3. lia. }
      destruct (List.length cur =? 0) eqn:E4.
      { split; [discriminate|]. intros ((X & _) & _). apply LB in X. apply Nat.eqb_eq in E4. destruct cur; [now destruct X|discriminate E4]. }
      assert (HL : host_label cur). { apply LB. apply Nat.ltb_ge in E3. apply Nat.eqb_neq in E4. repeat split; auto. intros ->. now apply E4. }
      assert (G0 : good_start []) by (split; [easy|discriminate]). pose proof (IH [] ok G0) as R. cbn [List.app List.length] in R. change (last_of []) with "."%char in R. rewrite R. tauto. }
    split; [discriminate|]. intros (X & _). exfalso.
    (* c belongs to no part *)
    assert (K : exists p, In p (split_on "."%char (cur ++ c :: s)) /\ In c p).
    { destruct (split_parts "."%char (cur ++ c :: s)) as (_ & J & _).
      assert (IC : In c (join (str ".") (split_on "."%char (cur ++ c :: s)))) by (change (str ".") with ["."%char]; rewrite J; apply in_app_iff; right; now left).
      revert IC. generalize (split_on "."%char (cur ++ c :: s)). induction l as [|p l IHl]; [easy|]. cbn [join]. destruct l as [|q l]; [exists p; split; [now left|exact IC]|].
      rewrite !in_app_iff. intros [I1|[[I1|[]]|I1]]; [exists p; split; [now left|exact I1]|congruence|]. destruct (IHl I1) as (x & A & B). exists x. split; [now right|exact B]. }
    destruct K as (p & I1 & I2). revert X I1. generalize (split_on "."%char (cur ++ c :: s)). induction l as [|q l IHl]; [easy|].
    assert (LC : host_label p -> False). { intros (_ & _ & H & _). destruct (H c I2) as [H'|[H'|H']]; contradiction. }
    cbn [dotted]. destruct l as [|q' l]; intros X [->|I1]; [destruct X as [->|X]; [exact I2|auto]|destruct I1|destruct X; auto|destruct X; auto].
Qed.

Lemma join_end ls : ls <> [] -> join (str ".") ls ++ str "." = join (str ".") (ls ++ [[]]).
Proof.
  induction ls as [|p ls IH]; [congruence|]. intros _. destruct ls as [|q ls].
  - cbn. now rewrite ?app_nil_r.
  - cbn [List.app join] in *. rewrite <- !app_assoc. f_equal. f_equal. apply IH. discriminate.
Qed.

Lemma label_no_dot p : host_label p -> forall x, In x p -> x <> "."%char.
Proof. intros (_ & _ & A & B & _). apply good_no_dot. split; assumption. Qed.

Lemma dotted_iff ps : dotted ps <-> (exists ls, (ps = ls /\ ls <> [] \/ ps = ls ++ [[]]) /\ Forall host_label ls).
Proof.
  induction ps as [|p ps IH].
  - split; [easy|]. intros (ls & [(<- & N)|E] & _); [now apply N|]. destruct ls; discriminate E.
  - destruct ps as [|q ps].
    + cbn [dotted]. split.
      * intros [->|H]; [exists []; split; [now right|constructor]|exists [p]; split; [left; split; [reflexivity|discriminate]|now constructor]].
      * intros (ls & [(<- & _)|E] & F); [right; now inversion F|]. destruct ls as [|x ls]; [injection E as ->; now left|]. injection E as _ E. destruct ls; discriminate E.
    + change (dotted (p :: q :: ps)) with (host_label p /\ dotted (q :: ps)). rewrite IH. split.
      * intros (H & ls & [(E & N)|E] & F); exists (p :: ls); (split; [|now constructor]); [left; rewrite E; split; [reflexivity|discriminate]|right; now rewrite E].
      * intros (ls & [(E & N)|E] & F).
        -- subst ls. inversion F; subst. split; [assumption|]. exists (q :: ps). split; [left; split; [reflexivity|discriminate]|assumption].
        -- destruct ls as [|x ls]; [discriminate E|]. injection E as <- E. inversion F; subst. split; [assumption|]. exists ls. split; [now right|assumption].
Qed.

Lemma host_iff s : dotted (split_on "."%char s) /\ (exists c, In c s /\ letter_sign c) <-> host_text s.
Proof.
  unfold host_text. rewrite dotted_iff. destruct (split_parts "."%char s) as (_ & J & _). change ["."%char] with (str ".") in J. split.
  - intros ((ls & [(E & N)|E] & F) & L); rewrite E in J.
    + exists ls, []. rewrite app_nil_r. repeat split; auto.
    + assert (N : ls <> []). { intros ->. cbn in J. subst s. destruct L as (c & [] & _). }
      exists ls, (str "."). rewrite join_end by exact N. repeat split; auto.
  - intros (ls & e & E & N & F & [-> | ->] & L); (split; [|exact L]).
    + exists ls. split; [|exact F]. left. split; [|exact N]. rewrite E, app_nil_r. apply (split_join "."%char); [exact N|].
      intros p x I1. rewrite Forall_forall in F. apply label_no_dot. now apply F.
    + exists ls. split; [|exact F]. right. rewrite E, join_end by exact N. apply (split_join "."%char); [destruct ls; discriminate|].
      intros p x I1 I2. apply in_app_iff in I1. rewrite Forall_forall in F. destruct I1 as [I1|[<-|[]]]; [|easy]. now apply (label_no_dot p (F p I1)).
Qed.

Lemma number_iff s : forall n m, number_from n s = Some m <-> (forall c, In c s -> digit_sign c) /\ decimal_value n s = m.
Proof.
  induction s as [|c s IH]; intros n m; cbn [number_from decimal_value].
  - split; [intro E; injection E as ->; now split|intros [_ ->]; reflexivity].
  - destruct (is_digit c) eqn:D.
    + rewrite IH. apply digit_sign_iff in D. split; intros [A B]; (split; [|exact B]); [intros x [<-|I1]; auto|intros x I1; apply A; now right].
    + split; [discriminate|]. intros [A _]. exfalso. pose proof (proj2 (digit_sign_iff c) (A c (or_introl eq_refl))). congruence.
Qed.

Lemma part_iff s : ip_part s = true <-> address_number s.
Proof.
  unfold ip_part, address_number. destruct s as [|c s]; [split; [discriminate|intros [N _]; congruence]|].
  assert (Z : beqb s [] || negb (Ascii.eqb c "0"%char) = true <-> (c :: s = str "0" \/ forall t, c :: s <> str "0" ++ t)).
  { rewrite orb_true_iff, negb_true_iff. split.
    - intros [E|E]; [|right; intros t X; injection X as -> _; discriminate E]. apply Auth_Proofs.beqb_iff in E. subst s.
      destruct (Ascii.eqb_spec c "0"%char) as [->|N]; [now left|right; intros t X; injection X as X _; contradiction].
    - intros [E|E]; [injection E as -> ->; now left|]. right. apply ascii_eqb_no. intros ->. exact (E s eq_refl). }
  destruct (number_from 0 (c :: s)) as [m|] eqn:E.
  - apply number_iff in E. destruct E as [A B]. rewrite andb_true_iff, N.leb_le, Z, <- B. split; [intros [X Y]; split; [discriminate|]; split; [exact A|]; split; [exact X|exact Y]|tauto].
  - split; [discriminate|]. intros (_ & A & _). pose proof (proj2 (number_iff (c :: s) 0 _) (conj A eq_refl)). congruence.
Qed.

Lemma address_no_dot s : address_number s -> forall x, In x s -> x <> "."%char.
Proof. intros (_ & A & _) x I1 ->. destruct (A _ I1) as [X1 X2]. revert X1 X2. vm_compute. congruence. Qed.

Lemma ip4_iff s : is_ip4 s = true <-> address_text s.
Proof.
  unfold is_ip4, address_text. rewrite andb_true_iff, Nat.eqb_eq, forallb_forall. split.
  - intros [L F]. destruct (split_parts "."%char s) as (_ & J & _). destruct (split_on "."%char s) as [|a [|b [|c [|d [|? ?]]]]]; try discriminate L.
    exists a, b, c, d. split; [now rewrite <- J|].
    split; [|split; [|split]]; apply part_iff; apply F; cbn; tauto.
  - intros (a & b & c & d & E & A & B & C & D). assert (X : split_on "."%char s = [a; b; c; d]).
    { rewrite E. change (a ++ str "." ++ b ++ str "." ++ c ++ str "." ++ d) with (join ["."%char] [a; b; c; d]). apply split_join; [discriminate|].
      intros p x I1. apply address_no_dot. destruct I1 as [<-|[<-|[<-|[<-|[]]]]]; assumption. }
    rewrite X. split; [reflexivity|]. intros p I1. apply part_iff. destruct I1 as [<-|[<-|[<-|[<-|[]]]]]; assumption.
Qed.

Lemma host_start s : host_text s -> forall u, s <> str "." ++ u.
Proof.
  intros (ls & e & E & N & F & _) u X. destruct ls as [|p ls]; [congruence|]. inversion F as [|? ? H _]; subst. pose proof (label_no_dot p H) as ND.
  destruct H as (NE & _). destruct p as [|c p]; [congruence|]. apply (ND c); [now left|]. cbn [join] in X. destruct ls; cbn in X; now injection X.
Qed.

Lemma domain_iff s h : domain_of s h <-> domain_valid s = true /\ h = without_dot s.
Proof.
  assert (G0 : good_start []) by (split; [easy|discriminate]).
  assert (DN : is_domain_name s = true <-> List.length s <= 255 /\ host_text (without_dot s)).
  { unfold is_domain_name. destruct s as [|c s].
    - cbn. split; [discriminate|]. intros (_ & ls & e & _ & _ & _ & _ & x & [] & _).
    - destruct (Nat.ltb_spec 255 (List.length (c :: s))) as [L|L]; [split; [discriminate|lia]|].
      pose proof (domain_loop_iff (without_dot (c :: s)) [] false G0) as D. cbn [List.app List.length] in D. change (last_of []) with "."%char in D. rewrite D, <- host_iff.
      split; [intros (A & [B|B]); [discriminate B|tauto]|tauto]. }
  assert (WD : forall t, (s = t /\ (forall u, s <> str "." ++ u)) \/ s = str "." ++ t -> t = without_dot s).
  { intros t [[<- N]| ->]; [|reflexivity]. destruct s as [|c s]; [reflexivity|]. cbn. rewrite ascii_eqb_no; [reflexivity|]. intros ->. exact (N s eq_refl). }
  assert (WD2 : (s = without_dot s /\ (forall u, s <> str "." ++ u)) \/ s = str "." ++ without_dot s).
  { destruct s as [|c s]; [left; split; [reflexivity|discriminate]|]. cbn. destruct (Ascii.eqb_spec c "."%char) as [->|N]; [now right|left].
    split; [reflexivity|]. intros u X. injection X as X _. contradiction. }
  assert (AW : address_text s -> without_dot s = s).
  { intros (a & b & c & d & E & A & _). pose proof (address_no_dot a A) as ND. destruct A as (NE & _). destruct a as [|x a]; [congruence|]. subst s. cbn.
    rewrite ascii_eqb_no; [reflexivity|]. apply ND. now left. }
  unfold domain_of, domain_valid. rewrite orb_true_iff, DN, ip4_iff. split.
  - intros [(A & B & C)|[<- A]]; [pose proof (WD h A) as ->; tauto|]. split; [now right|]. symmetry. now apply AW.
  - intros [[[A B]|A] ->]; [left; tauto|right]. rewrite AW by exact A. tauto.
Qed.

Lemma domain_signs s : domain_valid s = true -> forall c, In c (without_dot s) -> letter_sign c \/ digit_sign c \/ c = "-"%char \/ c = "."%char.
Proof.
  intros V. pose proof (proj2 (domain_iff s (without_dot s)) (conj V eq_refl)) as D.
  assert (J : forall ls, (forall p, In p ls -> forall c, In c p -> letter_sign c \/ digit_sign c \/ c = "-"%char) ->
            forall c, In c (join (str ".") ls) -> letter_sign c \/ digit_sign c \/ c = "-"%char \/ c = "."%char).
  { induction ls as [|p ls IH]; intros H c I1; [easy|]. cbn [join] in I1. destruct ls as [|q ls].
    - destruct (H p (or_introl eq_refl) c I1) as [?|[?|?]]; auto.
    - rewrite !in_app_iff in I1. destruct I1 as [I1|[[<-|[]]|I1]]; [destruct (H p (or_introl eq_refl) c I1) as [?|[?|?]]; auto|auto|].
      apply IH; [|exact I1]. intros x Ix. apply H. now right. }
  intros c I1. destruct D as [(_ & _ & ls & e & E & N & F & EE & _)|(E & A)].
  - rewrite E in I1. apply in_app_iff in I1. destruct I1 as [I1|I1].
    + revert I1. apply J. intros p Ip. rewrite Forall_forall in F. now destruct (F p Ip) as (_ & _ & X & _).
    + destruct EE as [-> | ->]; [easy|]. destruct I1 as [<-|[]]. auto.
  - rewrite <- E in I1. destruct A as (x & y & z & t & A & X & Y & Z & T).
    assert (Q : In c (join (str ".") [x; y; z; t])) by (rewrite A in I1; exact I1). revert Q. apply J.
    intros p Ip c' Ic. right; left. destruct Ip as [<-|[<-|[<-|[<-|[]]]]]; [destruct X as (_ & K & _)|destruct Y as (_ & K & _)|destruct Z as (_ & K & _)|destruct T as (_ & K & _)]; auto.
Qed.

(** ** Numbers *)

Lemma digits_signs s n : Json_Spec.digits s n -> s <> [] /\ (forall c, In c s -> digit_sign c) /\ decimal_value 0 s = n.
Proof.
  assert (DV : forall b d, Json_Spec.digit_value b = Some d -> digit_sign b /\ d = (code b - 48)%N).
  { intros b d H. unfold Json_Spec.digit_value in H. destruct (_ && _)%bool eqn:E in H; [|discriminate H]. apply andb_true_iff in E. rewrite !N.leb_le in E.
    injection H as <-. split; [exact E|reflexivity]. }
  assert (SN : forall t b m, decimal_value m (t ++ [b]) = (10 * decimal_value m t + (code b - 48))%N).
  { induction t as [|x t IH]; intros b m; [reflexivity|]. cbn [List.app decimal_value]. apply IH. }
  induction 1 as [b d D P|t n b d _ (N & A & V) D]; destruct (DV _ _ D) as [X ->].
  - split; [discriminate|]. split; [intros c [<-|[]]; exact X|]. reflexivity.
  - split; [destruct t; discriminate|]. split; [intros c I1; apply in_app_iff in I1; destruct I1 as [I1|[<-|[]]]; auto|]. rewrite SN, V. lia.
Qed.

Lemma itoa_signs n : itoa n <> [] /\ (forall c, In c (itoa n) -> digit_sign c) /\ decimal_value 0 (itoa n) = n.
Proof.
  destruct (N.eq_dec n 0) as [->|N]; [|apply digits_signs; apply JsonEnc_Proofs.itoa_digits; lia].
  vm_compute. split; [discriminate|]. split; [|reflexivity]. intros c [<-|[]]. vm_compute. split; congruence.
Qed.
