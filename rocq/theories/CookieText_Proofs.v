(** * Cookies: proofs about their texts *)
From Coq Require Import List NArith ZArith Ascii String Bool Lia Arith Permutation.
From Verif Require Import GoBase Http_Model Resp_Model Resp_Spec Resp_Proofs RespMisc_Proofs.
From Verif Require Import Auth_Proofs OAuthUrl_Proofs OAuthWire_Proofs Cookie_Model Cookie_Spec Cookie_Proofs.
Import ListNotations.
Local Open Scope string_scope.
Local Open Scope list_scope.
Local Open Scope nat_scope.

(** ** The parts of a text *)

(** Names with what is said about them, if anything. *)
Definition part_of (x : bytes * option (option bytes)) : list bytes :=
  match snd x with
  | Some v => [str " " ++ fst x ++ match v with Some t => str "=" ++ t | None => [] end]
  | None => []
  end.
Definition told (x : bytes * option (option bytes)) : list (bytes * option bytes) :=
  match snd x with Some v => [(fst x, v)] | None => [] end.

Definition parts (path domain : bytes) (d : details) : list (bytes * option (option bytes)) :=
  [(str "Path", match path with [] => None | _ => Some (Some (filter cookie_path_byte path)) end);
   (str "Domain", if domain_valid domain then Some (Some (without_dot domain)) else None);
   (str "Expires", match cd_expires d with Some t => if (1601 <=? dt_year t)%N then Some (Some (date_text t)) else None | None => None end);
   (str "Max-Age", if (0 <? cd_max_age d)%Z then Some (Some (itoa_z (cd_max_age d))) else if (cd_max_age d <? 0)%Z then Some (Some (str "0")) else None);
   (str "HttpOnly", if cd_http_only d then Some None else None);
   (str "Secure", if cd_secure d then Some None else None);
   (str "SameSite", match site_name (cd_same_site d) with Some s => Some (Some s) | None => None end)].

Lemma cookie_string_parts name path domain d : cookie_name_valid name = true ->
  cookie_string name path domain d =
  (name ++ str "=" ++ sanitize_value (cd_value d)) ++ flat_map (cons ";"%char) (flat_map part_of (parts path domain d)).
Proof.
  intro V. unfold cookie_string. rewrite V. cbn [negb]. rewrite <- !app_assoc. f_equal. f_equal. f_equal.
  unfold parts. cbn [flat_map]. rewrite !flat_map_app. cbn [flat_map]. rewrite ?app_nil_r.
  f_equal; [destruct path; [reflexivity|]; unfold part_of; cbn [fst snd flat_map]; now rewrite app_nil_r|].
  f_equal; [destruct (domain_valid domain); [|reflexivity]; unfold part_of; cbn [fst snd flat_map]; now rewrite app_nil_r|].
  f_equal; [destruct (cd_expires d) as [t|]; [destruct (1601 <=? dt_year t)%N|]; [|reflexivity|reflexivity]; unfold part_of; cbn [fst snd flat_map]; now rewrite app_nil_r|].
  f_equal; [destruct (0 <? cd_max_age d)%Z; [unfold part_of; cbn [fst snd flat_map]; now rewrite app_nil_r|destruct (cd_max_age d <? 0)%Z; reflexivity]|].
  f_equal; [destruct (cd_http_only d); reflexivity|].
  f_equal; [destruct (cd_secure d); reflexivity|].
  destruct (cd_same_site d); reflexivity.
Qed.

(** ** No semicolons *)

Lemma digit_semi c : digit_sign c -> c <> ";"%char.
Proof. intros [X1 X2] ->. revert X1 X2. vm_compute. congruence. Qed.
Lemma letter_semi c : letter_sign c -> c <> ";"%char.
Proof. intros [[X1 X2]|[X1 X2]] ->; revert X1 X2; vm_compute; congruence. Qed.

Lemma digit_is n : (n < 10)%N -> digit_sign (digit n).
Proof. intro H. unfold digit_sign, digit, code. rewrite N_ascii_embedding by lia. lia. Qed.

Lemma two_digit_signs n c : In c (two_digits n) -> digit_sign c.
Proof. intros [<-|[<-|[]]]; apply digit_is; apply N.mod_lt; discriminate. Qed.

(** The bytes of a date. *)
Definition date_sign (c : byte) : Prop := letter_sign c \/ digit_sign c \/ In c (str ", :").
Lemma in_text (P : byte -> Prop) s : Forall P s -> forall c, In c s -> P c.
Proof. intro F. now apply Forall_forall. Qed.
Lemma letters_all l : forallb (forallb is_letter) l = true -> forall n c, In c (nth n l []) -> letter_sign c.
Proof.
  intros H n c I1. rewrite forallb_forall in H. destruct (nth_in_or_default n l []) as [X|X]; [|rewrite X in I1; destruct I1].
  specialize (H _ X). rewrite forallb_forall in H. apply letter_sign_iff. auto.
Qed.

Lemma date_signs t c : In c (date_text t) -> date_sign c.
Proof.
  unfold date_text. rewrite !in_app_iff. unfold date_sign.
  pose proof (two_digit_signs (dt_day t) c). pose proof (two_digit_signs (dt_hour t) c). pose proof (two_digit_signs (dt_minute t) c). pose proof (two_digit_signs (dt_second t) c).
  pose proof (proj1 (proj2 (itoa_signs (dt_year t))) c).
  pose proof (letters_all weekdays eq_refl (dt_weekday t mod 7) c). pose proof (letters_all months eq_refl (dt_month t mod 12) c).
  assert (C : In c (str ", ") -> In c (str ", :")) by (cbn; tauto). assert (B : In c (str " ") -> In c (str ", :")) by (cbn; tauto). assert (K : In c (str ":") -> In c (str ", :")) by (cbn; tauto).
  assert (G : In c (str " GMT") -> letter_sign c \/ In c (str ", :")).
  { intros [<-|[<-|[<-|[<-|[]]]]]; [right; cbn; tauto|left; left; vm_compute; split; congruence..]. }
  tauto.
Qed.

Lemma two_digits_are n : (n < 100)%N -> Cookie_Spec.two_signs (two_digits n) n.
Proof.
  intro H. split; [reflexivity|]. split; [apply two_digit_signs|]. unfold two_digits. cbn [decimal_value]. unfold digit, code.
  rewrite !N_ascii_embedding by (pose proof (N.mod_lt n 10); pose proof (N.mod_lt (n / 10) 10); lia).
  assert (D : (n / 10 < 10)%N) by (apply N.div_lt_upper_bound; lia). rewrite (N.mod_small (n / 10)) by exact D.
  pose proof (N.div_mod n 10 ltac:(discriminate)).
  revert H0. generalize (n / 10)%N (n mod 10)%N. clear. intros a b E. rewrite E. lia.
Qed.

Lemma name_of l n : (n < List.length l)%nat -> nth_error l n = Some (nth n l ([] : bytes)).
Proof. apply nth_error_nth'. Qed.

Lemma date_named t : real_date t -> names_date t (date_text t).
Proof.
  intros (W & M & D & H & MI & S0). unfold date_text. do 7 eexists. split; [reflexivity|]. rewrite (Nat.mod_small _ 7), (Nat.mod_small _ 12) by assumption.
  split; [now apply (name_of weekdays)|]. split; [now apply (name_of months)|]. destruct (itoa_signs (dt_year t)) as (_ & A & B). split; [exact A|]. split; [exact B|].
  repeat (apply conj); apply two_digits_are; lia.
Qed.

Lemma date_bare t : bare (date_text t) = date_text t.
Proof.
  apply bare_id.
  - intros c s E. unfold date_text in E.
    assert (WB : exists a b, nth (dt_weekday t mod 7) weekdays [] = a :: b /\ letter_sign a).
    { assert (L : (dt_weekday t mod 7 < 7)%nat) by (apply Nat.mod_upper_bound; discriminate). pose proof (nth_In weekdays [] L) as I1.
      pose proof (letters_all weekdays eq_refl (dt_weekday t mod 7)) as LA. destruct (nth (dt_weekday t mod 7) weekdays []) as [|a b].
      - cbn in I1. intuition discriminate.
      - exists a, b. split; [reflexivity|]. apply LA. now left. }
    destruct WB as (a & b & WE & L). rewrite WE in E. cbn [List.app] in E. injection E as <- _. unfold blank_sign. apply orb_false_iff. split.
    + apply ascii_eqb_no. intros ->. destruct L as [[X1 X2]|[X1 X2]]; revert X1 X2; vm_compute; congruence.
    + apply N.eqb_neq. destruct L; lia.
  - intros s c E. unfold date_text in E. change (str " GMT") with (str " GM" ++ ["T"%char]) in E. rewrite !app_assoc in E. apply app_inj_tail in E. destruct E as [_ <-]. reflexivity.
Qed.

Lemma date_semi c : date_sign c -> c <> ";"%char.
Proof. intros [H|[H|H]]; [now apply letter_semi|now apply digit_semi|]. intros ->. cbn in H. intuition discriminate. Qed.

Lemma age_signs z c : (0 < z)%Z -> In c (itoa_z z) -> digit_sign c.
Proof. destruct z as [|p|p]; [easy| |easy]. intros _. cbn [itoa_z]. apply itoa_signs. Qed.

Lemma parts_semi path domain d n v : In (n, Some (Some v)) (parts path domain d) -> forall c, In c v -> c <> ";"%char.
Proof.
  intros I1 c I2. cbn [parts In] in I1.
  destruct I1 as [E|[E|[E|[E|[E|[E|[E|[]]]]]]]]; apply (f_equal snd) in E; cbn [snd] in E.
  - destruct path as [|x path]; [discriminate E|]. assert (E' : filter cookie_path_byte (x :: path) = v) by congruence. rewrite <- E' in I2. apply filter_In in I2. destruct I2 as [_ I2]. apply path_sign_iff in I2. apply I2.
  - destruct (domain_valid domain) eqn:V; [|discriminate E]. injection E as E. subst v. destruct (domain_signs domain V c I2) as [H|[H|[->| ->]]]; [now apply letter_semi|now apply digit_semi|discriminate|discriminate].
  - destruct (cd_expires d) as [t|]; [|discriminate E]. destruct (1601 <=? dt_year t)%N; [|discriminate E]. injection E as E. subst v. apply date_semi. now apply (date_signs t).
  - destruct (Z.ltb_spec 0 (cd_max_age d)) as [L|L]; [injection E as E; subst v; apply digit_semi; now apply (age_signs (cd_max_age d))|].
    destruct (cd_max_age d <? 0)%Z; [|discriminate E]. injection E as E. subst v. destruct I2 as [<-|[]]. discriminate.
  - destruct (cd_http_only d); discriminate E.
  - destruct (cd_secure d); discriminate E.
  - destruct (cd_same_site d); try discriminate E; injection E as E; subst v; cbn in I2; intuition (subst; discriminate).
Qed.

Lemma parts_names path domain d : map fst (parts path domain d) = [str "Path"; str "Domain"; str "Expires"; str "Max-Age"; str "HttpOnly"; str "Secure"; str "SameSite"].
Proof. reflexivity. Qed.

Lemma part_semi path domain d a : In a (flat_map part_of (parts path domain d)) -> forall c, In c a -> c <> ";"%char.
Proof.
  intros I1 c I2. apply in_flat_map in I1. destruct I1 as ([n o] & I1 & I3). unfold part_of in I3. cbn [fst snd] in I3. destruct o as [v|]; [|destruct I3].
  destruct I3 as [<-|[]]. rewrite !in_app_iff in I2.
  assert (NN : In n (map fst (parts path domain d))) by (apply in_map_iff; exists (n, Some v); auto).
  destruct I2 as [[<-|[]]|[I2|I2]]; [discriminate| |].
  - rewrite parts_names in NN. cbn [In] in NN.
    assert (A : forallb (fun n => forallb (fun c => negb (Ascii.eqb c ";"%char)) n) (map fst (parts path domain d)) = true) by (rewrite parts_names; reflexivity).
    rewrite forallb_forall in A. assert (NN' : In n (map fst (parts path domain d))) by (rewrite parts_names; exact NN).
    specialize (A n NN'). rewrite forallb_forall in A. specialize (A c I2). intros ->. discriminate A.
  - destruct v as [t|]; [|destruct I2]. rewrite in_app_iff in I2. destruct I2 as [[<-|[]]|I2]; [discriminate|]. exact (parts_semi _ _ _ _ _ I1 c I2).
Qed.

(** ** What a browser reads *)

Lemma at_equals_first a b : (forall c, In c a -> c <> "="%char) -> at_equals (a ++ str "=" ++ b) = (a, Some b).
Proof.
  induction a as [|c a IH]; intro H; [reflexivity|]. cbn [List.app at_equals]. rewrite ascii_eqb_no by (apply H; now left).
  rewrite IH by (intros x I1; apply H; now right). reflexivity.
Qed.
Lemma at_equals_none a : (forall c, In c a -> c <> "="%char) -> at_equals a = (a, None).
Proof.
  induction a as [|c a IH]; intro H; [reflexivity|]. cbn [at_equals]. rewrite ascii_eqb_no by (apply H; now left).
  now rewrite IH by (intros x I1; apply H; now right).
Qed.

Definition bare_told (x : bytes * option (option bytes)) : bytes * option (option bytes) := (fst x, option_map (option_map bare) (snd x)).

Lemma read_parts l : Forall (fun x => (forall c, In c (fst x) -> c <> "="%char) /\ bare (str " " ++ fst x) = fst x) l ->
  map attribute (flat_map part_of l) = flat_map told (map bare_told l).
Proof.
  induction 1 as [|[n o] l [E B] _ IH]; [reflexivity|]. cbn [flat_map map]. rewrite map_app, IH. f_equal.
  unfold part_of, told, bare_told. cbn [fst snd] in *. destruct o as [v|]; [|reflexivity]. cbn [map option_map]. f_equal. unfold attribute.
  assert (E' : forall c, In c (str " " ++ n) -> c <> "="%char) by (intros c [<-|I1]; [discriminate|auto]).
  destruct v as [t|].
  - rewrite app_assoc, at_equals_first by exact E'. rewrite B. reflexivity.
  - rewrite app_nil_r, at_equals_none by exact E'. rewrite B. reflexivity.
Qed.

Lemma token_equals n : cookie_name_valid n = true -> forall c, In c n -> token_byte c = true.
Proof. intros V. apply andb_true_iff in V. destruct V as [_ V]. now rewrite forallb_forall in V. Qed.

Definition told_of (path domain : bytes) (d : details) : list (bytes * option bytes) := flat_map told (map bare_told (parts path domain d)).

Lemma browser_reads_cookie name path domain d : cookie_name_valid name = true ->
  browser_reads (cookie_string name path domain d) = Some (name, sanitize_value (cd_value d), told_of path domain d).
Proof.
  intro V. rewrite cookie_string_parts by exact V. unfold browser_reads. pose proof (token_equals name V) as T. rewrite split_pieces.
  - cbn [map]. rewrite read_parts.
    + unfold attribute at 1. rewrite at_equals_first by (intros c I1; exact (token_not c "="%char (T c I1) eq_refl)).
      rewrite bare_none by (intros c I1; apply token_blank; auto). cbn [option_map]. rewrite value_bare. destruct name as [|c name]; [discriminate V|reflexivity].
    + unfold parts. repeat (constructor; [cbn [fst]; split; [|reflexivity]; intros c I1; cbn in I1; intuition (subst; discriminate)|]). constructor.
  - intros x I1. rewrite !in_app_iff in I1. destruct I1 as [I1|[[<-|[]]|I1]]; [exact (token_not x ";"%char (T x I1) eq_refl)|discriminate|now apply (value_semi (cd_value d))].
  - intros a x I1 I2. exact (part_semi _ _ _ _ I1 x I2).
Qed.

(** ** The attributes *)

Lemma told_in l n v : In (n, v) (flat_map told l) <-> In (n, Some v) l.
Proof.
  rewrite in_flat_map. split.
  - intros ([m o] & I1 & I2). unfold told in I2. cbn [fst snd] in I2. destruct o; [|destruct I2]. destruct I2 as [E|[]]. injection E as <- <-. exact I1.
  - intro I1. exists (n, Some v). split; [exact I1|now left].
Qed.
Lemma told_once l : NoDup (map fst l) -> NoDup (map fst (flat_map told l)).
Proof.
  induction l as [|[n o] l IH]; intro H; [constructor|]. cbn [map fst] in H. inversion H as [|? ? A B]; subst. cbn [flat_map]. rewrite map_app.
  unfold told at 1. cbn [fst snd]. destruct o as [v|]; [|now apply IH]. cbn [map List.app fst]. constructor; [|now apply IH].
  intro I1. apply A. apply in_map_iff in I1. destruct I1 as ([m w] & E & I1). cbn [fst] in E. subst m. apply told_in in I1. apply in_map_iff. exists (n, Some w). auto.
Qed.

Lemma bare_told_in l n v : In (n, Some v) (map bare_told l) <-> exists w, In (n, Some w) l /\ v = option_map bare w.
Proof.
  rewrite in_map_iff. split.
  - intros ([m o] & E & I1). unfold bare_told in E. cbn [fst snd] in E. destruct o as [w|]; cbn [option_map] in E; [|discriminate E]. injection E as -> <-. eauto.
  - intros (w & I1 & ->). exists (n, Some w). auto.
Qed.

Lemma told_of_in path domain d n v : In (n, v) (told_of path domain d) <-> exists w, In (n, Some w) (parts path domain d) /\ v = option_map bare w.
Proof. unfold told_of. now rewrite told_in, bare_told_in. Qed.

Lemma letter_blank c : letter_sign c -> blank_sign c = false.
Proof.
  intro H. unfold blank_sign. apply orb_false_iff. split; [apply ascii_eqb_no; intros ->; destruct H as [[X1 X2]|[X1 X2]]; revert X1 X2; vm_compute; congruence|].
  apply N.eqb_neq. destruct H as [H|H]; lia.
Qed.
Lemma digit_blank c : digit_sign c -> blank_sign c = false.
Proof.
  intro H. unfold blank_sign. apply orb_false_iff. split; [apply ascii_eqb_no; intros ->; destruct H as [X1 X2]; revert X1 X2; vm_compute; congruence|].
  apply N.eqb_neq. unfold digit_sign in H. lia.
Qed.

Ltac only_part I1 := cbn [parts In] in I1; repeat match type of I1 with _ \/ _ => destruct I1 as [I1|I1] end; try (now destruct I1);
  try (apply (f_equal fst) in I1; discriminate I1); apply (f_equal snd) in I1; cbn [snd] in I1.

Lemma attributes_asked path domain d : asked_for path domain d (told_of path domain d).
Proof.
  constructor.
  - unfold told_of. apply told_once. change (NoDup (map fst (parts path domain d))). rewrite parts_names.
    repeat (constructor; [cbn; intuition discriminate|]). constructor.
  - intros n v I1. apply told_of_in in I1. destruct I1 as (w & I1 & _). rewrite <- (parts_names path domain d). apply in_map_iff. exists (n, Some w). auto.
  - split.
    + intros (v & I1). apply told_of_in in I1. destruct I1 as (w & I1 & _). only_part I1. now destruct (cd_http_only d).
    + intro E. exists None. apply told_of_in. exists None. split; [|reflexivity]. cbn [parts In]. rewrite E. tauto.
  - split.
    + intros (v & I1). apply told_of_in in I1. destruct I1 as (w & I1 & _). only_part I1. now destruct (cd_secure d).
    + intro E. exists None. apply told_of_in. exists None. split; [|reflexivity]. cbn [parts In]. rewrite E. tauto.
  - intro v. rewrite told_of_in. split.
    + intros (w & I1 & ->). only_part I1. destruct (cd_same_site d); try discriminate I1; injection I1 as <-; (split; [discriminate|reflexivity]).
    + intros [N ->]. exists (site_name (cd_same_site d)). split; [|destruct (cd_same_site d); reflexivity]. cbn [parts In]. destruct (cd_same_site d); cbn [site_name] in *; congruence || tauto.
  - intro v. rewrite told_of_in. split.
    + intros (w & I1 & ->). only_part I1. destruct path as [|c path]; [discriminate I1|]. injection I1 as <-. split; [discriminate|]. eexists. split; [|reflexivity].
      now apply (only_filter path_sign cookie_path_byte path_sign_iff).
    + intros (N & p & O & ->). apply (only_filter path_sign cookie_path_byte path_sign_iff) in O. subst p. exists (Some (filter cookie_path_byte path)). split; [|reflexivity].
      cbn [parts In]. left. destruct path; [congruence|reflexivity].
  - intro v. rewrite told_of_in.
    assert (BD : domain_valid domain = true -> bare (without_dot domain) = without_dot domain).
    { intro V. apply bare_none. intros c I1. destruct (domain_signs domain V c I1) as [H|[H|[->| ->]]]; [now apply letter_blank|now apply digit_blank|reflexivity|reflexivity]. }
    split.
    + intros (w & I1 & ->). only_part I1. destruct (domain_valid domain) eqn:V; [|discriminate I1]. injection I1 as <-. exists (without_dot domain). split; [now apply domain_iff|]. cbn [option_map]. now rewrite BD.
    + intros (h & D & ->). apply domain_iff in D. destruct D as [V ->]. exists (Some (without_dot domain)). cbn [option_map]. rewrite BD by exact V. split; [|reflexivity]. cbn [parts In]. rewrite V. tauto.
  - split.
    + intros (v & I1). apply told_of_in in I1. destruct I1 as (w & I1 & _). only_part I1. intro Z. rewrite Z in I1. discriminate I1.
    + intro N. destruct (Z.ltb_spec 0 (cd_max_age d)) as [L|L].
      * eexists. apply told_of_in. exists (Some (itoa_z (cd_max_age d))). split; [|reflexivity]. cbn [parts In]. apply Z.ltb_lt in L. rewrite L. tauto.
      * eexists. apply told_of_in. exists (Some (str "0")). split; [|reflexivity]. cbn [parts In]. apply Z.ltb_ge in L. rewrite L. apply Z.ltb_ge in L.
        assert (L2 : (cd_max_age d <? 0)%Z = true) by (apply Z.ltb_lt; lia). rewrite L2. tauto.
  - intros v I1. apply told_of_in in I1. destruct I1 as (w & I1 & ->). only_part I1. destruct (Z.ltb_spec 0 (cd_max_age d)) as [L|L].
    + injection I1 as <-. exists (itoa_z (cd_max_age d)). cbn [option_map]. rewrite bare_none by (intros c I2; apply digit_blank; now apply (age_signs (cd_max_age d))).
      split; [reflexivity|]. destruct (cd_max_age d) as [|p|p] eqn:Z; [lia| |lia]. cbn [itoa_z]. destruct (itoa_signs (Z.to_N (Zpos p))) as (A & B & C). split; [exact A|]. split; [exact B|].
      left. split; [lia|]. rewrite C. lia.
    + destruct (Z.ltb_spec (cd_max_age d) 0) as [L2|L2]; [|discriminate I1]. injection I1 as <-. exists (str "0"). split; [reflexivity|]. split; [discriminate|].
      split; [intros c [<-|[]]; vm_compute; split; congruence|]. right. split; [exact L2|reflexivity].
  - split.
    + intros (v & I1). apply told_of_in in I1. destruct I1 as (w & I1 & _). only_part I1. destruct (cd_expires d) as [t|]; [|discriminate I1]. exists t. split; [reflexivity|].
      destruct (N.leb_spec 1601 (dt_year t)); [assumption|discriminate I1].
    + intros (t & E & Y). eexists. apply told_of_in. exists (Some (date_text t)). split; [|reflexivity]. cbn [parts In]. rewrite E. apply N.leb_le in Y. rewrite Y. tauto.
  - intros v t I1 E R. apply told_of_in in I1. destruct I1 as (w & I1 & ->). only_part I1. rewrite E in I1.
    destruct (1601 <=? dt_year t)%N; [|discriminate I1]. injection I1 as <-. exists (date_text t). cbn [option_map]. rewrite date_bare. split; [reflexivity|now apply date_named].
Qed.
