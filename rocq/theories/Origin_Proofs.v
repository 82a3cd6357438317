(** * The texts that the CORS middleware takes for an origin: proofs *)
From Coq Require Import List NArith ZArith Ascii String Bool Lia Arith.
From Verif Require Import GoBase Http_Model Auth_Model Auth_Proofs Csrf_Model Csrf_Spec Csrf_Proofs OAuthUrl_Proofs Chain_Model.
From Verif Require Import Resp_Model Resp_Spec Resp_Proofs RespBody_Proofs RespMisc_Proofs Cors_Model Cors_Spec Cors_Proofs CorsMisc_Proofs CorsCases_Proofs Origin_Spec.
Import ListNotations.
Local Open Scope string_scope.
Local Open Scope list_scope.
Local Open Scope nat_scope.

(** ** Bytes *)

Definition in_text (l : bytes) (c : byte) : bool := existsb (Ascii.eqb c) l.
Lemma in_text_iff l c : in_text l c = true <-> In c l.
Proof.
  unfold in_text. rewrite existsb_exists. split.
  - intros (x & I1 & E). apply Ascii.eqb_eq in E. now subst.
  - intro I1. exists c. split; [exact I1|apply Ascii.eqb_refl].
Qed.

Lemma host_sign_iff c : host_byte c = true <-> host_sign c.
Proof.
  assert (H : Bool.eqb (host_byte c) ((32 <? code c)%N && negb (code c =? 127)%N && negb (in_text (str "#%/?@\^`{|}") c)) = true).
  { revert c. apply (all_bytes (fun c => Bool.eqb (host_byte c) ((32 <? code c)%N && negb (code c =? 127)%N && negb (in_text (str "#%/?@\^`{|}") c)))).
    vm_compute. reflexivity. }
  apply eqb_prop in H. rewrite H, !andb_true_iff, !negb_true_iff, N.ltb_lt, N.eqb_neq, <- not_true_iff_false, in_text_iff.
  unfold host_sign. tauto.
Qed.

Lemma user_sign_iff c : c <> "%"%char -> user_byte c = true <-> user_sign c.
Proof.
  intro P.
  assert (H : Ascii.eqb c "%"%char || Bool.eqb (user_byte c) ((32 <? code c)%N && (code c <? 127)%N && negb (code c =? 34)%N && negb (in_text (str "#/<>?[\]^`{|}") c)) = true).
  { clear P. revert c. apply (all_bytes (fun c => Ascii.eqb c "%"%char || Bool.eqb (user_byte c) ((32 <? code c)%N && (code c <? 127)%N && negb (code c =? 34)%N && negb (in_text (str "#/<>?[\]^`{|}") c)))).
    vm_compute. reflexivity. }
  apply Ascii.eqb_neq in P. rewrite P in H. cbn [orb] in H.
  apply eqb_prop in H. rewrite H, !andb_true_iff, !negb_true_iff, !N.ltb_lt, N.eqb_neq, <- not_true_iff_false, in_text_iff.
  unfold user_sign. tauto.
Qed.

Lemma scheme_byte_iff c : is_alpha c || (is_num c || existsb (Ascii.eqb c) (str "+-.")) = true <-> scheme_byte c.
Proof.
  unfold scheme_byte. rewrite !orb_true_iff, letter_iff, is_num_iff.
  assert (H := in_text_iff (str "+-.") c). unfold in_text in H. rewrite H. cbn [In str list_ascii_of_string].
  split; intros [A|[A|A]]; try tauto.
  - destruct A as [A|[A|[A|[]]]]; subst; tauto.
  - destruct A as [A|[A|A]]; subst; cbn; tauto.
Qed.

(** ** Hosts *)

Lemma digit_not p c : all_digits p -> In c p -> (48 <= code c <= 57)%N.
Proof. auto. Qed.

Lemma port_iff p : valid_optional_port p = true <-> port_part p.
Proof.
  unfold port_part. destruct p as [|c d]; [cbn; tauto|]. cbn [valid_optional_port]. rewrite andb_true_iff, Ascii.eqb_eq, digits_iff. split.
  - intros [-> D]. right. exists d. auto.
  - intros [E|(d' & E & D)]; [discriminate E|]. injection E as -> ->. auto.
Qed.

Lemma port_no_bracket p : port_part p -> ~ In "]"%char p.
Proof.
  intros [->|(d & -> & D)]; [easy|]. intros [E|I1]; [discriminate E|]. apply D in I1. vm_compute in I1. destruct I1 as [_ I1]. now apply I1.
Qed.

Lemma parse_host_iff h : parse_host h = true <-> host_form h.
Proof.
  unfold parse_host, host_form. rewrite andb_true_iff, and_comm.
  assert (B : forallb host_byte h = true <-> forall c, In c h -> host_sign c).
  { rewrite forallb_forall. split; intros H c I1; apply host_sign_iff, H, I1. }
  rewrite B. clear B.
  apply and_iff_compat_l.
  assert (NB : forall h, (forall h', h <> str "[" ++ h') ->
    match from_last ":"%char h with None => true | Some p => valid_optional_port p end = true <->
    ((exists i p, h = str "[" ++ i ++ str "]" ++ p /\ port_part p) \/
     (exists n p, h = n ++ p /\ (forall n', n <> str "[" ++ n') /\ port_part p /\ (In ":"%char n -> p <> [])))).
  { clear h. intros h NB. split.
    - intro V. right. destruct (from_last ":"%char h) as [p|] eqn:F.
      + apply from_last_some in F. destruct F as (a & b & -> & -> & N). exists a, (":"%char :: b). split; [reflexivity|].
        split; [intros n' ->; now apply (NB (n' ++ ":"%char :: b))|]. split; [now apply port_iff|discriminate].
      + apply from_last_none in F. exists h, []. rewrite app_nil_r. split; [reflexivity|]. split; [exact NB|]. split; [now left|]. intro; contradiction.
    - intros [(i & p & -> & _)|(n & p & -> & _ & P & C)]; [now elim (NB (i ++ str "]" ++ p))|].
      destruct P as [->|(d & -> & D)].
      + rewrite app_nil_r. replace (from_last ":"%char n) with (@None bytes); [reflexivity|]. symmetry. apply from_last_none. intro I1. now apply C.
      + change (n ++ str ":" ++ d) with (n ++ ":"%char :: d). rewrite from_last_eq by now apply digits_no_colon. cbn. now apply digits_iff. }
  destruct h as [|c h]; [apply (NB []); discriminate|].
  destruct (Ascii.eqb_spec c "["%char) as [->|D].
  - clear NB. split.
    + intro V. left. destruct (from_last "]"%char ("["%char :: h)) as [p|] eqn:F; [|discriminate V].
      apply from_last_some in F. destruct F as (a & b & E & -> & N). destruct a as [|z a]; [discriminate E|]. injection E as -> ->.
      exists a, b. split; [reflexivity|]. now apply port_iff.
    + intros [(i & p & E & P)|(n & p & E & N & P & _)].
      * injection E as ->. replace (from_last "]"%char ("["%char :: i ++ "]"%char :: p)) with (Some ("]"%char :: p)); [cbn [skipn]; now apply port_iff|].
        symmetry. change ("["%char :: i ++ "]"%char :: p) with (("["%char :: i) ++ "]"%char :: p). apply from_last_eq. now apply port_no_bracket.
      * destruct n as [|z n].
        -- cbn [app] in E. subst p. destruct P as [P|(d & P & _)]; discriminate P.
        -- injection E as <- _. now elim (N n).
  - rewrite host_not_bracket by exact D. apply NB. intros h' E. injection E as E _. contradiction.
Qed.

Lemma parse_authority_iff a : ~ In "%"%char a -> parse_authority a = true <-> authority_form a.
Proof.
  intro P. unfold parse_authority, authority_form. destruct (from_last "@"%char a) as [p|] eqn:F.
  - apply from_last_some in F. destruct F as (u & h & -> & -> & N). cbn [skipn].
    replace (firstn _ _) with u.
    2: { rewrite app_length. replace (_ + _ - _) with (List.length u + 0) by lia. rewrite firstn_app_2, firstn_O. now rewrite app_nil_r. }
    assert (U : forallb user_byte u = true <-> forall c, In c u -> user_sign c).
    { rewrite forallb_forall. split; intros H c I1; (apply user_sign_iff; [|now apply H]); intros ->; apply P, in_app_iff; now left. }
    rewrite andb_true_iff, U, parse_host_iff. split.
    + intros [H1 H2]. right. exists u, h. auto.
    + intros [[H _]|(u' & h' & E & H1 & H2)].
      * exfalso. apply H, in_app_iff. right. now left.
      * assert (N' : ~ In "@"%char h').
        { intro I1. apply H2 in I1. destruct I1 as (_ & _ & I1). apply I1. cbn. tauto. }
        assert (E1 : Some ("@"%char :: h) = Some ("@"%char :: h')).
        { rewrite <- (from_last_eq "@"%char u h N), <- (from_last_eq "@"%char u' h' N'). change (str "@" ++ h') with ("@"%char :: h') in E. now rewrite E. }
        injection E1 as <-. apply app_inv_tail in E. subst u'. auto.
  - apply from_last_none in F. rewrite parse_host_iff. split; [auto|]. intros [H|(u & h & -> & _)]; [tauto|].
    exfalso. apply F, in_app_iff. right. now left.
Qed.

(** ** Schemes *)

Lemma get_scheme_some s raw : forall acc sch r, get_scheme acc s raw = Some (sch, r) -> sch <> [] ->
  exists t, s = t ++ ":"%char :: r /\ sch = rev acc ++ t /\ (forall c, In c t -> scheme_byte c) /\
    (acc = [] -> exists c t', t = c :: t' /\ letter c).
Proof.
  induction s as [|c s IH]; intros acc sch r E N; cbn [get_scheme] in E; [congruence|].
  assert (GO : scheme_byte c -> (acc = [] -> letter c) -> get_scheme (c :: acc) s raw = Some (sch, r) ->
     exists t, c :: s = t ++ ":"%char :: r /\ sch = rev acc ++ t /\ (forall c, In c t -> scheme_byte c) /\
    (acc = [] -> exists c t', t = c :: t' /\ letter c)).
  { clear E. intros SB L E. destruct (IH _ _ _ E N) as (t & -> & -> & B & _). exists (c :: t). split; [reflexivity|]. split; [cbn; now rewrite <- app_assoc|].
    split; [intros x [<-|I1]; auto|]. intro A. exists c, t. auto. }
  destruct (is_alpha c) eqn:A.
  - apply GO; [left; now apply letter_iff|intros _; now apply letter_iff|exact E].
  - destruct (is_num c || existsb (Ascii.eqb c) (str "+-.")) eqn:B.
    + destruct acc as [|a acc]; [congruence|]. apply GO; [apply scheme_byte_iff; now rewrite B, orb_true_r|discriminate|exact E].
    + destruct (Ascii.eqb_spec c ":"%char) as [->|]; [|congruence].
      destruct acc as [|a acc]; [discriminate E|]. injection E as <- <-. exists []. rewrite app_nil_r. split; [reflexivity|]. split; [reflexivity|].
      split; [easy|discriminate].
Qed.

Lemma get_scheme_reads t raw r : forall acc, (forall c, In c t -> scheme_byte c) -> (acc = [] -> exists c t', t = c :: t' /\ letter c) ->
  get_scheme acc (t ++ ":"%char :: r) raw = Some (rev acc ++ t, r).
Proof.
  induction t as [|c t IH]; intros acc B L.
  - cbn. destruct acc as [|a acc]; [destruct (L eq_refl) as (c & t' & E & _); discriminate E|]. now rewrite app_nil_r.
  - cbn [app get_scheme].
    assert (GO : get_scheme (c :: acc) (t ++ ":"%char :: r) raw = Some (rev acc ++ c :: t, r)).
    { rewrite IH; [cbn [rev]; now rewrite <- app_assoc|intros x I1; apply B; now right|discriminate]. }
    assert (SB : scheme_byte c) by (apply B; now left). apply scheme_byte_iff in SB.
    destruct (is_alpha c) eqn:A; [exact GO|]. cbn [orb] in SB. rewrite SB.
    destruct acc as [|a acc]; [|exact GO]. destruct (L eq_refl) as (c' & t' & E & LC). injection E as -> ->. apply letter_iff in LC. congruence.
Qed.

(** ** What lies before a byte *)

Lemma before_split c s : exists t, s = before c s ++ t /\ ~ In c (before c s) /\ (t = [] \/ exists t', t = c :: t').
Proof.
  induction s as [|x s IH]; [exists []; cbn; auto|]. cbn [before]. destruct (Ascii.eqb_spec x c) as [->|D].
  - exists (c :: s). split; [reflexivity|]. split; [easy|]. right. eauto.
  - destruct IH as (t & E & N & T). exists t. split; [cbn; now rewrite <- E|]. split; [|exact T]. intros [I1|I1]; auto.
Qed.

Lemma before_app c a t : ~ In c a -> (t = [] \/ exists t', t = c :: t') -> before c (a ++ t) = a.
Proof.
  induction a as [|x a IH]; intros N T.
  - destruct T as [->|(t' & ->)]; cbn; [reflexivity|]. now rewrite Ascii.eqb_refl.
  - cbn. destruct (Ascii.eqb_spec x c) as [->|D]; [exfalso; apply N; now left|]. rewrite IH; auto. intro; apply N; now right.
Qed.

(** The authority is what lies before the first slash of what lies before the first
    question mark. *)
Lemma ends_there_eq a t : ends_there a t -> before "/"%char (before "?"%char (a ++ t)) = a.
Proof.
  intros (N1 & N2 & T). destruct T as [->|(t' & [->| ->])].
  - rewrite app_nil_r, !before_none; auto. now rewrite before_none.
  - replace (before "?"%char (a ++ str "/" ++ t')) with (a ++ "/"%char :: before "?"%char t').
    + apply before_app; eauto.
    + induction a as [|x a IH]; [reflexivity|]. cbn. destruct (Ascii.eqb_spec x "?"%char) as [->|D]; [exfalso; apply N2; now left|].
      rewrite IH; [reflexivity| |]; intro; [apply N1|apply N2]; now right.
  - change (str "?" ++ t') with ("?"%char :: t'). rewrite (before_app "?"%char a); eauto. now apply before_none.
Qed.

Lemma ends_there_ex r : exists t, r = before "/"%char (before "?"%char r) ++ t /\ ends_there (before "/"%char (before "?"%char r)) t.
Proof.
  destruct (before_split "?"%char r) as (t & E & N & T). set (b := before "?"%char r) in *. clearbody b.
  destruct (before_split "/"%char b) as (t2 & E2 & N2 & T2). set (a := before "/"%char b) in *. clearbody a. subst b r.
  exists (t2 ++ t). split; [now rewrite app_assoc|]. split; [exact N2|]. split; [intro I1; apply N, in_app_iff; now left|].
  destruct T2 as [->|(t' & ->)].
  - cbn [app]. destruct T as [->|(t' & ->)]; [now left|right; exists t'; now right].
  - right. exists (t' ++ t). now left.
Qed.

(** ** Origins *)

Lemma in_percent o : existsb (Ascii.eqb "%"%char) o = false <-> ~ In "%"%char o.
Proof.
  rewrite <- not_true_iff_false. apply not_iff_compat. rewrite existsb_exists. split.
  - intros (x & I1 & E). apply Ascii.eqb_eq in E. now subst.
  - intro I1. exists "%"%char. split; [exact I1|reflexivity].
Qed.

Lemma control_iff o : existsb (fun c => ((code c <? 32) || (code c =? 127))%N) o = false <-> forall c, In c o -> (32 <= code c)%N /\ code c <> 127%N.
Proof.
  rewrite <- not_true_iff_false, existsb_exists. split.
  - intros H c I1. split.
    + apply N.nlt_ge. intro L. apply H. exists c. split; [exact I1|]. apply N.ltb_lt in L. now rewrite L.
    + intro L. apply H. exists c. split; [exact I1|]. apply N.eqb_eq in L. now rewrite L, orb_true_r.
  - intros H (c & I1 & E). apply H in I1. apply orb_prop in E. destruct E as [E|E]; [apply N.ltb_lt in E; lia|apply N.eqb_eq in E; tauto].
Qed.

Lemma to_lower_nil s : to_lower s = [] <-> s = [].
Proof. destruct s; split; easy. Qed.

(** The match of [parse_request_uri] on what follows a scheme. *)
Definition after_scheme (sch rest0 : bytes) : option bytes :=
  match before "?"%char rest0 with
  | "/"%char :: "/"%char :: r =>
      match sch with
      | [] => Some []
      | _ => if parse_authority (before "/"%char r) then Some (to_lower sch) else None
      end
  | "/"%char :: _ => Some (to_lower sch)
  | _ => match sch with [] => None | _ => Some (to_lower sch) end
  end.

Lemma after_none r0 : after_scheme [] r0 = None \/ after_scheme [] r0 = Some [].
Proof.
  unfold after_scheme. destruct (before "?"%char r0) as [|x [|y u]]; [auto| |].
  + destruct x as [[] [] [] [] [] [] [] []]; auto.
  + destruct (Ascii.eqb_spec x "/"%char) as [->|X].
    * destruct y as [[] [] [] [] [] [] [] []]; auto.
    * destruct x as [[] [] [] [] [] [] [] []]; auto; congruence.
Qed.

Lemma after_other sch r0 : sch <> [] -> (forall r, r0 <> str "//" ++ r) -> after_scheme sch r0 = Some (to_lower sch).
Proof.
  intros N D. unfold after_scheme. destruct sch as [|s sch]; [congruence|].
  destruct r0 as [|x r0]; [reflexivity|]. cbn [before]. destruct (Ascii.eqb x "?"%char); [reflexivity|].
  destruct (Ascii.eqb_spec x "/"%char) as [->|X].
  2: { destruct x as [[] [] [] [] [] [] [] []]; try reflexivity. now elim X. }
  destruct r0 as [|y r0]; [reflexivity|]. cbn [before]. destruct (Ascii.eqb y "?"%char); [reflexivity|].
  destruct (Ascii.eqb_spec y "/"%char) as [->|Y]; [now elim (D r0)|].
  destruct y as [[] [] [] [] [] [] [] []]; try reflexivity. now elim Y.
Qed.

Lemma after_slashes sch r : sch <> [] ->
  after_scheme sch (str "//" ++ r) = if parse_authority (before "/"%char (before "?"%char r)) then Some (to_lower sch) else None.
Proof. intro N. destruct sch as [|s sch]; [congruence|]. reflexivity. Qed.

Lemma parse_request_uri_eq o : o <> [] -> (forall c, In c o -> (32 <= code c)%N /\ code c <> 127%N) ->
  o <> str "*" -> parse_request_uri o = match get_scheme [] o o with None => None | Some (sch, r) => after_scheme sch r end.
Proof.
  intros N C S. unfold parse_request_uri. rewrite (proj2 (control_iff o) C).
  change (match o with [] => None | ["*"%char] => Some [] | _ => match get_scheme [] o o with None => None | Some (sch, r) => after_scheme sch r end end
    = match get_scheme [] o o with None => None | Some (sch, r) => after_scheme sch r end).
  generalize (match get_scheme [] o o with None => None | Some (sch, r) => after_scheme sch r end). intro y.
  destruct o as [|c [|z o]]; [congruence| |].
  - destruct c as [[] [] [] [] [] [] [] []]; try reflexivity. now elim S.
  - destruct c as [[] [] [] [] [] [] [] []]; reflexivity.
Qed.

Lemma beqb_spec a b : reflect (a = b) (beqb a b).
Proof. apply iff_reflect. symmetry. apply beqb_iff. Qed.

Lemma file_iff o : firstn 7 o = str "file://" <-> exists r, o = str "file://" ++ r.
Proof.
  split.
  - intro E. exists (skipn 7 o). now rewrite <- E, firstn_skipn.
  - intros (r & ->). reflexivity.
Qed.

Lemma authority_all sch r0 : sch <> [] -> ~ In "%"%char r0 ->
  after_scheme sch r0 = Some (to_lower sch) <-> forall a t, r0 = str "//" ++ a ++ t -> ends_there a t -> authority_form a.
Proof.
  intros N P.
  assert (D : (exists r, r0 = str "//" ++ r) \/ forall r, r0 <> str "//" ++ r).
  { destruct (beqb_spec (firstn 2 r0) (str "//")) as [E|E].
    - left. exists (skipn 2 r0). now rewrite <- E, firstn_skipn.
    - right. intros r ->. now apply E. }
  destruct D as [(r & ->)|D].
  - rewrite after_slashes by exact N. destruct (ends_there_ex r) as (t & E & ET).
    set (a0 := before "/"%char (before "?"%char r)) in *.
    assert (P' : ~ In "%"%char a0). { intro I1. apply P, in_app_iff. right. rewrite E. apply in_app_iff. now left. }
    split.
    + destruct (parse_authority a0) eqn:PA; [|discriminate]. intros _ a t' E' ET'. apply app_inv_head in E'.
      apply (parse_authority_iff a0 P') in PA. replace a with a0; [exact PA|]. unfold a0. rewrite E'. now apply ends_there_eq.
    + intro H. replace (parse_authority a0) with true; [reflexivity|]. symmetry. apply (parse_authority_iff a0 P'). apply (H a0 t); [now rewrite <- E|exact ET].
  - rewrite after_other by assumption. split; [|reflexivity]. intros _ a t E. now elim (D (a ++ t)).
Qed.

Lemma after_is sch r0 s : sch <> [] -> after_scheme sch r0 = Some s -> s = to_lower sch.
Proof.
  intros N E. destruct (beqb_spec (firstn 2 r0) (str "//")) as [F|F].
  - replace r0 with (str "//" ++ skipn 2 r0) in E by now rewrite <- F, firstn_skipn.
    rewrite after_slashes in E by exact N. destruct (parse_authority _); congruence.
  - rewrite after_other in E; [congruence|exact N|]. intros r ->. now apply F.
Qed.

Lemma valid_origin_iff o : valid_origin o = true <-> accepted_origin o.
Proof.
  unfold valid_origin, accepted_origin. destruct (beqb_spec o []) as [->|NE].
  { cbn [orb]. split; [discriminate|]. intros (_ & [E|[(r & E)|(s & rest & E & (c & s' & -> & _) & _)]]); discriminate E. }
  cbn [orb]. destruct (existsb (Ascii.eqb "%"%char) o) eqn:P.
  { split; [discriminate|]. intros [H _]. apply in_percent in H. congruence. }
  apply in_percent in P.
  destruct (beqb_spec o (str "null")) as [->|NN]; [cbn [orb]; split; [auto|reflexivity]|].
  destruct (beqb_spec (firstn 7 o) (str "file://")) as [F|F]; cbn [orb].
  { split; [|reflexivity]. intros _. split; [exact P|]. right. left. now apply file_iff. }
  rewrite file_iff in F.
  transitivity (exists s rest, o = s ++ str ":" ++ rest /\ uri_scheme s /\ (forall c, In c o -> (32 <= code c)%N /\ code c <> 127%N) /\
     forall a t, rest = str "//" ++ a ++ t -> ends_there a t -> authority_form a); [|tauto].
  destruct (existsb (fun c => ((code c <? 32) || (code c =? 127))%N) o) eqn:C.
  { unfold parse_request_uri. rewrite C. split; [discriminate|]. intros (s & rest & _ & _ & H & _). pose proof (proj2 (control_iff o) H). congruence. }
  pose proof (proj1 (control_iff o) C) as C0. clear C. rename C0 into C.
  destruct (beqb_spec o (str "*")) as [->|NS].
  { split; [discriminate|]. intros (s & rest & E & (c & s' & -> & _) & _). destruct s'; discriminate E. }
  rewrite parse_request_uri_eq by assumption. split.
  - destruct (get_scheme [] o o) as [[sch r]|] eqn:G; [|discriminate]. intro V.
    destruct sch as [|z sch].
    { destruct (after_none r) as [A|A]; rewrite A in V; discriminate V. }
    destruct (get_scheme_some o o [] _ _ G) as (t & E & T & B & L); [discriminate|]. cbn [rev app] in T. subst t.
    destruct (L eq_refl) as (c & t' & ET & LC). injection ET as <- <-.
    exists (z :: sch), r. split; [exact E|]. split; [exists z, sch; split; [reflexivity|]; split; [exact LC|]; intros x I1; apply B; now right|].
    split; [exact C|]. apply (authority_all (z :: sch) r); [discriminate| |].
    + intro I1. apply P. rewrite E. apply in_app_iff. right. now right.
    + destruct (after_scheme (z :: sch) r) as [s0|] eqn:A; [|discriminate V]. f_equal. eapply after_is; [|exact A]. discriminate.
  - intros (s & rest & E & (c & s' & ES & LC & B) & _ & A).
    assert (G : get_scheme [] o o = Some (s, rest)).
    { rewrite E at 1. change (s ++ str ":" ++ rest) with (s ++ ":"%char :: rest). apply (get_scheme_reads s o rest []).
      - subst s. intros x [<-|I1]; [now left|auto].
      - intros _. eauto. }
    rewrite G. assert (NS' : s <> []) by (subst; discriminate).
    assert (P' : ~ In "%"%char rest). { intro I1. apply P. rewrite E. apply in_app_iff. right. now right. }
    apply (authority_all s rest NS' P') in A. rewrite A. subst s. reflexivity.
Qed.

Lemma browser_accepted o : browser_origin o -> accepted_origin o.
Proof. intro B. now apply valid_origin_iff, browser_valid. Qed.

(** ** Media types *)

Lemma lower_byte_iff c : (is_space (lower c) = is_space c) /\ (Ascii.eqb (lower c) ";"%char = Ascii.eqb c ";"%char).
Proof.
  assert (H : Bool.eqb (is_space (lower c)) (is_space c) && Bool.eqb (Ascii.eqb (lower c) ";"%char) (Ascii.eqb c ";"%char) = true).
  { revert c. apply (all_bytes (fun c => Bool.eqb (is_space (lower c)) (is_space c) && Bool.eqb (Ascii.eqb (lower c) ";"%char) (Ascii.eqb c ";"%char))). vm_compute. reflexivity. }
  apply andb_prop in H. destruct H as [A B]. apply eqb_prop in A, B. auto.
Qed.

Lemma before_lower v : before ";"%char (to_lower v) = to_lower (before ";"%char v).
Proof.
  induction v as [|c v IH]; [reflexivity|]. cbn. destruct (lower_byte_iff c) as [_ ->]. destruct (Ascii.eqb c ";"%char); [reflexivity|]. cbn. f_equal. exact IH.
Qed.

Lemma trim_nil s : trim_space s = [] <-> forallb is_space s = true.
Proof.
  split.
  - intro E. destruct (trim_space_split s) as (a & b & A & B & F). rewrite E in F. rewrite F. cbn. now rewrite forallb_app, A, B.
  - intro F. pose proof (trim_app_right [] s F) as T. exact T.
Qed.

Lemma space_blank s : forallb is_space s = true <-> blank s.
Proof.
  unfold blank. rewrite forallb_forall. split; intros H c I1; apply H in I1.
  - unfold is_space in I1. rewrite orb_true_iff, andb_true_iff, !N.leb_le, N.eqb_eq in I1. tauto.
  - unfold is_space. rewrite orb_true_iff, andb_true_iff, !N.leb_le, N.eqb_eq. tauto.
Qed.

Lemma media_type_iff v : media_type v <> [] <-> names_type v.
Proof.
  assert (M : media_type v = [] <-> blank (before ";"%char v)).
  { unfold media_type. destruct v as [|c v]; [split; [easy|reflexivity]|]. rewrite before_lower, trim_nil, <- space_blank.
    generalize (before ";"%char (c :: v)). intro s. unfold to_lower. induction s as [|x s IH]; [tauto|]. cbn. destruct (lower_byte_iff x) as [-> _].
    rewrite !andb_true_iff. tauto. }
  split.
  - intros N s t E T B. apply N, M. replace (before ";"%char v) with (before ";"%char s); [intros c I1; apply B; revert I1|].
    + clear. induction s as [|x s IH]; [easy|]. cbn. destruct (Ascii.eqb x ";"%char); [easy|]. intros [H|H]; [now left|right; auto].
    + assert (NS : ~ In ";"%char s). { intro I1. apply B in I1. vm_compute in I1. destruct I1 as [I1|[_ I1]]; [discriminate I1|now apply I1]. }
      rewrite (before_none _ _ NS). rewrite E. symmetry. apply before_app; [exact NS|]. destruct T as [->|(t' & ->)]; [now left|right; exists t'; reflexivity].
  - intros H E. apply M in E. destruct (before_split ";"%char v) as (t & F & _ & T). apply (H _ _ F); [|exact E].
    destruct T as [->|(t' & ->)]; [now left|right; exists t'; reflexivity].
Qed.

Lemma full_iff q : full_request q <-> complete q.
Proof.
  unfold full_request, complete. split; intros [A B]; (split; [|exact B]); intro P; specialize (A P).
  - destruct A as (v & C & N). destruct (carries_get q (str "Content-Type") v eq_refl C) as [_ ->]. now apply media_type_iff.
  - destruct (has_header (xq_headers q) (str "Content-Type")) eqn:H.
    + exists (hget (xq_headers q) (str "Content-Type")). split; [now apply has_carries|]. now apply media_type_iff.
    + exfalso. apply A. unfold has_header in H. unfold hget, hvalues. replace (canonical (str "Content-Type")) with (str "Content-Type") by reflexivity.
      destruct (alookup (str "Content-Type") (xq_headers q)); [discriminate H|]. reflexivity.
Qed.

(** ** Requests *)

Section M.
Variable World : Type.
Variable h : handler xreq response World.

Lemma refused_not_accepted c x q w o :
  carries q h_origin o -> ~ accepted_origin o ->
  cors c h x q w =
  (match fst (h x q w) with
   | HPanic v => HPanic v
   | HReturn _ (Some e) => HReturn None (Some e)
   | HReturn _ None => HReturn None (Some EAccessDenied)
   end, snd (h x q w)).
Proof.
  intros CO NO. assert (T : request_type q = InvalidCors).
  { destruct (request_type q) eqn:E; try reflexivity; exfalso; apply NO, valid_origin_iff; eapply type_valid; try exact CO; congruence. }
  unfold cors. rewrite T. destruct (h x q w) as [[r [e|]|v] w']; reflexivity.
Qed.

Lemma cross_exact c x q w r w' o :
  answered h x q w r w' -> carries q h_origin o -> web_url q ->
  ~ odd_ports (to_lower (xq_scheme q)) (xq_host q) o -> ~ own (to_lower (xq_scheme q)) (xq_host q) o ->
  is_answer (fst (cors c h x q w)) <-> accepted_origin o /\ allows_origin c o /\ allows c q /\ full_request q.
Proof.
  rewrite full_iff. intros [E HH] CO WU OP NO.
  assert (SO : same_origin (xq_scheme q) (xq_host q) o = false).
  { destruct (same_origin (xq_scheme q) (xq_host q) o) eqn:S; [|reflexivity]. exfalso. destruct WU as [WU|(d & WU)].
    - rewrite no_scheme_not_same in S by auto. discriminate S.
    - apply NO. eapply same_is_own; eauto. }
  split.
  - intros (r1 & A). destruct (cors c h x q w) as [o1 w1] eqn:K. cbn in A. subst o1.
    destruct (cross_origin_answer World h c x q w r1 w1 o K CO WU OP NO) as (A1 & A2 & _).
    apply cors_answer in K. destruct K as (r0 & m & _ & _ & _ & _ & _ & T).
    assert (V : valid_origin o = true). { eapply type_valid; [exact CO|]. intro X. now rewrite X in T. }
    split; [now apply valid_origin_iff|]. split; [exact A1|]. split; [exact A2|].
    pose proof (type_cross q o CO V SO) as TC. destruct (request_type q); tauto.
  - intros (V & A1 & A2 & CP). apply valid_origin_iff in V.
    destruct (allowed_answered World h c x q w r w' o E HH CO V A1 A2 CP) as (r' & m & K & _). exists r'. now rewrite K.
Qed.
End M.

(** ** Cases *)

Definition get_from (o : bytes) : xreq := XReq (str "GET") [(h_origin, [o])] [] [] true (str "api.example").
Definition open_to_all : cors_config := CorsConfig true false 0 [] [str "GET"] [] [].

Lemma empty_host h n po : host_port h n po -> h = [] -> po = None.
Proof. intros [n0 p0 D|]; [|reflexivity]. intro E. destruct n0; discriminate E. Qed.

Lemma get_from_plain o : carries (get_from o) h_origin o /\ web_url (get_from o) /\
  ~ odd_ports (to_lower (xq_scheme (get_from o))) (xq_host (get_from o)) o /\ ~ own (to_lower (xq_scheme (get_from o))) (xq_host (get_from o)) o.
Proof.
  split; [now exists [o]|]. split; [now left|]. cbn. split.
  - intros (n & p & H & _). now apply empty_host in H.
  - intros (n & po & d & _ & [[[E|E] _]|[[E|E] _]] & _); discriminate E.
Qed.

Lemma accepted_case :
  (forall o, In o [str "null"; str "file://"; str "https://shop.example"; str "x+y-1.z://me:pw@shop.example:8080/?//";
                   str "http://[::1]:80"; str "http://[a]b"; str "a:b@c:d"; str "h://:1:2"; str "h:///x"; str "H://a<b>@c"; str "mailto:me"] ->
     accepted_origin o <-> ~ In o [str "http://[a]b"; str "H://a<b>@c"]) /\
  (forall o, In o [str "http://a^b"; str "http://a b"; str "http://a:b"; str "http://a:80x/"; str "1a://b"; str "://b"; str "http://[a:80"; str "h://a@b@[c"; str "*"; str "/a:b"] ->
     ~ accepted_origin o /\ fst (cors open_to_all counting nobody (get_from o) 0) = HReturn None (Some EAccessDenied)).
Proof.
  split.
  - intros o I1. rewrite <- valid_origin_iff. cbn in I1.
    repeat (destruct I1 as [<-|I1]; [split; [intros V [E|[E|[]]]; discriminate E || discriminate V|
       intro N; first [reflexivity|exfalso; apply N; cbn; tauto]]|]). destruct I1.
  - intros o I1. rewrite <- valid_origin_iff. cbn in I1.
    repeat (destruct I1 as [<-|I1]; [split; [discriminate|reflexivity]|]). destruct I1.
Qed.

Lemma cross_exact_case :
  let o := str "x+y-1.z://me:pw@shop.example:8080" in
  answered counting nobody (get_from o) 0 page 1 /\ carries (get_from o) h_origin o /\ web_url (get_from o) /\
  ~ odd_ports (to_lower (xq_scheme (get_from o))) (xq_host (get_from o)) o /\ ~ own (to_lower (xq_scheme (get_from o))) (xq_host (get_from o)) o /\
  is_answer (fst (cors open_to_all counting nobody (get_from o) 0)) /\ accepted_origin o /\
  ~ is_answer (fst (cors open_to_all counting nobody (get_from (str "http://a^b")) 0)) /\ ~ accepted_origin (str "http://a^b").
Proof.
  intro o. split; [split; [reflexivity|exact I]|].
  split; [apply get_from_plain|]. split; [apply get_from_plain|]. split; [apply get_from_plain|]. split; [apply get_from_plain|].
  split; [eexists; reflexivity|]. split; [now apply valid_origin_iff|]. split; [intros (r & E); discriminate E|].
  rewrite <- valid_origin_iff. discriminate.
Qed.

Lemma browser_case : browser_origin (str "https://shop.example:8443").
Proof.
  right. exists (str "https"), (str "shop.example"). split; [|split].
  - split; [discriminate|]. intros c I1. apply letter_iff. cbn in I1. repeat (destruct I1 as [<-|I1]; [reflexivity|]). destruct I1.
  - left. split; [discriminate|]. intros c I1. cbn in I1.
    repeat (destruct I1 as [<-|I1]; [first [left; apply letter_iff; reflexivity|right; right; right; left; reflexivity]|]). destruct I1.
  - right. exists (str "8443"). split; [|reflexivity]. intros c I1. apply is_num_iff. cbn in I1. repeat (destruct I1 as [<-|I1]; [reflexivity|]). destruct I1.
Qed.

Lemma type_case :
  names_type (str " text/plain ; charset=utf-8") /\ ~ names_type (str " ; charset=utf-8") /\
  let q t := XReq (str "POST") [(h_origin, [str "https://shop.example"]); (str "Content-Type", [t])] [] [] true (str "api.example") in
  let c := CorsConfig true false 0 [] [str "POST"] [] [] in
  full_request (q (str "text/plain")) /\ is_answer (fst (cors c counting nobody (q (str "text/plain")) 0)) /\
  ~ full_request (q (str ";a")) /\ ~ is_answer (fst (cors c counting nobody (q (str ";a")) 0)).
Proof.
  split; [apply media_type_iff; discriminate|]. split; [rewrite <- media_type_iff; intro H; now apply H|]. cbv zeta.
  split; [apply full_iff; split; [intros _; discriminate|intros [E _]; discriminate E]|]. split; [eexists; vm_compute; reflexivity|].
  split; [rewrite full_iff; intros [H _]; now apply H|]. intros (r & E). vm_compute in E. discriminate E.
Qed.
