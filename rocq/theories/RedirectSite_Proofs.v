(** * Redirects: staying on the site, the page, the response *)
From Coq Require Import List NArith ZArith Ascii String Bool Lia Arith.
From Verif Require Import GoBase Http_Model Chain_Model Serve_Model Resp_Model App_Model Cors_Model Cors_Spec Cors_Proofs CorsMisc_Proofs Origin_Spec Origin_Proofs.
From Verif Require Import Resp_Spec Resp_Proofs RespMisc_Proofs Files_Model Files_Spec Files_Proofs Redirect_Model Redirect_Spec Redirect_Proofs.
Import ListNotations.
Local Open Scope string_scope.
Local Open Scope list_scope.
Local Open Scope nat_scope.

(** ** A redirect to a path *)

Lemma hex_cons c s : hex_escape (c :: s) = hex_byte c ++ hex_escape s.
Proof. reflexivity. Qed.

Lemma hex_head c : exists d t, hex_byte c = d :: t /\ (d = c \/ d = "%"%char).
Proof. unfold hex_byte. destruct (128 <=? code c)%N; eauto. Qed.

Lemma in_hex c s : In c (hex_escape s) -> In c s \/ exists n, (n < 16)%N /\ c = hex_digit n \/ c = "%"%char.
Proof.
  unfold hex_escape. rewrite in_flat_map. intros (x & I1 & I2). unfold hex_byte in I2. destruct (128 <=? code x)%N eqn:L.
  - right. destruct I2 as [<-|[<-|[<-|[]]]]; [exists 0%N; now right| |].
    + exists (code x / 16)%N. left. split; [|reflexivity]. apply N.div_lt_upper_bound; [discriminate|]. pose proof (N_ascii_bounded x). unfold code. lia.
    + exists (code x mod 16)%N. left. split; [|reflexivity]. now apply N.mod_lt.
  - destruct I2 as [<-|[]]. now left.
Qed.

Lemma hex_plain c : (exists n, (n < 16)%N /\ c = hex_digit n \/ c = "%"%char) -> plain_sign c = true.
Proof.
  intros (n & [[L ->]| ->]); [|reflexivity].
  assert (H : forallb (fun m => plain_sign (hex_digit (N.of_nat m))) (seq 0 16) = true) by (vm_compute; reflexivity).
  rewrite forallb_forall in H. replace n with (N.of_nat (N.to_nat n)) by lia. apply H, in_seq. lia.
Qed.

Lemma filter_clear s : (forall c, In c s -> plain_sign c = true) -> filter plain_sign s = s.
Proof.
  induction s as [|c s IH]; intro H; [reflexivity|]. cbn. rewrite (H c) by now left. f_equal. apply IH. intros; apply H; now right.
Qed.

Lemma clear_plain s : clear_text s -> filter plain_sign (hex_escape s) = hex_escape s.
Proof.
  intro C. apply filter_clear. intros c I1. apply in_hex in I1. destruct I1 as [I1|I1]; [|now apply hex_plain].
  apply C in I1. unfold plain_sign. apply negb_true_iff. rewrite !orb_false_iff, !N.eqb_neq. lia.
Qed.

Lemma no_scheme_rooted s : ~ (exists f t, hex_escape (slash :: s) = f ++ str ":" ++ t /\ f <> [] /\ forall c, In c f -> ~ slash_like c /\ ~ In c (str ":?#")).
Proof.
  intros (f & t & E & N & H). destruct f as [|c f]; [congruence|]. injection E as E _. apply (proj1 (H c (or_introl eq_refl))). left. now symmetry.
Qed.

Lemma rooted_stays s : clear_text (slash :: s) -> ~ starts (str "/") s -> ~ leaves_site (hex_escape (slash :: s)).
Proof.
  intros C N L. unfold leaves_site in L. rewrite (clear_plain _ C) in L. destruct L as [(c & d & t & E & _ & D)|L]; [|now apply no_scheme_rooted in L].
  destruct s as [|x s]; [discriminate E|]. rewrite !hex_cons in E. destruct (hex_head x) as (y & z & HX & Y). rewrite HX in E.
  change (hex_byte slash) with [slash] in E. cbn [List.app] in E. injection E as _ E _. subst d.
  destruct Y as [->| ->].
  - destruct D as [->|D]; [apply N; eexists; reflexivity|]. apply (proj2 (C x (or_intror (or_introl eq_refl)))). exact D.
  - destruct D as [D|D]; [discriminate D|vm_compute in D; discriminate D].
Qed.

Lemma scheme_split s f (r : bytes) : hex_escape s = f ++ ":"%char :: r ->
  exists g u, s = g ++ ":"%char :: u /\ ~ In ":"%char g /\ forall c, In c g -> (code c < 128)%N -> In c f.
Proof.
  revert f. induction s as [|x s IH]; intros f E; [destruct f; discriminate E|].
  destruct (Ascii.eqb_spec x ":"%char) as [->|D]; [exists [], s; split; [reflexivity|split; [easy|easy]]|].
  rewrite hex_cons in E. unfold hex_byte in E. destruct (128 <=? code x)%N eqn:L.
  - assert (X : exists f', f = "%"%char :: hex_digit (code x / 16) :: hex_digit (code x mod 16) :: f' /\ hex_escape s = f' ++ ":"%char :: r).
    { assert (HD : forall n, (n < 16)%N -> hex_digit n <> ":"%char).
      { intros n L1 X. assert (H : forallb (fun m => negb (Ascii.eqb (hex_digit (N.of_nat m)) ":"%char)) (seq 0 16) = true) by (vm_compute; reflexivity).
        rewrite forallb_forall in H. assert (I1 : In (N.to_nat n) (seq 0 16)) by (apply in_seq; lia). apply H in I1. rewrite N2Nat.id, X in I1. discriminate I1. }
      pose proof (N_ascii_bounded x).
      destruct f as [|c1 f]; [discriminate E|]. destruct f as [|c2 f]; [injection E as _ E _; exfalso; refine (HD _ _ E); apply N.div_lt_upper_bound; [discriminate|unfold code; lia]|].
      destruct f as [|c3 f]; [injection E as _ _ E _; exfalso; refine (HD _ _ E); now apply N.mod_lt|].
      exists f. cbn [List.app] in E. inversion E. auto. }
    destruct X as (f' & -> & E'). destruct (IH f' E') as (g & u & -> & NG & H). exists (x :: g), u. split; [reflexivity|].
    split; [intros [J|J]; [now apply D|auto]|]. intros c [<-|J] LC; [apply N.leb_le in L; lia|]. right. right. right. auto.
  - destruct f as [|c f]; [injection E as E _; now elim D|]. cbn [List.app] in E. injection E as <- E. destruct (IH f E) as (g & u & -> & NG & H).
    exists (x :: g), u. split; [reflexivity|]. split; [intros [J|J]; [now apply D|auto]|]. intros c [<-|J] LC; [now left|]. right. auto.
Qed.

Lemma path_stays p url :
  starts (str "/") p -> clear_text p -> clear_text url -> names_path url -> ~ leaves_site (redirect_location p url).
Proof.
  intros (p0 & P) CP CU (r & [WF EU] & SC & AU). unfold redirect_location, redirect_url. destruct (local_url url) eqn:L.
  - cbv zeta. set (u1 := if has_prefix (str "/") url then url else _).
    assert (U1 : exists s1, u1 = slash :: s1 /\ clear_text u1).
    { unfold u1. destruct (has_prefix (str "/") url) eqn:HP.
      - apply prefix_iff in HP. destruct HP as (s & HP). exists s. split; [exact HP|exact CU].
      - replace (match p with [] => str "/" | _ => p end) with p by (rewrite P; reflexivity). rewrite (proj1 (dir_drop p)).
        destruct (drop_last_root p0) as (d & D). exists (d ++ url). split; [rewrite P; change (str "/" ++ p0) with (slash :: p0); rewrite D; reflexivity|].
        intros c I1. apply in_app_iff in I1. destruct I1 as [I1|I1]; [apply CP; now apply drop_last_sub|now apply CU]. }
    destruct U1 as (s1 & U1 & C1). clearbody u1. rewrite U1 in *. clear u1 U1.
    replace (before "?"%char (slash :: s1)) with (slash :: before "?"%char s1) by reflexivity.
    destruct (before_split "?"%char s1) as (qs & E & NQ & Q). set (s2 := before "?"%char s1) in *. clearbody s2.
    replace (skipn (List.length (slash :: s2)) (slash :: s1)) with qs.
    2: { cbn [List.length skipn]. rewrite E at 1. rewrite skipn_app, skipn_all, Nat.sub_diag. reflexivity. }
    destruct (clean_root s2) as (names & F & C & LD). rewrite C.
    assert (SUB : forall c, In c (join [slash] names) -> In c (slash :: s1)).
    { intros c I1. apply (names_sub s2) in I1; [|exact LD]. destruct I1 as [->|I1]; [now left|]. right. rewrite E. apply in_app_iff. now left. }
    assert (G : exists e, (if last_slash (slash :: s2) && negb (last_slash (slash :: join [slash] names)) then (slash :: join [slash] names) ++ [slash] else slash :: join [slash] names)
                = slash :: join [slash] names ++ e /\ (e = [] \/ e = [slash] /\ names <> [])).
    { destruct (last_slash (slash :: s2) && negb (last_slash (slash :: join [slash] names))) eqn:X.
      - exists [slash]. split; [reflexivity|]. right. split; [reflexivity|]. intros ->. apply andb_prop in X. destruct X as [_ X]. discriminate X.
      - exists []. split; [now rewrite app_nil_r|now left]. }
    destruct G as (e & -> & EE). cbn [List.app]. rewrite <- app_assoc. apply rooted_stays.
    + intros c [<-|I1]; [vm_compute; split; discriminate|]. apply in_app_iff in I1. destruct I1 as [I1|I1]; [apply C1; auto|].
      apply in_app_iff in I1. destruct I1 as [I1|I1].
      * destruct EE as [->|[-> _]]; [easy|]. destruct I1 as [<-|[]]. vm_compute. split; discriminate.
      * apply C1. right. rewrite E. apply in_app_iff. now right.
    + intros (z & Z). destruct names as [|n m].
      * destruct EE as [->|[_ EE]]; [|now apply EE]. cbn in Z. destruct Q as [->|(t' & ->)]; discriminate Z.
      * inversion F as [|? ? (N1 & _ & _ & N4) _]; subst. destruct n as [|x n]; [congruence|]. apply N4. left.
        destruct m; cbn in Z; now injection Z as ->.
  - subst url. destruct r as [sc au pa q f]. cbn [rf_scheme rf_authority] in SC, AU. subst sc au. pose proof WF as (_ & _ & W3 & W4 & W5 & _).
    cbn [rf_scheme rf_authority rf_path rf_query rf_fragment] in W3, W4, W5.
    unfold reference_text in *. cbn [rf_scheme rf_authority rf_path rf_query rf_fragment List.app] in *.
    set (tail := behind_sign "?"%char q ++ behind_sign "#"%char f) in *.
    assert (T : forall c t, tail = c :: t -> c = "?"%char \/ c = "#"%char).
    { unfold tail. intros c t. destruct q; cbn; [intro X; injection X as <- _; now left|]. destruct f; cbn; [intro X; injection X as <- _; now right|discriminate]. }
    intro LS. destruct pa as [|c pa].
    + cbn [List.app] in *. unfold leaves_site in LS. rewrite (clear_plain _ CU) in LS. destruct tail as [|c t] eqn:TE.
      * destruct LS as [(? & ? & ? & X & _)|(x & ? & X & N & _)]; [discriminate X|destruct x; [congruence|discriminate X]].
      * specialize (T _ _ eq_refl).
        assert (X : forall y z, hex_escape (c :: t) = y :: z -> y = c). { intros y z. rewrite hex_cons. destruct T as [-> | ->]; cbn; intro X; now injection X as <- _. }
        destruct LS as [(y & ? & z & Y & S1 & _)|(y & z & Y & N & H)].
        -- apply X in Y. subst y. destruct T as [-> | ->]; destruct S1 as [S1|S1]; try discriminate S1; vm_compute in S1; discriminate S1.
        -- destruct y as [|y0 y]; [congruence|]. pose proof (X _ _ Y). subst y0. apply (proj2 (H c (or_introl eq_refl))). destruct T as [-> | ->]; cbn; tauto.
    + destruct (Ascii.eqb_spec c "/"%char) as [->|NC].
      * revert LS. apply rooted_stays; [exact CU|]. intros (z & Z). destruct pa as [|d pa].
        -- cbn [List.app] in Z. destruct tail as [|c t] eqn:TE; [discriminate Z|]. injection Z as -> _. destruct (T _ _ eq_refl) as [X|X]; discriminate X.
        -- injection Z as -> _. apply W3; [reflexivity|]. exists pa. reflexivity.
      * unfold leaves_site in LS. rewrite (clear_plain _ CU) in LS. destruct LS as [(y & d & z & Y & S1 & _)|(y & z & Y & N & H)].
        -- cbn [List.app] in Y. rewrite hex_cons in Y. destruct (hex_head c) as (c0 & z0 & E0 & H0). rewrite E0 in Y. injection Y as <- _.
           destruct H0 as [->| ->].
           ++ destruct S1 as [S1|S1]; [contradiction|]. apply (proj2 (CU c (or_introl eq_refl))). exact S1.
           ++ destruct S1 as [S1|S1]; [discriminate S1|vm_compute in S1; discriminate S1].
        -- destruct (scheme_split _ y z Y) as (g & u & E & NG & SB).
           assert (PG : exists u', c :: pa = g ++ ":"%char :: u').
           { clear - E T SB H. assert (HG : forall x, In x g -> x <> "?"%char /\ x <> "#"%char).
             { intros x I1. split; intros ->; (assert (I2 : In _ y) by (apply (SB _ I1); vm_compute; reflexivity)); apply (proj2 (H _ I2)); cbn; tauto. }
             revert E HG. generalize (c :: pa). clear SB. induction g as [|x g IH]; intros l E HG.
             - destruct l as [|l0 l]; [cbn in E; destruct (T _ _ E) as [X|X]; discriminate X|]. injection E as -> _. exists l. reflexivity.
             - destruct l as [|l0 l]; [cbn in E; destruct (HG x (or_introl eq_refl)) as [A B]; destruct (T _ _ E); contradiction|].
               injection E as -> E. destruct (IH l E) as (u' & ->); [intros; apply HG; now right|]. exists u'. reflexivity. }
           destruct PG as (u' & PG). destruct (W4 eq_refl eq_refl g u' PG NG) as [->|IS].
           ++ cbn in PG. injection PG as -> _. destruct y as [|y0 y]; [congruence|]. cbn [List.app] in Y.
              rewrite hex_cons in Y. cbn in Y. injection Y as <- Y. apply (proj2 (H _ (or_introl eq_refl))). cbn. tauto.
           ++ apply (proj1 (H _ (SB _ IS eq_refl))). now left.
Qed.

(** ** Where the request names another host *)

Lemma plain_local n : plain_step n -> local_url n = true.
Proof.
  intros ((_ & _ & _ & NS) & V & L). unfold local_url. cbv zeta.
  assert (N : forall d, In d (str ":?#%") -> ~ In d n) by (intros d I1 I2; exact (L d I2 I1)).
  assert (EK : forall m, ~ In "%"%char m -> esc_ok m = true).
  { induction m as [|c m IH]; intro NM; [reflexivity|]. cbn [esc_ok]. destruct (Ascii.eqb_spec c "%"%char) as [->|D]; [exfalso; apply NM; now left|]. apply IH. intro; apply NM; now right. }
  assert (B : behind "#"%char n = []).
  { assert (NH : ~ In "#"%char n) by (apply N; cbn; tauto). clear - NH. induction n as [|c n IH]; [reflexivity|]. cbn.
    destruct (Ascii.eqb_spec c "#"%char) as [->|]; [exfalso; apply NH; now left|]. apply IH. intro; apply NH; now right. }
  rewrite B, (before_none "#"%char) by (apply N; cbn; tauto). rewrite (proj2 (control_iff n)) by (intros c I1; apply V in I1; lia). cbn [esc_ok negb andb].
  apply orb_true_iff. right.
  assert (GS : get_scheme [] n n = Some ([], n)).
  { assert (NC : ~ In ":"%char n) by (apply N; cbn; tauto). generalize (@nil byte) at 1. revert NC. generalize n at 1 2. induction n0 as [|c m IH]; intros NC acc; [reflexivity|].
    cbn [get_scheme]. assert (NM : ~ In ":"%char m) by (intro; apply NC; now right). destruct (is_alpha c); [now apply IH|].
    destruct (is_num c || existsb (Ascii.eqb c) (str "+-.")); [destruct acc; [reflexivity|now apply IH]|].
    destruct (Ascii.eqb_spec c ":"%char) as [->|]; [exfalso; apply NC; now left|reflexivity]. }
  rewrite GS. rewrite (before_none "?"%char) by (apply N; cbn; tauto).
  replace (has_prefix (str "/") n) with false.
  2: { symmetry. apply not_true_is_false. rewrite prefix_iff. intros (r & ->). apply NS. now left. }
  cbn [negb]. rewrite (before_none "/"%char) by exact NS. rewrite (proj2 (in_not_exists ":"%char n)) by (apply N; cbn; tauto). apply EK, N. cbn. tauto.
Qed.

Lemma step_location names z n : names <> [] -> Forall entry_name names -> ~ In "/"%char z -> plain_step n ->
  (forall m c, In m names -> In c m -> (code c < 127)%N /\ c <> "?"%char) ->
  redirect_location (slash :: join [slash] (names ++ [z])) n = slash :: join [slash] (names ++ [n]).
Proof.
  intros NN F NZ PN A. pose proof PN as ((N1 & N2 & N3 & N4) & V & L). unfold redirect_location, redirect_url. rewrite (plain_local n PN). cbv zeta.
  replace (has_prefix (str "/") n) with false.
  2: { symmetry. apply not_true_is_false. rewrite prefix_iff. intros (r & ->). apply N4. now left. }
  rewrite (proj1 (dir_drop _)), drop_last_join by exact NZ. rewrite app_comm_cons || idtac.
  replace ((slash :: join [slash] (names ++ [[]])) ++ n) with (slash :: join [slash] (names ++ [n])).
  2: { change n with ([] ++ n) at 1. rewrite join_end. reflexivity. }
  set (v := slash :: join [slash] (names ++ [n])).
  assert (IV : forall c, In c v -> (code c < 128)%N /\ c <> "?"%char).
  { intros c [<-|I1]; [split; [vm_compute; reflexivity|discriminate]|]. apply in_join in I1. destruct I1 as [->|(m & I1 & I2)]; [split; [vm_compute; reflexivity|discriminate]|].
    apply in_app_iff in I1. destruct I1 as [I1|[<-|[]]].
    - destruct (A m c I1 I2). split; [lia|assumption].
    - split; [apply V in I2; lia|]. intros ->. apply (L _ I2). cbn. tauto. }
  assert (FV : Forall entry_name (names ++ [n])) by (apply Forall_app; split; [exact F|constructor; [apply PN|constructor]]).
  rewrite before_none by (intro I1; now apply IV in I1). rewrite skipn_all, app_nil_r.
  replace (last_slash v) with false.
  2: { symmetry. apply not_true_is_false. rewrite last_slash_iff. intros (d & D). apply ends_join in D; [|exact FV]. destruct names; discriminate D. }
  cbn [andb]. unfold v at 1. rewrite (proj1 (clean_names _ FV)). fold v. apply hex_escape_ascii. intros c I1. now apply IV.
Qed.

Lemma other_host s h x n :
  (s = [ascii_of_N 92] \/ s = [ascii_of_N 9; "/"%char]) -> plain_step h -> ~ In "/"%char x -> plain_step n ->
  let l := str "/" ++ s ++ h ++ str "/" ++ n in
  redirect_location (str "/" ++ s ++ h ++ str "/" ++ x) n = l /\ leaves_site l.
Proof.
  intros S H NX PN l. pose proof H as ((H1 & H2 & H3 & H4) & VH & LH). split.
  - destruct S as [-> | ->].
    + assert (BN : entry_name (ascii_of_N 92 :: h)).
      { split; [discriminate|]. split; [discriminate|]. split; [discriminate|]. intros [X|X]; [discriminate X|contradiction]. }
      refine (step_location [ascii_of_N 92 :: h] x n _ _ NX PN _); [discriminate|repeat constructor; apply BN|].
      intros m c [<-|[]] [<-|I1]; [split; [vm_compute; reflexivity|discriminate]|]. split; [now apply VH in I1|]. intros ->. apply (LH _ I1). cbn. tauto.
    + refine (step_location [[ascii_of_N 9]; h] x n _ _ NX PN _); [discriminate| |].
      * constructor; [|constructor; [apply H|constructor]]. split; [discriminate|]. split; [discriminate|]. split; [discriminate|]. intros [X|[]]; discriminate X.
      * intros m c [<-|[<-|[]]]; [intros [<-|[]]; split; [vm_compute; reflexivity|discriminate]|]. intro I1. split; [now apply VH in I1|]. intros ->. apply (LH _ I1). cbn. tauto.
  - left. destruct S as [-> | ->]; eexists; eexists; eexists; (split; [reflexivity|]); split; try (now left); now right.
Qed.

(** ** The page *)

Lemma page_seen (reason : Z -> bytes) p st url : exists t, seen_as t (redirect_url p url) /\
  redirect_page reason p st url = str "<a href=""" ++ t ++ str """>" ++ reason st ++ str "</a>." ++ [ascii_of_N 10; ascii_of_N 10].
Proof. exists (html_text (redirect_url p url)). split; [apply seen_html|reflexivity]. Qed.

(** ** The response *)

Section Response.
Variable k : compressor.

Lemma sent_location oh oc render reason p h u q (w : rw k) :
  (200 <= hr_status h <= 999)%Z -> b_final (rw_base w) = None ->
  exists w' hs, write oh oc render (fun _ => redirect_location p) (redirect_page reason p) (RRedirect h u) q w = (Wrote None, w') /\
    b_final (rw_base w') = Some (hr_status h, hs) /\ hvalues hs (str "Location") = [redirect_location p u].
Proof.
  intros S N. destruct (redirect_sent k oh oc render (fun _ => redirect_location p) (redirect_page reason p) h u q w S N) as (w' & hs & A & B & C & _). eauto.
Qed.

Lemma sent_alike oh oc render reason b h u r q (w : rw k) :
  (200 <= hr_status h <= 999)%Z -> b_final (rw_base w) = None ->
  starts (str "/") (bs_path b) -> lacks (str "?#%") (bs_path b) -> visible (bs_path b) -> visible u ->
  reads u r -> kept_reference b r ->
  exists w' hs l, write oh oc render (fun _ => redirect_location (bs_path b)) (redirect_page reason (bs_path b)) (RRedirect h u) q w = (Wrote None, w') /\
    b_final (rw_base w') = Some (hr_status h, hs) /\ hvalues hs (str "Location") = [l] /\ leads_alike b l u.
Proof.
  intros S N SP LP VP VU R K. destruct (sent_location oh oc render reason (bs_path b) h u q w S N) as (w' & hs & A & B & C).
  exists w', hs, (redirect_location (bs_path b) u). repeat (split; [assumption|]). now apply (redirect_leads b u r).
Qed.

Lemma sent_query oh oc render reason b h s q (w : rw k) :
  (200 <= hr_status h <= 999)%Z -> b_final (rw_base w) = None ->
  starts (str "/") (bs_path b) -> lacks (str "?#%") (bs_path b) -> visible (bs_path b) -> (forall x, bs_path b <> x ++ str "/") ->
  visible s -> ~ In "#"%char s ->
  exists w' hs l, write oh oc render (fun _ => redirect_location (bs_path b)) (redirect_page reason (bs_path b)) (RRedirect h (str "?" ++ s)) q w = (Wrote None, w') /\
    b_final (rw_base w') = Some (hr_status h, hs) /\ hvalues hs (str "Location") = [l] /\ ~ leads_alike b l (str "?" ++ s).
Proof.
  intros S N SP LP VP NE VS NS. destruct (sent_location oh oc render reason (bs_path b) h (str "?" ++ s) q w S N) as (w' & hs & A & B & C).
  exists w', hs, (redirect_location (bs_path b) (str "?" ++ s)). repeat (split; [assumption|]). now apply query_elsewhere.
Qed.

Lemma sent_dot oh oc render reason b h names z q (w : rw k) :
  (200 <= hr_status h <= 999)%Z -> b_final (rw_base w) = None ->
  names <> [] -> Forall entry_name names -> ~ In "/"%char z -> bs_path b = str "/" ++ join (str "/") (names ++ [z]) ->
  lacks (str "?#%") (bs_path b) -> visible (bs_path b) ->
  exists w' hs l, write oh oc render (fun _ => redirect_location (bs_path b)) (redirect_page reason (bs_path b)) (RRedirect h (str ".")) q w = (Wrote None, w') /\
    b_final (rw_base w') = Some (hr_status h, hs) /\ hvalues hs (str "Location") = [l] /\ ~ leads_alike b l (str ".").
Proof.
  intros S N NN F NZ BP LP VP. destruct (sent_location oh oc render reason (bs_path b) h (str ".") q w S N) as (w' & hs & A & B & C).
  exists w', hs, (redirect_location (bs_path b) (str ".")). repeat (split; [assumption|]). now apply (dot_elsewhere b names z).
Qed.

Lemma sent_host oh oc render reason h u s host x q (w : rw k) :
  (200 <= hr_status h <= 999)%Z -> b_final (rw_base w) = None ->
  (s = [ascii_of_N 92] \/ s = [ascii_of_N 9; "/"%char]) -> plain_step host -> ~ In "/"%char x -> plain_step u ->
  let p := str "/" ++ s ++ host ++ str "/" ++ x in
  exists w' hs, write oh oc render (fun _ => redirect_location p) (redirect_page reason p) (RRedirect h u) q w = (Wrote None, w') /\
    b_final (rw_base w') = Some (hr_status h, hs) /\
    hvalues hs (str "Location") = [str "/" ++ s ++ host ++ str "/" ++ u] /\ leaves_site (str "/" ++ s ++ host ++ str "/" ++ u).
Proof.
  intros S N SS H NX PU p. destruct (sent_location oh oc render reason p h u q w S N) as (w' & hs & A & B & C).
  destruct (other_host s host x u SS H NX PU) as [E L]. exists w', hs. split; [exact A|]. split; [exact B|]. split; [|exact L]. rewrite C. f_equal. exact E.
Qed.

Lemma sent_site oh oc render reason p h u q (w : rw k) :
  (200 <= hr_status h <= 999)%Z -> b_final (rw_base w) = None ->
  starts (str "/") p -> clear_text p -> clear_text u -> names_path u ->
  exists w' hs l, write oh oc render (fun _ => redirect_location p) (redirect_page reason p) (RRedirect h u) q w = (Wrote None, w') /\
    b_final (rw_base w') = Some (hr_status h, hs) /\ hvalues hs (str "Location") = [l] /\ ~ leaves_site l.
Proof.
  intros S N SP CP CU NP. destruct (sent_location oh oc render reason p h u q w S N) as (w' & hs & A & B & C).
  exists w', hs, (redirect_location p u). repeat (split; [assumption|]). now apply path_stays.
Qed.

End Response.

(** ** Cases *)

Ltac text_in := let c := fresh in let H := fresh in intros c H; cbn in H;
  repeat (destruct H as [<-|H]; [first [vm_compute; split; (reflexivity || discriminate)|cbn; intuition discriminate]|]); destruct H.

Definition at_shop (p : bytes) (q : option bytes) : location_base := Base (str "https") (str "shop.example") p q.

Lemma leads_case :
  let b := at_shop (str "/cart/items/7") None in
  redirect_location (bs_path b) (str "../pay?n=1#top") = str "/cart/pay?n=1#top" /\
  leads_alike b (str "/cart/pay?n=1#top") (str "../pay?n=1#top") /\
  kept_reference b (Reference None None (str "../pay") (Some (str "n=1")) (Some (str "top"))) /\
  redirect_location (bs_path b) (str "//pay.example/a/../b") = str "//pay.example/a/../b".
Proof.
  cbv zeta. split; [vm_compute; reflexivity|]. split; [apply alike_iff; vm_compute; reflexivity|]. split; [|vm_compute; reflexivity].
  right. right. split; [reflexivity|]. split; [discriminate|].
  assert (W : whole_path (at_shop (str "/cart/items/7") None) (Reference None None (str "../pay") (Some (str "n=1")) (Some (str "top"))) = str "/cart/items/../pay") by reflexivity.
  rewrite W. split; [|split; [|discriminate]].
  - intros x y E. do 30 (destruct x as [|? x]; [discriminate E|]; try discriminate E; injection E as _ E).
  - intro x. split; intro E; do 30 (destruct x as [|? x]; [discriminate E|]; try discriminate E; injection E as _ E).
Qed.

Lemma elsewhere_cases :
  let b := at_shop (str "/cart/items") (Some (str "n=1")) in
  (* redirect URL, Location: *)
  redirect_location (bs_path b) (str "?n=2") = str "/cart/?n=2" /\ ~ leads_alike b (str "/cart/?n=2") (str "?n=2") /\
  redirect_location (bs_path b) [] = str "/cart/" /\ ~ leads_alike b (str "/cart/") [] /\
  redirect_location (bs_path b) (str "..") = str "/" /\ leads_alike b (str "/") (str "..") /\
  redirect_location (bs_path b) (str "/a/b/..") = str "/a" /\ ~ leads_alike b (str "/a") (str "/a/b/..") /\
  redirect_location (bs_path b) (str "/to/https://pay.example") = str "/to/https:/pay.example" /\
    ~ leads_alike b (str "/to/https:/pay.example") (str "/to/https://pay.example") /\
  redirect_location (bs_path b) (str "/app#/x/../y") = str "/app#/y" /\ ~ leads_alike b (str "/app#/y") (str "/app#/x/../y") /\
  (* the request asks for /a%3Fb/c *)
  redirect_location (str "/a?b/c") (str "x") = str "/a?b/x" /\ ~ leads_alike (at_shop (str "/a%3Fb/c") None) (str "/a?b/x") (str "x").
Proof.
  cbv zeta. repeat split; try (vm_compute; reflexivity); try (rewrite alike_iff; vm_compute; discriminate). apply alike_iff. vm_compute. reflexivity.
Qed.

Lemma site_case :
  clear_text (str "/cart/items") /\ names_path (str "/a:b//c") /\ ~ leaves_site (redirect_location (str "/cart/items") (str "/a:b//c")) /\
  names_path (str "..") /\ ~ names_path (str "//pay.example") /\ leaves_site (redirect_location (str "/cart/items") (str "//pay.example")) /\
  leaves_site (str "javascript:alert(1)") /\ ~ leaves_site (str "/a:b").
Proof.
  assert (NP : forall s r, parse_ref s = r -> (names_path s <-> rf_scheme r = None /\ rf_authority r = None)).
  { intros s r <-. split.
    - intros (r & R & A). apply reads_parse in R. now rewrite R.
    - intro A. exists (parse_ref s). split; [apply parse_reads|exact A]. }
  split; [text_in|]. assert (N1 : names_path (str "/a:b//c")) by (apply (NP _ _ eq_refl); split; reflexivity). split; [exact N1|].
  split; [apply path_stays; [eexists; reflexivity|text_in|text_in|exact N1]|]. split; [apply (NP _ _ eq_refl); split; reflexivity|].
  split; [rewrite (NP _ _ eq_refl); intros [_ X]; discriminate X|]. split.
  { left. eexists. eexists. eexists. split; [vm_compute; reflexivity|]. split; now left. }
  split.
  - right. exists (str "javascript"), (str "alert(1)"). split; [reflexivity|]. split; [discriminate|].
    intros c I1. cbn in I1. repeat (destruct I1 as [<-|I1]; [split; [intros [X|X]; vm_compute in X; discriminate X|cbn; intro X; repeat (destruct X as [X|X]; [discriminate X|]); exact X]|]). destruct I1.
  - intros [(c & d & t & E & _ & D)|(f & t & E & N & H)].
    + vm_compute in E. injection E as _ <- _. destruct D as [D|D]; vm_compute in D; discriminate D.
    + destruct f as [|c f]; [congruence|]. vm_compute in E. injection E as <- _. apply (proj1 (H _ (or_introl eq_refl))). now left.
Qed.

Lemma host_case :
  plain_step (str "evil.example") /\ plain_step (str "done") /\
  redirect_location (str "/" ++ [ascii_of_N 92] ++ str "evil.example/x") (str "done") = str "/" ++ [ascii_of_N 92] ++ str "evil.example/done".
Proof.
  split; [|split; [|vm_compute; reflexivity]]; (split; [|split; [text_in|text_in]]); (split; [discriminate|]); (split; [discriminate|]); (split; [discriminate|]);
    intro I1; cbn in I1; repeat (destruct I1 as [I1|I1]; [discriminate I1|]); exact I1.
Qed.

Lemma page_case :
  redirect_page (fun _ => str "Found") (str "/a") 302 (str "/x?a=1&b=""><script>") =
    str "<a href=""/x?a=1&amp;b=&#34;&gt;&lt;script&gt;"">Found</a>." ++ [ascii_of_N 10; ascii_of_N 10].
Proof. vm_compute. reflexivity. Qed.

Lemma none_case :
  let r := RRedirect (HResp 303 [] None None) (str "/done") in
  forall k : compressor, let go m := write (fun h => h) (fun c => c) (fun _ => []) (fun _ => redirect_location (str "/a")) (redirect_page (fun _ => str "See Other") (str "/a")) r
                (WReq m [] 1) (@Plain k (Base_ [] [] None [] 0 false)) in
  go (str "POST") = (Wrote None, Plain (Base_ [(str "Location", [str "/done"])] [] (Some (303%Z, [(str "Location", [str "/done"])])) [] 0 false)) /\
  match go (str "GET") with (_, Plain b) => b_body b | _ => [] end = str "<a href=""/done"">See Other</a>." ++ [ascii_of_N 10; ascii_of_N 10].
Proof. intros r k go. split; vm_compute; reflexivity. Qed.
