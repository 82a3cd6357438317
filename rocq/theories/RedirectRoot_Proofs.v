(** * Which redirects are made rooted: proofs *)
From Coq Require Import List NArith ZArith Ascii String Bool Lia Arith.
From Verif Require Import GoBase Http_Model Chain_Model Serve_Model Resp_Model App_Model Cors_Model Cors_Spec Cors_Proofs CorsMisc_Proofs Origin_Spec Origin_Proofs.
From Verif Require Import Resp_Spec Resp_Proofs RespMisc_Proofs Files_Model Files_Spec Files_Proofs Redirect_Model Redirect_Spec Redirect_Proofs RedirectSite_Proofs RedirectPage_Proofs.
Import ListNotations.
Local Open Scope string_scope.
Local Open Scope list_scope.
Local Open Scope nat_scope.

Lemma hex_iff c : is_hex c = true <-> hex_sign c.
Proof.
  split.
  - destruct c as [[] [] [] [] [] [] [] []]; intro H; try discriminate H; unfold hex_sign; cbn; tauto.
  - unfold hex_sign. cbn. intro H. repeat destruct H as [<-|H]; try reflexivity. destruct H.
Qed.

Lemma hex_not_percent c : hex_sign c -> c <> "%"%char.
Proof. intros H ->. unfold hex_sign in H. cbn in H. repeat destruct H as [H|H]; try discriminate H. exact H. Qed.

Lemma esc_iff s : esc_ok s = true <-> escapes_well s.
Proof.
  split.
  - assert (G : forall n s, List.length s <= n -> esc_ok s = true -> escapes_well s).
    { clear s. induction n as [|n IH]; intros s L H; [destruct s; [constructor|cbn in L; lia]|]. destruct s as [|c s]; [constructor|]. cbn [esc_ok] in H. cbn [List.length] in L.
      destruct (Ascii.eqb_spec c "%"%char) as [->|N]; [|apply ew_byte; [exact N|apply IH; [lia|exact H]]].
      destruct s as [|x [|y s]]; try discriminate H. cbn [List.length] in L. apply andb_prop in H. destruct H as [H1 H]. apply andb_prop in H1. destruct H1 as [X Y].
      apply hex_iff in X. apply hex_iff in Y. apply ew_escape; [exact X|exact Y|]. apply IH; [lia|]. cbn [esc_ok] in H.
      destruct (Ascii.eqb_spec x "%"%char) as [->|_]; [now apply hex_not_percent in X|]. destruct (Ascii.eqb_spec y "%"%char) as [->|_]; [now apply hex_not_percent in Y|exact H]. }
    intro H. now apply (G (List.length s) s).
  - induction 1 as [|c s N H IH|x y s X Y H IH]; [reflexivity| |]; cbn [esc_ok].
    + now destruct (Ascii.eqb_spec c "%"%char).
    + cbn [Ascii.eqb Bool.eqb]. rewrite (proj2 (hex_iff x) X), (proj2 (hex_iff y) Y). cbn [andb].
      destruct (Ascii.eqb_spec x "%"%char) as [->|_]; [now apply hex_not_percent in X|]. now destruct (Ascii.eqb_spec y "%"%char) as [->|_]; [apply hex_not_percent in Y|].
Qed.

Lemma scheme_free x : forall acc raw,
  (forall f t, x = f ++ ":"%char :: t -> ~ In ":"%char f -> (f <> [] \/ acc <> []) -> In "/"%char f \/ In "?"%char f) ->
  get_scheme acc x raw = (match acc, x with [], c :: _ => if Ascii.eqb c ":"%char then None else Some ([], raw) | _, _ => Some ([], raw) end).
Proof.
  induction x as [|c x IH]; intros acc raw H; [now destruct acc|]. cbn [get_scheme].
  assert (ST : is_alpha c = true \/ is_num c || existsb (Ascii.eqb c) (str "+-.") = true -> c <> "/"%char /\ c <> "?"%char /\ c <> ":"%char).
  { intro A. repeat split; intros ->; destruct A as [A|A]; discriminate A. }
  assert (STEP : c <> "/"%char /\ c <> "?"%char /\ c <> ":"%char -> get_scheme (c :: acc) x raw = Some ([], raw)).
  { intros (S1 & S2 & S3). rewrite IH; [reflexivity|]. intros f t -> NF _.
    destruct (H (c :: f) t eq_refl) as [[X|X]|[X|X]]; auto; try congruence.
    - intros [X|X]; [congruence|contradiction].
    - left. discriminate. }
  destruct (is_alpha c) eqn:A.
  - rewrite STEP by auto. destruct acc; [|reflexivity]. destruct (Ascii.eqb_spec c ":"%char) as [->|]; [discriminate A|reflexivity].
  - destruct (is_num c || existsb (Ascii.eqb c) (str "+-.")) eqn:B.
    + destruct acc as [|a acc]; [|now rewrite STEP by auto]. destruct (Ascii.eqb_spec c ":"%char) as [->|]; [discriminate B|reflexivity].
    + destruct (Ascii.eqb_spec c ":"%char) as [->|N]; [|now destruct acc]. destruct acc as [|a acc]; [reflexivity|].
      destruct (H [] x eq_refl) as [[]|[]]; [intros []|right; discriminate].
Qed.

Lemma control_free u : negb (existsb (fun c => ((code c <? 32) || (code c =? 127))%N) u) = true <-> forall c, In c u -> (32 <= code c)%N /\ code c <> 127%N.
Proof.
  rewrite negb_true_iff, <- not_true_iff_false, existsb_exists. split.
  - intros H c I1. destruct (N.ltb_spec (code c) 32) as [X|X].
    + exfalso. apply H. exists c. split; [exact I1|]. apply orb_true_iff. left. now apply N.ltb_lt.
    + split; [exact X|]. intro E. apply H. exists c. split; [exact I1|]. rewrite E. apply orb_true_r.
  - intros H (c & I1 & X). destruct (H c I1) as [A B]. apply orb_prop in X. destruct X as [X|X]; [apply N.ltb_lt in X; lia|apply N.eqb_eq in X; contradiction].
Qed.

Lemma local_iff url r : reads url r -> rf_scheme r = None -> rf_authority r = None -> (local_url url = true <-> well_written r).
Proof.
  intros [WF ->] SC AU. destruct r as [sc au p q f]. cbn [rf_scheme rf_authority] in SC, AU. subst sc au.
  destruct WF as (_ & _ & W3 & W4 & W5 & W6). cbn [rf_scheme rf_authority rf_path rf_query rf_fragment] in *.
  specialize (W3 eq_refl). specialize (W4 eq_refl eq_refl). unfold reference_text. cbn [rf_scheme rf_authority rf_path rf_query rf_fragment List.app].
  assert (NP : forall d, In d (str "?#") -> ~ In d p) by (intros d I1 I2; exact (W5 d I2 I1)).
  assert (NQ : ~ In "#"%char (p ++ behind_sign "?"%char q)).
  { rewrite in_app_iff. intros [I1|I1]; [revert I1; apply NP; cbn; tauto|]. destruct q as [q|]; [|exact I1]. destruct I1 as [I1|I1]; [discriminate I1|now apply (W6 q)]. }
  unfold local_url. cbv zeta. rewrite app_assoc.
  rewrite (proj1 (cut_sign "#"%char _ f NQ)).
  assert (BF : behind "#"%char ((p ++ behind_sign "?"%char q) ++ behind_sign "#"%char f) = match f with Some t => t | None => [] end).
  { destruct f as [f|]; cbn [behind_sign]; [now apply behind_stop|]. rewrite app_nil_r. revert NQ. generalize (p ++ behind_sign "?"%char q). clear.
    induction l as [|c l IH]; intro N; [reflexivity|]. cbn. destruct (Ascii.eqb_spec c "#"%char) as [->|]; [exfalso; apply N; now left|]. apply IH. intro; apply N; now right. }
  rewrite BF. set (u := p ++ behind_sign "?"%char q) in *.
  assert (INU : forall c, In c u <-> In c p \/ (c = "?"%char /\ q <> None) \/ exists q0, q = Some q0 /\ In c q0).
  { intro c. unfold u. rewrite in_app_iff. destruct q as [q|]; cbn [behind_sign In]; split.
    - intros [I1|[<-|I1]]; eauto. right. left. split; [reflexivity|discriminate].
    - intros [I1|[[-> _]|(q0 & E & I1)]]; auto. injection E as <-. auto.
    - intros [I1|[]]; auto.
    - intros [I1|[[_ X]|(q0 & E & _)]]; [auto|congruence|discriminate E]. }
  rewrite !andb_true_iff, control_free, esc_iff.
  assert (REST : (beqb u (str "*") || match get_scheme [] u u with
     | Some ([], rest0) =>
       let rest := before "?"%char rest0 in
       if negb (has_prefix (str "/") rest) then
         negb (existsb (Ascii.eqb ":"%char) (before "/"%char rest)) && esc_ok rest
       else if has_prefix (str "//") rest && negb (has_prefix (str "///") rest) then
         let a := before "/"%char (skipn 2 rest) in
         no_host a && esc_ok (skipn (2 + List.length a) rest)
       else esc_ok rest
     | _ => false end) = true <-> ~ starts (str ":") p /\ escapes_well p).
  { assert (GS : get_scheme [] u u = if has_prefix (str ":") p then None else Some ([], u)).
    { rewrite scheme_free.
      - unfold u. destruct p as [|c p]; [destruct q; reflexivity|]. cbn [List.app str list_ascii_of_string has_prefix]. now destruct c as [[] [] [] [] [] [] [] []].
      - intros g t E N [NE|X]; [|congruence]. unfold u in E.
        assert (D : (exists t', p = g ++ ":"%char :: t') \/ exists g', g = p ++ "?"%char :: g').
        { clear - E. revert g E. induction p as [|c p IH]; intros g E.
          - cbn [List.app] in E. destruct q as [q|]; [|destruct g; discriminate E]. cbn [behind_sign] in E. destruct g as [|d g]; [discriminate E|]. injection E as <- _. right. exists g. reflexivity.
          - destruct g as [|d g]; [injection E as -> _; left; exists p; reflexivity|]. injection E as <- E. destruct (IH g E) as [(t' & ->)|(g' & ->)]; [left; exists t'; reflexivity|right; exists g'; reflexivity]. }
        destruct D as [(t' & D)|(g' & ->)]; [|right; apply in_app_iff; right; now left]. left. destruct (W4 g t' D N) as [->|I1]; [congruence|exact I1]. }
    rewrite GS. assert (BU : before "?"%char u = p) by (apply (proj1 (cut_sign "?"%char p q (NP _ (or_introl eq_refl))))).
    destruct (has_prefix (str ":") p) eqn:HP.
    { apply prefix_iff in HP. rewrite orb_false_r. split; [|tauto]. rewrite beqb_eq. intro E. destruct HP as (z & ->). discriminate E. }
    assert (NS : ~ starts (str ":") p). { intro X. apply prefix_iff in X. congruence. }
    cbv zeta. rewrite BU.
    assert (STAR : beqb u (str "*") = true -> escapes_well p).
    { rewrite beqb_eq. intro E. destruct p as [|c [|d p]]; [constructor| |discriminate E]. injection E as -> _. apply ew_byte; [discriminate|constructor]. }
    replace (has_prefix (str "//") p) with false.
    2: { symmetry. apply not_true_is_false. rewrite prefix_iff. exact W3. }
    cbn [andb]. rewrite orb_true_iff. destruct (has_prefix (str "/") p) eqn:SL; cbn [negb].
    - rewrite esc_iff. tauto.
    - assert (NC : existsb (Ascii.eqb ":"%char) (before "/"%char p) = false).
      { apply in_not_exists. intro I1. destruct (in_split _ _ I1) as (g & t & E).
        assert (PE : exists z, p = before "/"%char p ++ z /\ ~ In "/"%char (before "/"%char p)).
        { clear. induction p as [|c p (z & E & N)]; [exists []; auto|]. cbn [before]. destruct (Ascii.eqb_spec c "/"%char) as [->|D]; [exists ("/"%char :: p); auto|].
          exists z. cbn [List.app]. rewrite <- E. split; [reflexivity|]. intros [X|X]; [congruence|contradiction]. }
        destruct PE as (z & PE & NB).
        assert (FIRST : exists g0 t0, before "/"%char p = g0 ++ ":"%char :: t0 /\ ~ In ":"%char g0).
        { rewrite E. clear. induction g as [|c g (g0 & t0 & IH & N)]; [exists [], t; auto|]. destruct (Ascii.eqb_spec c ":"%char) as [->|D]; [exists [], (g ++ ":"%char :: t); auto|].
          exists (c :: g0), t0. cbn [List.app]. rewrite IH. split; [reflexivity|]. intros [X|X]; [congruence|contradiction]. }
        destruct FIRST as (g0 & t0 & F & N). destruct (W4 g0 (t0 ++ z)) as [->|I2].
        - rewrite PE, F, <- app_assoc. reflexivity.
        - exact N.
        - apply NS. exists (t0 ++ z). rewrite PE, F. reflexivity.
        - apply NB. rewrite F. apply in_app_iff. now left. }
      rewrite NC. cbn [negb andb]. rewrite esc_iff. tauto. }
  rewrite REST. unfold well_written. cbn [rf_path rf_query rf_fragment]. split.
  - intros ((A & B) & C & D). repeat split; auto.
    + intros f0 ->. exact A.
    + apply B, INU. destruct H as [H|H]; auto.
    + apply B, INU. destruct H as [H|H]; auto.
  - intros (A & B & C & D). split; [split|auto].
    + destruct f as [f|]; [now apply C|constructor].
    + intros c I1. apply INU in I1. destruct I1 as [I1|[[-> _]|I1]]; [apply D; auto|vm_compute; split; discriminate|apply D; auto].
Qed.

Lemma rooted_start p url : starts (str "/") p -> ~ In "?"%char p -> local_url url = true -> starts (str "/") (redirect_location p url).
Proof.
  intros (p0 & ->) NQ L. unfold redirect_location, redirect_url. rewrite L. cbv zeta.
  set (u1 := if has_prefix (str "/") url then url else _).
  assert (U : exists v, u1 = slash :: v).
  { unfold u1. destruct (has_prefix (str "/") url) eqn:H; [apply prefix_iff in H; destruct H as (v & ->); eexists; reflexivity|].
    cbn [List.app str list_ascii_of_string]. rewrite (proj1 (dir_drop _)). destruct (drop_last_root p0) as (d & D). change ("/"%char :: p0) with (slash :: p0). rewrite D. eexists. reflexivity. }
  destruct U as (v & ->). cbn [before Ascii.eqb Bool.eqb slash]. 
  destruct (clean_root (before "?"%char v)) as (ns & _ & -> & _).
  destruct (_ && _); (eexists; cbn; reflexivity).
Qed.

Section Response.
Variable k : compressor.

Lemma sent_rooted oh oc render reason p h u r q (w : rw k) :
  (200 <= hr_status h <= 999)%Z -> b_final (rw_base w) = None -> starts (str "/") p -> ~ In "?"%char p ->
  reads u r -> rf_scheme r = None -> rf_authority r = None ->
  exists w' hs l, write oh oc render (fun _ => redirect_location p) (redirect_page reason p) (RRedirect h u) q w = (Wrote None, w') /\
    b_final (rw_base w') = Some (hr_status h, hs) /\ hvalues hs (str "Location") = [l] /\
    (well_written r -> starts (str "/") l) /\ (~ well_written r -> percent_form u l).
Proof.
  intros S N SP NQ R SC AU. destruct (sent_location k oh oc render reason p h u q w S N) as (w' & hs & A & B & C).
  exists w', hs, (redirect_location p u). split; [exact A|]. split; [exact B|]. split; [exact C|]. split.
  - intro W. apply rooted_start; auto. now apply (local_iff u r).
  - intro W. unfold redirect_location, redirect_url. destruct (local_url u) eqn:L; [exfalso; apply W; now apply (local_iff u r)|apply escape_form].
Qed.
End Response.

Lemma rooted_case :
  let p := str "/cart/items/7" in
  redirect_location p (str "a%20b?x=%zz#%41") = str "/cart/items/a%20b?x=%zz#%41" /\
  well_written (Reference None None (str "a%20b") (Some (str "x=%zz")) (Some (str "%41"))) /\
  redirect_location p (str "a%2?x") = str "a%2?x" /\ ~ well_written (Reference None None (str "a%2") (Some (str "x")) None) /\
  redirect_location p (str "a#%") = str "a#%" /\ ~ well_written (Reference None None (str "a") None (Some (str "%"))) /\
  redirect_location p (str ":a") = str ":a" /\ ~ well_written (Reference None None (str ":a") None None).
Proof.
  cbv zeta. split; [reflexivity|]. split.
  { unfold well_written. cbn [rf_path rf_query rf_fragment]. split; [intros (r & E); discriminate E|]. split; [now apply esc_iff|].
    split; [intros f E; injection E as <-; now apply esc_iff|].
    intros c [I1|(q & E & I1)]; [|injection E as <-]; cbn in I1; repeat destruct I1 as [<-|I1]; try (vm_compute; split; discriminate); destruct I1. }
  split; [reflexivity|]. split. { intros (_ & A & _). apply esc_iff in A. discriminate A. }
  split; [reflexivity|]. split. { intros (_ & _ & A & _). specialize (A _ eq_refl). apply esc_iff in A. discriminate A. }
  split; [reflexivity|]. intros (A & _). apply A. exists (str "a"). reflexivity.
Qed.

(** ** A user without a host *)

Lemma before_lacks c s : ~ In c s -> before c s = s.
Proof.
  induction s as [|x s IH]; intro N; [reflexivity|]. cbn [before]. destruct (Ascii.eqb_spec x c) as [->|]; [exfalso; apply N; now left|].
  rewrite IH; [reflexivity|]. intro; apply N; now right.
Qed.
Lemma behind_lacks c s : ~ In c s -> behind c s = [].
Proof.
  induction s as [|x s IH]; intro N; [reflexivity|]. cbn [behind]. destruct (Ascii.eqb_spec x c) as [->|]; [exfalso; apply N; now left|].
  apply IH. intro; apply N; now right.
Qed.
Lemma before_at c s t : ~ In c s -> before c (s ++ c :: t) = s.
Proof.
  induction s as [|x s IH]; intro N; cbn [List.app before]; [now rewrite Ascii.eqb_refl|]. destruct (Ascii.eqb_spec x c) as [->|]; [exfalso; apply N; now left|].
  rewrite IH; [reflexivity|]. intro; apply N; now right.
Qed.
Lemma esc_lacks s : ~ In "%"%char s -> esc_ok s = true.
Proof.
  induction s as [|x s IH]; intro N; [reflexivity|]. cbn [esc_ok]. destruct (Ascii.eqb_spec x "%"%char) as [->|]; [exfalso; apply N; now left|].
  apply IH. intro; apply N; now right.
Qed.
Lemma from_last_end c s : ~ In c s -> from_last c (s ++ [c]) = Some [c].
Proof.
  induction s as [|x s IH]; intro N; cbn [List.app from_last]; [now rewrite Ascii.eqb_refl|].
  rewrite IH; [reflexivity|]. intro; apply N; now right.
Qed.
Lemma user_iff c : c <> "%"%char -> c <> "@"%char -> (user_byte c = true <-> user_sign c).
Proof.
  intros N1 N2. unfold user_byte, user_sign, is_alpha, is_num. rewrite !orb_true_iff, !andb_true_iff, !N.leb_le.
  assert (E : existsb (Ascii.eqb c) (str "-._:~!$&'()*+,;=%@") = true <-> In c (str "-._:~!$&'()*+,;=")).
  { rewrite existsb_exists. split.
    - intros (x & I1 & X). apply Ascii.eqb_eq in X. subst x. cbn in I1 |- *. intuition congruence.
    - intro I1. exists c. split; [|apply Ascii.eqb_refl]. cbn in I1 |- *. intuition congruence. }
  rewrite E. tauto.
Qed.

Definition user_url (user t : bytes) : bytes := str "//" ++ user ++ str "@/" ++ t.

Lemma user_local user t : visible user -> visible t -> lacks (str "/?#@%") user -> lacks (str "?#%") t ->
  (local_url (user_url user t) = true <-> forall c, In c user -> user_sign c).
Proof.
  intros V1 V2 L1 L2. unfold user_url.
  assert (N : forall c, In c (str "?#%") -> ~ In c (str "//" ++ user ++ str "@/" ++ t)).
  { intros c I1 I2. cbn [str list_ascii_of_string List.app In] in I2. rewrite in_app_iff in I2. cbn [In] in I2.
    destruct I2 as [<-|[<-|[I2|[<-|[<-|I2]]]]]; try (cbn in I1; intuition discriminate).
    - apply (L1 c I2). cbn in I1 |- *. tauto.
    - exact (L2 c I2 I1). }
  set (url := str "//" ++ user ++ str "@/" ++ t) in *.
  unfold local_url. cbv zeta. rewrite before_lacks, behind_lacks by (apply N; cbn; tauto).
  assert (C : existsb (fun c => ((code c <? 32) || (code c =? 127))%N) url = false).
  { apply not_true_is_false. rewrite existsb_exists. intros (c & I1 & X). apply orb_prop in X. rewrite N.ltb_lt, N.eqb_eq in X.
    unfold url in I1. cbn [str list_ascii_of_string List.app In] in I1. rewrite in_app_iff in I1. cbn [In] in I1.
    destruct I1 as [<-|[<-|[I1|[<-|[<-|I1]]]]]; try (destruct X as [X|X]; [discriminate X|discriminate X]); [specialize (V1 c I1)|specialize (V2 c I1)]; lia. }
  rewrite C. assert (G : get_scheme [] url url = Some ([], url)) by reflexivity. rewrite G.
  rewrite (before_lacks "?"%char) by (apply N; cbn; tauto).
  assert (B : beqb url (str "*") = false) by reflexivity. rewrite B.
  assert (Us : before "/"%char (skipn 2 url) = user ++ str "@").
  { unfold url. cbn [str list_ascii_of_string List.app skipn]. change (user ++ "@"%char :: "/"%char :: t) with (user ++ ["@"%char] ++ "/"%char :: t). rewrite app_assoc.
    apply before_at. rewrite in_app_iff. intros [I1|[I1|[]]]; [apply (L1 _ I1); cbn; tauto|discriminate I1]. }
  assert (P3 : has_prefix (str "///") url = false).
  { unfold url. destruct user as [|c user]; [reflexivity|]. cbn [str list_ascii_of_string List.app has_prefix]. cbn.
    destruct (Ascii.eqb_spec c "/"%char) as [->|D]; [exfalso; apply (L1 "/"%char (or_introl eq_refl)); cbn; tauto|].
    destruct c as [[] [] [] [] [] [] [] []]; first [reflexivity|congruence]. }
  rewrite P3. change (has_prefix (str "/") url) with true. change (has_prefix (str "//") url) with true. cbn [negb andb orb]. rewrite Us.
  change (str "@") with ["@"%char]. cbn [esc_ok]. unfold no_host.
  rewrite (from_last_end "@"%char user) by (intro I1; apply (L1 _ I1); cbn; tauto).
  change (beqb ["@"%char] (str "@")) with true. cbv zeta. cbn [andb]. rewrite removelast_last.
  rewrite (esc_lacks user) by (intro I1; apply (L1 _ I1); cbn; tauto). rewrite andb_true_r.
  rewrite (esc_lacks (skipn _ url)).
  2: { intro I1. apply (N "%"%char); [cbn; tauto|]. rewrite <- (firstn_skipn (2 + List.length (user ++ ["@"%char])) url). apply in_or_app. now right. }
  rewrite andb_true_r, forallb_forall. split; intros H c I1; specialize (H c I1); (apply user_iff; [intros ->; apply (L1 _ I1); cbn; tauto..|exact H]).
Qed.

Lemma join_first names : Forall entry_name names -> ~ starts (str "/") (join [slash] names).
Proof.
  intros F (z & E). destruct F as [|x l X _]; [discriminate E|]. destruct X as (NE & _ & _ & NS). destruct x as [|c x]; [congruence|].
  assert (C : c = "/"%char) by (destruct l; cbn in E; injection E as -> _; reflexivity). subst c. apply NS. now left.
Qed.
Lemma escape_first s : ~ starts (str "/") s -> ~ starts (str "/") (hex_escape s).
Proof.
  intros N (z & E). destruct s as [|c s]; [discriminate E|]. unfold hex_escape in E. cbn [flat_map] in E. unfold hex_byte in E.
  destruct (128 <=? code c)%N; [discriminate E|]. injection E as -> _. apply N. exists s. reflexivity.
Qed.

Lemma user_rooted p user t : local_url (user_url user t) = true -> ~ In "?"%char (user_url user t) ->
  starts (str "/") (redirect_location p (user_url user t)) /\ ~ starts (str "//") (redirect_location p (user_url user t)).
Proof.
  intros L NQ. unfold redirect_location, redirect_url. rewrite L. cbv zeta. change (has_prefix (str "/") (user_url user t)) with true. cbv iota.
  rewrite (before_lacks _ _ NQ), skipn_all, app_nil_r.
  destruct (clean_root ("/"%char :: user ++ str "@/" ++ t)) as (ns & F & C & _). change (slash :: "/"%char :: user ++ str "@/" ++ t) with (user_url user t) in C. rewrite C.
  assert (J : forall y, ~ starts (str "/") y -> starts (str "/") (hex_escape (slash :: y)) /\ ~ starts (str "//") (hex_escape (slash :: y))).
  { intros y Y. change (hex_escape (slash :: y)) with (slash :: hex_escape y). split; [eexists; reflexivity|]. intros (z & E). injection E as E.
    apply (escape_first _ Y). exists z. exact E. }
  pose proof (join_first ns F) as JF. destruct (last_slash (user_url user t) && negb (last_slash (slash :: join [slash] ns))) eqn:LS; [|apply J; exact JF].
  apply (J (join [slash] ns ++ [slash])). intros (z & E). destruct (join [slash] ns) as [|c j]; [rewrite andb_false_r in LS; discriminate LS|].
  apply JF. injection E as -> _. exists j. reflexivity.
Qed.

Lemma sent_user k oh oc render reason p h user t q (w : rw k) :
  (200 <= hr_status h <= 999)%Z -> b_final (rw_base w) = None ->
  visible user -> visible t -> lacks (str "/?#@%") user -> lacks (str "?#%") t ->
  let u := str "//" ++ user ++ str "@/" ++ t in
  exists w' hs l, write oh oc render (fun _ => redirect_location p) (redirect_page reason p) (RRedirect h u) q w = (Wrote None, w') /\
    b_final (rw_base w') = Some (hr_status h, hs) /\ hvalues hs (str "Location") = [l] /\
    ((forall c, In c user -> user_sign c) -> starts (str "/") l /\ ~ starts (str "//") l) /\
    (~ (forall c, In c user -> user_sign c) -> l = u).
Proof.
  intros S N V1 V2 L1 L2 u. destruct (sent_location k oh oc render reason p h u q w S N) as (w' & hs & A & B & C).
  pose proof (user_local user t V1 V2 L1 L2) as UL.
  assert (X : forall c, In c u -> In c user \/ In c t \/ c = "/"%char \/ c = "@"%char).
  { intros c I1. unfold u in I1. cbn [str list_ascii_of_string List.app In] in I1. rewrite in_app_iff in I1. cbn [In] in I1. intuition congruence. }
  exists w', hs, (redirect_location p u). split; [exact A|]. split; [exact B|]. split; [exact C|]. split.
  - intro W. apply UL in W. apply user_rooted; [exact W|]. intro I1. apply X in I1. destruct I1 as [I1|[I1|[I1|I1]]]; [apply (L1 _ I1); cbn; tauto|apply (L2 _ I1); cbn; tauto|discriminate I1|discriminate I1].
  - intro W. unfold redirect_location, redirect_url. destruct (local_url u) eqn:L; [exfalso; apply W, UL; exact L|].
    assert (Y : forall c, In c u -> (code c < 128)%N).
    { intros c I1. apply X in I1. destruct I1 as [I1|[I1|[-> | ->]]]; [specialize (V1 c I1); lia|specialize (V2 c I1); lia|reflexivity|reflexivity]. }
    clear - Y. clearbody u. induction u as [|c u IH]; [reflexivity|]. unfold hex_escape in *. cbn [flat_map]. unfold hex_byte at 1.
    pose proof (Y c (or_introl eq_refl)) as Yc. apply N.leb_gt in Yc. rewrite Yc. cbn [List.app]. rewrite IH; [reflexivity|]. intros d I1. apply Y. now right.
Qed.

Lemma user_case :
  let p := str "/cart/items/7" in
  redirect_location p (str "//bob:pw@/x/../y/") = str "/bob:pw@/y/" /\
  redirect_location p (str "//b<ob@/x/../y/") = str "//b<ob@/x/../y/" /\ ~ user_sign "<"%char.
Proof.
  cbv zeta. split; [reflexivity|]. split; [reflexivity|]. intro H. apply user_iff in H; [discriminate H|discriminate|discriminate].
Qed.
