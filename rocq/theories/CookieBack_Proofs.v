(** * Cookies: proofs about responses and about what comes back *)
From Coq Require Import List NArith ZArith Ascii String Bool Lia Arith Permutation.
From Verif Require Import GoBase Http_Model Auth_Model Chain_Model Serve_Model Resp_Model Resp_Spec Resp_Proofs RespMisc_Proofs.
From Verif Require Import Auth_Proofs OAuthUrl_Proofs OAuthWire_Proofs Cookie_Model Cookie_Spec Cookie_Proofs CookieText_Proofs.
Import ListNotations.
Local Open Scope string_scope.
Local Open Scope list_scope.
Local Open Scope nat_scope.

(** ** Reading *)

Lemma cut_first a b : (forall c, In c a -> c <> "="%char) -> cut_equals (a ++ str "=" ++ b) = (a, b).
Proof.
  induction a as [|c a IH]; intro H; [reflexivity|]. cbn [List.app cut_equals]. rewrite ascii_eqb_no by (apply H; now left).
  rewrite IH by (intros x I1; apply H; now right). reflexivity.
Qed.

Lemma unquoted_value v : unquoted (sanitize_value v) = filter cookie_value_byte v.
Proof.
  unfold sanitize_value. set (w := filter cookie_value_byte v). destruct (existsb _ w).
  - cbn [str]. change (unquoted ((""""%char :: w) ++ [""""%char]) = w). cbn [List.app unquoted]. rewrite rev_app_distr. cbn [rev List.app]. cbn. apply rev_involutive.
  - assert (Q : forall c, In c w -> c <> """"%char). { intros c I1 ->. apply filter_In in I1. destruct I1 as [_ I1]. discriminate I1. }
    clearbody w. destruct w as [|c w]; [reflexivity|]. cbn [unquoted]. destruct (rev w); [reflexivity|]. rewrite (ascii_eqb_no c) by (apply Q; now left). reflexivity.
Qed.

Lemma parse_value v : parse_cookie_value (sanitize_value v) = Some (filter cookie_value_byte v).
Proof.
  unfold parse_cookie_value. rewrite unquoted_value. destruct (forallb cookie_value_byte (filter cookie_value_byte v)) eqn:F; [reflexivity|].
  assert (forallb cookie_value_byte (filter cookie_value_byte v) = true) by (apply forallb_forall; intros x I1; now apply filter_In in I1). congruence.
Qed.

(** A name and a value as they are sent back. *)
Definition pair_text (n v : bytes) : bytes := n ++ str "=" ++ sanitize_value v.

Lemma pair_start n v : cookie_name_valid n = true -> forall c t, pair_text n v = c :: t -> blank_sign c = false.
Proof.
  intros V c t E. pose proof (token_equals n V) as T. destruct n as [|x n]; [discriminate V|]. cbn in E. injection E as <- _. apply token_blank. apply T. now left.
Qed.
Lemma pair_end n v : forall t c, pair_text n v = t ++ [c] -> blank_sign c = false.
Proof.
  intros t c E. unfold pair_text in E. destruct (sanitize_value v) as [|x s] eqn:S0 using rev_ind.
  - rewrite app_nil_r in E. apply app_inj_tail in E. destruct E as [_ <-]. reflexivity.
  - clear IHs. rewrite !app_assoc in E. apply app_inj_tail in E. destruct E as [_ <-].
    pose proof (value_bare v) as B. rewrite S0 in B. unfold bare in B. apply (f_equal (@rev byte)) in B. rewrite rev_involutive, rev_app_distr in B. cbn [rev List.app] in B.
    assert (K : forall s, match skip_blanks s with [] => True | c :: _ => blank_sign c = false end).
    { induction s0 as [|y s0 IH]; [exact I|]. cbn [skip_blanks]. destruct (blank_sign y) eqn:Y; [exact IH|exact Y]. }
    pose proof (K (rev (skip_blanks (s ++ [x])))) as K1. rewrite B in K1. exact K1.
Qed.
Lemma pair_bare n v : cookie_name_valid n = true -> bare (pair_text n v) = pair_text n v.
Proof. intro V. apply bare_id; [now apply pair_start|apply pair_end]. Qed.
Lemma pair_semi n v : cookie_name_valid n = true -> forall c, In c (pair_text n v) -> c <> ";"%char.
Proof.
  intros V c I1. unfold pair_text in I1. rewrite !in_app_iff in I1. destruct I1 as [I1|[[<-|[]]|I1]]; [exact (token_not c ";"%char (token_equals n V c I1) eq_refl)|discriminate|now apply (value_semi v)].
Qed.

Lemma bare_blank s : bare (" "%char :: s) = bare s.
Proof. reflexivity. Qed.

Lemma read_pair n v : cookie_name_valid n = true -> read_part (pair_text n v) = [(n, filter cookie_value_byte v)].
Proof.
  intro V. unfold read_part. rewrite trim_bare, pair_bare by exact V. pose proof (token_equals n V) as T.
  destruct (pair_text n v) as [|c t] eqn:E; [destruct n; discriminate E|]. rewrite <- E. unfold pair_text.
  rewrite cut_first by (intros x I1; exact (token_not x "="%char (T x I1) eq_refl)). now rewrite V, parse_value.
Qed.
Lemma read_pair_blank n v : cookie_name_valid n = true -> read_part (" "%char :: pair_text n v) = [(n, filter cookie_value_byte v)].
Proof. intro V. rewrite <- (read_pair n v V). unfold read_part. now rewrite !trim_bare, bare_blank. Qed.

Lemma join_parts p ps : join (str "; ") (p :: ps) = p ++ flat_map (cons ";"%char) (map (cons " "%char) ps).
Proof.
  revert p. induction ps as [|q ps IH]; intro p; [cbn; now rewrite app_nil_r|].
  change (join (str "; ") (p :: q :: ps)) with (p ++ str "; " ++ join (str "; ") (q :: ps)). rewrite IH. reflexivity.
Qed.

Definition sent_pairs (l : list (bytes * bytes)) : list (bytes * bytes) := map (fun nv => (fst nv, sanitize_value (snd nv))) l.

Lemma back_line l : Forall (fun nv => cookie_name_valid (fst nv) = true) l ->
  flat_map read_part (split_on ";"%char (trim_blank (sends_back (sent_pairs l)))) = map (fun nv => (fst nv, filter cookie_value_byte (snd nv))) l.
Proof.
  intro F. unfold sends_back, sent_pairs. rewrite List.map_map. cbn [fst snd].
  change (map (fun x : bytes * bytes => fst x ++ str "=" ++ sanitize_value (snd x)) l) with (map (fun x => pair_text (fst x) (snd x)) l).
  destruct l as [|[n v] l]; [reflexivity|]. inversion F as [|? ? V F']; subst. cbn [map fst snd] in *. rewrite join_parts, trim_bare.
  rewrite bare_id.
  - rewrite split_pieces.
    + cbn [flat_map]. rewrite read_pair by exact V. cbn [List.app]. f_equal. clear F V. induction F' as [|[m u] l V _ IH]; [reflexivity|].
      cbn [map flat_map fst snd] in *. rewrite read_pair_blank by exact V. cbn [List.app]. now rewrite IH.
    + now apply pair_semi.
    + intros a x I1 I2. apply in_map_iff in I1. destruct I1 as (b & <- & I1). destruct I2 as [<-|I2]; [discriminate|].
      apply in_map_iff in I1. destruct I1 as ([m u] & <- & I1). rewrite Forall_forall in F'. exact (pair_semi m u (F' _ I1) x I2).
  - intros c t E. pose proof (pair_start n v V) as P. destruct (pair_text n v) as [|y s] eqn:Y; [destruct n; discriminate Y|]. cbn in E. injection E as <- _. exact (P y s eq_refl).
  - intros t c E. destruct l as [|x l _] using rev_ind; [cbn in E; rewrite app_nil_r in E; exact (pair_end n v t c E)|].
    rewrite !map_app, flat_map_app in E. cbn [map flat_map] in E. rewrite app_nil_r, app_assoc in E.
    set (z := pair_text n v ++ _) in E. destruct (pair_text (fst x) (snd x)) as [|y s _] eqn:Y using rev_ind; [destruct (fst x); discriminate Y|].
    apply (pair_end (fst x) (snd x) s). rewrite Y. f_equal. f_equal.
    change (z ++ ";"%char :: " "%char :: s ++ [y] = t ++ [c]) in E. rewrite !app_comm_cons, app_assoc in E. apply app_inj_tail in E. symmetry. now symmetry.
Qed.

(** ** A cookie that comes back *)

Section Back.
Variable detail : bytes -> details.

Definition value_of (c : cookie) : bytes := cd_value (detail (ck_rest c)).

Lemma text_read c : token_name (ck_name c) -> browser_reads (cookie_text detail c) =
  Some (ck_name c, sanitize_value (value_of c), told_of (ck_path c) (ck_domain c) (detail (ck_rest c))).
Proof. intro T. apply browser_reads_cookie. now apply name_iff. Qed.

Lemma kept_are cs kept : Forall (fun c => token_name (ck_name c)) cs ->
  Forall2 (fun c nv => exists l, browser_reads (cookie_text detail c) = Some (fst nv, snd nv, l)) cs kept ->
  kept = sent_pairs (map (fun c => (ck_name c, value_of c)) cs).
Proof.
  intros F H. revert F. induction H as [|c [n v] cs kept (l & E) _ IH]; intro F; [reflexivity|]. inversion F as [|? ? T F']; subst.
  rewrite text_read in E by exact T. cbn [fst snd] in E. injection E as <- <- _. unfold sent_pairs in *. cbn [map fst snd]. f_equal. now apply IH.
Qed.

Lemma back_lines lines : Forall (Forall (fun nv => cookie_name_valid (fst nv) = true)) lines ->
  read_cookies (map (fun l => sends_back (sent_pairs l)) lines) = map (fun nv => (fst nv, filter cookie_value_byte (snd nv))) (List.concat lines).
Proof.
  induction 1 as [|l lines F _ IH]; [reflexivity|]. unfold read_cookies in *. cbn [map flat_map List.concat]. rewrite back_line by exact F. now rewrite IH, map_app.
Qed.

(** The pairs that were sent, cut in the same way. *)
Lemma cut_pairs kss : forall l, List.concat kss = sent_pairs l -> exists ls, kss = map sent_pairs ls /\ List.concat ls = l.
Proof.
  induction kss as [|ks kss IH]; intros l E.
  - destruct l; [|discriminate E]. now exists [].
  - cbn [List.concat] in E. unfold sent_pairs in E. symmetry in E. apply map_eq_app in E. destruct E as (l1 & l2 & -> & E1 & E2).
    destruct (IH l2 (eq_sym E2)) as (ls & -> & <-). exists (l1 :: ls). cbn. now rewrite <- E1.
Qed.

Lemma comes_back cs kept lines : Forall (fun c => token_name (ck_name c)) cs ->
  Forall2 (fun c nv => exists l, browser_reads (cookie_text detail c) = Some (fst nv, snd nv, l)) cs kept -> List.concat lines = kept ->
  read_cookies (map sends_back lines) = map (fun c => (ck_name c, filter cookie_value_byte (value_of c))) cs.
Proof.
  intros F H E. rewrite (kept_are cs kept F H) in E. apply cut_pairs in E. destruct E as (ls & -> & E). rewrite List.map_map.
  rewrite back_lines.
  - rewrite E, List.map_map. reflexivity.
  - apply Forall_forall. intros l I1. apply Forall_forall. intros nv I2.
    assert (I3 : In nv (List.concat ls)) by (apply in_concat; eauto). rewrite E in I3. apply in_map_iff in I3. destruct I3 as (c & <- & I3). cbn [fst].
    rewrite Forall_forall in F. apply name_iff. now apply F.
Qed.

Lemma comes_back_exact cs kept lines : Forall (fun c => token_name (ck_name c)) cs ->
  Forall2 (fun c nv => exists l, browser_reads (cookie_text detail c) = Some (fst nv, snd nv, l)) cs kept -> List.concat lines = kept ->
  Forall2 (fun c nv => fst nv = ck_name c /\ only value_sign (cd_value (detail (ck_rest c))) (snd nv)) cs (read_cookies (map sends_back lines)).
Proof.
  intros F H E. rewrite (comes_back cs kept lines F H E). clear. induction cs as [|c cs IH]; cbn [map]; constructor; [|exact IH].
  cbn [fst snd]. split; [reflexivity|]. now apply (only_filter value_sign cookie_value_byte value_sign_iff).
Qed.

Lemma comes_back_same cs kept lines : Forall (fun c => token_name (ck_name c)) cs ->
  Forall (fun c => forall x, In x (cd_value (detail (ck_rest c))) -> value_sign x) cs ->
  Forall2 (fun c nv => exists l, browser_reads (cookie_text detail c) = Some (fst nv, snd nv, l)) cs kept -> List.concat lines = kept ->
  read_cookies (map sends_back lines) = map (fun c => (ck_name c, cd_value (detail (ck_rest c)))) cs.
Proof.
  intros F V H E. rewrite (comes_back cs kept lines F H E). clear - V. induction V as [|c cs V _ IH]; [reflexivity|]. cbn [map]. rewrite IH. f_equal. f_equal.
  unfold value_of. revert V. generalize (cd_value (detail (ck_rest c))) as b. induction b as [|x b IHb]; intro V; [reflexivity|]. cbn [filter].
  rewrite (proj2 (value_sign_iff x)) by (apply V; now left). f_equal. apply IHb. intros y I1. apply V. now right.
Qed.

Lemma filter_shorter (f : byte -> bool) s x : In x s -> f x = false -> List.length (filter f s) < List.length s.
Proof.
  assert (LE : forall s, List.length (filter f s) <= List.length s) by (induction s0 as [|y s0 IH]; cbn; [lia|destruct (f y); cbn; lia]).
  induction s as [|y s IH]; [easy|]. intros [->|I1] X; cbn [filter].
  - rewrite X. cbn. specialize (LE s). lia.
  - specialize (IH I1 X). destruct (f y); cbn; lia.
Qed.

Lemma comes_back_shorter c x n v l : token_name (ck_name c) -> In x (cd_value (detail (ck_rest c))) -> ~ value_sign x ->
  browser_reads (cookie_text detail c) = Some (n, v, l) ->
  exists w, read_cookies [sends_back [(n, v)]] = [(ck_name c, w)] /\ List.length w < List.length (cd_value (detail (ck_rest c))).
Proof.
  intros T I1 N E. pose proof (comes_back [c] [(n, v)] [[(n, v)]]) as B. exists (filter cookie_value_byte (value_of c)). split.
  - apply B; [constructor; [exact T|constructor]|constructor; [now exists l|constructor]|reflexivity].
  - apply (filter_shorter _ _ x I1). rewrite <- value_sign_iff in N. now apply not_true_is_false.
Qed.

(** ** Responses *)

Lemma empty_text c : ~ token_name (ck_name c) -> cookie_text detail c = [].
Proof. intro N. unfold cookie_text, cookie_string. destruct (cookie_name_valid (ck_name c)) eqn:V; [|reflexivity]. now apply name_iff in V. Qed.

Lemma text_reads_as c : token_name (ck_name c) -> reads_as detail c (cookie_text detail c).
Proof.
  intro T. exists (sanitize_value (value_of c)), (filter cookie_value_byte (value_of c)), (told_of (ck_path c) (ck_domain c) (detail (ck_rest c))).
  split; [now apply text_read|]. split; [now apply (only_filter value_sign cookie_value_byte value_sign_iff)|]. split; [|apply attributes_asked].
  unfold sanitize_value. destruct (existsb _ _); auto.
Qed.

Lemma texts_split cs : exists sent lost, Permutation (sent ++ lost) cs /\ Forall (fun c => token_name (ck_name c)) sent /\
  Forall (fun c => ~ token_name (ck_name c)) lost /\ texts_of (cookie_text detail) cs = map (cookie_text detail) sent.
Proof.
  induction cs as [|c cs (s & l & P & A & B & E)]; [now exists [], []|]. destruct (cookie_name_valid (ck_name c)) eqn:V.
  - apply name_iff in V. exists (c :: s), l. split; [now constructor|]. split; [now constructor|]. split; [exact B|].
    unfold texts_of in *. cbn [map filter]. destruct (cookie_text detail c) eqn:T; [|now rewrite E].
    pose proof (text_read c V) as X. rewrite T in X. discriminate X.
  - assert (N : ~ token_name (ck_name c)) by (rewrite <- name_iff, V; discriminate). exists s, (c :: l). split; [apply Permutation_sym, Permutation_cons_app, Permutation_sym; exact P|].
    split; [exact A|]. split; [now constructor|]. unfold texts_of in *. cbn [map filter]. now rewrite empty_text.
Qed.

Lemma cookies_sent (k : compressor) oh oc location redirect_body r q h st (w : rw k) :
  (forall m, Permutation (oh m) m) -> (forall m, Permutation (oc m) m) ->
  fields r = Some h -> right_protocol r q -> meant_status h st -> (200 <= st <= 999)%Z ->
  b_final (rw_base w) = None -> one_spelling (custom_headers h) -> ~ given (custom_headers h) (str "Set-Cookie") ->
  exists hs sent lost ts, b_final (rw_base (snd (write oh oc (cookie_text detail) location redirect_body r q w))) = Some (st, hs) /\
    Permutation (sent ++ lost) (custom_cookies h) /\
    (forall c, In c lost -> ~ token_name (ck_name c)) /\
    hvalues hs (str "Set-Cookie") = hvalues (rw_headers w) (str "Set-Cookie") ++ ts /\ Forall2 (reads_as detail) sent ts.
Proof.
  intros O1 O2 FR RP MS R B1 OS NG. destruct (response_sent k oh oc (cookie_text detail) location redirect_body r q h st w O1 O2 FR RP MS R B1 OS) as (hs & ts & E & P & S0).
  destruct (texts_split (custom_cookies h)) as (sent & lost & PC & A & B & ET). rewrite ET in P. apply Permutation_map_inv in P.
  destruct P as (sent' & -> & PS). exists hs, sent', lost, (map (cookie_text detail) sent'). split; [exact E|]. split.
  - rewrite <- PC. apply Permutation_app_tail. now apply Permutation_sym.
  - split; [now apply Forall_forall|]. split; [exact (sent_cookies _ _ _ _ _ S0 NG)|].
    assert (A' : Forall (fun c => token_name (ck_name c)) sent') by (eapply Permutation_Forall; [exact PS|exact A]).
    clear - A'. induction A' as [|c l T _ IH]; cbn [map]; constructor; [now apply text_reads_as|exact IH].
Qed.

Lemma cookies_lost (k : compressor) oh oc location redirect_body r q h st (w : rw k) :
  (forall m, Permutation (oh m) m) -> (forall m, Permutation (oc m) m) ->
  fields r = Some h -> right_protocol r q -> meant_status h st -> (200 <= st <= 999)%Z ->
  b_final (rw_base w) = None -> one_spelling (custom_headers h) -> ~ given (custom_headers h) (str "Set-Cookie") ->
  (forall c, In c (custom_cookies h) -> ~ token_name (ck_name c)) ->
  exists hs, b_final (rw_base (snd (write oh oc (cookie_text detail) location redirect_body r q w))) = Some (st, hs) /\
    hvalues hs (str "Set-Cookie") = hvalues (rw_headers w) (str "Set-Cookie").
Proof.
  intros O1 O2 FR RP MS R B1 OS NG L. destruct (response_sent k oh oc (cookie_text detail) location redirect_body r q h st w O1 O2 FR RP MS R B1 OS) as (hs & ts & E & P & S0).
  exists hs. split; [exact E|]. change (hvalues hs sc = hvalues (rw_headers w) sc). rewrite (sent_cookies _ _ _ _ _ S0 NG). assert (T : texts_of (cookie_text detail) (custom_cookies h) = []).
  { clear - L. revert L. generalize (custom_cookies h). induction l as [|c l IH]; intro L; [reflexivity|]. unfold texts_of in *. cbn [map filter]. rewrite empty_text by (apply L; now left).
    apply IH. intros x I1. apply L. now right. }
  rewrite T in P. apply Permutation_sym, Permutation_nil in P. subst ts. apply app_nil_r.
Qed.

Lemma response_back (k : compressor) oh oc location redirect_body r q h st (w : rw k) :
  (forall m, Permutation (oh m) m) -> (forall m, Permutation (oc m) m) ->
  fields r = Some h -> right_protocol r q -> meant_status h st -> (200 <= st <= 999)%Z ->
  b_final (rw_base w) = None -> one_spelling (custom_headers h) -> ~ given (custom_headers h) (str "Set-Cookie") ->
  hvalues (rw_headers w) (str "Set-Cookie") = [] ->
  (forall c, In c (custom_cookies h) -> token_name (ck_name c) /\ forall x, In x (cd_value (detail (ck_rest c))) -> value_sign x) ->
  exists hs, b_final (rw_base (snd (write oh oc (cookie_text detail) location redirect_body r q w))) = Some (st, hs) /\
    forall kept lines, Forall2 (fun t nv => exists l, browser_reads t = Some (fst nv, snd nv, l)) (hvalues hs (str "Set-Cookie")) kept ->
      List.concat lines = kept ->
      Permutation (read_cookies (map sends_back lines)) (map (fun c => (ck_name c, cd_value (detail (ck_rest c)))) (custom_cookies h)).
Proof.
  intros O1 O2 FR RP MS R B1 OS NG E0 H. destruct (response_sent k oh oc (cookie_text detail) location redirect_body r q h st w O1 O2 FR RP MS R B1 OS) as (hs & ts & E & P & S0).
  exists hs. split; [exact E|]. intros kept lines F C. pose proof (sent_cookies _ _ _ _ _ S0 NG) as SC. unfold sc in SC. rewrite E0 in SC. cbn [List.app] in SC. rewrite SC in F.
  destruct (texts_split (custom_cookies h)) as (sent & lost & PC & A & B & ET). rewrite ET in P. apply Permutation_map_inv in P. destruct P as (sent' & -> & PS).
  assert (L0 : lost = []).
  { destruct lost as [|x lost]; [reflexivity|]. exfalso. inversion B as [|? ? NB _]; subst. apply NB. apply H. eapply Permutation_in; [exact PC|]. apply in_app_iff. right. now left. }
  subst lost. rewrite app_nil_r in PC. assert (PC' : Permutation sent' (custom_cookies h)) by (rewrite <- PC; now apply Permutation_sym).
  assert (H' : forall c, In c sent' -> token_name (ck_name c) /\ forall x, In x (cd_value (detail (ck_rest c))) -> value_sign x).
  { intros c I1. apply H. eapply Permutation_in; [exact PC'|exact I1]. }
  rewrite (comes_back_same sent' kept lines); [now apply Permutation_map| | | |exact C].
  - apply Forall_forall. intros c I1. now apply H'.
  - apply Forall_forall. intros c I1. now apply H'.
  - clear - F. revert kept F. induction sent' as [|c l IH]; intros kept F; cbn [map] in F; inversion F; subst; constructor; auto.
Qed.
End Back.

(** ** Cases *)

Definition all_set (v : bytes) : details := Details v (Some (Date 1 16 10 2026 17 5 9)) 3600 true true SSLax.
Definition basket : cookie := Cookie (str "basket") (str "/shop; Secure") (str ".Shop.example.com") (str "a b;c").
Definition bad_name : cookie := Cookie (str "my basket") [] [] (str "1").
Definition two_cookies : hresp := HResp 200 (str "text/plain") None (Some (new_http_cookie [Some basket; Some bad_name])).

Lemma cookies_sent_case :
  fields (plain_text two_cookies) = Some two_cookies /\ right_protocol (plain_text two_cookies) get_req /\ meant_status two_cookies 200 /\
  one_spelling (custom_headers two_cookies) /\ ~ given (custom_headers two_cookies) (str "Set-Cookie") /\
  custom_cookies two_cookies = [bad_name; basket] /\
  received (rw_base (snd (write (fun m => m) (fun m => m) (cookie_text all_set) (fun _ u => u) (fun _ u => u) (plain_text two_cookies) get_req (@Plain toy base_new)))) =
    (200%Z, [(str "X-Content-Type-Options", [str "nosniff"]); (str "Content-Type", [str "text/plain"]);
             (str "Set-Cookie", [str "basket=""a bc""; Path=/shop Secure; Domain=Shop.example.com; Expires=Mon, 16 Nov 2026 17:05:09 GMT; Max-Age=3600; HttpOnly; Secure; SameSite=Lax"])],
     str "hi").
Proof.
  split; [reflexivity|]. split; [exact I|]. split; [right; cbn; split; [discriminate|reflexivity]|]. split; [split; [constructor|intros ? ? ? ? []]|]. split; [intros (k & v & [] & _)|].
  split; [reflexivity|]. vm_compute. reflexivity.
Qed.

Lemma cookies_lost_case :
  ~ token_name (ck_name bad_name) /\
  received (rw_base (snd (write (fun m => m) (fun m => m) (cookie_text all_set) (fun _ u => u) (fun _ u => u)
     (plain_text (HResp 200 (str "text/plain") None (Some (new_http_cookie [Some bad_name])))) get_req (@Plain toy base_new)))) =
    (200%Z, [(str "X-Content-Type-Options", [str "nosniff"]); (str "Content-Type", [str "text/plain"])], str "hi").
Proof.
  split; [|vm_compute; reflexivity]. rewrite <- name_iff. discriminate.
Qed.

Lemma comes_back_case :
  let other := Cookie (str "q") [] (str "10.0.0.1") (str "1,2") in
  token_name (ck_name basket) /\ token_name (ck_name other) /\
  browser_reads (cookie_text all_set other) =
    Some (str "q", str """1,2""", [(str "Domain", Some (str "10.0.0.1")); (str "Expires", Some (str "Mon, 16 Nov 2026 17:05:09 GMT")); (str "Max-Age", Some (str "3600"));
          (str "HttpOnly", None); (str "Secure", None); (str "SameSite", Some (str "Lax"))]) /\
  sends_back [(str "basket", str """a bc"""); (str "q", str """1,2""")] = str "basket=""a bc""; q=""1,2""" /\
  read_cookies [str "basket=""a bc""; q=""1,2"""] = [(str "basket", str "a bc"); (str "q", str "1,2")].
Proof.
  cbv zeta. rewrite <- !name_iff. split; [reflexivity|]. split; [reflexivity|]. split; [vm_compute; reflexivity|]. split; vm_compute; reflexivity.
Qed.

Lemma same_value_case : (forall x, In x (str "1,2 'ok'=") -> value_sign x) /\ ~ value_sign ";"%char.
Proof.
  split; [|rewrite <- value_sign_iff; discriminate]. intros x I1. apply value_sign_iff.
  assert (A : forallb cookie_value_byte (str "1,2 'ok'=") = true) by (vm_compute; reflexivity). rewrite forallb_forall in A. now apply A.
Qed.

Definition one_cookie : hresp := HResp 0 (str "text/plain") None (Some (new_http_cookie [Some (Cookie (str "q") (str "/") [] (str "1,2 'ok'="))])).
Lemma response_back_case :
  fields (plain_text one_cookie) = Some one_cookie /\ right_protocol (plain_text one_cookie) get_req /\ meant_status one_cookie 200 /\
  one_spelling (custom_headers one_cookie) /\ ~ given (custom_headers one_cookie) (str "Set-Cookie") /\
  (forall c, In c (custom_cookies one_cookie) -> token_name (ck_name c) /\ forall x, In x (cd_value (all_set (ck_rest c))) -> value_sign x) /\
  hvalues (snd (fst (received (rw_base (snd (write (fun m => m) (fun m => m) (cookie_text all_set) (fun _ u => u) (fun _ u => u) (plain_text one_cookie) get_req (@Plain toy base_new))))))) (str "Set-Cookie") =
    [str "q=""1,2 'ok'=""; Path=/; Expires=Mon, 16 Nov 2026 17:05:09 GMT; Max-Age=3600; HttpOnly; Secure; SameSite=Lax"] /\
  read_cookies [sends_back [(str "q", str """1,2 'ok'=""")]] = [(str "q", str "1,2 'ok'=")].
Proof.
  split; [reflexivity|]. split; [exact I|]. split; [left; auto|]. split; [split; [constructor|intros ? ? ? ? []]|]. split; [intros (k & v & [] & _)|].
  split; [|split; vm_compute; reflexivity]. intros c [<-|[]]. split; [rewrite <- name_iff; reflexivity|apply same_value_case].
Qed.

Lemma domains_case :
  domain_of (str ".Shop.example.com") (str "Shop.example.com") /\ domain_of (str "10.0.0.1") (str "10.0.0.1") /\
  (forall h, ~ domain_of (str "a.example.com; Secure") h) /\ (forall h, ~ domain_of (str "300.0.0.1") h) /\ (forall h, ~ domain_of (str "-a.example") h).
Proof.
  rewrite !domain_iff. split; [split; reflexivity|]. split; [split; reflexivity|].
  repeat split; intros h H; apply domain_iff in H; destruct H as [H _]; vm_compute in H; discriminate H.
Qed.

Lemma attributes_read name path domain d n v l : browser_reads (cookie_string name path domain d) = Some (n, v, l) -> asked_for path domain d l.
Proof.
  intro E. destruct (cookie_name_valid name) eqn:V.
  - rewrite browser_reads_cookie in E by exact V. injection E as _ _ <-. apply attributes_asked.
  - unfold cookie_string in E. rewrite V in E. discriminate E.
Qed.

(** ** One line *)

Definition printable (c : byte) : Prop := (32 <= code c <= 126)%N.
Lemma printable_text s : forallb (fun c => (32 <=? code c) && (code c <=? 126))%N s = true -> forall c, In c s -> printable c.
Proof. intros H c I1. rewrite forallb_forall in H. specialize (H c I1). apply andb_true_iff in H. rewrite !N.leb_le in H. exact H. Qed.
Lemma letter_printable c : letter_sign c -> printable c.
Proof. unfold letter_sign, printable. lia. Qed.
Lemma digit_printable c : digit_sign c -> printable c.
Proof. unfold digit_sign, printable. lia. Qed.

Lemma parts_printable path domain d n v : In (n, Some (Some v)) (parts path domain d) -> forall c, In c v -> printable c.
Proof.
  intros I1 c I2. only_part I1; try match type of I1 with (if ?b then Some None else None) = _ => destruct b; discriminate I1 end.
  - destruct path as [|x path]; [discriminate I1|]. assert (E' : filter cookie_path_byte (x :: path) = v) by congruence. rewrite <- E' in I2. apply filter_In in I2.
    destruct I2 as [_ I2]. apply path_sign_iff in I2. apply I2.
  - destruct (domain_valid domain) eqn:V; [|discriminate I1]. injection I1 as <-. destruct (domain_signs domain V c I2) as [H|[H|[->| ->]]]; [now apply letter_printable|now apply digit_printable| |]; vm_compute; split; congruence.
  - destruct (cd_expires d) as [t|]; [|discriminate I1]. destruct (1601 <=? dt_year t)%N; [|discriminate I1]. injection I1 as <-.
    destruct (date_signs t c I2) as [H|[H|H]]; [now apply letter_printable|now apply digit_printable|]. revert c H I2. intros c H _. revert c H. apply printable_text. reflexivity.
  - destruct (Z.ltb_spec 0 (cd_max_age d)) as [L|L]; [injection I1 as <-; apply digit_printable; now apply (age_signs (cd_max_age d))|].
    destruct (cd_max_age d <? 0)%Z; [|discriminate I1]. injection I1 as <-. revert c I2. apply printable_text. reflexivity.
  - destruct (cd_same_site d); try discriminate I1; injection I1 as <-; revert c I2; apply printable_text; reflexivity.
Qed.

Lemma token_printable c : token_byte c = true -> printable c.
Proof.
  intro T. apply token_iff in T. unfold printable. destruct T as [T|[T|[T|T]]]; [lia|lia|lia|]. revert c T. apply printable_text. reflexivity.
Qed.

Lemma value_printable v c : In c (sanitize_value v) -> printable c.
Proof.
  unfold sanitize_value. set (w := filter cookie_value_byte v).
  assert (W : forall y, In y w -> printable y). { intros y I1. apply filter_In in I1. destruct I1 as [_ B]. apply value_sign_iff in B. apply B. }
  assert (Q : printable """"%char) by (vm_compute; split; congruence).
  destruct (existsb _ w); [|apply W]. rewrite !in_app_iff. intros [[<-|[]]|[I1|[<-|[]]]]; [exact Q|now apply W|exact Q].
Qed.

Lemma cookie_printable name path domain d : forall c, In c (cookie_string name path domain d) -> (32 <= code c <= 126)%N.
Proof.
  intros c I1. change (printable c). destruct (cookie_name_valid name) eqn:V.
  - rewrite cookie_string_parts in I1 by exact V. rewrite !in_app_iff in I1. destruct I1 as [[I1|[I1|I1]]|I1].
    + apply token_printable. exact (token_equals name V c I1).
    + revert c I1. apply printable_text. reflexivity.
    + now apply (value_printable (cd_value d)).
    + apply in_flat_map in I1. destruct I1 as (a & Ia & [<-|I1]); [vm_compute; split; congruence|]. apply in_flat_map in Ia. destruct Ia as ([n o] & In1 & Ia).
      unfold part_of in Ia. cbn [fst snd] in Ia. destruct o as [v|]; [|destruct Ia]. destruct Ia as [<-|[]]. rewrite !in_app_iff in I1. destruct I1 as [I1|[I1|I1]].
      * revert c I1. apply printable_text. reflexivity.
      * assert (NN : In n (map fst (parts path domain d))) by (apply in_map_iff; exists (n, Some v); auto). rewrite parts_names in NN.
        revert c I1. apply printable_text. cbn [In] in NN. destruct NN as [<-|[<-|[<-|[<-|[<-|[<-|[<-|[]]]]]]]]; reflexivity.
      * destruct v as [t|]; [|destruct I1]. rewrite in_app_iff in I1. destruct I1 as [I1|I1]; [revert c I1; apply printable_text; reflexivity|exact (parts_printable _ _ _ _ _ In1 c I1)].
  - unfold cookie_string in I1. rewrite V in I1. destruct I1.
Qed.
