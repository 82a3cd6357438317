(** * The CORS and security properties, with witnesses *)
From Coq Require Import List NArith ZArith Ascii String Bool Lia Arith Permutation.
From Verif Require Import GoBase Http_Model Auth_Model Auth_Proofs Csrf_Model Csrf_Spec Csrf_Proofs OAuthUrl_Proofs Chain_Model.
From Verif Require Import Resp_Model Resp_Spec Resp_Proofs RespBody_Proofs RespMisc_Proofs Cors_Model Cors_Spec Cors_Proofs CorsMisc_Proofs.
Import ListNotations.
Local Open Scope string_scope.
Local Open Scope list_scope.
Local Open Scope nat_scope.

(** ** Headers of the answer, exactly *)

Lemma standard_preflight q m c : xq_method q = str "OPTIONS" ->
  let m' := add_standard q m c in
  (cc_methods c <> [] -> alookup h_acam m' = Some (join (str ",") (cc_methods c))) /\
  (cc_headers c <> [] -> alookup h_acah m' = Some (join (str ",") (cc_headers c))) /\
  ((0 < cc_max_age c)%Z -> alookup h_acma m' = Some (itoa_z (cc_max_age c))).
Proof.
  intro O. cbv zeta. unfold add_standard. cbv zeta. rewrite O. change (beqb (str "OPTIONS") (str "OPTIONS")) with true. cbv iota.
  set (m3 := match cc_exposed c with [] => _ | _ :: _ => _ end). clearbody m3.
  set (m4 := add_vary _ _). clearbody m4. split; [|split].
  - intro N. destruct (cc_methods c) as [|x l]; [congruence|]. destruct (cc_headers c); [|rewrite set_other by discriminate]; apply set_this.
  - intro N. destruct (cc_headers c) as [|x l]; [congruence|]. apply set_this.
  - intro N. apply Z.ltb_lt in N. rewrite N. destruct (cc_headers c); [|rewrite set_other by discriminate];
      (destruct (cc_methods c); [|rewrite set_other by discriminate]); apply set_this.
Qed.

Lemma standard_exposed q m c : cc_exposed c <> [] -> alookup h_aceh (add_standard q m c) = Some (join (str ",") (cc_exposed c)).
Proof.
  intro N. unfold add_standard. cbv zeta.
  set (m2 := if cc_credentials c then _ else _). clearbody m2. destruct (cc_exposed c) as [|x l]; [congruence|].
  assert (A : alookup h_aceh (headers_set m2 h_aceh (join (str ",") (x :: l))) = Some (join (str ",") (x :: l))) by apply set_this.
  destruct (beqb (xq_method q) (str "OPTIONS")); [|exact A].
  destruct (cc_headers c); [|rewrite set_other by discriminate]; (destruct (cc_methods c); [|rewrite set_other by discriminate]);
    (destruct (0 <? cc_max_age c)%Z; [rewrite set_other by discriminate|]); rewrite !vary_other by discriminate; exact A.
Qed.

Lemma star_dec l : {In (str "*") l} + {~ In (str "*") l}.
Proof. apply in_dec. apply list_eq_dec, ascii_dec. Qed.

Lemma varies_new m f : field_name f -> varies (add_vary m f) f.
Proof.
  intro F. destruct (star_dec (vary_fields (vary_of m))) as [S|S].
  - right. rewrite vary_star by auto. now left.
  - left. rewrite vary_grows by assumption. rewrite in_app_iff. right. now left.
Qed.
Lemma varies_old m f n : field_name n -> varies m f -> varies (add_vary m n) f.
Proof.
  intros F [H|H].
  - destruct (star_dec (vary_fields (vary_of m))) as [S|S].
    + right. rewrite vary_star by auto. now left.
    + left. rewrite vary_grows by assumption. rewrite in_app_iff. now left.
  - right. rewrite vary_star by auto. now left.
Qed.
Lemma varies_set m f k v : k <> h_vary -> varies m f -> varies (headers_set m k v) f.
Proof. intros D H. unfold varies, vary_of in *. change (str "Vary") with h_vary in *. rewrite set_other by congruence. exact H. Qed.

Lemma field_names n : In n [h_origin; h_acrm; h_acrh] -> field_name n.
Proof.
  cbn. intros [<-|[<-|[<-|[]]]]; (split; [discriminate|]); (split; [|split; [reflexivity|discriminate]]);
    cbn; intro H; repeat (destruct H as [H|H]; [discriminate H|]); exact H.
Qed.

Lemma standard_varies q m c :
  (cc_any c = false -> varies (add_standard q m c) h_origin) /\
  (xq_method q = str "OPTIONS" -> varies (add_standard q m c) h_acrm /\ varies (add_standard q m c) h_acrh).
Proof.
  unfold add_standard. cbv zeta. set (m1 := if cc_any c then _ else _).
  assert (V1 : cc_any c = false -> varies m1 h_origin).
  { intro A. unfold m1. rewrite A. apply varies_new, field_names. now left. }
  clearbody m1.
  set (m2 := if cc_credentials c then _ else _).
  assert (V2 : cc_any c = false -> varies m2 h_origin).
  { intro A. unfold m2. destruct (cc_credentials c); [apply varies_set; [discriminate|]|]; auto. }
  clearbody m2.
  set (m3 := match cc_exposed c with [] => _ | _ :: _ => _ end).
  assert (V3 : cc_any c = false -> varies m3 h_origin).
  { intro A. unfold m3. destruct (cc_exposed c); [|apply varies_set; [discriminate|]]; auto. }
  clearbody m3.
  assert (F1 : field_name h_acrm) by (apply field_names; cbn; tauto).
  assert (F2 : field_name h_acrh) by (apply field_names; cbn; tauto).
  set (m6 := match cc_headers c with [] => _ | _ :: _ => _ end).
  assert (V6 : forall f, varies (add_vary (add_vary m3 h_acrm) h_acrh) f -> varies m6 f).
  { intros f H. unfold m6. destruct (cc_headers c); [|apply varies_set; [discriminate|]];
      (destruct (cc_methods c); [|apply varies_set; [discriminate|]]);
      (destruct (0 <? cc_max_age c)%Z; [apply varies_set; [discriminate|]|]); exact H. }
  destruct (beqb (xq_method q) (str "OPTIONS")) eqn:O.
  - split; [|intros _; split].
    + intro A. apply V6. apply varies_old; [exact F2|]. apply varies_old; [exact F1|]. auto.
    + apply V6. apply varies_old; [exact F2|]. now apply varies_new.
    + apply V6. now apply varies_new.
  - split; [exact V3|]. intro E. rewrite E in O. discriminate O.
Qed.

(** ** Statements for the properties *)

(** C39 *)
Lemma cross_origin_checked (World : Type) (h : handler xreq response World) c x q w r w' o :
  cors c h x q w = (HReturn (Some r) None, w') -> carries q h_origin o -> web_url q ->
  ~ odd_ports (to_lower (xq_scheme q)) (xq_host q) o -> ~ own (to_lower (xq_scheme q)) (xq_host q) o ->
  allows_origin c o /\ allows c q /\
  exists m, get_headers r = Some m /\ alookup h_acao m = Some (if cc_any c then str "*" else o).
Proof. apply cross_origin_answer. Qed.

(** C40 *)
Lemma refused_after_handler (World : Type) (h : handler xreq response World) c x q w :
  snd (cors c h x q w) = snd (h x q w).
Proof. apply cors_world. Qed.

(** C41 *)
Lemma own_origin_answered (World : Type) (h : handler xreq response World) c x q w r w' o d :
  answered h x q w r w' -> carries q h_origin o -> browser_origin o ->
  default_port (to_lower (xq_scheme q)) d -> xq_host q <> [] -> own (to_lower (xq_scheme q)) (xq_host q) o ->
  (host_port (xq_host q) (xq_host q) None \/
   (exists n, host_port (xq_host q) n (Some d) /\ o = to_lower (xq_scheme q) ++ str "://" ++ xq_host q)) ->
  exists r', cors c h x q w = (HReturn (Some r') None, w') /\ kept_kind r' = kept_kind r.
Proof.
  intros [E HH] CO B D HN O C. eapply same_origin_answered; eauto using browser_valid.
  destruct C as [C|(n & C & ->)]; [eapply own_no_port_same; eauto|].
  apply (same_origin_iff _ _ _ d D). split; [exact HN|]. left. split; [reflexivity|]. cbv zeta.
  assert (HQ : xq_host q = n ++ str ":" ++ d) by now inversion C.
  assert (DG : all_digits d) by now inversion C.
  rewrite HQ, port_with by exact DG. now destruct d.
Qed.

Lemma own_origin_refused (World : Type) (h : handler xreq response World) c x q w r w' s a o :
  answered h x q w r w' -> xq_scheme q = [] -> sent_to q s a -> own s a o -> carries q h_origin o -> ~ allows_origin c o ->
  cors c h x q w = (HReturn None (Some EAccessDenied), w').
Proof. intros [E HH] S _ _ CO NA. eapply origin_form_refused; eauto. Qed.

Lemma own_port_refused (World : Type) (h : handler xreq response World) c x q w r w' d n p :
  answered h x q w r w' -> default_port (to_lower (xq_scheme q)) d -> host_port (xq_host q) n (Some p) -> p <> [] -> p <> d ->
  let o := to_lower (xq_scheme q) ++ str "://" ++ xq_host q in
  carries q h_origin o -> ~ allows_origin c o ->
  own (to_lower (xq_scheme q)) (xq_host q) o /\ cors c h x q w = (HReturn None (Some EAccessDenied), w').
Proof.
  cbv zeta. intros [E HH] D HP PN PD CO NA.
  assert (HQ : xq_host q = n ++ str ":" ++ p) by now inversion HP.
  assert (DG : all_digits p) by now inversion HP.
  split.
  { exists n, (Some p), d. split; [exact HP|]. split; [exact D|]. left. rewrite HQ. reflexivity. }
  set (o := to_lower (xq_scheme q) ++ str "://" ++ xq_host q) in *.
  assert (SO : same_origin (xq_scheme q) (xq_host q) o = false).
  { apply not_true_is_false. intro S. apply (same_origin_iff _ _ _ d D) in S. cbv zeta in S. destruct S as [_ S].
    assert (UP : url_port (xq_host q) = p) by (rewrite HQ; now apply port_with). rewrite UP in S.
    replace (match p with [] => d | c0 :: q0 => c0 :: q0 end) with p in S by (destruct p; congruence).
    destruct S as [[_ S]|S]; [congruence|].
    assert (L : List.length o = List.length o + (1 + List.length p)).
    { rewrite S at 1. unfold o. rewrite !app_length. cbn. lia. }
    lia. }
  destruct (headers_get r HH) as (m & G). unfold cors. rewrite E. cbv zeta. rewrite G.
  destruct (valid_origin o) eqn:V.
  - pose proof (type_cross q o CO V SO) as TC. destruct (request_type q); try easy.
    + replace (simple_allowed q c) with false; [reflexivity|]. symmetry. apply not_true_is_false. intro X.
      apply (simple_iff q c o CO) in X; tauto.
    + replace (simple_allowed q c) with false; [reflexivity|]. symmetry. apply not_true_is_false. intro X.
      apply (simple_iff q c o CO) in X; tauto.
    + replace (preflight_allowed q c) with false; [reflexivity|]. symmetry. apply not_true_is_false. intro X.
      apply (preflight_iff q c o CO) in X; tauto.
  - destruct (carries_get q _ o can_o CO) as [HO GO]. unfold request_type. rewrite HO, GO, V. reflexivity.
Qed.

(** C42 *)
Lemma vary_kept m name n : n <> h_vary -> alookup n (add_vary m name) = alookup n m.
Proof. apply vary_other. Qed.

(** C70 *)
Lemma allowed_is_answered (World : Type) (h : handler xreq response World) c x q w r w' o :
  answered h x q w r w' -> carries q h_origin o -> browser_origin o -> allows_origin c o -> allows c q -> complete q ->
  exists r' m, cors c h x q w = (HReturn (Some r') None, w') /\ kept_kind r' = kept_kind r /\ get_headers r' = Some m /\
    alookup h_acao m = Some (if cc_any c then str "*" else o) /\
    (cc_credentials c = true -> alookup h_acac m = Some (str "true")).
Proof. intros [E HH] CO B AO AL CP. eapply allowed_answered; eauto using browser_valid. Qed.

Lemma bare_post_refused (World : Type) (h : handler xreq response World) c x q w r w' o :
  answered h x q w r w' -> carries q h_origin o -> xq_method q = str "POST" ->
  media_type (hget (xq_headers q) (str "Content-Type")) = [] -> same_origin (xq_scheme q) (xq_host q) o = false ->
  cors c h x q w = (HReturn None (Some EAccessDenied), w').
Proof.
  intros [E HH] CO M T SO. destruct (carries_get q _ o can_o CO) as [HO GO]. unfold cors. rewrite E. cbv zeta.
  unfold request_type. rewrite HO, GO, SO. cbv zeta. rewrite M, T. destruct (valid_origin o); reflexivity.
Qed.

(** C71 *)
Lemma any_origin_star (World : Type) (h : handler xreq response World) c x q w r w' :
  cc_any c = true -> cors c h x q w = (HReturn (Some r) None, w') ->
  exists m, get_headers r = Some m /\ alookup h_acao m = Some (str "*") /\
    (cc_credentials c = true -> alookup h_acac m = Some (str "true")).
Proof.
  intros A E. apply cors_answer in E. destruct E as (r0 & m & _ & _ & _ & GR & _ & _). exists (add_standard q m c). split; [exact GR|].
  destruct (standard_acao q m c (hget (xq_headers q) h_origin) eq_refl) as (S1 & S2 & _). rewrite A in S1. split; [exact S1|].
  intro C. rewrite C in S2. exact S2.
Qed.
Lemma credentials_named (World : Type) (h : handler xreq response World) c x q w r w' o :
  cc_any c = false -> cc_credentials c = true -> carries q h_origin o -> cors c h x q w = (HReturn (Some r) None, w') ->
  exists m, get_headers r = Some m /\ alookup h_acao m = Some o /\ alookup h_acac m = Some (str "true").
Proof.
  intros A C CO E. apply cors_answer in E. destruct E as (r0 & m & _ & _ & _ & GR & _ & _). exists (add_standard q m c). split; [exact GR|].
  destruct (standard_acao q m c o (proj2 (carries_get q _ o can_o CO))) as (S1 & S2 & _). rewrite A in S1. rewrite C in S2. auto.
Qed.

(** C72 *)
Lemma answers_vary (World : Type) (h : handler xreq response World) c x q w r w' :
  cors c h x q w = (HReturn (Some r) None, w') ->
  exists m, get_headers r = Some m /\
    (cc_any c = false -> varies m h_origin) /\ (xq_method q = str "OPTIONS" -> varies m h_acrm /\ varies m h_acrh).
Proof.
  intro E. apply cors_answer in E. destruct E as (r0 & m & _ & _ & _ & GR & _ & _). exists (add_standard q m c). split; [exact GR|].
  apply standard_varies.
Qed.

(** C73 *)
Lemma preflight_announces (World : Type) (h : handler xreq response World) c x q w r w' :
  cors c h x q w = (HReturn (Some r) None, w') ->
  exists m, get_headers r = Some m /\
    (cc_exposed c <> [] -> alookup h_aceh m = Some (join (str ",") (cc_exposed c))) /\
    (xq_method q = str "OPTIONS" ->
      (cc_methods c <> [] -> alookup h_acam m = Some (join (str ",") (cc_methods c))) /\
      (cc_headers c <> [] -> alookup h_acah m = Some (join (str ",") (cc_headers c))) /\
      ((0 < cc_max_age c)%Z -> alookup h_acma m = Some (itoa_z (cc_max_age c)))).
Proof.
  intro E. apply cors_answer in E. destruct E as (r0 & m & _ & _ & _ & GR & _ & _). exists (add_standard q m c). split; [exact GR|].
  split; [apply standard_exposed|]. intro O. now apply standard_preflight.
Qed.
(** What the handler put on its response otherwise is kept. *)
Lemma answer_keeps (World : Type) (h : handler xreq response World) c x q w r w' :
  cors c h x q w = (HReturn (Some r) None, w') ->
  exists r0 m0 m, h x q w = (HReturn (Some r0) None, w') /\ get_headers r0 = Some m0 /\ get_headers r = Some m /\
    kept_kind r = kept_kind r0 /\
    forall n, ~ In n [h_acao; h_acac; h_aceh; h_acma; h_acam; h_acah; h_vary] -> alookup n m = alookup n m0.
Proof.
  intro E. apply cors_answer in E. destruct E as (r0 & m & E & _ & G & GR & K & _). exists r0, m, (add_standard q m c).
  split; [exact E|]. split; [exact G|]. split; [exact GR|]. split; [exact K|]. now apply standard_acao with (o := hget (xq_headers q) h_origin).
Qed.

(** C43 *)
Lemma security_all (World : Type) (h : handler xreq response World) c x qs w :
  let (wi, is) := serve_in_turn h x qs w in
  let (wo, os) := serve_in_turn (security_headers c h) x qs (w, SecCache [] []) in
  fst wo = wi /\ Forall2 (fun qi o => secured_outcome c (fst qi) (snd qi) o) (combine qs is) os /\ List.length is = List.length qs.
Proof. apply security_history, no_cache_ok. Qed.

Lemma deny_is_same_origin (World : Type) (h : handler xreq response World) a b sb p cl f1 f2 v u sn xs x q w :
  f1 <> xfo_allow_from -> f2 <> xfo_allow_from ->
  security_headers (SecConfig a b sb p cl f1 v u sn xs) h x q (w, SecCache [] []) =
  security_headers (SecConfig a b sb p cl f2 v u sn xs) h x q (w, SecCache [] []).
Proof.
  intros N1 N2. apply Z.eqb_neq in N1, N2. unfold security_headers, click_value, sts_value. cbn [sh_frame sh_sts sh_max_age sh_sub_domains sh_preload sh_click sh_frame_value sh_frame_uri sh_sniff sh_xss].
  rewrite N1, N2. reflexivity.
Qed.

Lemma nil_panics (World : Type) (h : handler xreq response World) c x q w w' :
  h x q w = (HReturn None None, w') -> sh_click c = true \/ sh_sniff c = true \/ sh_xss c = true ->
  fst (security_headers c h x q (w, SecCache [] [])) = HPanic (Some 0%nat).
Proof.
  intros E H. unfold security_headers. cbn [fst snd]. rewrite E. cbv zeta.
  set (b := (sh_sts c && _)%bool). destruct b; cbn [has_map]; [reflexivity|].
  destruct (sh_click c); cbn [has_map]; [reflexivity|]. destruct (sh_sniff c); cbn [has_map]; [reflexivity|].
  destruct (sh_xss c); [reflexivity|]. destruct H as [H|[H|H]]; discriminate H.
Qed.

(** ** Witnesses and cases *)

Definition nobody : ctx := Ctx None None None.
Definition page : response := RText (HResp 200 [] (Some [(str "Vary", str "Accept")]) None) (str "hi").
(** A handler with an effect. *)
Definition counting : handler xreq response nat := fun _ _ w => (HReturn (Some page) None, S w).
Definition shop : cors_config :=
  CorsConfig false true 600 [] [str "GET"; str "POST"] [str "X-Token"] [str "https://shop.example"].
Definition ask (m o s h : bytes) : xreq := XReq m [(h_origin, [o])] s h false (str "api.example").

Lemma ask_carries m o s h : carries (ask m o s h) h_origin o.
Proof. exists [o]. split; reflexivity. Qed.

Ltac bytes_eq := intro; repeat match goal with H : _ = _ |- _ => discriminate H end.

Lemma odd_port_answered :
  let q := ask (str "GET") (str "http://h:80:80") (str "http") (str "h:80") in
  carries q h_origin (str "http://h:80:80") /\ ~ own (str "http") (str "h:80") (str "http://h:80:80") /\
  ~ allows_origin shop (str "http://h:80:80") /\ is_answer (fst (cors shop counting nobody q 0)).
Proof.
  cbv zeta. split; [apply ask_carries|]. split; [|split].
  - intros (n & po & d & HP & D & O). cbv zeta in O.
    assert (HP' : host_port (str "h:80") (str "h") (Some (str "80"))).
    { apply (with_port (str "h") (str "80")). intros c [<-|[<-|[]]]; vm_compute; split; discriminate. }
    destruct (host_port_fun _ _ _ _ _ HP HP') as [-> ->]. destruct O as [O|[_ O]]; discriminate O.
  - intros [H|[H|[]]]; discriminate H.
  - eexists. vm_compute. reflexivity.
Qed.

Lemma cross_origin_case :
  let o := str "https://shop.example" in
  let q := ask (str "POST") o [] [] in
  let q' := XReq (str "POST") [(h_origin, [o]); (str "Content-Type", [str "Text/Plain; charset=utf-8"])] [] [] true (str "api.example") in
  fst (cors shop counting nobody q 0) = HReturn None (Some EAccessDenied) /\
  is_answer (fst (cors shop counting nobody q' 0)) /\ carries q' h_origin o /\ web_url q' /\
  ~ odd_ports (to_lower (xq_scheme q')) (xq_host q') o /\ ~ own (to_lower (xq_scheme q')) (xq_host q') o /\
  allows_origin shop o /\ allows shop q' /\ complete q' /\ browser_origin o.
Proof.
  cbv zeta. split; [vm_compute; reflexivity|]. split; [eexists; vm_compute; reflexivity|]. split; [exists [str "https://shop.example"]; split; reflexivity|].
  split; [left; reflexivity|]. split; [|split; [|split; [|split; [|split]]]].
  - intros (n & p & HP & _). inversion HP as [n0 p0 DG E|]. apply (f_equal (@List.length byte)) in E. rewrite !app_length in E. cbn in E. lia.
  - intros (n & po & d & HP & D & _). destruct D as [[[E|E] _]|[[E|E] _]]; discriminate E.
  - right. now left.
  - unfold allows. split; [intros [E _]; discriminate E|]. split; [intros [E _]; discriminate E|]. intros _. exists (str "POST").
    split; [right; now left|reflexivity].
  - split; [intros _; vm_compute; discriminate|]. intros [E _]. discriminate E.
  - right. exists (str "https"), (str "shop.example"). split; [|split].
    + split; [discriminate|]. intros c H. cbn in H. apply letter_iff. repeat (destruct H as [<-|H]; [reflexivity|]). destruct H.
    + left. split; [discriminate|]. intros c H. cbn in H. unfold name_byte.
      repeat (destruct H as [<-|H]; [first [left; apply letter_iff; reflexivity|right; right; right; left; reflexivity]|]). destruct H.
    + now left.
Qed.

Lemma preflight_case :
  let o := str "https://shop.example" in
  let q hs := XReq (str "OPTIONS") [(h_origin, [o]); (h_acrm, [str "post"]); (h_acrh, [hs])] [] [] true (str "api.example") in
  (exists m, get_headers page = Some m /\
     fst (cors shop counting nobody (q (str " x-token , ")) 0) =
     HReturn (Some (RText (HResp 200 [] (Some (add_standard (q []) m shop)) None) (str "hi"))) None /\
     alookup h_vary (add_standard (q []) m shop) = Some (str "Accept,Origin,Access-Control-Request-Method,Access-Control-Request-Headers") /\
     alookup h_acam (add_standard (q []) m shop) = Some (str "GET,POST")) /\
  fst (cors shop counting nobody (q (str "x-token, x-other")) 0) = HReturn None (Some EAccessDenied).
Proof. cbv zeta. split; [exists [(str "Vary", str "Accept")]|]; vm_compute; auto. Qed.

(** The effect of a refused request. *)
Lemma refused_with_effect :
  cors shop counting nobody (ask (str "POST") (str "https://evil.example") [] []) 0 = (HReturn None (Some EAccessDenied), 1).
Proof. vm_compute. reflexivity. Qed.

Lemma own_origin_case :
  let o := str "http://api.example" in
  let q := ask (str "GET") o [] [] in
  answered counting nobody q 0 page 1 /\ sent_to q (str "http") (str "api.example") /\ own (str "http") (str "api.example") o /\
  carries q h_origin o /\ ~ allows_origin shop o /\
  cors shop counting nobody q 0 = (HReturn None (Some EAccessDenied), 1).
Proof.
  cbv zeta. split; [split; [reflexivity|exact I]|]. split; [right; auto|]. split.
  - exists (str "api.example"), None, (str "80"). split; [|split; [left; auto|right; split; reflexivity]].
    constructor. intros m p E _. assert (H : In ":"%char (str "api.example")) by (rewrite E; rewrite in_app_iff; right; now left).
    cbn in H. repeat (destruct H as [H|H]; [discriminate H|]). exact H.
  - split; [apply ask_carries|]. split; [intros [H|[H|[]]]; discriminate H|]. vm_compute. reflexivity.
Qed.

Lemma own_default_port_refused :
  let o := str "http://api.example" in
  let q := ask (str "GET") o (str "http") (str "api.example:80") in
  own (str "http") (str "api.example:80") o /\ carries q h_origin o /\
  cors shop counting nobody q 0 = (HReturn None (Some EAccessDenied), 1).
Proof.
  cbv zeta. split; [|split; [apply ask_carries|vm_compute; reflexivity]].
  exists (str "api.example"), (Some (str "80")), (str "80"). split; [|split; [left; auto|right; split; reflexivity]].
  apply (with_port (str "api.example") (str "80")). intros c [<-|[<-|[]]]; vm_compute; split; discriminate.
Qed.

Lemma own_answered_case :
  is_answer (fst (cors shop counting nobody (ask (str "PUT") (str "http://api.example:80") (str "HTTP") (str "api.example")) 0)) /\
  is_answer (fst (cors shop counting nobody (ask (str "PUT") (str "http://api.example") (str "HTTP") (str "api.example")) 0)) /\
  is_answer (fst (cors shop counting nobody (ask (str "PUT") (str "https://api.example:443") (str "https") (str "api.example:443")) 0)).
Proof. repeat split; eexists; vm_compute; reflexivity. Qed.

Lemma vary_case :
  vary_fields (vary_of (add_vary [(str "Vary", str "Accept , X-A")] (str "Origin"))) = [str "Accept"; str "X-A"; str "Origin"] /\
  vary_fields (vary_of (add_vary [(str "Vary", str "Accept, *")] (str "Origin"))) = [str "*"] /\
  vary_fields (vary_of (add_vary [] (str "Origin"))) = [str "Origin"].
Proof. vm_compute. auto. Qed.

(** Another spelling: one of the two values is not sent, which one depends on the order. *)
Lemma vary_spelling :
  let h0 : handler xreq response nat :=
    fun _ _ w => (HReturn (Some (RText (HResp 200 [] (Some [(str "vary", str "Cookie")]) None) (str "hi"))) None, w) in
  let q := ask (str "GET") (str "https://shop.example") [] [] in
  exists r, fst (cors shop h0 nobody q 0) = HReturn (Some r) None /\
    hvalues (snd (fst (received (written_toy (fun m => m) (fun m => m) r get_req)))) (str "Vary") = [str "Cookie"] /\
    hvalues (snd (fst (received (written_toy (@rev _) (fun m => m) r get_req)))) (str "Vary") = [str "Origin"].
Proof. cbv zeta. eexists. split; [vm_compute; reflexivity|]. vm_compute. auto. Qed.

(** A POST request without a body. *)
Lemma bare_post_case :
  let o := str "https://shop.example" in
  let q := ask (str "POST") o [] [] in
  answered counting nobody q 0 page 1 /\ carries q h_origin o /\ allows_origin shop o /\ allows shop q /\
  cors shop counting nobody q 0 = (HReturn None (Some EAccessDenied), 1).
Proof.
  cbv zeta. split; [split; [reflexivity|exact I]|]. split; [apply ask_carries|]. split; [right; now left|]. split.
  - unfold allows. split; [intros [E _]; discriminate E|]. split; [intros [E _]; discriminate E|]. intros _. exists (str "POST").
    split; [right; now left|reflexivity].
  - vm_compute. reflexivity.
Qed.

Lemma any_credentials_case :
  let c := CorsConfig true true 0 [] [str "GET"] [] [] in
  exists r, fst (cors c counting nobody (ask (str "GET") (str "https://evil.example") [] []) 0) = HReturn (Some r) None /\
    get_headers r = Some [(h_acac, str "true"); (h_acao, str "*"); (str "Vary", str "Accept")].
Proof. cbv zeta. eexists. split; vm_compute; reflexivity. Qed.

Definition strict : sec_config := SecConfig true 31536000 true true true xfo_allow_from (str "ALLOW-FROM") (str "https://a.example") true true.
Lemma security_case :
  let q := XReq (str "GET") [] [] [] true (str "api.example") in
  let '(w, os) := serve_in_turn (security_headers strict counting) nobody [q; q] (0, SecCache [] []) in
  fst w = 2 /\
  exists r m, os = [HReturn (Some r) None; HReturn (Some r) None] /\ get_headers r = Some m /\
    alookup (str "Strict-Transport-Security") m = Some (str "max-age=31536000;includeSubDomains;preload") /\
    alookup (str "X-Frame-Options") m = Some (str "ALLOW-FROM https://a.example") /\
    alookup (str "Vary") m = Some (str "Accept").
Proof. vm_compute. split; [reflexivity|]. eexists. eexists. split; [reflexivity|]. split; [reflexivity|]. auto. Qed.

Lemma deny_empty :
  let c := SecConfig false 0 false false true xfo_deny [] [] false false in
  exists r m, fst (security_headers c counting nobody (ask (str "GET") [] [] []) (0, SecCache [] [])) = HReturn (Some r) None /\
    get_headers r = Some m /\ alookup (str "X-Frame-Options") m = Some [].
Proof. cbv zeta. eexists. eexists. split; [vm_compute; reflexivity|]. split; vm_compute; reflexivity. Qed.

(** C75. *)
Lemma no_origin_case :
  let q o := XReq (str "GET") [(h_origin, [o])] [] [] true (str "api.example") in
  let any := CorsConfig true false 0 [] [str "GET"] [] [] in
  (forall o, In o [[]; str "https://shop.example%00"; str "//shop.example"; str "shop.example"] ->
     carries (q o) h_origin o /\ no_origin o /\ fst (cors any counting nobody (q o) 0) = HReturn None (Some EAccessDenied)) /\
  is_answer (fst (cors any counting nobody (q (str "null")) 0)) /\ ~ no_origin (str "null").
Proof.
  cbv zeta. split.
  - intros o I1.
    assert (C : forall o', carries (XReq (str "GET") [(h_origin, [o'])] [] [] true (str "api.example")) h_origin o') by (intro o'; exists [o']; split; reflexivity).
    split; [apply C|].
    assert (P : forall c (s : bytes), existsb (Ascii.eqb c) s = true -> In c s).
    { intros c s H. apply existsb_exists in H. destruct H as (y & I2 & E). apply Ascii.eqb_eq in E. now subst y. }
    assert (P' : forall c (s : bytes), existsb (Ascii.eqb c) s = false -> ~ In c s).
    { intros c s H J. rewrite (proj2 (existsb_exists (Ascii.eqb c) s)) in H; [discriminate H|]. exists c. split; [exact J|apply Ascii.eqb_refl]. }
    destruct I1 as [<-|[<-|[<-|[<-|[]]]]]; (split; [|vm_compute; reflexivity]).
    + now left.
    + right. left. apply P. reflexivity.
    + right. right. split; [apply P'; reflexivity|discriminate].
    + right. right. split; [apply P'; reflexivity|discriminate].
  - split; [vm_compute; eexists; reflexivity|]. intros [H|[H|[_ H]]]; [discriminate H| |now apply H].
    cbn in H. repeat (destruct H as [H|H]; [discriminate H|]). exact H.
Qed.

Lemma announced_case :
  let o := str "https://shop.example" in
  let c := CorsConfig false true 600 [str "X-Total"; str "X-Page"] [str "GET"; str "POST"] [str "X-Token"] [o] in
  let h0 : handler xreq response nat := fun _ _ w =>
    (HReturn (Some (RText (HResp 200 [] (Some [(str "Vary", str "Accept"); (str "X-Total", str "3")]) None) (str "hi"))) None, S w) in
  let q := XReq (str "OPTIONS") [(h_origin, [o]); (h_acrm, [str "post"]); (h_acrh, [str "x-token"])] [] [] true (str "api.example") in
  exists m, cors c h0 nobody q 0 = (HReturn (Some (RText (HResp 200 [] (Some m) None) (str "hi"))) None, 1) /\
    alookup h_vary m = Some (str "Accept,Origin,Access-Control-Request-Method,Access-Control-Request-Headers") /\
    alookup h_aceh m = Some (str "X-Total,X-Page") /\ alookup h_acam m = Some (str "GET,POST") /\ alookup h_acah m = Some (str "X-Token") /\
    alookup h_acma m = Some (str "600") /\ alookup (str "X-Total") m = Some (str "3") /\
    exists m', cors c h0 nobody (ask (str "GET") o [] []) 0 = (HReturn (Some (RText (HResp 200 [] (Some m') None) (str "hi"))) None, 1) /\
      alookup h_vary m' = Some (str "Accept,Origin") /\ alookup h_aceh m' = Some (str "X-Total,X-Page") /\ alookup h_acma m' = None.
Proof.
  cbv zeta. eexists. split; [vm_compute; reflexivity|]. repeat (split; [vm_compute; reflexivity|]).
  eexists. split; [vm_compute; reflexivity|]. vm_compute. auto.
Qed.
