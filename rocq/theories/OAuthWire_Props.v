(** * Properties C60 and C98 to C102: the exchange with the OAuth providers *)
From Coq Require Import List NArith ZArith Ascii String Bool Arith.
From Verif Require Import GoBase Http_Model Cache_Model Auth_Model Mux_Model Csrf_Model Csrf_Spec Chain_Model OAuth_Model OAuth_Spec OAuth_Proofs Json_Model
  OAuthWire_Model OAuthWire_Spec OAuthWire_Proofs.
Import ListNotations.
Local Open Scope string_scope.
Local Open Scope list_scope.
Local Open Scope N_scope.

(** C98 is false of GitHub: no request for a token has the redirect URL, the grant or the
    type of its body. *)
Theorem C98_redirect_refuted : ~ (forall p code, exists v, form_has (or_body (github_token_request p code)) (str "redirect_uri") v) /\
  forall p code, hvalues (or_header (github_token_request p code)) (str "Content-Type") = [] /\
    forall v, ~ form_has (or_body (github_token_request p code)) (str "redirect_uri") v /\
              ~ form_has (or_body (github_token_request p code)) (str "grant_type") v.
Proof. exact (@redirect_missing). Qed.
Print Assumptions C98_redirect_refuted.

(** C98, what holds: each call sends one request; for GitHub a form with the client, the
    secret and the code, for Google an announced JSON object that also has the grant and the
    redirect URL, for all texts. *)
Theorem C98_carried_partial : forall (World : Type) (ask : outreq -> World -> answer * World) gp qp c redirect code w,
  (exists r, asks_github gp code r /\ snd (pv_token (github_provider ask gp) c redirect code w) = snd (ask r w)) /\
  (exists r, asks_google qp redirect code r /\ snd (pv_token (google_provider ask qp) c redirect code w) = snd (ask r w)).
Proof. exact (@token_requests). Qed.
Print Assumptions C98_carried_partial.

Example C98_case : or_body (google_token_request demo_google (str "https://shop.example/oauth/authorize/google") (str "4/P7q")) =
  str "{""client_id"":""shop"",""client_secret"":""s\""t"",""code"":""4/P7q"",""grant_type"":""authorization_code"",""redirect_uri"":""https://shop.example/oauth/authorize/google""}".
Proof. exact (@google_body_case). Qed.

(** C99: the token goes to the endpoint for users in one Authorization header, unchanged;
    a token that no header can hold is not sent, and the call fails. *)
Theorem C99_bearer : forall (World : Type) (ask : outreq -> World -> answer * World) gp qp c token w,
  (header_text (at_token token) ->
     (exists r, asks_user (str "https://api.github.com/user") (at_token token) r /\ snd (pv_user (github_provider ask gp) c token w) = snd (ask r w)) /\
     (exists r, asks_user (str "https://www.googleapis.com/oauth2/v1/userinfo") (at_token token) r /\ snd (pv_user (google_provider ask qp) c token w) = snd (ask r w))) /\
  (~ header_text (at_token token) ->
     (exists e, pv_user (github_provider ask gp) c token w = (FErr e, w)) /\ (exists e, pv_user (google_provider ask qp) c token w = (FErr e, w))).
Proof. exact (@user_requests). Qed.
Print Assumptions C99_bearer.

(** Case: a token, and one that would add a header. *)
Example C99_case : header_text (str "t0ken") /\ ~ header_text (str "t0ken" ++ [ascii_of_N 13; ascii_of_N 10] ++ str "X: y").
Proof. exact (@token_case). Qed.

(** C100 is false: if the answer grants no scope the token has one, the empty text. *)
Theorem C100_scope_refuted : forall a o tok ty, success a o -> text_at o (str "access_token") tok -> text_at o (str "token_type") ty ->
  text_at o (str "scope") [] ->
  (exists t, github_token a = FOk t /\ at_scopes t = Some [[]]) /\ (exists t, google_token a = FOk t /\ at_scopes t = Some [[]]).
Proof. exact (@empty_scope). Qed.
Print Assumptions C100_scope_refuted.

(** Case: such an answer. *)
Example C100_case_scope : let o := [(str "access_token", JvStr (str "t0ken")); (str "token_type", JvStr (str "bearer")); (str "scope", JvStr [])] in
  success (Answer 200 o) o /\ text_at o (str "access_token") (str "t0ken") /\ text_at o (str "token_type") (str "bearer") /\ text_at o (str "scope") [].
Proof. exact (@scope_case). Qed.

(** C100, what holds: token, type, scopes that are not empty, refresh token and expiry are
    those of the answer. *)
Theorem C100_fields_partial : forall a t, (github_token a = FOk t <-> github_grants a t) /\ (google_token a = FOk t <-> google_grants a t).
Proof. exact (@token_fields). Qed.
Print Assumptions C100_fields_partial.

Example C100_case :
  let o := [(str "access_token", JvStr (str "t0ken")); (str "token_type", JvStr (str "bearer")); (str "scope", JvStr (str "repo,user"));
            (str "expires_in", JvNum 3600)] in
  success (Answer 200 o) o /\ text_at o (str "access_token") (str "t0ken") /\ text_at o (str "token_type") (str "bearer") /\
  text_at o (str "scope") (join (str ",") [str "repo"; str "user"]) /\
  github_grants (Answer 200 o) (AccessToken (str "t0ken") (str "bearer") (Some [str "repo"; str "user"]) [] 0) /\
  google_grants (Answer 200 o) (AccessToken (str "t0ken") (str "bearer") (Some [str "repo,user"]) [] 3600).
Proof. exact (@fields_case). Qed.

(** C101 is false: accounts with empty emails have the same identity, the empty one. *)
Theorem C101_accounts_refuted : exists a b login1 login2, login1 <> login2 /\
  (exists o, success a o /\ text_at o (str "login") login1) /\ (exists o, success b o /\ text_at o (str "login") login2) /\
  forall (World : Type) (ask : outreq -> World -> answer * World) p c token w1 w2 w1' w2', header_text (at_token token) ->
    (forall r, ask r w1 = (a, w1')) -> (forall r, ask r w2 = (b, w2')) ->
    exists u v, fst (pv_user (github_provider ask p) c token w1) = FOk u /\ fst (pv_user (github_provider ask p) c token w2) = FOk v /\
      pr_id (user_principal u) = [] /\ pr_id (user_principal v) = [].
Proof. exact (@accounts_merge). Qed.
Print Assumptions C101_accounts_refuted.

(** C101 is false: whoever has an email at GitHub has the identity of the one who has it at
    Google. *)
Theorem C101_providers_refuted : forall (World : Type) (ask : outreq -> World -> answer * World) gp qp c t1 t2 w1 a1 w1' w2 a2 w2' u v,
  header_text (at_token t1) -> header_text (at_token t2) ->
  (forall r, asks_user (str "https://api.github.com/user") (at_token t1) r -> ask r w1 = (a1, w1')) ->
  (forall r, asks_user (str "https://www.googleapis.com/oauth2/v1/userinfo") (at_token t2) r -> ask r w2 = (a2, w2')) ->
  names_user (str "github") (str "login") a1 u -> names_user (str "google") (str "id") a2 v -> us_id u = us_id v ->
  fst (pv_user (github_provider ask gp) c t1 w1) = FOk u /\ fst (pv_user (google_provider ask qp) c t2 w2) = FOk v /\
    pr_id (user_principal u) = pr_id (user_principal v) /\ forall p, pr_has (user_principal u) p = pr_has (user_principal v) p.
Proof. exact (@providers_merge). Qed.
Print Assumptions C101_providers_refuted.

(** C101, what holds: the identity is the email of the answer or else its login or id, and
    there is none without them; name and platform are right. *)
Theorem C101_named_partial : forall platform idkey a u, provider_user platform idkey a = FOk u <-> names_user platform idkey a u.
Proof. exact (@identity_named). Qed.
Print Assumptions C101_named_partial.

(** Case: answers with an email at both providers, and one without. *)
Example C101_case :
  names_user (str "github") (str "login") (Answer 200 [(str "login", JvStr (str "ann")); (str "email", JvStr (str "ann@shop.example"))])
    (User (str "ann@shop.example") [] (str "github") []) /\
  names_user (str "google") (str "id") (Answer 200 [(str "id", JvStr (str "7")); (str "email", JvStr (str "ann@shop.example")); (str "name", JvStr (str "Ann"))])
    (User (str "ann@shop.example") (str "Ann") (str "google") []) /\
  names_user (str "github") (str "login") (Answer 201 [(str "login", JvStr (str "ann")); (str "email", JvOther)]) (User (str "ann") [] (str "github") []).
Proof. exact (@named_case). Qed.

(** C102: after any history of requests a callback shows the application the token that the
    provider gave for the code of the callback and the user that it named for that token, or
    the application does not run. *)
Theorem C102_exchanged_partial : forall (World Resp : Type) (ask : outreq -> World -> answer * World) gp qp (cfg : oconfig World) prefix base
    (h0 : handler oreq (oresp Resp) World) c w qs q,
  oc_providers cfg = [github_provider ask gp; google_provider ask qp] -> oq_initiate q = false ->
  let cw := fst (serve_in_turn (oauth_endpoints cfg prefix base (beside_cache h0)) c qs (new_cache, w)) in
  (exists c' w',
     (oq_provider_var q = str "github" /\
        exchanged ask (asks_github gp) github_grants (str "https://api.github.com/user") (names_user (str "github") (str "login")) (oc_fetch_user cfg) c q (snd cw) c' w' \/
      oq_provider_var q = str "google" /\
        exchanged ask (asks_google qp (oc_website cfg ++ resolve_path prefix base ++ str "/google")) google_grants
          (str "https://www.googleapis.com/oauth2/v1/userinfo") (names_user (str "google") (str "id")) (oc_fetch_user cfg) c q (snd cw) c' w') /\
     forall h : handler oreq (oresp Resp) (cache * World), oauth_endpoints cfg prefix base h c q cw = h c' q (fst cw, w')) \/
  (exists o w', ((exists e, o = HReturn None (Some e)) \/ (exists v, o = HPanic v)) /\
     forall h : handler oreq (oresp Resp) (cache * World), oauth_endpoints cfg prefix base h c q cw = (o, (fst cw, w'))).
Proof. exact (@callback_exchanged). Qed.
Print Assumptions C102_exchanged_partial.

(** C102: with a provider that answers these requests the callback completes. *)
Theorem C102_answers_partial : forall (World : Type) (ask : outreq -> World -> answer * World) (cfg : oconfig World) prefix base c q gp qp w code a1 w1 tok a2 w2 u,
  query_value q (str "code") code -> header_text (at_token tok) ->
  ((forall r, asks_github gp code r -> ask r w = (a1, w1)) -> github_grants a1 tok ->
   (oc_fetch_user cfg = false -> completes cfg prefix base c q (github_provider ask gp) w (Ctx (cx_principal c) (cx_nonce c) (Some tok)) w1) /\
   (oc_fetch_user cfg = true -> (forall r, asks_user (str "https://api.github.com/user") (at_token tok) r -> ask r w1 = (a2, w2)) ->
    names_user (str "github") (str "login") a2 u ->
    completes cfg prefix base c q (github_provider ask gp) w (Ctx (Some (user_principal u)) (cx_nonce c) (Some tok)) w2)) /\
  ((forall r, asks_google qp (oc_website cfg ++ resolve_path prefix base ++ str "/google") code r -> ask r w = (a1, w1)) -> google_grants a1 tok ->
   (oc_fetch_user cfg = false -> completes cfg prefix base c q (google_provider ask qp) w (Ctx (cx_principal c) (cx_nonce c) (Some tok)) w1) /\
   (oc_fetch_user cfg = true -> (forall r, asks_user (str "https://www.googleapis.com/oauth2/v1/userinfo") (at_token tok) r -> ask r w1 = (a2, w2)) ->
    names_user (str "google") (str "id") a2 u ->
    completes cfg prefix base c q (google_provider ask qp) w (Ctx (Some (user_principal u)) (cx_nonce c) (Some tok)) w2)).
Proof. exact (@answers_complete). Qed.
Print Assumptions C102_answers_partial.

(** Case: a flow with GitHub; what was sent and what the application saw. *)
Example C102_case :
  let run := serve_in_turn (oauth_endpoints wire_config [] (str "/oauth/authorize") (beside_cache wire_handler)) (Ctx None None None)
    [wire_start; demo_callback 10 (str "a b")] (new_cache, []) in
  snd (fst run) = [str "client_id=shop&client_secret=s%26c%3Dt&code=a+b"; []; str "Bearer t0ken"] /\
  List.nth 1 (snd run) (HPanic None) = HReturn (Some (OAnswer
    (Some (AccessToken (str "t0ken") (str "bearer") (Some [str "repo"; str "user"]) [] 0),
     Some (str "ann", GStruct [(str "Id", GStr (str "ann")); (str "Name", GStr (str "Ann")); (str "IdentityPlatform", GStr (str "github"));
                               (str "Groups", GNil); (str "Attachment", GNil)])))) None.
Proof. exact (@wire_case). Qed.

(** C60 is false: the answer that GitHub gives for a wrong code makes the fetch panic. *)
Theorem C60_answers_refuted : exists a o, success a o /\ text_at o (str "error") (str "bad_verification_code") /\ github_token a = FPanic.
Proof. exact (@error_answer_panics). Qed.
Print Assumptions C60_answers_refuted.

(** C60 is false for the user details too: an id that is a number. *)
Theorem C60_user_answers_refuted : exists a o, success a o /\ alookup (str "id") o = Some (JvNum 7) /\ provider_user (str "google") (str "id") a = FPanic.
Proof. exact (@numeric_id_panics). Qed.
Print Assumptions C60_user_answers_refuted.

(** C60, which answers make the providers panic: those of success without a token or its type,
    and without email and name of the user; no others. *)
Theorem C60_panics_partial : forall a,
  (github_token a = FPanic <-> exists o, success a o /\ (no_text_at o (str "access_token") \/ no_text_at o (str "token_type"))) /\
  (google_token a = FPanic <-> exists o, success a o /\ (no_text_at o (str "access_token") \/ no_text_at o (str "token_type"))) /\
  (forall platform idkey, provider_user platform idkey a = FPanic <-> exists o, success a o /\ no_text_at o (str "email") /\ no_text_at o idkey).
Proof. exact (@wire_panics). Qed.
Print Assumptions C60_panics_partial.

(** Case: what GitHub answers for a wrong code. *)
Example C60_wire_case : let a := Answer 200 [(str "error", JvStr (str "bad_verification_code"))] in
  github_token a = FPanic /\ success a [(str "error", JvStr (str "bad_verification_code"))].
Proof. exact (@wire_panics_case). Qed.
