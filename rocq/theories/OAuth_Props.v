(** * Properties C50 to C52 and C61 to C63: OAuth *)
From Coq Require Import List NArith ZArith Ascii String Bool Arith.
From Verif Require Import GoBase Http_Model Cache_Model Auth_Model Mux_Model Csrf_Model Csrf_Spec Chain_Model OAuth_Model OAuth_Spec OAuth_Proofs OAuthUrl_Proofs.
Import ListNotations.
Local Open Scope string_scope.
Local Open Scope list_scope.
Local Open Scope nat_scope.

(** C50: after any history of requests a callback runs the handler of the application
    exactly if it is in order and the fetches succeed, with that token and user;
    otherwise the handler has no part in the outcome, an error or a panic of a fetch. *)
Theorem C50_known_state : forall (World Resp : Type) (cfg : oconfig World) prefix base (h0 : handler oreq (oresp Resp) World) c w qs q,
  oq_initiate q = false ->
  let cw := fst (serve_in_turn (oauth_endpoints cfg prefix base (beside_cache h0)) c qs (new_cache, w)) in
  (exists p c' w', in_order cfg qs q p /\ completes cfg prefix base c q p (snd cw) c' w' /\
     forall h : handler oreq (oresp Resp) (cache * World), oauth_endpoints cfg prefix base h c q cw = h c' q (fst cw, w')) \/
  ((forall p c' w', in_order cfg qs q p -> ~ completes cfg prefix base c q p (snd cw) c' w') /\
   exists o w', ((exists e, o = HReturn None (Some e)) \/ (exists v, o = HPanic v)) /\
     forall h : handler oreq (oresp Resp) (cache * World), oauth_endpoints cfg prefix base h c q cw = (o, (fst cw, w'))).
Proof. exact (@callback_cases). Qed.
Print Assumptions C50_known_state.

(** C50: the first endpoint sends the browser to a configured provider with a state... *)
Theorem C50_flow_starts : forall (World Resp : Type) (cfg : oconfig World) prefix base (h : handler oreq (oresp Resp) (cache * World)) c q cw,
  starts_flow cfg q -> exists p, In p (oc_providers cfg) /\
  fst (oauth_endpoints cfg prefix base h c q cw) =
    HReturn (Some (ORedirect (pv_initiate_url p (oc_website cfg ++ resolve_path prefix base ++ str "/" ++ pv_name p)
      (state_of q) (oc_fetch_user cfg)))) None.
Proof. exact (@initiate_redirects). Qed.
Print Assumptions C50_flow_starts.

(** ... that is live from then on. *)
Theorem C50_state_issued : forall (World : Type) (cfg : oconfig World) qs q now,
  starts_flow cfg q ->
  (now < oq_now q + oc_expiration cfg)%Z -> state_live cfg (qs ++ [q]) now (state_of q).
Proof. exact (@state_starts_live). Qed.
Print Assumptions C50_state_issued.

(** Case: a callback in order. *)
Example C50_case : in_order demo_config [demo_start] (demo_callback 10 (str "a")) demo_provider /\
  completes demo_config [] (str "/oauth/authorize") (Ctx None None None) (demo_callback 10 (str "a")) demo_provider tt
    (with_principal (with_token (Ctx None None None) (plain_token (str "token-a"))) (user_principal (User (str "ann") (str "Ann") (str "site-a") []))) tt.
Proof. exact (@demo_in_order). Qed.

(** Case: a flow, two callbacks with its state, and one when the state has expired. *)
Example C50_case_run :
  snd (serve_in_turn (oauth_endpoints demo_config [] (str "/oauth/authorize") (beside_cache demo_handler)) (Ctx None None None)
    [demo_start; demo_callback 10 (str "a"); demo_callback 20 (str "b"); demo_callback 100 (str "c")] (new_cache, tt)) =
  [HReturn (Some (ORedirect (str "https://shop.example/oauth/authorize/githubabcdefghijkl"))) None;
   HReturn (Some (OAnswer (Some (str "token-a"), Some (str "ann")))) None;
   HReturn (Some (OAnswer (Some (str "token-b"), Some (str "ann")))) None;
   HReturn None (Some EUnauthorized)].
Proof. exact (@state_used_twice). Qed.

(** C51 is false: one state lets two callbacks through. *)
Theorem C51_state_once_refuted : exists (cfg : oconfig unit) c h start q1 q2 r1 r2,
  oq_initiate start = true /\ oq_initiate q1 = false /\ oq_initiate q2 = false /\
  query_value q1 (str "state") (state_of start) /\ query_value q2 (str "state") (state_of start) /\
  (forall c q w, fst (h c q w) <> HReturn None (Some EUnauthorized)) /\
  exists r0, snd (serve_in_turn (oauth_endpoints cfg [] (str "/oauth/authorize") (beside_cache (Resp := oresp (option bytes * option bytes)) h)) c
    [start; q1; q2] (new_cache, tt)) =
  [r0; HReturn (Some (OAnswer r1)) None; HReturn (Some (OAnswer r2)) None].
Proof. exact (@state_accepted_twice). Qed.
Print Assumptions C51_state_once_refuted.

(** C52: an identifier has the requested length and alphabet. *)
Theorem C52_unique_id : forall n rnd,
  List.length (generate_unique_id n rnd) = n /\
  forall c, In c (generate_unique_id n rnd) -> In c (str "abcdefghijklmnopqrstuvwxyz0123456789").
Proof. exact (@unique_ids). Qed.
Print Assumptions C52_unique_id.

(** All texts of this alphabet are possible. *)
Theorem C52_unique_id_all : forall s,
  (forall c, In c s -> In c (str "abcdefghijklmnopqrstuvwxyz0123456789")) ->
  exists rnd, (forall i, (rnd i < 36)%N) /\ generate_unique_id (List.length s) rnd = s.
Proof. exact (@every_id_possible). Qed.
Print Assumptions C52_unique_id_all.

Example C52_case : generate_unique_id 5 (fun i => N.of_nat (7 * i)) = str "ahov3".
Proof. exact (@id_case). Qed.

(** C61 is false: without own scopes the GitHub URL asks for no scope at all. *)
Theorem C61_user_scope_refuted : exists p redirect state, forall v, ~ url_query_has (github_initiate_url p redirect state true) (str "scope") v.
Proof. exact (@github_no_scope). Qed.
Print Assumptions C61_user_scope_refuted.

(** C61, what holds: with own scopes the scope of the user details is asked for. *)
Theorem C61_user_scope_github_partial : forall p redirect state,
  gh_scopes p <> [] ->
  exists v, url_query_has (github_initiate_url p redirect state true) (str "scope") v /\ has_word v (str "user").
Proof. exact (@github_user_scope). Qed.
Print Assumptions C61_user_scope_github_partial.

(** C61, what holds: the Google URL always asks for the scopes of the user details. *)
Theorem C61_user_scope_google_partial : forall p redirect state,
  exists v, url_query_has (google_initiate_url p redirect state true) (str "scope") v /\
    forall w, In w google_user_scopes -> has_word v w.
Proof. exact (@google_user_scope). Qed.
Print Assumptions C61_user_scope_google_partial.

(** Case; that of GitHub is [C62_case] below. *)
Example C61_case :
  google_initiate_url (Google (str "id") (str "secret") [str "calendar"] false false [] []) (str "https://a.b/c") (str "s") true =
  str "https://accounts.google.com/o/oauth2/v2/auth?client_id=id&include_granted_scopes=false&redirect_uri=https%3A%2F%2Fa.b%2Fc&response_type=code&scope=calendar+openid+https%3A%2F%2Fwww.googleapis.com%2Fauth%2Fuserinfo.email+https%3A%2F%2Fwww.googleapis.com%2Fauth%2Fuserinfo.profile&state=s".
Proof. vm_compute. reflexivity. Qed.

(** C62: whatever bytes they have, state, redirect URL and client arrive at the provider. *)
Theorem C62_initiate_urls : forall redirect state user,
  (forall p, url_query_has (github_initiate_url p redirect state user) (str "state") state /\
     url_query_has (github_initiate_url p redirect state user) (str "redirect_uri") redirect /\
     url_query_has (github_initiate_url p redirect state user) (str "client_id") (gh_client p)) /\
  (forall p, url_query_has (google_initiate_url p redirect state user) (str "state") state /\
     url_query_has (google_initiate_url p redirect state user) (str "redirect_uri") redirect /\
     url_query_has (google_initiate_url p redirect state user) (str "client_id") (gg_client p)).
Proof. exact (@initiate_urls). Qed.
Print Assumptions C62_initiate_urls.

(** C62: the URL leads to GitHub and asks for exactly the options that are set. *)
Theorem C62_github_options : forall p redirect state user v,
  let url := github_initiate_url p redirect state user in
  fst (cut_at "?"%char url) = str "https://github.com/login/oauth/authorize" /\
  (url_query_has url (str "allow_signup") v <-> v = if gh_signup p then str "true" else str "false") /\
  (url_query_has url (str "login") v <-> v <> [] /\ v = gh_login p) /\
  (url_query_has url (str "scope") v <-> gh_scopes p <> [] /\
     v = join (str " ") (gh_scopes p ++ if user then [str "user"] else [])).
Proof. exact (@github_options). Qed.
Print Assumptions C62_github_options.

(** C62: the URL leads to Google, asks for a code, and has exactly the options that are set. *)
Theorem C62_google_options : forall p redirect state user v,
  let url := google_initiate_url p redirect state user in
  fst (cut_at "?"%char url) = str "https://accounts.google.com/o/oauth2/v2/auth" /\
  (url_query_has url (str "response_type") v <-> v = str "code") /\
  (url_query_has url (str "include_granted_scopes") v <-> v = if gg_granted p then str "true" else str "false") /\
  (url_query_has url (str "access_type") v <-> gg_offline p = true /\ v = str "offline") /\
  (url_query_has url (str "login_hint") v <-> v <> [] /\ v = gg_hint p) /\
  (url_query_has url (str "prompt") v <-> gg_prompts p <> [] /\ v = join (str " ") (gg_prompts p)) /\
  (url_query_has url (str "scope") v <->
     v = join (str " ") (gg_scopes p ++ if user then [str "openid"; str "https://www.googleapis.com/auth/userinfo.email";
                                                       str "https://www.googleapis.com/auth/userinfo.profile"] else [])).
Proof. exact (@google_options). Qed.
Print Assumptions C62_google_options.

Example C62_case : github_initiate_url (GitHub (str "id") (str "secret") [] true [str "repo"]) (str "https://a.b/c d") (str "x&y") true =
  str "https://github.com/login/oauth/authorize?allow_signup=true&client_id=id&redirect_uri=https%3A%2F%2Fa.b%2Fc+d&scope=repo+user&state=x%26y".
Proof. exact (@url_case). Qed.

(** C63 is false for an empty base path below a prefix that ends with a slash. *)
Theorem C63_redirect_refuted : exists prefix base,
  forall (World : Type) (cfg : oconfig World) p route, authorize_route prefix base = route ++ str "{providerName}" ->
    redirect_url cfg prefix base p <> oc_website cfg ++ route ++ pv_name p.
Proof. exact (@redirect_astray). Qed.
Print Assumptions C63_redirect_refuted.

(** C63, what holds: with a base path, the redirect URL is the path of the callback with
    the name of the provider in place of the variable. *)
Theorem C63_redirect_partial : forall (World : Type) (cfg : oconfig World) prefix base p,
  base <> [] ->
  exists route, authorize_route prefix base = route ++ str "/{providerName}" /\
    redirect_url cfg prefix base p = oc_website cfg ++ route ++ str "/" ++ pv_name p.
Proof. exact (@redirect_below). Qed.
Print Assumptions C63_redirect_partial.

Example C63_case :
  authorize_route (str "/shop") (str "oauth/back") = str "/shop/oauth/back/{providerName}" /\
  redirect_url demo_config (str "/shop") (str "oauth/back") demo_provider = str "https://shop.example/shop/oauth/back/github".
Proof. vm_compute. auto. Qed.
