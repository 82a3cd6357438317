(** * Properties C118 and C119: logins *)
From Coq Require Import List NArith ZArith Ascii String Bool.
From Verif Require Import GoBase Http_Model Glob_Model Pattern_Model Url_Model Match_Model Router_Model Cache_Model Auth_Model Chain_Model Serve_Model
  Mux_Model Resp_Model Json_Model JsonErr_Model Cors_Model App_Model OAuth_Model OAuthWire_Model Example_Model Login_Model OAuth_Spec JsonErr_Spec Login_Spec
  Chain_Spec Mux_Spec App_Spec Pattern_Spec Url_Spec Routing_Spec Priority_Spec Choice_Spec Witness_Proofs CorsCases_Proofs AppWire_Spec AppWhole_Proofs Example_Spec ExampleAns_Proofs
  OAuthWire_Spec LoginExa_Proofs LoginCase_Proofs LoginJoin_Proofs LoginHome_Proofs.
Import ListNotations.
Local Open Scope string_scope.
Local Open Scope list_scope.
Local Open Scope nat_scope.

(** C118, what holds: the endpoint that starts the flow answers the initiate path below the prefix of the mux,
    with its middlewares around it. *)
Theorem C118_start_partial : forall (World : Type) (user : nat -> handler areq response (cache * World)) mid files pages k oh oc render location redirect_body
  grow fuel re ci context mapping rs0 rs cs1 cs2 m ip base own1 own2 h1 h2 a0 a x0 xs mx q ts buf ls path1,
  resources context mapping rs0 -> wires [VMux [] []] (cs1 ++ handle_oauth_at m ip base own1 own2 h1 h2 ++ cs2) rs ->
  new_app fuel re ci context mapping = (a0, x0) -> smooth x0 ->
  acalls grow fuel re a0 (cs1 ++ handle_oauth_at m ip base own1 own2 h1 h2 ++ cs2) = (a, xs) -> Forall smooth xs ->
  ordinary re ci (rs0 ++ rs) -> nth_error (ms_muxes (ap_mux a)) m = Some mx ->
  same_method (str "GET") (xq_method (rq_x q)) -> (blen (rq_path q) < 65536)%N -> segments_of (rq_path q) ts -> List.length buf = 19 ->
  clear_choice re ci (rs0 ++ rs) (xq_method (rq_x q)) ts ->
  joined (mx_prefix mx) ip path1 -> pieces_of (re_ok re) ci path1 (map Lit ls) -> Forall2 (same_text ci) ls ts ->
  exists i e k0, nth_error (rs0 ++ rs) i = Some e /\ en_own (wr_entry e) = own1 /\ en_target (wr_entry e) = TUser h1 /\
  forall f x w evs w' b fin, app_serve user mid files pages k oh oc render location redirect_body (k0 + f) re a q buf x w = (evs, w', b, fin) ->
    exists mc evs', sees mc q [] /\ visible evs = EvRun i :: evs' /\
      answered_by user mid files pages (sends k oh oc render location redirect_body q) (wr_entry e) x q mc w evs' w' b fin.
Proof. exact (@start_joined). Qed.
Print Assumptions C118_start_partial.

(** C118, what holds: the callback answers the base path below the prefix followed by the name
    of a provider, unless another registration is more specific. *)
Theorem C118_return_partial : forall (World : Type) (user : nat -> handler areq response (cache * World)) mid files pages k oh oc render location redirect_body
  grow fuel re ci context mapping rs0 rs cs1 cs2 m ip base own1 own2 h1 h2 a0 a x0 xs mx q buf ls name root,
  resources context mapping rs0 -> wires [VMux [] []] (cs1 ++ handle_oauth_at m ip base own1 own2 h1 h2 ++ cs2) rs ->
  new_app fuel re ci context mapping = (a0, x0) -> smooth x0 ->
  acalls grow fuel re a0 (cs1 ++ handle_oauth_at m ip base own1 own2 h1 h2 ++ cs2) = (a, xs) -> Forall smooth xs ->
  ordinary re ci (rs0 ++ rs) -> nth_error (ms_muxes (ap_mux a)) m = Some mx ->
  same_method (str "GET") (xq_method (rq_x q)) -> (blen (rq_path q) < 65536)%N -> List.length buf = 19 ->
  base <> [] -> joined (mx_prefix mx) base root -> pieces_of (re_ok re) ci (root ++ str "/{providerName}") (map Lit ls ++ [Var (str "providerName")]) ->
  ~ In (str "..") ls -> List.length ls <= 18 -> one_segment name ->
  rq_path q = root ++ str "/" ++ name ->
  clear_choice re ci (rs0 ++ rs) (xq_method (rq_x q)) (ls ++ [name]) ->
  (forall i r ks bs, leads re ci (rs0 ++ rs) (xq_method (rq_x q)) i r ks -> reads_as ci (re_match re) ks (ls ++ [name]) bs ->
     ~ more_specific ks (map Lit ls ++ [Var (str "providerName")])) ->
  exists i e k0, nth_error (rs0 ++ rs) i = Some e /\ en_own (wr_entry e) = own2 /\ en_target (wr_entry e) = TUser h2 /\
  forall f x w evs w' b fin, app_serve user mid files pages k oh oc render location redirect_body (k0 + f) re a q buf x w = (evs, w', b, fin) ->
    exists mc evs', sees mc q [(str "providerName", name)] /\ visible evs = EvRun i :: evs' /\
      answered_by user mid files pages (sends k oh oc render location redirect_body q) (wr_entry e) x q mc w evs' w' b fin.
Proof. exact (@return_joined). Qed.
Print Assumptions C118_return_partial.

(** C118, what holds: the redirect URL of the started flow leads back to the callback, which
    knows the state until it expires and hands the visitor with token and user to the handler of the application. *)
Theorem C118_flow_partial : forall (World : Type) params now random (user : nat -> handler areq response (cache * World)) mid files pages k oh oc render location redirect_body
  grow fuel re ci context mapping rs0 rs cs1 cs2 m ip base own1 own2 h1 h2 a0 a x0 xs mx cfg p h q1 ts1 buf1 ls1 q2 buf2 ls2 path1 root,
  resources context mapping rs0 -> wires [VMux [] []] (cs1 ++ handle_oauth_at m ip base own1 own2 h1 h2 ++ cs2) rs ->
  new_app fuel re ci context mapping = (a0, x0) -> smooth x0 ->
  acalls grow fuel re a0 (cs1 ++ handle_oauth_at m ip base own1 own2 h1 h2 ++ cs2) = (a, xs) -> Forall smooth xs ->
  ordinary re ci (rs0 ++ rs) -> nth_error (ms_muxes (ap_mux a)) m = Some mx ->
  user h1 = login_start params now random cfg (mx_prefix mx) base -> user h2 = login_return params now random cfg (mx_prefix mx) base h ->
  bare (rs0 ++ rs) h1 h2 ->
  base <> [] -> chosen cfg (params q1) p -> one_segment (pv_name p) ->
  xq_method (rq_x q1) = str "GET" -> (blen (rq_path q1) < 65536)%N -> segments_of (rq_path q1) ts1 -> List.length buf1 = 19 ->
  joined (mx_prefix mx) ip path1 -> pieces_of (re_ok re) ci path1 (map Lit ls1) -> Forall2 (same_text ci) ls1 ts1 ->
  clear_choice re ci (rs0 ++ rs) (str "GET") ts1 ->
  xq_method (rq_x q2) = str "GET" -> (blen (rq_path q2) < 65536)%N -> List.length buf2 = 19 ->
  joined (mx_prefix mx) base root -> pieces_of (re_ok re) ci (root ++ str "/{providerName}") (map Lit ls2 ++ [Var (str "providerName")]) ->
  ~ In (str "..") ls2 -> List.length ls2 <= 18 ->
  clear_choice re ci (rs0 ++ rs) (str "GET") (ls2 ++ [pv_name p]) ->
  (forall i r ks bs, leads re ci (rs0 ++ rs) (str "GET") i r ks -> reads_as ci (re_match re) ks (ls2 ++ [pv_name p]) bs ->
     ~ more_specific ks (map Lit ls2 ++ [Var (str "providerName")])) ->
  rq_path q2 = root ++ str "/" ++ pv_name p ->
  exists k0, forall f1 x1 c1 w1 evs1 c1' w1' b1 fin1,
    app_serve user mid files pages k oh oc render location redirect_body (k0 + f1) re a q1 buf1 x1 (c1, w1) = (evs1, (c1', w1'), b1, fin1) ->
    let state := generate_unique_id 12 (random w1) in
    let url := pv_initiate_url p (oc_website cfg ++ rq_path q2) state (oc_fetch_user cfg) in
    w1' = w1 /\ fin1 = SDone /\
    received b1 = redirected (location (WReq (str "GET") (xq_headers (rq_x q1)) (rq_major q1)) url) (redirect_body 302%Z url) /\
    (oc_cache cfg = true -> forall t key, cache_contains c1' t key = true <->
       (key = state /\ (t < now w1 + oc_expiration cfg)%Z) \/ (key <> state /\ cache_contains c1 t key = true)) /\
    forall f2 x2 c2 w2 evs2 cw2' b2 fin2 code x3 w3,
      app_serve user mid files pages k oh oc render location redirect_body (k0 + f2) re a q2 buf2 x2 (c2, w2) = (evs2, cw2', b2, fin2) ->
      comes_back (params q2) state code -> (oc_cache cfg = true -> cache_contains c2 (now w2) state = true) ->
      logged_in cfg p (oc_website cfg ++ rq_path q2) x2 code w2 x3 w3 ->
      exists i mc evs, sees mc q2 [(str "providerName", pv_name p)] /\ visible evs2 = EvRun i :: evs /\
        answers (sends k oh oc render location redirect_body q2) (snd (h x3 (AReq q2 mc) (c2, w3))) (fst (h x3 (AReq q2 mc) (c2, w3))) evs cw2' b2 fin2.
Proof. exact (@flow_joined). Qed.
Print Assumptions C118_flow_partial.

Example C118_case : forall k oc render, let get p w := shop_get k oc render p nobody w in
  let url := str "https://door/?to=https://shop/shop/oauth/authorize/door&state=" ++ shop_state in
  resources [] None [] /\ wires [VMux [] []] shop_calls shop_wiring /\
  (exists a0 x0 xs, new_app 60 lit_engine false [] None = (a0, x0) /\ smooth x0 /\
     acalls doubling 60 lit_engine a0 shop_calls = (shop_app, xs) /\ Forall smooth xs) /\
  ordinary lit_engine false shop_wiring /\
  option_map mx_prefix (nth_error (ms_muxes (ap_mux shop_app)) 1) = Some (str "/shop") /\ bare shop_wiring 1 2 /\
  chosen shop_config (shop_params (plain_request GET (str "/shop/oauth/initiate"))) door /\ one_segment (str "door") /\
  segments_of (str "/shop/oauth/initiate") [str "shop"; str "oauth"; str "initiate"] /\
  pieces_of (re_ok lit_engine) false (str "/shop/oauth/authorize/{providerName}") (map Lit [str "shop"; str "oauth"; str "authorize"] ++ [Var (str "providerName")]) /\
  clear_choice lit_engine false shop_wiring GET [str "shop"; str "oauth"; str "initiate"] /\
  clear_choice lit_engine false shop_wiring GET [str "shop"; str "oauth"; str "authorize"; str "door"] /\
  (forall i r ks bs, leads lit_engine false shop_wiring GET i r ks ->
     reads_as false (re_match lit_engine) ks [str "shop"; str "oauth"; str "authorize"; str "door"] bs ->
     ~ more_specific ks (map Lit [str "shop"; str "oauth"; str "authorize"] ++ [Var (str "providerName")])) /\
  (exists evs, get (str "/shop/oauth/initiate") ([], 5%Z) = (evs, ([(shop_state, 65%Z)], 5%Z),
     redirected url (str "see " ++ url), SDone)) /\
  comes_back (shop_params (plain_request GET (str "/shop/oauth/authorize/door"))) shop_state (str "c0") /\
  (exists evs, get (str "/shop/oauth/authorize/door") ([(shop_state, 65%Z)], 64%Z) = (evs, ([(shop_state, 65%Z)], 66%Z),
     (200%Z, [(str "X-Content-Type-Options", [str "nosniff"])], str "t-c0 door"), SDone)) /\
  (exists evs, get (str "/shop/oauth/authorize/door") ([(shop_state, 65%Z)], 65%Z) = (evs, ([(shop_state, 65%Z)], 65%Z), (500%Z, [], []), SDone)).
Proof. exact (@shop_case). Qed.

(** C118 is false below a prefix with a variable: the redirect URL names the variable in braces
    instead of its value, so the visitor of one tenant comes back to another. *)
Theorem C118_prefix_refuted : forall (k : compressor) (oc : cookies -> cookies) (render : cookie -> bytes),
  option_map mx_prefix (nth_error (ms_muxes (ap_mux tenant_app)) 1) = Some (str "/{t}") /\
  (exists evs, tenant_get k oc render (str "/acme/home") ([], 5%Z) = (evs, ([], 5%Z), (200%Z, [(str "X-Content-Type-Options", [str "nosniff"])], str "tenant acme"), SDone)) /\
  (let url := str "https://door/?to=https://shop/{t}/oauth/authorize/door&state=" ++ shop_state in
   exists evs c, tenant_get k oc render (str "/acme/oauth/initiate") ([], 5%Z) = (evs, (c, 5%Z), redirected url (str "see " ++ url), SDone) /\
   exists evs' w', tenant_get k oc render (str "/{t}/oauth/authorize/door") (c, 6%Z) =
     (evs', w', (200%Z, [(str "X-Content-Type-Options", [str "nosniff"])], str "tenant {t}"), SDone)).
Proof. exact (@tenant_lost). Qed.
Print Assumptions C118_prefix_refuted.

(** C119, what holds: a login at the example, from the first request to the handler. *)
Theorem C119_login_partial : forall (World : Type) (ask : outreq -> World -> answer * World) params now random gh_id gh_key gg_id gg_key h o (p : parts (cache * World)),
  pt_initiate p = login_start params now random (example_oauth ask gh_id gh_key gg_id gg_key) [] (str "/oauth/authorize") ->
  pt_return p = login_return params now random (example_oauth ask gh_id gh_key gg_id gg_key) [] (str "/oauth/authorize") h ->
  forall fuel pv l q1 buf1 q2 buf2, In pv (oc_providers (example_oauth ask gh_id gh_key gg_id gg_key)) ->
  xq_method (rq_x q1) = str "GET" -> rq_path q1 = str "/oauth/initiate" -> List.length buf1 = 19 -> alookup (str "provider") (params q1) = Some (pv_name pv :: l) ->
  xq_method (rq_x q2) = str "GET" -> rq_path q2 = str "/oauth/authorize/" ++ pv_name pv -> List.length buf2 = 19 ->
  exists k0, forall f1 x1 c1 w1 evs1 c1' w1' b1 fin1,
    example_serve o p (60 + fuel) (k0 + f1) q1 buf1 x1 (c1, w1) = (evs1, (c1', w1'), b1, fin1) ->
    let state := generate_unique_id 12 (random w1) in
    let url := pv_initiate_url pv (str "https://localhost:8080" ++ rq_path q2) state true in
    w1' = w1 /\ fin1 = SDone /\
    received b1 = redirected (os_location o (WReq (str "GET") (xq_headers (rq_x q1)) (rq_major q1)) url) (os_body o 302%Z url) /\
    (forall t key, cache_contains c1' t key = true <->
       (key = state /\ (t < now w1 + 60000000000)%Z) \/ (key <> state /\ cache_contains c1 t key = true)) /\
    forall f2 x2 c2 w2 evs2 cw2' b2 fin2 code x3 w3,
      example_serve o p (60 + fuel) (k0 + f2) q2 buf2 x2 (c2, w2) = (evs2, cw2', b2, fin2) ->
      comes_back (params q2) state code -> cache_contains c2 (now w2) state = true ->
      logged_in (example_oauth ask gh_id gh_key gg_id gg_key) pv (str "https://localhost:8080" ++ rq_path q2) x2 code w2 x3 w3 ->
      exists i mc evs, sees mc q2 [(str "providerName", pv_name pv)] /\ visible evs2 = EvRun i :: evs /\
        answers (sends (os_k o) (os_oh o) (os_oc o) (os_render o) (os_location o) (os_body o) q2) (snd (h x3 (AReq q2 mc) (c2, w3)))
          (guarded (pt_stack p x2 (AReq q2 mc) (c2, w2)) (fst (h x3 (AReq q2 mc) (c2, w3)))) evs cw2' b2 fin2.
Proof. exact (@example_login). Qed.
Print Assumptions C119_login_partial.

(** C119, what holds: the answer of the example to a visitor who comes back from GitHub or Google
    is JSON that says the token and the user of the answers of that provider. *)
Theorem C119_visitor_partial : forall (World : Type) (ask : outreq -> World -> answer * World) params now random gh_id gh_key gg_id gg_key o (p : parts (cache * World)),
  pt_initiate p = login_start params now random (example_oauth ask gh_id gh_key gg_id gg_key) [] (str "/oauth/authorize") ->
  pt_return p = login_return params now random (example_oauth ask gh_id gh_key gg_id gg_key) [] (str "/oauth/authorize") example_home ->
  forall fuel l q1 buf1 q2 buf2 name, name = str "github" \/ name = str "google" ->
  xq_method (rq_x q1) = str "GET" -> rq_path q1 = str "/oauth/initiate" -> List.length buf1 = 19 -> alookup (str "provider") (params q1) = Some (name :: l) ->
  xq_method (rq_x q2) = str "GET" -> rq_path q2 = str "/oauth/authorize/" ++ name -> List.length buf2 = 19 ->
  exists k0, forall f1 x1 c1 w1 evs1 c1' w1' b1 fin1 f2 x2 c2 w2 evs2 cw2' b2 fin2 code t u w3,
    example_serve o p (60 + fuel) (k0 + f1) q1 buf1 x1 (c1, w1) = (evs1, (c1', w1'), b1, fin1) ->
    example_serve o p (60 + fuel) (k0 + f2) q2 buf2 x2 (c2, w2) = (evs2, cw2', b2, fin2) ->
    comes_back (params q2) (generate_unique_id 12 (random w1)) code -> cache_contains c2 (now w2) (generate_unique_id 12 (random w1)) = true ->
    header_text (at_token t) ->
    (name = str "github" -> vouches ask (asks_github (GitHub gh_id gh_key [] false []) code) github_grants (str "https://api.github.com/user") (names_user (str "github") (str "login")) w2 t u w3) ->
    (name = str "google" -> vouches ask (asks_google (Google gg_id gg_key [str "openid"] false false [] []) (str "https://localhost:8080/oauth/authorize/google") code) google_grants
       (str "https://www.googleapis.com/oauth2/v1/userinfo") (names_user (str "google") (str "id")) w2 t u w3) ->
    cw2' = (c2, w3) /\ fin2 = SDone /\
    exists body, received b2 = (200%Z, typed "application/json", body) /\ says body (visitor_page t u).
Proof. exact (@example_visitor). Qed.
Print Assumptions C119_visitor_partial.

Example C119_visitor_case : forall (o : outside),  comes_back (exa_params (plain_request GET (str "/oauth/authorize/github"))) shop_state (str "c0") /\ header_text (at_token mona_token) /\
  vouches mona_ask (asks_github (GitHub (str "id") (str "key") [] false []) (str "c0")) github_grants (str "https://api.github.com/user")
    (names_user (str "github") (str "login")) 6%Z mona_token mona 8%Z /\
  exists evs, outcome (example_serve (watched o) mona_parts 60 60 (plain_request GET (str "/oauth/authorize/github")) zeros nobody ([(shop_state, 60000000005%Z)], 6%Z)) =
    (evs, ([(shop_state, 60000000005%Z)], 8%Z), (200%Z, typed "application/json",
       str "{""accessToken"":{""AccessToken"":""tok"",""TokenType"":""bearer"",""Scopes"":[""repo"",""gist""],""RefreshToken"":"""",""ExpiresInSeconds"":0},""authenticatedUser"":{""Id"":""mona"",""Name"":""Mona"",""IdentityPlatform"":""github"",""Groups"":null,""Attachment"":null}}"), SDone).
Proof. exact (@mona_case). Qed.

(** C119: a first request that names no provider of the example. *)
Theorem C119_start_refused : forall (World : Type) (ask : outreq -> World -> answer * World) params now random gh_id gh_key gg_id gg_key o (p : parts (cache * World)),
  pt_initiate p = login_start params now random (example_oauth ask gh_id gh_key gg_id gg_key) [] (str "/oauth/authorize") ->
  forall fuel q buf v, asked q [str "oauth"; str "initiate"] buf -> first_value (params q) (str "provider") v ->
  v <> str "github" -> v <> str "google" ->
  exists k0, forall f x w evs w' b fin, example_serve o p (60 + fuel) (k0 + f) q buf x w = (evs, w', b, fin) ->
    w' = w /\ fin = SDone /\
    exists body, received b = (400%Z, typed "application/json", body) /\
      says_error body (if beqb v [] then str "oauth provider not specified" else str "oauth provider not supported").
Proof. exact (@example_unstarted). Qed.
Print Assumptions C119_start_refused.

(** C119: who comes back for another provider, with an error or with a state that is not known, is refused
    and no provider is asked. *)
Theorem C119_return_refused : forall (World : Type) (ask : outreq -> World -> answer * World) params now random gh_id gh_key gg_id gg_key h o (p : parts (cache * World)),
  pt_return p = login_return params now random (example_oauth ask gh_id gh_key gg_id gg_key) [] (str "/oauth/authorize") h ->
  forall fuel q buf v, asked q [str "oauth"; str "authorize"; v] buf ->
  exists k0, forall f x c w evs cw' b fin, example_serve o p (60 + fuel) (k0 + f) q buf x (c, w) = (evs, cw', b, fin) ->
    (v <> str "github" -> v <> str "google" -> cw' = (c, w) /\ fin = SDone /\
       exists body, received b = (400%Z, typed "application/json", body) /\ says_error body (str "oauth provider not supported")) /\
    forall e st, v = str "github" \/ v = str "google" -> first_value (params q) (str "error") e -> first_value (params q) (str "state") st ->
      e <> [] \/ cache_contains c (now w) st = false -> cw' = (c, w) /\ fin = SDone /\
       exists body, received b = (401%Z, typed "application/json", body) /\ says_error body (str "unauthorized request").
Proof. exact (@example_unreturned). Qed.
Print Assumptions C119_return_refused.

Example C119_case : forall (o : outside), let url := str "https://github.com/login/oauth/authorize?allow_signup=false&client_id=id&redirect_uri=https%3A%2F%2Flocalhost%3A8080%2Foauth%2Fauthorize%2Fgithub&state=" ++ shop_state in
  alookup (str "provider") (exa_params (plain_request GET (str "/oauth/initiate"))) = Some [str "github"] /\
  comes_back (exa_params (plain_request GET (str "/oauth/authorize/github"))) shop_state (str "c0") /\
  first_value (exa_params (plain_request GET (str "/oauth/authorize/google"))) (str "state") (str "guess") /\
  first_value (exa_params (plain_request GET (str "/oauth/authorize/google"))) (str "error") [] /\
  (exists evs, exa_get o "/oauth/initiate" ([], 5%Z) = (evs, ([(shop_state, 60000000005%Z)], 5%Z), redirected url (str "see " ++ url), SDone)) /\
  (exists evs, exa_get o "/oauth/authorize/github" ([(shop_state, 60000000005%Z)], 60000000004%Z) =
     (evs, ([(shop_state, 60000000005%Z)], 60000000006%Z), (200%Z, typed "text/plain; charset=utf-8", str "tok user"), SDone)) /\
  (exists evs body, exa_get o "/oauth/authorize/github" ([(shop_state, 60000000005%Z)], 60000000005%Z) =
     (evs, ([(shop_state, 60000000005%Z)], 60000000005%Z), (401%Z, typed "application/json", body), SDone)) /\
  (exists evs body, exa_get o "/oauth/authorize/google" ([(shop_state, 60000000005%Z)], 6%Z) =
     (evs, ([(shop_state, 60000000005%Z)], 6%Z), (401%Z, typed "application/json", body), SDone)) /\
  (exists evs body, exa_get o "/oauth/authorize/other" ([], 6%Z) = (evs, ([], 6%Z), (400%Z, typed "application/json", body), SDone)).
Proof. exact (@example_login_case). Qed.

(** C119 is false for the scope: the example extracts user details but asks GitHub for no scope. *)
Theorem C119_scope_refuted : forall (World : Type) (ask : outreq -> World -> answer * World) gh_id gh_key gg_id gg_key,
oc_fetch_user (example_oauth ask gh_id gh_key gg_id gg_key) = true /\
  exists pv, In pv (oc_providers (example_oauth ask gh_id gh_key gg_id gg_key)) /\ pv_name pv = str "github" /\
    forall redirect state v, ~ url_query_has (pv_initiate_url pv redirect state true) (str "scope") v.
Proof. exact (@example_scopeless). Qed.
Print Assumptions C119_scope_refuted.
