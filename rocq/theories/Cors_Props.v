(** * Properties C39 to C43 and C70 to C75: CORS and security headers *)
From Coq Require Import List NArith ZArith Ascii String Bool Arith.
From Verif Require Import GoBase Http_Model Auth_Model Csrf_Model Chain_Model.
From Verif Require Import Resp_Model Resp_Spec RespMisc_Proofs Cors_Model Cors_Spec Cors_Proofs CorsMisc_Proofs CorsCases_Proofs.
Import ListNotations.
Local Open Scope string_scope.
Local Open Scope list_scope.
Local Open Scope nat_scope.

(** C39, what holds: an answer to an origin that is not the one of the URL is given only
    if origin, method and headers are allowed, and it names the origin.  Left out are
    URLs with other schemes and ill-formed ports. *)
Theorem C39_cross_origin_partial : forall (World : Type) (h : handler xreq response World) c x q w r w' o,
  cors c h x q w = (HReturn (Some r) None, w') -> carries q (str "Origin") o -> web_url q ->
  ~ odd_ports (to_lower (xq_scheme q)) (xq_host q) o -> ~ own (to_lower (xq_scheme q)) (xq_host q) o ->
  allows_origin c o /\ allows c q /\
  exists m, get_headers r = Some m /\ alookup (str "Access-Control-Allow-Origin") m = Some (if cc_any c then str "*" else o).
Proof. exact (@cross_origin_checked). Qed.
Print Assumptions C39_cross_origin_partial.

Example C39_case :
  let o := str "https://shop.example" in
  let q := ask (str "POST") o [] [] in
  let q' := XReq (str "POST") [(str "Origin", [o]); (str "Content-Type", [str "Text/Plain; charset=utf-8"])] [] [] true (str "api.example") in
  fst (cors shop counting nobody q 0) = HReturn None (Some EAccessDenied) /\
  is_answer (fst (cors shop counting nobody q' 0)) /\ carries q' (str "Origin") o /\ web_url q' /\
  ~ odd_ports (to_lower (xq_scheme q')) (xq_host q') o /\ ~ own (to_lower (xq_scheme q')) (xq_host q') o /\
  allows_origin shop o /\ allows shop q' /\ complete q' /\ browser_origin o.
Proof. exact (@cross_origin_case). Qed.

Example C39_preflight_case :
  let o := str "https://shop.example" in
  let q hs := XReq (str "OPTIONS") [(str "Origin", [o]); (str "Access-Control-Request-Method", [str "post"]); (str "Access-Control-Request-Headers", [hs])] [] [] true (str "api.example") in
  (exists m, get_headers page = Some m /\
     fst (cors shop counting nobody (q (str " x-token , ")) 0) =
     HReturn (Some (RText (HResp 200 [] (Some (add_standard (q []) m shop)) None) (str "hi"))) None /\
     alookup (str "Vary") (add_standard (q []) m shop) = Some (str "Accept,Origin,Access-Control-Request-Method,Access-Control-Request-Headers") /\
     alookup (str "Access-Control-Allow-Methods") (add_standard (q []) m shop) = Some (str "GET,POST")) /\
  fst (cors shop counting nobody (q (str "x-token, x-other")) 0) = HReturn None (Some EAccessDenied).
Proof. exact (@preflight_case). Qed.

(** C39 is false for an ill-formed origin that repeats the port. *)
Theorem C39_odd_port_refuted :
  let q := ask (str "GET") (str "http://h:80:80") (str "http") (str "h:80") in
  carries q (str "Origin") (str "http://h:80:80") /\ ~ own (str "http") (str "h:80") (str "http://h:80:80") /\
  ~ allows_origin shop (str "http://h:80:80") /\ is_answer (fst (cors shop counting nobody q 0)).
Proof. exact (@odd_port_answered). Qed.
Print Assumptions C39_odd_port_refuted.

(** C40 is false for all handlers: the effects are the same with and without CORS. *)
Theorem C40_refused_refuted : forall (World : Type) (h : handler xreq response World) c x q w,
  snd (cors c h x q w) = snd (h x q w).
Proof. exact (@refused_after_handler). Qed.
Print Assumptions C40_refused_refuted.

(** C40 is false: a refused request with an effect. *)
Theorem C40_effect_refuted :
  cors shop counting nobody (ask (str "POST") (str "https://evil.example") [] []) 0 = (HReturn None (Some EAccessDenied), 1).
Proof. exact (@refused_with_effect). Qed.
Print Assumptions C40_effect_refuted.

(** C41 is false for all requests whose line has no absolute URL, as those of browsers:
    their own origin is refused unless it is configured. *)
Theorem C41_origin_form_refuted : forall (World : Type) (h : handler xreq response World) c x q w r w' s a o,
  answered h x q w r w' -> xq_scheme q = [] -> sent_to q s a -> own s a o -> carries q (str "Origin") o -> ~ allows_origin c o ->
  cors c h x q w = (HReturn None (Some EAccessDenied), w').
Proof. exact (@own_origin_refused). Qed.
Print Assumptions C41_origin_form_refuted.

Example C41_origin_form_case :
  let o := str "http://api.example" in
  let q := ask (str "GET") o [] [] in
  answered counting nobody q 0 page 1 /\ sent_to q (str "http") (str "api.example") /\ own (str "http") (str "api.example") o /\
  carries q (str "Origin") o /\ ~ allows_origin shop o /\
  cors shop counting nobody q 0 = (HReturn None (Some EAccessDenied), 1).
Proof. exact (@own_origin_case). Qed.

(** C41 is false for absolute URLs with a port other than the default one. *)
Theorem C41_port_refuted : forall (World : Type) (h : handler xreq response World) c x q w r w' d n p,
  answered h x q w r w' -> default_port (to_lower (xq_scheme q)) d -> host_port (xq_host q) n (Some p) -> p <> [] -> p <> d ->
  let o := to_lower (xq_scheme q) ++ str "://" ++ xq_host q in
  carries q (str "Origin") o -> ~ allows_origin c o ->
  own (to_lower (xq_scheme q)) (xq_host q) o /\ cors c h x q w = (HReturn None (Some EAccessDenied), w').
Proof. exact (@own_port_refused). Qed.
Print Assumptions C41_port_refuted.

(** C41 is false for an absolute URL with the default port and an origin without port. *)
Theorem C41_default_port_refuted :
  let o := str "http://api.example" in
  let q := ask (str "GET") o (str "http") (str "api.example:80") in
  own (str "http") (str "api.example:80") o /\ carries q (str "Origin") o /\
  cors shop counting nobody q 0 = (HReturn None (Some EAccessDenied), 1).
Proof. exact (@own_default_port_refused). Qed.
Print Assumptions C41_default_port_refuted.

(** C41, what holds for absolute URLs without port, or with the default port and an
    origin with that port. *)
Theorem C41_absolute_partial : forall (World : Type) (h : handler xreq response World) c x q w r w' o d,
  answered h x q w r w' -> carries q (str "Origin") o -> browser_origin o ->
  default_port (to_lower (xq_scheme q)) d -> xq_host q <> [] -> own (to_lower (xq_scheme q)) (xq_host q) o ->
  (host_port (xq_host q) (xq_host q) None \/
   (exists n, host_port (xq_host q) n (Some d) /\ o = to_lower (xq_scheme q) ++ str "://" ++ xq_host q)) ->
  exists r', cors c h x q w = (HReturn (Some r') None, w') /\ kept_kind r' = kept_kind r.
Proof. exact (@own_origin_answered). Qed.
Print Assumptions C41_absolute_partial.

Example C41_case :
  is_answer (fst (cors shop counting nobody (ask (str "PUT") (str "http://api.example:80") (str "HTTP") (str "api.example")) 0)) /\
  is_answer (fst (cors shop counting nobody (ask (str "PUT") (str "http://api.example") (str "HTTP") (str "api.example")) 0)) /\
  is_answer (fst (cors shop counting nobody (ask (str "PUT") (str "https://api.example:443") (str "https") (str "api.example:443")) 0)).
Proof. exact (@own_answered_case). Qed.

(** C42, what holds for the key Vary: the new field is put behind the old ones. *)
Theorem C42_vary_partial : forall m name,
  field_name name -> ~ In (str "*") (vary_fields (vary_of m)) ->
  vary_fields (vary_of (add_vary m name)) = vary_fields (vary_of m) ++ [name].
Proof. exact (@vary_grows). Qed.
Print Assumptions C42_vary_partial.

(** C42: a list with * becomes *. *)
Theorem C42_star_partial : forall m name,
  In (str "*") (vary_fields (vary_of m)) \/ name = str "*" ->
  vary_fields (vary_of (add_vary m name)) = [str "*"].
Proof. exact (@vary_star). Qed.
Print Assumptions C42_star_partial.

(** C42: other headers are kept. *)
Theorem C42_others_partial : forall m name n,
  n <> (str "Vary") -> alookup n (add_vary m name) = alookup n m.
Proof. exact (@vary_kept). Qed.
Print Assumptions C42_others_partial.

Example C42_case :
  vary_fields (vary_of (add_vary [(str "Vary", str "Accept , X-A")] (str "Origin"))) = [str "Accept"; str "X-A"; str "Origin"] /\
  vary_fields (vary_of (add_vary [(str "Vary", str "Accept, *")] (str "Origin"))) = [str "*"] /\
  vary_fields (vary_of (add_vary [] (str "Origin"))) = [str "Origin"].
Proof. exact (@vary_case). Qed.

(** C42 is false for a Vary header that the handler wrote in lower case. *)
Theorem C42_spelling_refuted :
  let h0 : handler xreq response nat :=
    fun _ _ w => (HReturn (Some (RText (HResp 200 [] (Some [(str "vary", str "Cookie")]) None) (str "hi"))) None, w) in
  let q := ask (str "GET") (str "https://shop.example") [] [] in
  exists r, fst (cors shop h0 nobody q 0) = HReturn (Some r) None /\
    hvalues (snd (fst (received (written_toy (fun m => m) (fun m => m) r get_req)))) (str "Vary") = [str "Cookie"] /\
    hvalues (snd (fst (received (written_toy (@rev _) (fun m => m) r get_req)))) (str "Vary") = [str "Origin"].
Proof. exact (@vary_spelling). Qed.
Print Assumptions C42_spelling_refuted.

(** C43, what holds for all histories of requests: each response gets the enabled
    headers with the configured texts and no others, everything else is kept. *)
Theorem C43_security_partial : forall (World : Type) (h : handler xreq response World) c x qs w,
  let (wi, is) := serve_in_turn h x qs w in
  let (wo, os) := serve_in_turn (security_headers c h) x qs (w, SecCache [] []) in
  fst wo = wi /\ Forall2 (fun qi o => secured_outcome c (fst qi) (snd qi) o) (combine qs is) os /\ List.length is = List.length qs.
Proof. exact (@security_all). Qed.
Print Assumptions C43_security_partial.

Example C43_case :
  let q := XReq (str "GET") [] [] [] true (str "api.example") in
  let '(w, os) := serve_in_turn (security_headers strict counting) nobody [q; q] (0, SecCache [] []) in
  fst w = 2 /\
  exists r m, os = [HReturn (Some r) None; HReturn (Some r) None] /\ get_headers r = Some m /\
    alookup (str "Strict-Transport-Security") m = Some (str "max-age=31536000;includeSubDomains;preload") /\
    alookup (str "X-Frame-Options") m = Some (str "ALLOW-FROM https://a.example") /\
    alookup (str "Vary") m = Some (str "Accept").
Proof. exact (@security_case). Qed.

(** C43 is false: the frame option Deny alone gives an empty header. *)
Theorem C43_deny_refuted :
  let c := SecConfig false 0 false false true xfo_deny [] [] false false in
  exists r m, fst (security_headers c counting nobody (ask (str "GET") [] [] []) (0, SecCache [] [])) = HReturn (Some r) None /\
    get_headers r = Some m /\ alookup (str "X-Frame-Options") m = Some [].
Proof. exact (@deny_empty). Qed.
Print Assumptions C43_deny_refuted.

(** C43 is false: all frame options but AllowFrom do the same. *)
Theorem C43_frame_option_refuted : forall (World : Type) (h : handler xreq response World) a b sb p cl f1 f2 v u sn xs x q w,
  f1 <> xfo_allow_from -> f2 <> xfo_allow_from ->
  security_headers (SecConfig a b sb p cl f1 v u sn xs) h x q (w, SecCache [] []) =
  security_headers (SecConfig a b sb p cl f2 v u sn xs) h x q (w, SecCache [] []).
Proof. exact (@deny_is_same_origin). Qed.
Print Assumptions C43_frame_option_refuted.

(** C43 is false for a handler that returns neither response nor error: the middleware
    panics. *)
Theorem C43_nil_refuted : forall (World : Type) (h : handler xreq response World) c x q w w',
  h x q w = (HReturn None None, w') -> sh_click c = true \/ sh_sniff c = true \/ sh_xss c = true ->
  fst (security_headers c h x q (w, SecCache [] [])) = HPanic (Some 0%nat).
Proof. exact (@nil_panics). Qed.
Print Assumptions C43_nil_refuted.

(** C70, what holds: a request of an allowed browser origin with allowed method and
    headers is answered, if a POST has a media type. *)
Theorem C70_allowed_partial : forall (World : Type) (h : handler xreq response World) c x q w r w' o,
  answered h x q w r w' -> carries q (str "Origin") o -> browser_origin o -> allows_origin c o -> allows c q -> complete q ->
  exists r' m, cors c h x q w = (HReturn (Some r') None, w') /\ kept_kind r' = kept_kind r /\ get_headers r' = Some m /\
    alookup (str "Access-Control-Allow-Origin") m = Some (if cc_any c then str "*" else o) /\
    (cc_credentials c = true -> alookup (str "Access-Control-Allow-Credentials") m = Some (str "true")).
Proof. exact (@allowed_is_answered). Qed.
Print Assumptions C70_allowed_partial.

(** C70 is false for every POST without a media type. *)
Theorem C70_bare_post_refuted : forall (World : Type) (h : handler xreq response World) c x q w r w' o,
  answered h x q w r w' -> carries q (str "Origin") o -> xq_method q = str "POST" ->
  media_type (hget (xq_headers q) (str "Content-Type")) = [] -> same_origin (xq_scheme q) (xq_host q) o = false ->
  cors c h x q w = (HReturn None (Some EAccessDenied), w').
Proof. exact (@bare_post_refused). Qed.
Print Assumptions C70_bare_post_refuted.

Example C70_bare_post_case :
  let o := str "https://shop.example" in
  let q := ask (str "POST") o [] [] in
  answered counting nobody q 0 page 1 /\ carries q (str "Origin") o /\ allows_origin shop o /\ allows shop q /\
  cors shop counting nobody q 0 = (HReturn None (Some EAccessDenied), 1).
Proof. exact (@bare_post_case). Qed.

(** C71 is false if any origin is allowed: all answers say *, also with credentials. *)
Theorem C71_any_origin_refuted : forall (World : Type) (h : handler xreq response World) c x q w r w',
  cc_any c = true -> cors c h x q w = (HReturn (Some r) None, w') ->
  exists m, get_headers r = Some m /\ alookup (str "Access-Control-Allow-Origin") m = Some (str "*") /\
    (cc_credentials c = true -> alookup (str "Access-Control-Allow-Credentials") m = Some (str "true")).
Proof. exact (@any_origin_star). Qed.
Print Assumptions C71_any_origin_refuted.

Example C71_any_case :
  let c := CorsConfig true true 0 [] [str "GET"] [] [] in
  exists r, fst (cors c counting nobody (ask (str "GET") (str "https://evil.example") [] []) 0) = HReturn (Some r) None /\
    get_headers r = Some [(str "Access-Control-Allow-Credentials", str "true"); (str "Access-Control-Allow-Origin", str "*"); (str "Vary", str "Accept")].
Proof. exact (@any_credentials_case). Qed.

(** C71, what holds if the origins are listed. *)
Theorem C71_named_partial : forall (World : Type) (h : handler xreq response World) c x q w r w' o,
  cc_any c = false -> cc_credentials c = true -> carries q (str "Origin") o -> cors c h x q w = (HReturn (Some r) None, w') ->
  exists m, get_headers r = Some m /\ alookup (str "Access-Control-Allow-Origin") m = Some o /\ alookup (str "Access-Control-Allow-Credentials") m = Some (str "true").
Proof. exact (@credentials_named). Qed.
Print Assumptions C71_named_partial.

(** C72: answers that depend on the origin say so. *)
Theorem C72_vary : forall (World : Type) (h : handler xreq response World) c x q w r w',
  cors c h x q w = (HReturn (Some r) None, w') ->
  exists m, get_headers r = Some m /\
    (cc_any c = false -> varies m (str "Origin")) /\ (xq_method q = str "OPTIONS" -> varies m (str "Access-Control-Request-Method") /\ varies m (str "Access-Control-Request-Headers")).
Proof. exact (@answers_vary). Qed.
Print Assumptions C72_vary.

(** C73: the answers announce what is configured. *)
Theorem C73_announced : forall (World : Type) (h : handler xreq response World) c x q w r w',
  cors c h x q w = (HReturn (Some r) None, w') ->
  exists m, get_headers r = Some m /\
    (cc_exposed c <> [] -> alookup (str "Access-Control-Expose-Headers") m = Some (join (str ",") (cc_exposed c))) /\
    (xq_method q = str "OPTIONS" ->
      (cc_methods c <> [] -> alookup (str "Access-Control-Allow-Methods") m = Some (join (str ",") (cc_methods c))) /\
      (cc_headers c <> [] -> alookup (str "Access-Control-Allow-Headers") m = Some (join (str ",") (cc_headers c))) /\
      ((0 < cc_max_age c)%Z -> alookup (str "Access-Control-Max-Age") m = Some (itoa_z (cc_max_age c)))).
Proof. exact (@preflight_announces). Qed.
Print Assumptions C73_announced.

(** C74: everything else of the response is kept. *)
Theorem C74_kept : forall (World : Type) (h : handler xreq response World) c x q w r w',
  cors c h x q w = (HReturn (Some r) None, w') ->
  exists r0 m0 m, h x q w = (HReturn (Some r0) None, w') /\ get_headers r0 = Some m0 /\ get_headers r = Some m /\
    kept_kind r = kept_kind r0 /\
    forall n, ~ In n [str "Access-Control-Allow-Origin"; str "Access-Control-Allow-Credentials"; str "Access-Control-Expose-Headers"; str "Access-Control-Max-Age"; str "Access-Control-Allow-Methods"; str "Access-Control-Allow-Headers"; str "Vary"] -> alookup n m = alookup n m0.
Proof. exact (@answer_keeps). Qed.
Print Assumptions C74_kept.

(** Case for C72, C73 and C74: a preflight, and a request of another site, whose answers
    have a header of the handler's own. *)
Example C72_case :
  let o := str "https://shop.example" in
  let c := CorsConfig false true 600 [str "X-Total"; str "X-Page"] [str "GET"; str "POST"] [str "X-Token"] [o] in
  let h0 : handler xreq response nat := fun _ _ w =>
    (HReturn (Some (RText (HResp 200 [] (Some [(str "Vary", str "Accept"); (str "X-Total", str "3")]) None) (str "hi"))) None, S w) in
  let q := XReq (str "OPTIONS") [(str "Origin", [o]); (str "Access-Control-Request-Method", [str "post"]); (str "Access-Control-Request-Headers", [str "x-token"])] [] [] true (str "api.example") in
  exists m, cors c h0 nobody q 0 = (HReturn (Some (RText (HResp 200 [] (Some m) None) (str "hi"))) None, 1) /\
    alookup (str "Vary") m = Some (str "Accept,Origin,Access-Control-Request-Method,Access-Control-Request-Headers") /\
    alookup (str "Access-Control-Expose-Headers") m = Some (str "X-Total,X-Page") /\ alookup (str "Access-Control-Allow-Methods") m = Some (str "GET,POST") /\ alookup (str "Access-Control-Allow-Headers") m = Some (str "X-Token") /\
    alookup (str "Access-Control-Max-Age") m = Some (str "600") /\ alookup (str "X-Total") m = Some (str "3") /\
    exists m', cors c h0 nobody (ask (str "GET") o [] []) 0 = (HReturn (Some (RText (HResp 200 [] (Some m') None) (str "hi"))) None, 1) /\
      alookup (str "Vary") m' = Some (str "Accept,Origin") /\ alookup (str "Access-Control-Expose-Headers") m' = Some (str "X-Total,X-Page") /\ alookup (str "Access-Control-Max-Age") m' = None.
Proof. exact (@announced_case). Qed.

(** C75: an origin that is none is refused, whatever the configuration; the handler has
    run and its effects stay (see C40). *)
Theorem C75_no_origin : forall (World : Type) (h : handler xreq response World) c x q w o,
  carries q (str "Origin") o -> no_origin o ->
  cors c h x q w =
  (match fst (h x q w) with
   | HPanic v => HPanic v
   | HReturn _ (Some e) => HReturn None (Some e)
   | HReturn _ None => HReturn None (Some EAccessDenied)
   end, snd (h x q w)).
Proof. exact (@refused_no_origin). Qed.
Print Assumptions C75_no_origin.

Example C75_case :
  let q o := XReq (str "GET") [(str "Origin", [o])] [] [] true (str "api.example") in
  let any := CorsConfig true false 0 [] [str "GET"] [] [] in
  (forall o, In o [[]; str "https://shop.example%00"; str "//shop.example"; str "shop.example"] ->
     carries (q o) (str "Origin") o /\ no_origin o /\ fst (cors any counting nobody (q o) 0) = HReturn None (Some EAccessDenied)) /\
  is_answer (fst (cors any counting nobody (q (str "null")) 0)) /\ ~ no_origin (str "null").
Proof. exact (@no_origin_case). Qed.
