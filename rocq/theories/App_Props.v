(** * Properties C78 to C85: whole applications *)
From Coq Require Import List NArith ZArith Ascii String Bool Arith Permutation.
From Verif Require Import GoBase Http_Model Glob_Model Pattern_Model Url_Model Match_Model Router_Model Auth_Model Chain_Model Serve_Model
  Mux_Model Resp_Model Cors_Model App_Model Chain_Spec Mux_Spec Pattern_Spec Url_Spec Routing_Spec Priority_Spec Choice_Spec Resp_Spec Cors_Spec
  App_Spec AppWire_Spec Witness_Proofs CorsCases_Proofs App_Proofs AppMid_Proofs AppCases_Proofs AppWire_Proofs AppExact_Proofs AppWhole_Proofs.
Import ListNotations.
Local Open Scope string_scope.
Local Open Scope list_scope.
Local Open Scope nat_scope.

(** C78 is false: static resources and debug pages are answered whatever the common
    middlewares do. *)
Theorem C78_guard_refuted : forall (W : Type) (user : nat -> handler areq response W) mid k oh oc render location redirect_body grow x w,
  (forall h x0 q w0, mid 0 h x0 q w0 = (HReturn None (Some EUnauthorized), w0)) ->
  let a := fst (acalls grow 60 lit_engine (fst (new_app 60 lit_engine false [] (Some []))) guarded_calls) in
  let get p := outcome (app_serve user mid (fun name _ => [AWrite name]) (fun page _ => [AWrite (match page with PNamed n => n | _ => [] end)])
                 k oh oc render location redirect_body 60 lit_engine a (plain_request GET p) zeros x w) in
  (exists i, get (str "/home") = (refusal i EUnauthorized, w, (500%Z, [], []), SDone)) /\
  (exists evs, get (str "/assets/keys.txt") = (evs, w, (200%Z, [], str "keys.txt"), SDone)) /\
  (exists evs, get (str "/debug/pprof/heap") = (evs, w, (200%Z, [], str "heap"), SDone)).
Proof. exact (@guard_bypassed). Qed.
Print Assumptions C78_guard_refuted.

(** C78, what holds: if the program gives common middlewares first and they never pass
    the request on, the client gets 404, or routing does not end or panics, or the answer
    is the one of these middlewares.  Missing: programs with static resources or debug pages. *)
Theorem C78_guard_partial : forall (W : Type) (user : nat -> handler areq response W) mid files pages k oh oc render location redirect_body
    grow fuel re ci context xs cs f q buf x w out,
  no_debug cs -> shuts (present (map (option_map mid) xs)) x q out ->
  let '(evs, w', b, fin) := app_serve user mid files pages k oh oc render location redirect_body f re
      (fst (acalls grow fuel re (fst (new_app fuel re ci context None)) (AMux (CCommon 0 xs) :: cs))) q buf x w in
  (visible evs = [EvStatus 404] /\ w' = w /\ received b = (404%Z, [], []) /\ fin = SDone) \/
  (visible evs = [] /\ w' = w /\ received b = (200%Z, [], []) /\ fin <> SDone) \/
  (exists i mc evs', mc_method mc = xq_method (rq_x q) /\ mc_path mc = rq_path q /\ visible evs = EvRun i :: evs' /\
     answers (sends k oh oc render location redirect_body q) (snd (out mc w)) (fst (out mc w)) evs' w' b fin).
Proof. exact (@shut_out). Qed.
Print Assumptions C78_guard_partial.

(** C78, what holds for all programs: what the client gets, the effects and the log do
    not depend on the handlers and the other middlewares. *)
Theorem C78_same_partial : forall (W : Type) (u1 u2 : nat -> handler areq response W) m1 m2 files pages k oh oc render location redirect_body
    grow fuel re ci context mapping xs cs f q buf x w out,
  shuts (present (map (option_map m1) xs)) x q out -> shuts (present (map (option_map m2) xs)) x q out ->
  let a := fst (acalls grow fuel re (fst (new_app fuel re ci context mapping)) (AMux (CCommon 0 xs) :: cs)) in
  app_serve u1 m1 files pages k oh oc render location redirect_body f re a q buf x w =
  app_serve u2 m2 files pages k oh oc render location redirect_body f re a q buf x w.
Proof. exact (@shut_same). Qed.
Print Assumptions C78_same_partial.

Example C78_case : forall k oh oc render location redirect_body grow w,
  let q := plain_request (str "POST") (str "/v1/pay") in
  let out := fun (_ : mctx) (w0 : nat) => (HReturn (explained 401 EUnauthorized) None, w0) in
  shuts (present (map (option_map guards) [Some 0; None; Some 1])) nobody q out /\ no_debug (tl pay_calls) /\
  let a := fst (acalls grow 60 lit_engine (fst (new_app 60 lit_engine false [] None)) pay_calls) in
  outcome (app_serve paying guards (fun _ _ => []) (fun _ _ => []) k oh oc render location redirect_body 60 lit_engine a q zeros nobody w) =
    ([EvRun 0; EvWrite (RText (HResp 401 [] None None) (str "refused"))], w,
     (401%Z, [(str "X-Content-Type-Options", [str "nosniff"])], str "refused"), SDone).
Proof. exact (@shut_case). Qed.

(** C79 is false for every configuration: not for unknown paths, failed handlers and
    static resources. *)
Theorem C79_security_refuted : forall (V : Type) (c : sec_config) (user : nat -> handler areq response (V * sec_cache)) mid k oh oc render location redirect_body grow x w,
  mid 0 = app_security c -> (forall x0 q w0, user 1 x0 q w0 = (HReturn None (Some EAccessDenied), w0)) ->
  let a := fst (acalls grow 60 lit_engine (fst (new_app 60 lit_engine false [] (Some []))) secured_calls) in
  let get p := outcome (app_serve user mid (fun name _ => [AWrite name]) (fun _ _ => [])
                 k oh oc render location redirect_body 60 lit_engine a (plain_request GET p) zeros x w) in
  get (str "/none") = ([EvStatus 404], w, (404%Z, [], []), SDone) /\
  get (str "/fail") = (refusal 1 EAccessDenied, w, (500%Z, [], []), SDone) /\
  exists evs, get (str "/assets/a.txt") = (evs, w, (200%Z, [], str "a.txt"), SDone).
Proof. exact (@security_missing). Qed.
Print Assumptions C79_security_refuted.

(** C79, what holds: a regular response that is written carries the configured headers,
    if [SecurityHeaders] is the outermost common middleware. *)
Theorem C79_security_partial : forall (V : Type) (user : nat -> handler areq response (V * sec_cache)) (mid : nat -> middleware areq response (V * sec_cache))
    (files : bytes -> request -> list act) (pages : debug_page -> request -> list act)
    (k : compressor) (oh : headers -> headers) (oc : cookies -> cookies) (render : cookie -> bytes) (location : wreq -> bytes -> bytes) (redirect_body : Z -> bytes -> bytes) (c : sec_config)
    grow fuel re ci context mapping i xs cs f q buf x w evs w' b fin r,
  mid i = app_security c -> (forall h, keeps_texts c (user h)) ->
  (forall j inner, j <> i -> keeps_texts c inner -> keeps_texts c (mid j inner)) -> texts_right c (snd w) ->
  (forall m, Permutation (oh m) m) -> (forall m, Permutation (oc m) m) ->
  app_serve user mid files pages k oh oc render location redirect_body f re
    (fst (acalls grow fuel re (fst (new_app fuel re ci context mapping)) (AMux (CCommon 0 (Some i :: xs)) :: cs))) q buf x w = (evs, w', b, fin) ->
  In (EvWrite r) evs -> regular r q ->
  exists st hs, b_final b = Some (st, hs) /\
    (sts_on c (rq_x q) -> hvalues hs (str "Strict-Transport-Security") = [wanted_sts c]) /\
    (sh_click c = true -> exists v, wanted_frame c v /\ hvalues hs (str "X-Frame-Options") = [v]) /\
    (sh_sniff c = true -> hvalues hs (str "X-Content-Type-Options") = [str "nosniff"]) /\
    (sh_xss c = true -> hvalues hs (str "X-Xss-Protection") = [str "1; mode=block"]).
Proof. exact (@security_served). Qed.
Print Assumptions C79_security_partial.

Example C79_case : forall k oc render location redirect_body grow,
  let q := over_tls GET (str "/hello") in
  let a := fst (acalls grow 60 lit_engine (fst (new_app 60 lit_engine false [] None)) hello_calls) in
  let r := RText (HResp 200 [] (Some [(str "X-Xss-Protection", str "1; mode=block"); (str "X-Content-Type-Options", str "nosniff");
      (str "X-Frame-Options", str "ALLOW-FROM https://a.example");
      (str "Strict-Transport-Security", str "max-age=31536000;includeSubDomains;preload"); (str "Vary", str "Accept")]) None) (str "hi") in
  securing 0 = app_security strict /\ (forall h, keeps_texts strict (greeting h)) /\
  (forall j inner, j <> 0 -> keeps_texts strict inner -> keeps_texts strict (securing j inner)) /\
  texts_right strict (SecCache [] []) /\ regular r q /\ sts_on strict (rq_x q) /\
  exists evs w' hs,
    outcome (app_serve greeting securing (fun _ _ => []) (fun _ _ => []) k (fun m => m) oc render location redirect_body 60 lit_engine a q zeros nobody (tt, SecCache [] [])) =
      (evs, w', (200%Z, hs, str "hi"), SDone) /\ In (EvWrite r) evs /\
    hvalues hs (str "Strict-Transport-Security") = [str "max-age=31536000;includeSubDomains;preload"].
Proof. exact (@security_served_case). Qed.

(** C80 is false: an allowed preflight gets 404 without any CORS header, whatever the
    middlewares are, unless a handler is registered for OPTIONS. *)
Theorem C80_cors_refuted : forall (W : Type) (user : nat -> handler areq response W) mid files pages k oh oc render location redirect_body grow x w,
  let a := fst (acalls grow 60 lit_engine (fst (new_app 60 lit_engine false [] None)) shop_calls) in
  is_preflight (rq_x (preflight (str "/pay"))) /\ complete (rq_x (preflight (str "/pay"))) /\
  allows_origin shop (str "https://shop.example") /\ allows shop (rq_x (preflight (str "/pay"))) /\
  outcome (app_serve user mid files pages k oh oc render location redirect_body 60 lit_engine a (preflight (str "/pay")) zeros x w) =
    ([EvStatus 404], w, (404%Z, [], []), SDone).
Proof. exact (@preflight_not_found). Qed.
Print Assumptions C80_cors_refuted.

(** C80, what holds: a response is written for another origin only if origin, method and
    headers are allowed, and then it names the origin.  Missing: static resources, debug
    pages, and the restrictions of C39. *)
Theorem C80_cors_partial : forall (W : Type) (user : nat -> handler areq response W) (mid : nat -> middleware areq response W)
    (files : bytes -> request -> list act) (pages : debug_page -> request -> list act)
    (k : compressor) (oh : headers -> headers) (oc : cookies -> cookies) (render : cookie -> bytes) (location : wreq -> bytes -> bytes) (redirect_body : Z -> bytes -> bytes) (c : cors_config)
    grow fuel re ci context i xs cs f q buf x w evs w' b fin r o,
  no_debug cs -> mid i = app_cors c ->
  app_serve user mid files pages k oh oc render location redirect_body f re
    (fst (acalls grow fuel re (fst (new_app fuel re ci context None)) (AMux (CCommon 0 (Some i :: xs)) :: cs))) q buf x w = (evs, w', b, fin) ->
  carries (rq_x q) (str "Origin") o -> web_url (rq_x q) ->
  ~ odd_ports (to_lower (xq_scheme (rq_x q))) (xq_host (rq_x q)) o -> ~ own (to_lower (xq_scheme (rq_x q))) (xq_host (rq_x q)) o ->
  In (EvWrite r) evs ->
  allows_origin c o /\ allows c (rq_x q) /\
  ((forall m, Permutation (oh m) m) -> (forall m, Permutation (oc m) m) -> regular r q ->
   exists st hs, b_final b = Some (st, hs) /\ hvalues hs (str "Access-Control-Allow-Origin") = [if cc_any c then str "*" else o]).
Proof. exact (@cors_served). Qed.
Print Assumptions C80_cors_partial.

Example C80_case : forall k oc render location redirect_body grow,
  let o := str "https://shop.example" in
  let a := fst (acalls grow 60 lit_engine (fst (new_app 60 lit_engine false [] None)) shop_calls) in
  let get q := outcome (app_serve paying selling (fun _ _ => []) (fun _ _ => []) k (fun m => m) oc render location redirect_body 60 lit_engine a q zeros nobody 7) in
  no_debug (tl shop_calls) /\ selling 0 = app_cors shop /\ carries (rq_x (order o)) (str "Origin") o /\ web_url (rq_x (order o)) /\
  ~ odd_ports (to_lower (xq_scheme (rq_x (order o)))) (xq_host (rq_x (order o))) o /\ ~ own (to_lower (xq_scheme (rq_x (order o)))) (xq_host (rq_x (order o))) o /\
  (exists r hs, get (order o) = ([EvRun 0; EvWrite r], 8, (200%Z, hs, str "hi"), SDone) /\ regular r (order o) /\ hvalues hs (str "Access-Control-Allow-Origin") = [o]) /\
  get (order (str "https://evil.example")) = (refusal 0 EAccessDenied, 8, (500%Z, [], []), SDone).
Proof. exact (@cors_served_case). Qed.

(** C81 is false: with a router that ignores letter case, and for paths with a doubled
    slash or with dots, the file server is not asked; the directory itself has no route. *)
Theorem C81_static_refuted : forall (W : Type) (user : nat -> handler areq response W) mid files pages k oh oc render location redirect_body x w,
  let get ci p := received (snd (fst (app_serve user mid files pages k oh oc render location redirect_body 60 lit_engine
                    (fst (new_app 60 lit_engine ci [] (Some []))) (plain_request GET p) zeros x w))) in
  get true (str "/ASSETS/a.txt") = get false (str "//assets/a.txt") /\ get true (str "/ASSETS/a.txt") = get false (str "/x/../assets/a.txt") /\
  fst (fst (get true (str "/ASSETS/a.txt"))) = 404%Z /\ get false (str "/assets/") = (404%Z, [], []).
Proof. exact (@static_not_served). Qed.
Print Assumptions C81_static_refuted.

(** C81, what holds: the file server is asked for exactly the rest of the path.  Missing:
    routers that ignore letter case, mapping paths that are no literals, requests that a
    route as specific reads too, and the restrictions of C12. *)
Theorem C81_static_partial : forall (W : Type) (user : nat -> handler areq response W) (mid : nat -> middleware areq response W)
    (files : bytes -> request -> list act) (pages : debug_page -> request -> list act)
    (k : compressor) (oh : headers -> headers) (oc : cookies -> cookies) (render : cookie -> bytes) (location : wreq -> bytes -> bytes) (redirect_body : Z -> bytes -> bytes)
    grow fuel re context mapping dir cs rs a0 x0 a xs q ws names rest buf,
  resource_dir context mapping dir -> dir = spelled ws ++ str "/" -> Forall (fun t => reads t (Lit t) /\ ~ In "/"%char t) ws ->
  wires [VMux [] []] cs rs ->
  new_app fuel re false context (Some mapping) = (a0, x0) -> smooth x0 -> acalls grow fuel re a0 cs = (a, xs) -> Forall smooth xs ->
  let all := Wired (str "GET") (dir ++ str "**") (Entry [] [] (TStatic dir)) :: rs in
  ordinary re false all -> same_method (xq_method (rq_x q)) (str "GET") ->
  rq_path q = dir ++ rest -> rq_raw q = [] -> (blen (rq_path q) < 65536)%N -> segments_of (rq_path q) (ws ++ names) -> names <> [] ->
  List.length buf = 19 -> clear_choice re false all (xq_method (rq_x q)) (ws ++ names) ->
  (forall i r ks bs, i <> 0 -> leads re false all (xq_method (rq_x q)) i r ks -> reads_as false (re_match re) ks (ws ++ names) bs ->
     more_specific (map Lit ws ++ [Any]) ks) ->
  exists k0, forall f x w evs w' b fin,
    app_serve user mid files pages k oh oc render location redirect_body (k0 + f) re a q buf x w = (evs, w', b, fin) ->
    w' = w /\ b = snd (sends k oh oc render location redirect_body q (RAdaptor None None (files rest q))) /\
    exists evs', visible evs = EvRun 0 :: EvWrite (RAdaptor None None (files rest q)) :: evs'.
Proof. exact (@static_served). Qed.
Print Assumptions C81_static_partial.

Example C81_case : forall k oc render location redirect_body,
  let get p := town_get k oc render location redirect_body p in
  let ts := [str "assets"; str "css"; str "a.css"] in
  resource_dir [] [] (str "/assets/") /\ str "/assets/" = spelled [str "assets"] ++ str "/" /\
  segments_of (str "/assets/css/a.css") ts /\ clear_choice lit_engine false (town_static ++ town_wiring) GET ts /\
  (forall i r ks bs, i <> 0 -> leads lit_engine false (town_static ++ town_wiring) GET i r ks -> reads_as false (re_match lit_engine) ks ts bs ->
     more_specific (map Lit [str "assets"] ++ [Any]) ks) /\
  get (str "/assets/css/a.css") = ([EvRun 0; EvWrite (RAdaptor None None [AWrite (str "css/a.css")])], [], (200%Z, [], str "css/a.css"), SDone).
Proof. exact (@town_static_case). Qed.

(** C82 is false below a prefix, where the pages of the profiles show the list, and the
    endpoints cannot be enabled twice. *)
Theorem C82_debug_refuted : forall (W : Type) (user : nat -> handler areq response W) mid files k oh oc render location redirect_body grow x w,
  let pages p (_ : request) := [AWrite (match p with PList => str "list" | PNamed n => n | POther _ => [] end)] in
  let get cs p := received (snd (fst (app_serve user mid files pages k oh oc render location redirect_body 60 lit_engine
      (fst (acalls grow 60 lit_engine (fst (new_app 60 lit_engine false [] None)) cs)) (plain_request GET p) zeros x w))) in
  get [ADebug 0] (str "/debug/pprof/heap") = (200%Z, [], str "heap") /\
  get [AMux (CRoute 0 (str "/admin")); ADebug 1] (str "/admin/debug/pprof/heap") = (200%Z, [], str "list") /\
  snd (acalls grow 60 lit_engine (fst (new_app 60 lit_engine false [] None)) [ADebug 0; ADebug 0]) = [Some Registered; Some Duplicate].
Proof. exact (@debug_below_prefix). Qed.
Print Assumptions C82_debug_refuted.

(** C82, what holds: on the first mux, each endpoint shows its page, whatever else is
    registered.  Missing: the restrictions of C12. *)
Theorem C82_debug_partial : forall (W : Type) (user : nat -> handler areq response W) (mid : nat -> middleware areq response W)
    (files : bytes -> request -> list act) (pages : debug_page -> request -> list act)
    (k : compressor) (oh : headers -> headers) (oc : cookies -> cookies) (render : cookie -> bytes) (location : wreq -> bytes -> bytes) (redirect_body : Z -> bytes -> bytes)
    grow fuel re ci context mapping rs0 cs rs a0 x0 a xs q ts buf p page,
  resources context mapping rs0 -> wires [VMux [] []] cs rs -> In (ADebug 0) cs -> In (p, page) endpoints ->
  new_app fuel re ci context mapping = (a0, x0) -> smooth x0 -> acalls grow fuel re a0 cs = (a, xs) -> Forall smooth xs ->
  ordinary re ci (rs0 ++ rs) -> rq_path q = p -> same_method (xq_method (rq_x q)) (str "GET") -> segments_of p ts -> List.length buf = 19 ->
  clear_choice re ci (rs0 ++ rs) (xq_method (rq_x q)) ts ->
  exists k0 i, forall f x w evs w' b fin,
    app_serve user mid files pages k oh oc render location redirect_body (k0 + f) re a q buf x w = (evs, w', b, fin) ->
    w' = w /\ b = snd (sends k oh oc render location redirect_body q (RAdaptor None None (pages page q))) /\
    exists evs', visible evs = EvRun i :: EvWrite (RAdaptor None None (pages page q)) :: evs'.
Proof. exact (@debug_served). Qed.
Print Assumptions C82_debug_partial.

Example C82_case : forall k oc render location redirect_body,
  let get p := town_get k oc render location redirect_body p in
  let p := str "/debug/pprof/heap" in
  In (ADebug 0) town_calls /\ In (p, PNamed (str "heap")) endpoints /\ segments_of p [str "debug"; str "pprof"; str "heap"] /\
  clear_choice lit_engine false (town_static ++ town_wiring) GET [str "debug"; str "pprof"; str "heap"] /\
  get p = ([EvRun 8; EvWrite (RAdaptor None None [AWrite (str "heap")])], [], (200%Z, [], str "heap"), SDone).
Proof. exact (@town_debug_case). Qed.

(** C83, what holds: what answers a request is one of the registrations of the program,
    for the method, with a pattern that reads the path, in its middlewares, with the
    variables of that reading.  Missing: the restrictions of C10, and repeated prefixes (C26). *)
Theorem C83_called_partial : forall (W : Type) (user : nat -> handler areq response W) (mid : nat -> middleware areq response W)
    (files : bytes -> request -> list act) (pages : debug_page -> request -> list act)
    (k : compressor) (oh : headers -> headers) (oc : cookies -> cookies) (render : cookie -> bytes) (location : wreq -> bytes -> bytes) (redirect_body : Z -> bytes -> bytes)
    grow fuel re ci context mapping rs0 cs rs a0 x0 a xs f q ts buf x w evs w' b fin,
  resources context mapping rs0 -> wires [VMux [] []] cs rs ->
  new_app fuel re ci context mapping = (a0, x0) -> smooth x0 -> acalls grow fuel re a0 cs = (a, xs) -> Forall smooth xs ->
  ordinary re ci (rs0 ++ rs) -> (blen (rq_path q) < 65536)%N -> segments_of (rq_path q) ts -> List.length buf = 19 ->
  app_serve user mid files pages k oh oc render location redirect_body f re a q buf x w = (evs, w', b, fin) ->
  (visible evs = [EvStatus 404] /\ w' = w /\ received b = (404%Z, [], []) /\ fin = SDone) \/
  (visible evs = [] /\ w' = w /\ received b = (200%Z, [], []) /\ fin <> SDone) \/
  (exists i r ks bs mc evs', leads re ci (rs0 ++ rs) (xq_method (rq_x q)) i r ks /\ reads_as ci (re_match re) ks ts bs /\
     sees mc q bs /\ visible evs = EvRun i :: evs' /\
     answered_by user mid files pages (sends k oh oc render location redirect_body q) (wr_entry r) x q mc w evs' w' b fin).
Proof. exact (@whole_sound). Qed.
Print Assumptions C83_called_partial.

Example C83_case : forall k oc render location redirect_body,
  let get p := town_get k oc render location redirect_body p in
  resources [] (Some []) town_static /\ wires [VMux [] []] town_calls town_wiring /\
  (exists a0 xs, new_app 60 lit_engine false [] (Some []) = (a0, Some Registered) /\
     acalls doubling 60 lit_engine a0 town_calls = (town_app, xs) /\ Forall smooth xs) /\
  ordinary lit_engine false (town_static ++ town_wiring) /\
  segments_of (str "/v1/users/42") [str "v1"; str "users"; str "42"] /\
  clear_choice lit_engine false (town_static ++ town_wiring) GET [str "v1"; str "users"; str "42"] /\
  (exists bs, leads lit_engine false (town_static ++ town_wiring) GET 1
      (Wired GET (str "/v1/users/{id}") (Entry [Some 0; Some 1] [Some 2] (TUser 0))) [Lit (str "v1"); Lit (str "users"); Var (str "id")] /\
     reads_as false (re_match lit_engine) [Lit (str "v1"); Lit (str "users"); Var (str "id")] [str "v1"; str "users"; str "42"] bs) /\
  get (str "/v1/users/42") = ([EvRun 1; EvWrite (RText (HResp 200 [] None None) (str "42"))], [0; 1; 2; 100],
     (200%Z, [(str "X-Content-Type-Options", [str "nosniff"])], str "42"), SDone) /\
  (exists evs b, get (str "/v1/other") = (EvRun 3 :: evs, [0; 102], b, SDone)).
Proof. exact (@town_case). Qed.

(** C84, what holds: the most specific registration that reads the request answers it, and
    404 is sent if there is none.  Missing: the restrictions of C12, and repeated prefixes. *)
Theorem C84_answered_partial : forall (W : Type) (user : nat -> handler areq response W) (mid : nat -> middleware areq response W)
    (files : bytes -> request -> list act) (pages : debug_page -> request -> list act)
    (k : compressor) (oh : headers -> headers) (oc : cookies -> cookies) (render : cookie -> bytes) (location : wreq -> bytes -> bytes) (redirect_body : Z -> bytes -> bytes)
    grow fuel re ci context mapping rs0 cs rs a0 x0 a xs q ts buf,
  resources context mapping rs0 -> wires [VMux [] []] cs rs ->
  new_app fuel re ci context mapping = (a0, x0) -> smooth x0 -> acalls grow fuel re a0 cs = (a, xs) -> Forall smooth xs ->
  ordinary re ci (rs0 ++ rs) -> (blen (rq_path q) < 65536)%N -> segments_of (rq_path q) ts -> List.length buf = 19 ->
  clear_choice re ci (rs0 ++ rs) (xq_method (rq_x q)) ts ->
  exists k0, forall f x w evs w' b fin,
    app_serve user mid files pages k oh oc render location redirect_body (k0 + f) re a q buf x w = (evs, w', b, fin) ->
    ((forall i r ks bs, leads re ci (rs0 ++ rs) (xq_method (rq_x q)) i r ks -> ~ reads_as ci (re_match re) ks ts bs) ->
     visible evs = [EvStatus 404] /\ w' = w /\ received b = (404%Z, [], []) /\ fin = SDone) /\
    ((exists i r ks bs, leads re ci (rs0 ++ rs) (xq_method (rq_x q)) i r ks /\ reads_as ci (re_match re) ks ts bs) ->
     exists i r ks bs mc evs', leads re ci (rs0 ++ rs) (xq_method (rq_x q)) i r ks /\ reads_as ci (re_match re) ks ts bs /\
       (forall i2 r2 ks2 bs2, leads re ci (rs0 ++ rs) (xq_method (rq_x q)) i2 r2 ks2 -> reads_as ci (re_match re) ks2 ts bs2 -> ~ more_specific ks2 ks) /\
       sees mc q bs /\ visible evs = EvRun i :: evs' /\
       answered_by user mid files pages (sends k oh oc render location redirect_body q) (wr_entry r) x q mc w evs' w' b fin).
Proof. exact (@whole_answers). Qed.
Print Assumptions C84_answered_partial.

(** C85, what holds: a request for a pattern of literals is answered by that registration.
    Missing: the restrictions of C12, and repeated prefixes. *)
Theorem C85_exact_partial : forall (W : Type) (user : nat -> handler areq response W) (mid : nat -> middleware areq response W)
    (files : bytes -> request -> list act) (pages : debug_page -> request -> list act)
    (k : compressor) (oh : headers -> headers) (oc : cookies -> cookies) (render : cookie -> bytes) (location : wreq -> bytes -> bytes) (redirect_body : Z -> bytes -> bytes)
    grow fuel re ci context mapping rs0 cs rs a0 x0 a xs q ts buf i r ls,
  resources context mapping rs0 -> wires [VMux [] []] cs rs ->
  new_app fuel re ci context mapping = (a0, x0) -> smooth x0 -> acalls grow fuel re a0 cs = (a, xs) -> Forall smooth xs ->
  ordinary re ci (rs0 ++ rs) -> (blen (rq_path q) < 65536)%N -> segments_of (rq_path q) ts -> List.length buf = 19 ->
  clear_choice re ci (rs0 ++ rs) (xq_method (rq_x q)) ts ->
  leads re ci (rs0 ++ rs) (xq_method (rq_x q)) i r (map Lit ls) -> Forall2 (same_text ci) ls ts ->
  exists k0, forall f x w evs w' b fin,
    app_serve user mid files pages k oh oc render location redirect_body (k0 + f) re a q buf x w = (evs, w', b, fin) ->
    exists mc evs', sees mc q [] /\ visible evs = EvRun i :: evs' /\
      answered_by user mid files pages (sends k oh oc render location redirect_body q) (wr_entry r) x q mc w evs' w' b fin.
Proof. exact (@exact_wins). Qed.
Print Assumptions C85_exact_partial.

(** Case for C84: a method and path without a route; [C83_case] has one with a route, and
    the hypotheses about the program. *)
Example C84_case : forall k oc render location redirect_body,
  let q := plain_request (str "POST") (str "/orders") in
  segments_of (rq_path q) [str "orders"] /\ clear_choice lit_engine false (town_static ++ town_wiring) (str "POST") [str "orders"] /\
  (forall i r ks bs, leads lit_engine false (town_static ++ town_wiring) (str "POST") i r ks -> ~ reads_as false (re_match lit_engine) ks [str "orders"] bs) /\
  town_ask k oc render location redirect_body q = ([EvStatus 404], [], (404%Z, [], []), SDone).
Proof. exact (@town_none_case). Qed.

(** Case for C85: the path of a registration for POST. *)
Example C85_case : forall k oc render location redirect_body,
  let q := plain_request (str "POST") (str "/v1/users") in
  let ls := [str "v1"; str "users"] in
  segments_of (rq_path q) ls /\ clear_choice lit_engine false (town_static ++ town_wiring) (str "POST") ls /\
  leads lit_engine false (town_static ++ town_wiring) (str "POST") 2 (Wired (str "POST") (str "/v1/users") (Entry [Some 0; Some 1] [] (TUser 1))) (map Lit ls) /\
  Forall2 (same_text false) ls ls /\
  town_ask k oc render location redirect_body q = ([EvRun 2; EvWrite (RText (HResp 200 [] None None) [])], [0; 1; 101],
     (200%Z, [(str "X-Content-Type-Options", [str "nosniff"])], []), SDone).
Proof. exact (@town_exact_case). Qed.
