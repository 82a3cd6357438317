(** * C135, C136, C137: redirects *)
From Coq Require Import List NArith ZArith Ascii String Bool.
From Verif Require Import GoBase OAuth_Model Http_Model Chain_Model Serve_Model Resp_Model Resp_Spec Files_Spec Redirect_Model Redirect_Spec RedirectSite_Proofs RedirectPage_Proofs RedirectLogin_Proofs RedirectRoot_Proofs.
Import ListNotations.
Local Open Scope string_scope.
Local Open Scope list_scope.

(** ** C135: a redirect leads where its URL points *)

(** A redirect of a request for a path that is written without escapes. *)
Theorem C135_leads_partial : forall k oh oc render reason b h u r q (w : rw k),
  (200 <= hr_status h <= 999)%Z -> b_final (rw_base w) = None ->
  starts (str "/") (bs_path b) -> lacks (str "?#%") (bs_path b) -> visible (bs_path b) -> visible u ->
  reads u r -> kept_reference b r ->
  exists w' hs l, write oh oc render (fun _ => redirect_location (bs_path b)) (redirect_page reason (bs_path b)) (RRedirect h u) q w = (Wrote None, w') /\
    b_final (rw_base w') = Some (hr_status h, hs) /\ hvalues hs (str "Location") = [l] /\ leads_alike b l u.
Proof. exact (@sent_alike). Qed.
Print Assumptions C135_leads_partial.

Example C135_leads_case :
  let b := at_shop (str "/cart/items/7") None in
  redirect_location (bs_path b) (str "../pay?n=1#top") = str "/cart/pay?n=1#top" /\
  leads_alike b (str "/cart/pay?n=1#top") (str "../pay?n=1#top") /\
  kept_reference b (Reference None None (str "../pay") (Some (str "n=1")) (Some (str "top"))) /\
  redirect_location (bs_path b) (str "//pay.example/a/../b") = str "//pay.example/a/../b".
Proof. exact (@leads_case). Qed.

(** A URL with a scheme is sent as it is, whatever the request asked for. *)
Theorem C135_absolute_partial : forall k oh oc render reason p h u r q (w : rw k),
  (200 <= hr_status h <= 999)%Z -> b_final (rw_base w) = None -> ascii_text u -> reads u r -> rf_scheme r <> None ->
  exists w' hs, write oh oc render (fun _ => redirect_location p) (redirect_page reason p) (RRedirect h u) q w = (Wrote None, w') /\
    b_final (rw_base w') = Some (hr_status h, hs) /\ hvalues hs (str "Location") = [u].
Proof. exact (@sent_absolute). Qed.
Print Assumptions C135_absolute_partial.

(** A reference to a path is sent as a path from the root exactly if it can be read as a
    URL: otherwise it is sent as it is.
    Missing: which path from the root (C135_leads_partial). *)
Theorem C135_rooted_partial : forall k oh oc render reason p h u r q (w : rw k),
  (200 <= hr_status h <= 999)%Z -> b_final (rw_base w) = None -> starts (str "/") p -> ~ In "?"%char p ->
  reads u r -> rf_scheme r = None -> rf_authority r = None ->
  exists w' hs l, write oh oc render (fun _ => redirect_location p) (redirect_page reason p) (RRedirect h u) q w = (Wrote None, w') /\
    b_final (rw_base w') = Some (hr_status h, hs) /\ hvalues hs (str "Location") = [l] /\
    (well_written r -> starts (str "/") l) /\ (~ well_written r -> percent_form u l).
Proof. exact (@sent_rooted). Qed.
Print Assumptions C135_rooted_partial.

Example C135_rooted_case :
  let p := str "/cart/items/7" in
  redirect_location p (str "a%20b?x=%zz#%41") = str "/cart/items/a%20b?x=%zz#%41" /\
  well_written (Reference None None (str "a%20b") (Some (str "x=%zz")) (Some (str "%41"))) /\
  redirect_location p (str "a%2?x") = str "a%2?x" /\ ~ well_written (Reference None None (str "a%2") (Some (str "x")) None) /\
  redirect_location p (str "a#%") = str "a#%" /\ ~ well_written (Reference None None (str "a") None (Some (str "%"))) /\
  redirect_location p (str ":a") = str ":a" /\ ~ well_written (Reference None None (str ":a") None None).
Proof. exact (@rooted_case). Qed.

(** A URL with a user and no host, like //bob@/a, is made a path of the site exactly if the
    user is written as a user may be; otherwise it is sent as it is.
    Missing: bytes outside ASCII and escapes. *)
Theorem C135_user_partial : forall k oh oc render reason p h user t q (w : rw k),
  (200 <= hr_status h <= 999)%Z -> b_final (rw_base w) = None ->
  visible user -> visible t -> lacks (str "/?#@%") user -> lacks (str "?#%") t ->
  let u := str "//" ++ user ++ str "@/" ++ t in
  exists w' hs l, write oh oc render (fun _ => redirect_location p) (redirect_page reason p) (RRedirect h u) q w = (Wrote None, w') /\
    b_final (rw_base w') = Some (hr_status h, hs) /\ hvalues hs (str "Location") = [l] /\
    ((forall c, In c user -> user_sign c) -> starts (str "/") l /\ ~ starts (str "//") l) /\
    (~ (forall c, In c user -> user_sign c) -> l = u).
Proof. exact (@sent_user). Qed.
Print Assumptions C135_user_partial.

Example C135_user_case :
  let p := str "/cart/items/7" in
  redirect_location p (str "//bob:pw@/x/../y/") = str "/bob:pw@/y/" /\
  redirect_location p (str "//b<ob@/x/../y/") = str "//b<ob@/x/../y/" /\ ~ user_sign "<"%char.
Proof. exact user_case. Qed.

(** The URLs with which logins begin are sent as they are. *)
Theorem C135_login_partial : forall k oh oc render reason p h u q (w : rw k),
  (200 <= hr_status h <= 999)%Z -> b_final (rw_base w) = None ->
  (exists g redirect state user, u = github_initiate_url g redirect state user) \/ (exists g redirect state user, u = google_initiate_url g redirect state user) ->
  exists w' hs, write oh oc render (fun _ => redirect_location p) (redirect_page reason p) (RRedirect h u) q w = (Wrote None, w') /\
    b_final (rw_base w') = Some (hr_status h, hs) /\ hvalues hs (str "Location") = [u].
Proof. exact (@sent_login). Qed.
Print Assumptions C135_login_partial.

Example C135_login_case :
  redirect_location (str "/app/login") (github_initiate_url (GitHub (str "id") (str "secret") [] true [str "repo"]) (str "https://a.b/c d") (str "x&y") true) =
  str "https://github.com/login/oauth/authorize?allow_signup=true&client_id=id&redirect_uri=https%3A%2F%2Fa.b%2Fc+d&scope=repo+user&state=x%26y".
Proof. exact (@login_case). Qed.

(** A redirect to another query of the same page leads to its directory. *)
Theorem C135_query_refuted : forall k oh oc render reason b h s q (w : rw k),
  (200 <= hr_status h <= 999)%Z -> b_final (rw_base w) = None ->
  starts (str "/") (bs_path b) -> lacks (str "?#%") (bs_path b) -> visible (bs_path b) -> (forall x, bs_path b <> x ++ str "/") ->
  visible s -> ~ In "#"%char s ->
  exists w' hs l, write oh oc render (fun _ => redirect_location (bs_path b)) (redirect_page reason (bs_path b)) (RRedirect h (str "?" ++ s)) q w = (Wrote None, w') /\
    b_final (rw_base w') = Some (hr_status h, hs) /\ hvalues hs (str "Location") = [l] /\ ~ leads_alike b l (str "?" ++ s).
Proof. exact (@sent_query). Qed.
Print Assumptions C135_query_refuted.

(** A redirect to the directory of the page loses the slash at its end. *)
Theorem C135_dot_refuted : forall k oh oc render reason b h names z q (w : rw k),
  (200 <= hr_status h <= 999)%Z -> b_final (rw_base w) = None ->
  names <> [] -> Forall entry_name names -> ~ In "/"%char z -> bs_path b = str "/" ++ join (str "/") (names ++ [z]) ->
  lacks (str "?#%") (bs_path b) -> visible (bs_path b) ->
  exists w' hs l, write oh oc render (fun _ => redirect_location (bs_path b)) (redirect_page reason (bs_path b)) (RRedirect h (str ".")) q w = (Wrote None, w') /\
    b_final (rw_base w') = Some (hr_status h, hs) /\ hvalues hs (str "Location") = [l] /\ ~ leads_alike b l (str ".").
Proof. exact (@sent_dot). Qed.
Print Assumptions C135_dot_refuted.

(** These and the other ways to get elsewhere. *)
Example C135_refuted_case :
  let b := at_shop (str "/cart/items") (Some (str "n=1")) in
  redirect_location (bs_path b) (str "?n=2") = str "/cart/?n=2" /\ ~ leads_alike b (str "/cart/?n=2") (str "?n=2") /\
  redirect_location (bs_path b) [] = str "/cart/" /\ ~ leads_alike b (str "/cart/") [] /\
  redirect_location (bs_path b) (str "..") = str "/" /\ leads_alike b (str "/") (str "..") /\
  redirect_location (bs_path b) (str "/a/b/..") = str "/a" /\ ~ leads_alike b (str "/a") (str "/a/b/..") /\
  redirect_location (bs_path b) (str "/to/https://pay.example") = str "/to/https:/pay.example" /\
    ~ leads_alike b (str "/to/https:/pay.example") (str "/to/https://pay.example") /\
  redirect_location (bs_path b) (str "/app#/x/../y") = str "/app#/y" /\ ~ leads_alike b (str "/app#/y") (str "/app#/x/../y") /\
  redirect_location (str "/a?b/c") (str "x") = str "/a?b/x" /\ ~ leads_alike (at_shop (str "/a%3Fb/c") None) (str "/a?b/x") (str "x").
Proof. exact (@elsewhere_cases). Qed.

(** ** C136: a redirect to a path stays on the site *)

(** With a backslash or a tab in the path of the request it does not: the request names the
    host to which a relative redirect then leads. *)
Theorem C136_host_refuted : forall k oh oc render reason h u s host x q (w : rw k),
  (200 <= hr_status h <= 999)%Z -> b_final (rw_base w) = None ->
  (s = [ascii_of_N 92] \/ s = [ascii_of_N 9; "/"%char]) -> plain_step host -> ~ In "/"%char x -> plain_step u ->
  let p := str "/" ++ s ++ host ++ str "/" ++ x in
  exists w' hs, write oh oc render (fun _ => redirect_location p) (redirect_page reason p) (RRedirect h u) q w = (Wrote None, w') /\
    b_final (rw_base w') = Some (hr_status h, hs) /\
    hvalues hs (str "Location") = [str "/" ++ s ++ host ++ str "/" ++ u] /\ leaves_site (str "/" ++ s ++ host ++ str "/" ++ u).
Proof. exact (@sent_host). Qed.
Print Assumptions C136_host_refuted.

Example C136_host_case :
  plain_step (str "evil.example") /\ plain_step (str "done") /\
  redirect_location (str "/" ++ [ascii_of_N 92] ++ str "evil.example/x") (str "done") = str "/" ++ [ascii_of_N 92] ++ str "evil.example/done".
Proof. exact (@host_case). Qed.

Theorem C136_site_partial : forall k oh oc render reason p h u q (w : rw k),
  (200 <= hr_status h <= 999)%Z -> b_final (rw_base w) = None ->
  starts (str "/") p -> clear_text p -> clear_text u -> names_path u ->
  exists w' hs l, write oh oc render (fun _ => redirect_location p) (redirect_page reason p) (RRedirect h u) q w = (Wrote None, w') /\
    b_final (rw_base w') = Some (hr_status h, hs) /\ hvalues hs (str "Location") = [l] /\ ~ leaves_site l.
Proof. exact (@sent_site). Qed.
Print Assumptions C136_site_partial.

Example C136_site_case :
  clear_text (str "/cart/items") /\ names_path (str "/a:b//c") /\ ~ leaves_site (redirect_location (str "/cart/items") (str "/a:b//c")) /\
  names_path (str "..") /\ ~ names_path (str "//pay.example") /\ leaves_site (redirect_location (str "/cart/items") (str "//pay.example")) /\
  leaves_site (str "javascript:alert(1)") /\ ~ leaves_site (str "/a:b").
Proof. exact (@site_case). Qed.

(** ** C137: the page of a redirect has a link to the same place and no other markup *)

(** The place [d] is written with percent signs in the header and with the references of HTML
    in the link. *)
Theorem C137_page : forall k dec oh oc render reason p h u r q b,
  decodes k dec -> with_body (hr_status h) -> b_final b = None -> b_body b = [] -> hvalues (b_header b) ce = [] ->
  wq_method q = str "GET" -> alookup ct (b_header b) = None ->
  (r = RRedirect h u \/ exists level, r = RCompress level (RRedirect h u)) ->
  exists b' hs l d t, write oh oc render (fun _ => redirect_location p) (redirect_page reason p) r q (@Plain k b) = (Wrote None, Plain b') /\
    b_final b' = Some (hr_status h, hs) /\ hvalues hs (str "Location") = [l] /\ hvalues hs ct = [str "text/html; charset=utf-8"] /\
    percent_form d l /\ seen_as t d /\
    client_body dec hs (b_body b') = Some (str "<a href=""" ++ t ++ str """>" ++ reason (hr_status h) ++ str "</a>." ++ [ascii_of_N 10; ascii_of_N 10]).
Proof. exact (@page_any). Qed.
Print Assumptions C137_page.

Example C137_page_case :
  redirect_page (fun _ => str "Found") (str "/a") 302 (str "/x?a=1&b=""><script>") =
    str "<a href=""/x?a=1&amp;b=&#34;&gt;&lt;script&gt;"">Found</a>." ++ [ascii_of_N 10; ascii_of_N 10].
Proof. exact (@page_case). Qed.

Example C137_bytes_case :
  let r := RCompress 5 (RRedirect (HResp 302 [] None None) (ascii_of_N 195 :: ascii_of_N 169 :: str "t&""")) in
  let go q := match write (fun h => h) (fun c => c) (fun _ => []) (fun _ => redirect_location (str "/a/b")) (redirect_page (fun _ => str "Found") (str "/a/b")) r q (@Plain toy base_new) with
              | (Wrote None, Plain b) => let '(_, hs, body) := received b in (hvalues hs (str "Location"), hvalues hs ce, client_body toy_dec hs body)
              | _ => ([], [], None) end in
  decodes toy toy_dec /\
  go (WReq (str "GET") [(str "Accept-Encoding", [str "gzip"])] 1) =
    ([str "/a/%c3%a9t&"""], [str "gzip"],
     Some (str "<a href=""/a/" ++ ascii_of_N 195 :: ascii_of_N 169 :: str "t&amp;&#34;"">Found</a>." ++ [ascii_of_N 10; ascii_of_N 10])) /\
  go (WReq (str "POST") [(str "Accept-Encoding", [str "gzip"])] 1) = ([str "/a/%c3%a9t&"""], [str "gzip"], Some []).
Proof. exact (@bytes_case). Qed.

(** Where there is a type already, or the method is another one, or the status has no body,
    no page is sent. *)
Theorem C137_none : forall k dec oh oc render reason p h u r q b,
  decodes k dec -> (200 <= hr_status h <= 999)%Z -> b_final b = None -> b_body b = [] -> hvalues (b_header b) ce = [] ->
  (wq_method q <> str "GET" \/ alookup ct (b_header b) <> None \/ without_body (hr_status h)) ->
  (r = RRedirect h u \/ exists level, r = RCompress level (RRedirect h u)) ->
  exists b' hs, write oh oc render (fun _ => redirect_location p) (redirect_page reason p) r q (@Plain k b) = (Wrote None, Plain b') /\
    b_final b' = Some (hr_status h, hs) /\
    (with_body (hr_status h) -> client_body dec hs (b_body b') = Some []) /\ (without_body (hr_status h) -> b_body b' = []).
Proof. exact (@page_none). Qed.
Print Assumptions C137_none.

Example C137_none_case :
  let r := RRedirect (HResp 303 [] None None) (str "/done") in
  forall k : compressor, let go m := write (fun h => h) (fun c => c) (fun _ => []) (fun _ => redirect_location (str "/a")) (redirect_page (fun _ => str "See Other") (str "/a")) r
                (WReq m [] 1) (@Plain k (Base_ [] [] None [] 0 false)) in
  go (str "POST") = (Wrote None, Plain (Base_ [(str "Location", [str "/done"])] [] (Some (303%Z, [(str "Location", [str "/done"])])) [] 0 false)) /\
  match go (str "GET") with (_, Plain b) => b_body b | _ => [] end = str "<a href=""/done"">See Other</a>." ++ [ascii_of_N 10; ascii_of_N 10].
Proof. exact (@none_case). Qed.
