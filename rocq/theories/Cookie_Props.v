(** * Properties C138 to C140: the texts of cookies *)
From Coq Require Import List NArith ZArith Ascii String Bool Permutation.
From Verif Require Import GoBase Http_Model Auth_Model Chain_Model Serve_Model Resp_Model Resp_Spec Resp_Proofs RespMisc_Proofs.
From Verif Require Import Cookie_Model Cookie_Spec CookieBack_Proofs.
Import ListNotations.
Local Open Scope string_scope.
Local Open Scope list_scope.
Local Open Scope nat_scope.

(** C138, what holds: every cookie whose name is a token is sent in a line of its own, in
    which a browser reads its name, its value and its attributes; only the others are lost. *)
Theorem C138_sent_partial : forall (detail : bytes -> details) (k : compressor) (oh : headers -> headers) (oc : cookies -> cookies)
    location redirect_body r q h st (w : rw k),
  (forall m, Permutation (oh m) m) -> (forall m, Permutation (oc m) m) ->
  fields r = Some h -> right_protocol r q -> meant_status h st -> (200 <= st <= 999)%Z ->
  b_final (rw_base w) = None -> one_spelling (custom_headers h) -> ~ given (custom_headers h) (str "Set-Cookie") ->
  exists hs sent lost ts, b_final (rw_base (snd (write oh oc (cookie_text detail) location redirect_body r q w))) = Some (st, hs) /\
    Permutation (sent ++ lost) (custom_cookies h) /\
    (forall c, In c lost -> ~ token_name (ck_name c)) /\
    hvalues hs (str "Set-Cookie") = hvalues (rw_headers w) (str "Set-Cookie") ++ ts /\ Forall2 (reads_as detail) sent ts.
Proof. exact cookies_sent. Qed.
Print Assumptions C138_sent_partial.

Example C138_case :
  fields (plain_text two_cookies) = Some two_cookies /\ right_protocol (plain_text two_cookies) get_req /\ meant_status two_cookies 200 /\
  one_spelling (custom_headers two_cookies) /\ ~ given (custom_headers two_cookies) (str "Set-Cookie") /\
  custom_cookies two_cookies = [bad_name; basket] /\
  received (rw_base (snd (write (fun m => m) (fun m => m) (cookie_text all_set) (fun _ u => u) (fun _ u => u) (plain_text two_cookies) get_req (@Plain toy base_new)))) =
    (200%Z, [(str "X-Content-Type-Options", [str "nosniff"]); (str "Content-Type", [str "text/plain"]);
             (str "Set-Cookie", [str "basket=""a bc""; Path=/shop Secure; Domain=Shop.example.com; Expires=Mon, 16 Nov 2026 17:05:09 GMT; Max-Age=3600; HttpOnly; Secure; SameSite=Lax"])],
     str "hi").
Proof. exact cookies_sent_case. Qed.

(** C138 is false for names that are not tokens: the answer is sent without them. *)
Theorem C138_name_refuted : forall (detail : bytes -> details) (k : compressor) (oh : headers -> headers) (oc : cookies -> cookies)
    location redirect_body r q h st (w : rw k),
  (forall m, Permutation (oh m) m) -> (forall m, Permutation (oc m) m) ->
  fields r = Some h -> right_protocol r q -> meant_status h st -> (200 <= st <= 999)%Z ->
  b_final (rw_base w) = None -> one_spelling (custom_headers h) -> ~ given (custom_headers h) (str "Set-Cookie") ->
  (forall c, In c (custom_cookies h) -> ~ token_name (ck_name c)) ->
  exists hs, b_final (rw_base (snd (write oh oc (cookie_text detail) location redirect_body r q w))) = Some (st, hs) /\
    hvalues hs (str "Set-Cookie") = hvalues (rw_headers w) (str "Set-Cookie").
Proof. exact cookies_lost. Qed.
Print Assumptions C138_name_refuted.

Example C138_name_case :
  ~ token_name (ck_name bad_name) /\
  received (rw_base (snd (write (fun m => m) (fun m => m) (cookie_text all_set) (fun _ u => u) (fun _ u => u)
     (plain_text (HResp 200 (str "text/plain") None (Some (new_http_cookie [Some bad_name])))) get_req (@Plain toy base_new)))) =
    (200%Z, [(str "X-Content-Type-Options", [str "nosniff"]); (str "Content-Type", [str "text/plain"])], str "hi").
Proof. exact cookies_lost_case. Qed.

(** C139, what holds: a handler gets the cookies in order, each with its name and the bytes
    of its value that a value may have, however the browser spreads them over lines. *)
Theorem C139_value_partial : forall (detail : bytes -> details) cs kept lines,
  Forall (fun c => token_name (ck_name c)) cs ->
  Forall2 (fun c nv => exists l, browser_reads (cookie_text detail c) = Some (fst nv, snd nv, l)) cs kept -> List.concat lines = kept ->
  Forall2 (fun c nv => fst nv = ck_name c /\ only value_sign (cd_value (detail (ck_rest c))) (snd nv)) cs (read_cookies (map sends_back lines)).
Proof. exact comes_back_exact. Qed.
Print Assumptions C139_value_partial.

Theorem C139_same_partial : forall (detail : bytes -> details) cs kept lines,
  Forall (fun c => token_name (ck_name c)) cs ->
  Forall (fun c => forall x, In x (cd_value (detail (ck_rest c))) -> value_sign x) cs ->
  Forall2 (fun c nv => exists l, browser_reads (cookie_text detail c) = Some (fst nv, snd nv, l)) cs kept -> List.concat lines = kept ->
  read_cookies (map sends_back lines) = map (fun c => (ck_name c, cd_value (detail (ck_rest c)))) cs.
Proof. exact comes_back_same. Qed.
Print Assumptions C139_same_partial.

Example C139_case :
  let other := Cookie (str "q") [] (str "10.0.0.1") (str "1,2") in
  token_name (ck_name basket) /\ token_name (ck_name other) /\
  browser_reads (cookie_text all_set other) =
    Some (str "q", str """1,2""", [(str "Domain", Some (str "10.0.0.1")); (str "Expires", Some (str "Mon, 16 Nov 2026 17:05:09 GMT")); (str "Max-Age", Some (str "3600"));
          (str "HttpOnly", None); (str "Secure", None); (str "SameSite", Some (str "Lax"))]) /\
  sends_back [(str "basket", str """a bc"""); (str "q", str """1,2""")] = str "basket=""a bc""; q=""1,2""" /\
  read_cookies [str "basket=""a bc""; q=""1,2"""] = [(str "basket", str "a bc"); (str "q", str "1,2")].
Proof. exact comes_back_case. Qed.

(** C139, from the answer of one request to a later one: the cookies of the response come
    back, in some order. *)
Theorem C139_response_partial : forall (detail : bytes -> details) (k : compressor) (oh : headers -> headers) (oc : cookies -> cookies)
    location redirect_body r q h st (w : rw k),
  (forall m, Permutation (oh m) m) -> (forall m, Permutation (oc m) m) ->
  fields r = Some h -> right_protocol r q -> meant_status h st -> (200 <= st <= 999)%Z ->
  b_final (rw_base w) = None -> one_spelling (custom_headers h) -> ~ given (custom_headers h) (str "Set-Cookie") ->
  hvalues (rw_headers w) (str "Set-Cookie") = [] ->
  (forall c, In c (custom_cookies h) -> token_name (ck_name c) /\ forall x, In x (cd_value (detail (ck_rest c))) -> value_sign x) ->
  exists hs, b_final (rw_base (snd (write oh oc (cookie_text detail) location redirect_body r q w))) = Some (st, hs) /\
    forall kept lines, Forall2 (fun t nv => exists l, browser_reads t = Some (fst nv, snd nv, l)) (hvalues hs (str "Set-Cookie")) kept ->
      List.concat lines = kept ->
      Permutation (read_cookies (map sends_back lines)) (map (fun c => (ck_name c, cd_value (detail (ck_rest c)))) (custom_cookies h)).
Proof. exact response_back. Qed.
Print Assumptions C139_response_partial.

Example C139_response_case :
  fields (plain_text one_cookie) = Some one_cookie /\ right_protocol (plain_text one_cookie) get_req /\ meant_status one_cookie 200 /\
  one_spelling (custom_headers one_cookie) /\ ~ given (custom_headers one_cookie) (str "Set-Cookie") /\
  (forall c, In c (custom_cookies one_cookie) -> token_name (ck_name c) /\ forall x, In x (cd_value (all_set (ck_rest c))) -> value_sign x) /\
  hvalues (snd (fst (received (rw_base (snd (write (fun m => m) (fun m => m) (cookie_text all_set) (fun _ u => u) (fun _ u => u) (plain_text one_cookie) get_req (@Plain toy base_new))))))) (str "Set-Cookie") =
    [str "q=""1,2 'ok'=""; Path=/; Expires=Mon, 16 Nov 2026 17:05:09 GMT; Max-Age=3600; HttpOnly; Secure; SameSite=Lax"] /\
  read_cookies [sends_back [(str "q", str """1,2 'ok'=""")]] = [(str "q", str "1,2 'ok'=")].
Proof. exact response_back_case. Qed.

(** C139 is false for every value with another byte: it comes back shorter. *)
Theorem C139_value_refuted : forall (detail : bytes -> details) c x n v l,
  token_name (ck_name c) -> In x (cd_value (detail (ck_rest c))) -> ~ value_sign x ->
  browser_reads (cookie_text detail c) = Some (n, v, l) ->
  exists w, read_cookies [sends_back [(n, v)]] = [(ck_name c, w)] /\ List.length w < List.length (cd_value (detail (ck_rest c))).
Proof. exact comes_back_shorter. Qed.
Print Assumptions C139_value_refuted.

Example C139_value_case : (forall x, In x (str "1,2 'ok'=") -> value_sign x) /\ ~ value_sign ";"%char.
Proof. exact same_value_case. Qed.

(** C140: the attributes a browser reads are those that the fields ask for, whatever the
    texts of name, value, path and domain are. *)
Theorem C140_attributes : forall name path domain d n v l,
  browser_reads (cookie_string name path domain d) = Some (n, v, l) -> asked_for path domain d l.
Proof. exact attributes_read. Qed.
Print Assumptions C140_attributes.

(** C140: and the text is one line of printable signs. *)
Theorem C140_line : forall name path domain d c, In c (cookie_string name path domain d) -> (32 <= code c <= 126)%N.
Proof. exact cookie_printable. Qed.
Print Assumptions C140_line.

Example C140_case :
  domain_of (str ".Shop.example.com") (str "Shop.example.com") /\ domain_of (str "10.0.0.1") (str "10.0.0.1") /\
  (forall h, ~ domain_of (str "a.example.com; Secure") h) /\ (forall h, ~ domain_of (str "300.0.0.1") h) /\ (forall h, ~ domain_of (str "-a.example") h).
Proof. exact domains_case. Qed.
