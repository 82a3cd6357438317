(** * Properties C44 to C49, C54, C55, C64 to C69, C76 and C77: responses *)
From Coq Require Import List NArith ZArith Ascii String Bool Arith Permutation.
From Verif Require Import GoBase Http_Model Auth_Model Chain_Model Serve_Model Resp_Model Resp_Spec Sse_Spec.
From Verif Require Import Resp_Proofs RespBody_Proofs RespMisc_Proofs RespFail_Proofs.
Import ListNotations.
Local Open Scope string_scope.
Local Open Scope list_scope.
Local Open Scope nat_scope.

(** C44, what holds: with a status from 200 to 999 and no header under two spellings
    the client gets the status, headers, cookies and defaults as specified. *)
Theorem C44_sent_partial : forall (k : compressor) (oh : headers -> headers) (oc : cookies -> cookies) (render : cookie -> bytes)
    location redirect_body r q h st (w : rw k),
  (forall m, Permutation (oh m) m) -> (forall m, Permutation (oc m) m) ->
  fields r = Some h -> right_protocol r q -> meant_status h st -> (200 <= st <= 999)%Z ->
  b_final (rw_base w) = None -> one_spelling (custom_headers h) ->
  exists hs ts, b_final (rw_base (snd (write oh oc render location redirect_body r q w))) = Some (st, hs) /\
    Permutation ts (texts_of render (custom_cookies h)) /\
    sent_as (rw_headers w) hs (custom_headers h) ts (hr_ctype h).
Proof. exact (@response_sent). Qed.
Print Assumptions C44_sent_partial.

(** C44: any other status writes nothing and reports an error. *)
Theorem C44_invalid_status_partial : forall (k : compressor) oh oc render location redirect_body r q h st (w : rw k),
  fields r = Some h -> right_protocol r q -> meant_status h st -> ~ (100 <= st <= 999)%Z ->
  write oh oc render location redirect_body r q w = (Wrote (Some (EOther (str "http status code should be between 100 and 999"))), w).
Proof. exact (@invalid_status). Qed.
Print Assumptions C44_invalid_status_partial.

Example C44_case :
  let h := HResp 0 (str "text/plain") (Some [(str "x-a", str "1"); (str "Content-Type", [])]) (Some (new_http_cookie [Some sid])) in
  fields (plain_text h) = Some h /\ right_protocol (plain_text h) get_req /\ meant_status h 200 /\ with_body 200 /\
  one_spelling (custom_headers h) /\
  received (written_toy (fun m => m) (fun m => m) (plain_text h) get_req) =
    (200%Z, [(str "X-Content-Type-Options", [str "nosniff"]); (str "Content-Type", [str "text/plain"]);
             (str "X-A", [str "1"]); (str "Set-Cookie", [str "sid=1"])], str "hi").
Proof. exact (@response_case). Qed.

(** C44 is false for a status from 100 to 199: the final status is 200. *)
Theorem C44_informational_refuted : forall (k : compressor) oh oc render location redirect_body h q,
  (100 <= hr_status h <= 199)%Z ->
  exists b', write oh oc render location redirect_body (RHeaders h) q (@Plain k base_new) = (Wrote None, Plain b') /\
    fst (fst (received b')) = 200%Z.
Proof. exact (@informational_is_200). Qed.
Print Assumptions C44_informational_refuted.

(** C44 is false for a header under two spellings: one value is lost, which one
    depends on the order in which the map is visited. *)
Theorem C44_spelling_refuted :
  let h := HResp 200 [] (Some [(str "X-A", str "1"); (str "x-a", str "2")]) None in
  (forall m, Permutation (@rev (bytes * bytes) m) m) /\
  hvalues (snd (fst (received (written_toy (fun m => m) (fun m => m) (plain_text h) get_req)))) (str "X-A") = [str "2"] /\
  hvalues (snd (fst (received (written_toy (@rev _) (fun m => m) (plain_text h) get_req)))) (str "X-A") = [str "1"].
Proof. exact (@spelling_depends_on_order). Qed.
Print Assumptions C44_spelling_refuted.

(** C44 is false for a custom header Set-Cookie: the cookies are lost. *)
Theorem C44_set_cookie_refuted :
  let h := HResp 200 [] (Some [(str "Set-Cookie", str "a=b")]) (Some (new_http_cookie [Some sid])) in
  hvalues (snd (fst (received (written_toy (fun m => m) (fun m => m) (plain_text h) get_req)))) (str "Set-Cookie") = [str "a=b"].
Proof. exact (@set_cookie_header_drops). Qed.
Print Assumptions C44_set_cookie_refuted.

(** C45 is false: a redirect with a header and a cookie is sent without them. *)
Theorem C45_redirect_refuted :
  let h := HResp 302 [] (Some [(str "X-A", str "1")]) (Some (new_http_cookie [Some sid])) in
  received (written_toy (fun m => m) (fun m => m) (RRedirect h (str "/login")) (WReq (str "POST") [] 1%N)) =
    (302%Z, [(str "Location", [str "/login"])], []).
Proof. exact (@redirect_drops). Qed.
Print Assumptions C45_redirect_refuted.

(** C45 is false for all redirects: what is written depends on the status and the URL
    only. *)
Theorem C45_redirect_ignores_refuted : forall (k : compressor) oh oc render location redirect_body h1 h2 u q (w : rw k),
  hr_status h1 = hr_status h2 ->
  write oh oc render location redirect_body (RRedirect h1 u) q w = write oh oc render location redirect_body (RRedirect h2 u) q w.
Proof. exact (@redirect_ignores). Qed.
Print Assumptions C45_redirect_ignores_refuted.

(** C45, what holds: status and Location are sent, and the headers that are already on
    the writer. *)
Theorem C45_redirect_partial : forall (k : compressor) oh oc render location redirect_body h u q (w : rw k),
  (200 <= hr_status h <= 999)%Z -> b_final (rw_base w) = None ->
  exists w' hs, write oh oc render location redirect_body (RRedirect h u) q w = (Wrote None, w') /\
    b_final (rw_base w') = Some (hr_status h, hs) /\ hvalues hs (str "Location") = [location q u] /\
    (forall n, ~ same_name n (str "Location") -> ~ same_name n ct -> hvalues hs n = hvalues (rw_headers w) n).
Proof. exact (@redirect_sent). Qed.
Print Assumptions C45_redirect_partial.

(** Case: a header that was put on the writer before is sent. *)
Example C45_case :
  let b := Base_ [(str "X-Trace", [str "7"])] [] None [] 0 false in
  let h := HResp 303 [] (Some [(str "X-A", str "1")]) None in
  exists b', write (fun m => m) (fun m => m) (fun _ => []) (fun _ u => str "/shop" ++ u) (fun _ _ => []) (RRedirect h (str "/login")) (WReq (str "POST") [] 1%N) (@Plain toy b) =
    (Wrote None, Plain b') /\ received b' = (303%Z, [(str "Location", [str "/shop/login"]); (str "X-Trace", [str "7"])], []).
Proof. vm_compute. eexists. split; reflexivity. Qed.

(** C46 is false: a colon in a path or domain makes two cookies collide. *)
Theorem C46_cookies_refuted :
  let a := Cookie (str "a") (str "/x:y") [] (str "1") in
  let b := Cookie (str "a") (str "/x") (str "y:") (str "2") in
  ~ same_cookie a b /\ last_added [Some a; Some b] a /\ ~ In a (map snd (new_http_cookie [Some a; Some b])).
Proof. exact (@cookie_lost). Qed.
Print Assumptions C46_cookies_refuted.

(** C46, what holds for names and domains without a colon, for any calls of Add. *)
Theorem C46_cookies_partial : forall ls,
  (forall c, In (Some c) (flat_map (fun l => l) ls) -> no_colon c) ->
  let m := fold_left cookies_add ls [] in
  NoDup (map snd m) /\ forall c, In c (map snd m) <-> last_added (flat_map (fun l => l) ls) c.
Proof. exact (@cookies_last_added). Qed.
Print Assumptions C46_cookies_partial.

Example C46_case :
  let a := Cookie (str "a") (str "/x:y") [] (str "1") in
  let b := Cookie (str "a") (str "/x") (str "y") (str "2") in
  let c := Cookie (str "a") (str "/x:y") [] (str "3") in
  (forall x, In (Some x) (flat_map (fun l => l) [[Some a; None]; [Some b; Some c]]) -> no_colon x) /\
  map snd (fold_left cookies_add [[Some a; None]; [Some b; Some c]] []) = [c; b].
Proof. exact (@cookie_case). Qed.

(** C47 is false: a line break in the data of one event makes it two events. *)
Theorem C47_line_break_refuted :
  let e := Event (str "greeting") [] [str "a" ++ [lf; lf] ++ str "data: forged"] 0 in
  rd_got (read_stream (event_string e)) = [Got (str "greeting") (str "a") []; Got (str "message") (str "forged") []].
Proof. exact (@newline_splits). Qed.
Print Assumptions C47_line_break_refuted.

(** C47 is false: an event without data is not received. *)
Theorem C47_no_data_refuted :
  let e := Event (str "ping") (str "7") [] 0 in rd_got (read_stream (event_string e)) = [].
Proof. exact (@no_data_lost). Qed.
Print Assumptions C47_no_data_refuted.

(** C47, what holds for events whose texts have no line breaks: the client reads the
    events with data, their names, ids and data, and the retry time. *)
Theorem C47_stream_partial : forall (k : compressor) oh oc render location redirect_body h evs live q st b,
  wq_major q = 2%N -> meant_status h st -> with_body st -> b_final b = None -> b_body b = [] ->
  (forall e, In e (firstn live evs) -> plain_event e) ->
  exists b', write oh oc render location redirect_body (RSse h (Some evs) live) q (@Plain k b) = (Wrote None, Plain b') /\
    rd_got (read_stream (b_body b')) = expected [] (firstn live evs) /\
    rd_retry (read_stream (b_body b')) = expected_retry None (firstn live evs).
Proof. exact (@stream_received). Qed.
Print Assumptions C47_stream_partial.

Example C47_case :
  let evs := [Event (str "greeting") (str "1") [str "a"; str "b"] 0; Event [] [] [str "c"] 500] in
  (forall e, In e (firstn 2 evs) -> plain_event e) /\
  expected [] evs = [Got (str "greeting") (str "a" ++ [lf] ++ str "b") (str "1"); Got (str "message") (str "c") (str "1")] /\
  expected_retry None evs = Some 500%N /\
  b_body (written_toy (fun m => m) (fun m => m) (RSse (HResp 0 (str "text/event-stream") None None) (Some evs) 2) (WReq (str "GET") [] 2)) =
    str "event: greeting" ++ [lf] ++ str "data: a" ++ [lf] ++ str "data: b" ++ [lf] ++ str "id: 1" ++ [lf; lf] ++
    str "data: c" ++ [lf] ++ str "retry: 500" ++ [lf; lf].
Proof. exact (@sse_case). Qed.

(** C48 is false: the header is set too late, so an event stream without a custom
    Cache-Control is sent without one. *)
Theorem C48_no_cache_refuted : forall (k : compressor) (oh : headers -> headers) (oc : cookies -> cookies) render location redirect_body h evs live q st (w : rw k),
  (forall m, Permutation (oh m) m) -> (forall m, Permutation (oc m) m) ->
  wq_major q = 2%N -> meant_status h st -> (200 <= st <= 999)%Z -> b_final (rw_base w) = None -> one_spelling (custom_headers h) ->
  ~ given (custom_headers h) cache_control -> hvalues (rw_headers w) cache_control = [] ->
  exists hs, b_final (rw_base (snd (write oh oc render location redirect_body (RSse h evs live) q w))) = Some (st, hs) /\
    hvalues hs cache_control = [].
Proof. exact (@stream_cacheable). Qed.
Print Assumptions C48_no_cache_refuted.

(** C48, what holds: a custom Cache-Control is sent. *)
Theorem C48_custom_partial : forall (k : compressor) (oh : headers -> headers) (oc : cookies -> cookies) render location redirect_body h evs live q st n v (w : rw k),
  (forall m, Permutation (oh m) m) -> (forall m, Permutation (oc m) m) ->
  wq_major q = 2%N -> meant_status h st -> (200 <= st <= 999)%Z -> b_final (rw_base w) = None -> one_spelling (custom_headers h) ->
  In (n, v) (custom_headers h) -> same_name n cache_control -> v <> [] ->
  exists hs, b_final (rw_base (snd (write oh oc render location redirect_body (RSse h evs live) q w))) = Some (st, hs) /\
    hvalues hs cache_control = [v].
Proof. exact (@stream_given_cache). Qed.
Print Assumptions C48_custom_partial.

Example C48_case :
  let evs := [Event [] [] [str "x"] 0] in
  let q := WReq (str "GET") [] 2 in
  let given_h := HResp 200 [] (Some [(str "cache-control", str "no-cache")]) None in
  hvalues (snd (fst (received (written_toy (fun m => m) (fun m => m) (RSse (HResp 200 [] None None) (Some evs) 1) q)))) cache_control = [] /\
  hvalues (snd (fst (received (written_toy (fun m => m) (fun m => m) (RSse given_h (Some evs) 1) q)))) cache_control = [str "no-cache"].
Proof. exact (@cache_case). Qed.

(** C49 is false: gzip is used for a client that lists only compress. *)
Theorem C49_compress_refuted :
  compression_algorithm (str "compress") = Some Gzip /\ ~ listed (str "compress") (str "gzip").
Proof. exact (@compress_means_gzip). Qed.
Print Assumptions C49_compress_refuted.

(** C49 is false: gzip with a weight is not preferred over deflate. *)
Theorem C49_preference_refuted :
  let v := str "gzip;q=0.8, deflate;q=0.5, deflate" in
  compression_algorithm v = Some Deflate /\ listed v (str "gzip").
Proof. exact (@weighted_gzip_ignored). Qed.
Print Assumptions C49_preference_refuted.

(** C49, what holds: unless compress is listed, the encoding that is used is listed. *)
Theorem C49_listed_partial : forall v a,
  ~ listed_plainly v (str "compress") -> compression_algorithm v = Some a -> listed v (alg_name a).
Proof. exact (@used_is_listed). Qed.
Print Assumptions C49_listed_partial.

(** C49, what holds: without weights and without compress the choice is exactly as
    specified. *)
Theorem C49_exact_partial : forall v,
  ~ In ";"%char v -> ~ listed v (str "compress") ->
  (compression_algorithm v = Some Gzip <-> listed v (str "gzip")) /\
  (compression_algorithm v = Some Deflate <-> ~ listed v (str "gzip") /\ listed v (str "deflate")) /\
  (compression_algorithm v = None <-> ~ listed v (str "gzip") /\ ~ listed v (str "deflate")).
Proof. exact (@negotiation_no_weights). Qed.
Print Assumptions C49_exact_partial.

(** C49: the encoding that is used is the one in Content-Encoding, unless there is a
    custom Content-Encoding. *)
Theorem C49_label_partial : forall (k : compressor) (oh : headers -> headers) (oc : cookies -> cookies) render location redirect_body a level r q h st b,
  (forall m, Permutation (oh m) m) -> (forall m, Permutation (oc m) m) ->
  compression_algorithm (hget (wq_headers q) (str "Accept-Encoding")) = Some a ->
  fields r = Some h -> right_protocol r q -> meant_status h st -> (200 <= st <= 999)%Z -> b_final b = None ->
  one_spelling (custom_headers h) -> ~ given (custom_headers h) ce ->
  exists hs ts, b_final (rw_base (snd (write oh oc render location redirect_body (RCompress level r) q (@Plain k b)))) = Some (st, hs) /\
    hvalues hs ce = [alg_name a] /\ Permutation ts (texts_of render (custom_cookies h)) /\
    sent_as (hset (b_header b) ce (alg_name a)) hs (aremove (str "Accept-Encoding") (custom_headers h)) ts (hr_ctype h).
Proof. exact (@label_sent). Qed.
Print Assumptions C49_label_partial.

Example C49_case :
  let v := str " GZip , deflate" in
  ~ In ";"%char v /\ ~ listed_plainly v (str "compress") /\ ~ listed v (str "compress") /\ compression_algorithm v = Some Gzip /\
  compression_algorithm (str "br;q=1, Deflate") = Some Deflate /\ compression_algorithm (str "br, identity") = None.
Proof. exact (@negotiation_case). Qed.

(** Case: a weighted coding alone is not used. *)
Example C49_weight_case :
  let v := str "deflate;q=1.0" in compression_algorithm v = None /\ listed v (str "deflate").
Proof. exact (@weighted_only_ignored). Qed.

(** C54 is false: setting a header crashes exactly for the hijack response and a
    compressed nil, under any number of compressions. *)
Theorem C54_headers_refuted : forall r key v,
  set_header r key v = None <-> ~ has_headers r.
Proof. exact (@header_set_crash). Qed.
Print Assumptions C54_headers_refuted.

(** The same holds for cookies. *)
Theorem C54_cookies_refuted : forall r c,
  add_cookie r c = None <-> ~ has_headers r.
Proof. exact (@cookie_add_crash). Qed.
Print Assumptions C54_cookies_refuted.

(** A nil response behind the compression middleware becomes one that crashes. *)
Theorem C54_nil_refuted : forall (Req World : Type) (h : handler Req response World) c q w w' level key v,
  (-1 <= level <= 9)%Z -> h c q w = (HReturn None None, w') ->
  exists r, compress_response level h c q w = (HReturn (Some r) None, w') /\ set_header r key v = None.
Proof. exact (@nil_becomes_crash). Qed.
Print Assumptions C54_nil_refuted.

(** C54, what holds for all other responses: the header is set and nothing else
    changes. *)
Theorem C54_headers_partial : forall r key v,
  has_headers r ->
  exists r' m m', set_header r key v = Some r' /\ get_headers r = Some m /\ get_headers r' = Some m' /\ kept_kind r' = kept_kind r /\
    alookup key m' = Some v /\ forall k', k' <> key -> alookup k' m' = alookup k' m.
Proof. exact (@header_set). Qed.
Print Assumptions C54_headers_partial.

(** C54, what holds for cookies: the cookie is added or replaces the one of its name, path
    and domain, and nothing else changes. *)
Theorem C54_cookies_partial : forall r c,
  has_headers r ->
  exists r', add_cookie r c = Some r' /\ but_cookies r' = but_cookies r /\
    alookup (ck_name c ++ str ":" ++ ck_path c ++ str ":" ++ ck_domain c) (cookie_list r') = Some c /\
    forall i, i <> ck_name c ++ str ":" ++ ck_path c ++ str ":" ++ ck_domain c -> alookup i (cookie_list r') = alookup i (cookie_list r).
Proof. exact (@cookie_add). Qed.
Print Assumptions C54_cookies_partial.

Example C54_cookies_case :
  let r := RCompress 5 (RText (HResp 200 [] None (Some [(str "a:/:", Cookie (str "a") (str "/") [] (str "1")); (str "b:/:", Cookie (str "b") (str "/") [] (str "2"))])) (str "x")) in
  has_headers r /\
  option_map cookie_list (add_cookie r (Cookie (str "a") (str "/") [] (str "3"))) =
  Some [(str "a:/:", Cookie (str "a") (str "/") [] (str "3")); (str "b:/:", Cookie (str "b") (str "/") [] (str "2"))].
Proof. exact (@cookie_add_case). Qed.

Example C54_case : has_headers (RCompress 5 (RText (HResp 200 [] None None) (str "x"))) /\ ~ has_headers (RHijack (fun _ => true)) /\ ~ has_headers (RCompress 5 (RHijack (fun _ => true))).
Proof. exact (@header_set_case). Qed.

(** C55 is false for every message that begins with a byte above 127. *)
Theorem C55_message_refuted : forall c m,
  (128 <= code c)%N ->
  error_to_string (Some (c :: m)) = [ascii_of_N 239; ascii_of_N 191; ascii_of_N 189] ++ m /\
  ~ capitalised (c :: m) (error_to_string (Some (c :: m))).
Proof. exact (@error_broken). Qed.
Print Assumptions C55_message_refuted.

(** C55, what holds for messages that begin with an ASCII character. *)
Theorem C55_message_partial : forall c m,
  (code c < 128)%N -> capitalised (c :: m) (error_to_string (Some (c :: m))).
Proof. exact (@error_capitalised). Qed.
Print Assumptions C55_message_partial.

Example C55_case :
  error_to_string (Some (str "not found")) = str "Not found" /\
  error_to_string (Some (ascii_of_N 195 :: ascii_of_N 169 :: str "chec")) =
    ascii_of_N 239 :: ascii_of_N 191 :: ascii_of_N 189 :: ascii_of_N 169 :: str "chec".
Proof. exact (@error_case). Qed.

(** C64, what holds: the client reads the payload from a compressed response, if there
    is no custom Content-Encoding. *)
Theorem C64_compression_partial : forall (k : compressor) dec (oh : headers -> headers) (oc : cookies -> cookies) render location redirect_body level r q h st b,
  decodes k dec -> (forall m, Permutation (oh m) m) -> (forall m, Permutation (oc m) m) ->
  fields r = Some h -> right_protocol r q -> meant_status h st -> with_body st ->
  one_spelling (custom_headers h) -> ~ given (custom_headers h) ce ->
  b_final b = None -> b_body b = [] -> hvalues (b_header b) ce = [] ->
  exists b' hs, write oh oc render location redirect_body (RCompress level r) q (@Plain k b) = (end_of r, Plain b') /\
    b_final b' = Some (st, hs) /\ client_body dec hs (b_body b') = Some (body_of r).
Proof. exact (@compression_transparent). Qed.
Print Assumptions C64_compression_partial.

(** C64 is false for two compressions: the label names only one. *)
Theorem C64_twice_refuted :
  let r := plain_text (HResp 200 [] None None) in
  decodes toy toy_dec /\ reads (RCompress 5 (RCompress 5 r)) gzip_req <> Some (str "hi") /\ reads (RCompress 5 r) gzip_req = Some (str "hi").
Proof. exact (@compressed_twice). Qed.
Print Assumptions C64_twice_refuted.

(** C64 is false for a custom Content-Encoding: the body is compressed under that
    label. *)
Theorem C64_own_encoding_refuted :
  let r := plain_text (HResp 200 [] (Some [(str "Content-Encoding", str "identity")]) None) in
  hvalues (snd (fst (received (written_toy (fun m => m) (fun m => m) (RCompress 5 r) gzip_req)))) ce = [str "identity"] /\
  snd (received (written_toy (fun m => m) (fun m => m) (RCompress 5 r) gzip_req)) = str "?hi!!".
Proof. exact (@own_encoding_header). Qed.
Print Assumptions C64_own_encoding_refuted.

(** Case: a compressor that keeps its promise; the read-back of C64_twice_refuted is an instance. *)
Example C64_case : decodes toy toy_dec.
Proof. exact (@toy_decodes). Qed.

(** C65, what holds without compression: when the next event is awaited, all events so
    far have been handed to the client. *)
Theorem C65_at_once_partial : forall (k : compressor) l b st h,
  b_final b = Some (st, h) -> body_allowed st = true -> b_visible b = List.length (b_body b) ->
  exists b', write_events l (@Plain k b) = Plain b' /\ b_body b' = b_body b ++ flat_map event_string l /\
    b_visible b' = List.length (b_body b').
Proof. exact (@stream_at_once). Qed.
Print Assumptions C65_at_once_partial.

(** C65 is false behind a compressor: writing events never hands anything to the
    client. *)
Theorem C65_held_back_refuted : forall (k : compressor) l s failed (w : rw k),
  exists s' failed' w',
  write_events l (Comp s failed w) = Comp s' failed' w' /\ b_visible (rw_base w') = b_visible (rw_base w).
Proof. exact (@stream_held_back). Qed.
Print Assumptions C65_held_back_refuted.

Example C65_case :
  let b := Base_ [] [] (Some (200%Z, [])) [] 0 false in
  let eager := Compressor unit (fun _ _ => tt) (fun s bs => (s, bs)) (fun s => (s, [])) (fun _ => []) in
  let e := Event [] [] [str "x"] 0 in
  b_visible (rw_base (write_events [e] (@Plain eager b))) = 9 /\
  b_visible (rw_base (write_events [e] (@Comp eager tt false (Plain b)))) = 0 /\
  b_body (rw_base (write_events [e] (@Comp eager tt false (Plain b)))) = event_string e.
Proof. exact (@held_back_case). Qed.

(** C66 is false behind compression: the callback gets an error instead of the
    connection. *)
Theorem C66_hijack_refuted : forall (k : compressor) oh oc render location redirect_body level a callback q b,
  compression_algorithm (hget (wq_headers q) (str "Accept-Encoding")) = Some a -> b_hijacked b = false ->
  exists b', write oh oc render location redirect_body (RCompress level (RHijack callback)) q (@Plain k b) =
    (if callback false then Wrote None else WPanic, Plain b') /\ b_hijacked b' = false.
Proof. exact (@hijack_lost). Qed.
Print Assumptions C66_hijack_refuted.

(** C66 is false over HTTP/2 as well. *)
Theorem C66_http2_refuted : forall (k : compressor) oh oc render location redirect_body callback q (w : rw k), wq_major q = 2%N ->
  write oh oc render location redirect_body (RHijack callback) q w = (if callback false then Wrote None else WPanic, w).
Proof. exact (@hijack_http2). Qed.
Print Assumptions C66_http2_refuted.

(** C66, what holds without compression and HTTP/2: the callback gets the connection, and
    only a callback that does not return (a nil one, for example) is a panic. *)
Theorem C66_hijack_partial : forall (k : compressor) oh oc render location redirect_body callback q b, wq_major q <> 2%N ->
  exists b', write oh oc render location redirect_body (RHijack callback) q (@Plain k b) = (if callback true then Wrote None else WPanic, Plain b') /\
    b_hijacked b' = true /\ received b' = received b.
Proof. exact (@hijack_plain). Qed.
Print Assumptions C66_hijack_partial.

(** The callback is told the truth, behind any number of compressions and for any
    protocol. *)
Theorem C66_told : forall (k : compressor) oh oc render location redirect_body callback r q b,
  core r = RHijack callback -> b_hijacked b = false ->
  exists given, fst (write oh oc render location redirect_body r q (@Plain k b)) = (if callback given then Wrote None else WPanic) /\
    b_hijacked (rw_base (snd (write oh oc render location redirect_body r q (@Plain k b)))) = given.
Proof. exact (@hijack_told). Qed.
Print Assumptions C66_told.

Example C66_case : compression_algorithm (hget (wq_headers gzip_req) (str "Accept-Encoding")) = Some Gzip /\ wq_major gzip_req <> 2%N /\
  core (RCompress 5 (RCompress 1 (RHijack (fun given => given)))) = RHijack (fun given => given) /\
  fst (write (fun m => m) (fun m => m) (fun _ => []) (fun _ u => u) (fun _ _ => []) (RCompress 5 (RHijack (fun given => given))) gzip_req (@Plain toy base_new)) = WPanic.
Proof. exact (@hijack_case). Qed.

(** C67 is false: a custom Content-Length is sent with a compressed body of another
    length. *)
Theorem C67_length_refuted :
  let r := plain_text (HResp 200 [] (Some [(str "Content-Length", str "2")]) None) in
  let b := written_toy (fun m => m) (fun m => m) (RCompress 5 r) gzip_req in
  hvalues (snd (fst (received b))) (str "Content-Length") = [str "2"] /\ List.length (snd (received b)) = 5.
Proof. exact (@stale_length). Qed.
Print Assumptions C67_length_refuted.

(** A custom Content-Length is sent unchanged with every compressed response. *)
Theorem C67_length_kept_refuted : forall (k : compressor) (oh : headers -> headers) (oc : cookies -> cookies) render location redirect_body a level r q h st v b,
  (forall m, Permutation (oh m) m) -> (forall m, Permutation (oc m) m) ->
  compression_algorithm (hget (wq_headers q) (str "Accept-Encoding")) = Some a ->
  fields r = Some h -> right_protocol r q -> meant_status h st -> (200 <= st <= 999)%Z -> b_final b = None ->
  one_spelling (custom_headers h) -> In (str "Content-Length", v) (custom_headers h) -> v <> [] ->
  exists hs, b_final (rw_base (snd (write oh oc render location redirect_body (RCompress level r) q (@Plain k b)))) = Some (st, hs) /\
    hvalues hs (str "Content-Length") = [v].
Proof. exact (@length_kept). Qed.
Print Assumptions C67_length_kept_refuted.

Example C67_case :
  let h := HResp 0 [] (Some [(str "X-A", str "1"); (str "Content-Length", str "2")]) None in
  compression_algorithm (hget (wq_headers gzip_req) (str "Accept-Encoding")) = Some Gzip /\
  fields (plain_text h) = Some h /\ right_protocol (plain_text h) gzip_req /\ meant_status h 200 /\ one_spelling (custom_headers h) /\
  In (str "Content-Length", str "2") (custom_headers h) /\
  let b := written_toy (fun m => m) (fun m => m) (RCompress 5 (plain_text h)) gzip_req in
  hvalues (snd (fst (received b))) (str "Content-Length") = [str "2"] /\ List.length (snd (received b)) = 5.
Proof. exact (@stale_length_case). Qed.

(** C68: a header put on an adapted handler reaches the client, unless the handler
    changes it. *)
Theorem C68_adaptor : forall (k : compressor) (oh : headers -> headers) (oc : cookies -> cookies) render location redirect_body hs cs acts q n v (w : rw k),
  (forall m, Permutation (oh m) m) -> one_spelling hs -> In (n, v) hs -> Forall (leaves n) acts -> b_final (rw_base w) = None ->
  exists w', write oh oc render location redirect_body (RAdaptor (Some hs) cs acts) q w = (Wrote None, w') /\
    hvalues (snd (fst (received (rw_base w')))) n = [v].
Proof. exact (@adapted_header). Qed.
Print Assumptions C68_adaptor.

Example C68_case :
  let acts := [ASet (str "X-B") (str "2"); AStatus 201; AWrite (str "made")] in
  let hs := [(str "x-a", str "1")] in
  one_spelling hs /\ Forall (leaves (str "x-a")) acts /\
  received (written_toy (fun m => m) (fun m => m) (RAdaptor (Some hs) None acts) get_req) =
    (201%Z, [(str "X-B", [str "2"]); (str "X-A", [str "1"])], str "made").
Proof. exact (@adapted_case). Qed.

(** C144: the cookies put on an adapted handler reach the client, unless there is a header Set-Cookie among the headers. *)
Theorem C144_cookies_partial : forall (k : compressor) (oh : headers -> headers) (oc : cookies -> cookies) render location redirect_body hs cs acts q (w : rw k),
  (forall m, Permutation (oh m) m) -> (forall m, Permutation (oc m) m) -> ~ given hs (str "Set-Cookie") -> Forall (leaves (str "Set-Cookie")) acts -> b_final (rw_base w) = None ->
  exists w' ts, write oh oc render location redirect_body (RAdaptor (Some hs) (Some cs) acts) q w = (Wrote None, w') /\
    Permutation ts (texts_of render (map snd cs)) /\
    hvalues (snd (fst (received (rw_base w')))) (str "Set-Cookie") = hvalues (rw_headers w) (str "Set-Cookie") ++ ts.
Proof. exact (@adapted_cookies). Qed.
Print Assumptions C144_cookies_partial.

(** C144 is false beside a header Set-Cookie: they are lost. *)
Theorem C144_header_refuted : forall (k : compressor) (oh : headers -> headers) (oc : cookies -> cookies) render location redirect_body cs acts q v (w : rw k),
  (forall m, Permutation (oh m) m) -> Forall (leaves (str "Set-Cookie")) acts -> b_final (rw_base w) = None ->
  exists w', write oh oc render location redirect_body (RAdaptor (Some [(str "Set-Cookie", v)]) cs acts) q w = (Wrote None, w') /\
    hvalues (snd (fst (received (rw_base w')))) (str "Set-Cookie") = [v].
Proof. exact (@adapted_cookie_lost). Qed.
Print Assumptions C144_header_refuted.

Example C144_case :
  let acts := [ASet (str "X-B") (str "2"); AStatus 201; AWrite (str "made")] in
  let cs := new_http_cookie [Some sid] in
  ~ given [(str "X-A", str "1")] (str "Set-Cookie") /\ Forall (leaves (str "Set-Cookie")) acts /\
  received (written_toy (fun m => m) (fun m => m) (RAdaptor (Some [(str "X-A", str "1")]) (Some cs) acts) get_req) =
    (201%Z, [(str "X-B", [str "2"]); (str "X-A", [str "1"]); (str "Set-Cookie", [str "sid=1"])], str "made") /\
  hvalues (snd (fst (received (written_toy (fun m => m) (fun m => m) (RAdaptor (Some [(str "Set-Cookie", str "a=b")]) (Some cs) acts) get_req)))) (str "Set-Cookie") = [str "a=b"].
Proof. exact (@adapted_cookies_case). Qed.

(** C69: the body is the payload, and the error is the one of the payload. *)
Theorem C69_body : forall (k : compressor) oh oc render location redirect_body r q h st b,
  fields r = Some h -> right_protocol r q -> meant_status h st -> with_body st ->
  b_final b = None -> b_body b = [] ->
  exists b', write oh oc render location redirect_body r q (@Plain k b) = (end_of r, Plain b') /\ b_body b' = body_of r.
Proof. exact (@response_body). Qed.
Print Assumptions C69_body.

Example C69_case :
  let h := HResp 0 (str "text/plain") (Some [(str "x-a", str "1"); (str "Content-Type", [])]) (Some (new_http_cookie [Some sid])) in
  fields (plain_text h) = Some h /\ right_protocol (plain_text h) get_req /\ meant_status h 200 /\ with_body 200 /\
  one_spelling (custom_headers h) /\
  received (written_toy (fun m => m) (fun m => m) (plain_text h) get_req) =
    (200%Z, [(str "X-Content-Type-Options", [str "nosniff"]); (str "Content-Type", [str "text/plain"]);
             (str "X-A", [str "1"]); (str "Set-Cookie", [str "sid=1"])], str "hi").
Proof. exact (@response_case). Qed.

(** C76 is false for event streams: with a status that has no body all events are lost
    and no error is reported. *)
Theorem C76_events_refuted : forall (k : compressor) oh oc render location redirect_body h evs live q st b,
  meant_status h st -> without_body st -> wq_major q = 2%N -> b_final b = None ->
  exists b', write oh oc render location redirect_body (RSse h (Some evs) live) q (@Plain k b) = (Wrote None, Plain b') /\ b_body b' = b_body b.
Proof. exact (@lost_events). Qed.
Print Assumptions C76_events_refuted.

(** C76 is false behind a compressor that hands its output down when it is closed. *)
Theorem C76_compressed_refuted :
  let r := RText (HResp 204 [] None None) (str "hi") in
  exists b', write (fun m => m) (fun m => m) (fun _ => []) (fun _ u => u) (fun _ _ => []) (RCompress 5 r) gzip_req (@Plain toy base_new) =
    (Wrote None, Plain b') /\ received b' = (204%Z, [(str "X-Content-Type-Options", [str "nosniff"]); (str "Content-Encoding", [str "gzip"])], []).
Proof. exact (@lost_compressed). Qed.
Print Assumptions C76_compressed_refuted.

(** C76, what holds for all other responses without compression. *)
Theorem C76_lost_body_partial : forall (k : compressor) oh oc render location redirect_body r q h st b,
  fields r = Some h -> meant_status h st -> without_body st -> b_final b = None ->
  (forall evs live, r <> RSse h evs live) -> body_of r <> [] ->
  exists e b', write oh oc render location redirect_body r q (@Plain k b) = (Wrote (Some e), Plain b') /\ b_body b' = b_body b.
Proof. exact (@lost_body). Qed.
Print Assumptions C76_lost_body_partial.

Example C76_case :
  let h := HResp 304 [] None None in
  let r := RRaw h (Some ([[]; str "a"; str "b"], Wrote None)) in
  fields r = Some h /\ meant_status h 304 /\ without_body 304 /\ (forall evs live, r <> RSse h evs live) /\ body_of r = str "ab".
Proof. exact (@lost_case). Qed.

(** C77: the client gets the status and the body of an adapted handler, whatever headers
    and cookies are put on the response; a status that is none is a panic. *)
Theorem C77_adapted : forall (k : compressor) oh oc render location redirect_body hs cs acts q b,
  b_final b = None -> b_body b = [] ->
  (acts_fault acts -> exists w, write oh oc render location redirect_body (RAdaptor hs cs acts) q (@Plain k b) = (WPanic, w)) /\
  (~ acts_fault acts -> exists b', write oh oc render location redirect_body (RAdaptor hs cs acts) q (@Plain k b) = (Wrote None, Plain b') /\
     fst (fst (received b')) = acts_status acts /\
     (~ without_body (acts_status acts) -> snd (received b') = acts_body acts) /\
     (without_body (acts_status acts) -> snd (received b') = [])).
Proof. exact (@adapted_answer). Qed.
Print Assumptions C77_adapted.

Example C77_case :
  let good := [ASet (str "X-B") (str "2"); AStatus 103; AStatus 201; AWrite (str "ma"); AStatus 5; AFlush; AWrite (str "de")] in
  let bad := [AStatus 103; AStatus 1000; AWrite (str "made")] in
  let broken := [AStatus 201; AWrite (str "ma"); APanic; AWrite (str "de")] in
  ~ acts_fault good /\ acts_status good = 201%Z /\ acts_body good = str "made" /\ acts_fault bad /\ acts_fault broken.
Proof. exact (@adapted_answer_case). Qed.
