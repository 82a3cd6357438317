(** * Model of the responses (response/*.go, middleware/compress.go).

    A map of Go is a list of pairs with different keys; the order in which a range
    loop visits it is chosen by the functions [oh] and [oc]. *)
From Coq Require Import List NArith ZArith Ascii String Bool Arith.
From Verif Require Import GoBase Http_Model Auth_Model Chain_Model Serve_Model.
Import ListNotations.
Local Open Scope string_scope.
Local Open Scope list_scope.

(** ** Header and cookie maps (response/response.go) *)

(** [HttpHeaders] (response.go 25) and its [Set] (27-29): the key is used as it is. *)
Definition headers := list (bytes * bytes).
Definition headers_set (h : headers) (k v : bytes) : headers := aset k v h.

(** [http.Cookie]: name, path and domain; everything else is one text. *)
Record cookie := Cookie { ck_name : bytes; ck_path : bytes; ck_domain : bytes; ck_rest : bytes }.

(** [HttpCookies] (response.go 56) and its [Add] (58-66); nil cookies are skipped. *)
Definition cookies := list (bytes * cookie).
Definition cookie_id (c : cookie) : bytes := ck_name c ++ str ":" ++ ck_path c ++ str ":" ++ ck_domain c.
Fixpoint cookies_add (m : cookies) (l : list (option cookie)) : cookies :=
  match l with
  | [] => m
  | None :: l' => cookies_add m l'
  | Some c :: l' => cookies_add (aset (cookie_id c) c m) l'
  end.

(** [NewHttpCookie] (response.go 87-91); the map from the pool is empty. *)
Definition new_http_cookie (l : list (option cookie)) : cookies := cookies_add [] l.

(** ** The response writer (net/http, standard library, Go 1.19)

    [b_header] is the map that [Header] returns.  [WriteHeader] with a status from 100
    to 199 sends an informational answer at once and is not final; another status is
    final and takes a copy of the headers; later calls have no effect.  [Write] without
    a final status sends 200; bodies are refused for 204 and 304.  [b_visible] is the
    length of the part of the body that has been flushed.  A declared Content-Length is
    not compared with the body, and the content type is not guessed from it.  The status
    101 is like the others below 200 (newer versions of Go treat it as final). *)
Record base := Base_ {
  b_header : hmap;
  b_info : list (Z * hmap);
  b_final : option (Z * hmap);
  b_body : bytes;
  b_visible : nat;
  b_hijacked : bool
}.

Definition base_set (b : base) (h : hmap) : base :=
  Base_ h (b_info b) (b_final b) (b_body b) (b_visible b) (b_hijacked b).

Definition base_write_header (b : base) (st : Z) : base :=
  match b_final b with
  | Some _ => b
  | None =>
      if ((100 <=? st) && (st <=? 199))%Z
      then Base_ (b_header b) (b_info b ++ [(st, b_header b)]) None (b_body b) (b_visible b) (b_hijacked b)
      else Base_ (b_header b) (b_info b) (Some (st, b_header b)) (b_body b) (b_visible b) (b_hijacked b)
  end.

Definition body_allowed (st : Z) : bool := negb ((st =? 204) || (st =? 304))%Z.

Definition base_write (b : base) (bs : bytes) : base * bool :=
  let b1 := base_write_header b 200 in
  match bs, b_final b1 with
  | [], _ => (b1, true)
  | _, Some (st, _) =>
      if body_allowed st
      then (Base_ (b_header b1) (b_info b1) (b_final b1) (b_body b1 ++ bs) (b_visible b1) (b_hijacked b1), true)
      else (b1, false)
  | _, None => (b1, false)
  end.

Definition base_flush (b : base) : base :=
  let b1 := base_write_header b 200 in
  Base_ (b_header b1) (b_info b1) (b_final b1) (b_body b1) (List.length (b_body b1)) (b_hijacked b1).

Definition base_hijack (b : base) : base :=
  Base_ (b_header b) (b_info b) (b_final b) (b_body b) (b_visible b) true.

(** The writer at the start of a request, and what the client has received when the
    request is over: status, headers and body. *)
Definition base_new : base := Base_ [] [] None [] 0 false.
Definition received (b : base) : Z * hmap * bytes :=
  match b_final b with
  | Some (st, h) => (st, h, b_body b)
  | None => (200%Z, b_header b, b_body b)
  end.

(** The compressors of the standard library (compress/gzip and compress/flate) as
    machines: what [Write], [Flush] and [Close] hand to the writer below. *)
Inductive alg := Gzip | Deflate.
Record compressor := Compressor {
  zstate : Type;
  znew : alg -> Z -> zstate;
  zwrite : zstate -> bytes -> zstate * bytes;
  zflush : zstate -> zstate * bytes;
  zclose : zstate -> bytes
}.

(** A response writer: the one of net/http, or a [compressResponseWriter]
    (compress.go 98-101) with its compressor, which fails for ever after a failed
    write, around a writer. *)
Inductive rw (k : compressor) :=
| Plain (b : base)
| Comp (s : zstate k) (failed : bool) (inner : rw k).
Arguments Plain {k}. Arguments Comp {k}.

Section Writers.
Variable k : compressor.

(** [Header] and [WriteHeader] go to the innermost writer (compress.go 103-105,
    111-113). *)
Fixpoint rw_base (w : rw k) : base :=
  match w with
  | Plain b => b
  | Comp _ _ w' => rw_base w'
  end.
Fixpoint rw_map (f : base -> base) (w : rw k) : rw k :=
  match w with
  | Plain b => Plain (f b)
  | Comp s e w' => Comp s e (rw_map f w')
  end.
Definition rw_headers (w : rw k) : hmap := b_header (rw_base w).
Definition rw_set (w : rw k) (key v : bytes) : rw k := rw_map (fun b => base_set b (hset (b_header b) key v)) w.
Definition rw_add (w : rw k) (key v : bytes) : rw k := rw_map (fun b => base_set b (hadd (b_header b) key v)) w.
Definition rw_del (w : rw k) (key : bytes) : rw k := rw_map (fun b => base_set b (hdel (b_header b) key)) w.

(** [WriteHeader] has no effect after a final status and panics for a status outside of
    100 to 999; [None] is the panic. *)
Definition rw_write_header (w : rw k) (st : Z) : option (rw k) :=
  match b_final (rw_base w) with
  | Some _ => Some w
  | None => if ((st <? 100) || (999 <? st))%Z then None else Some (rw_map (fun b => base_write_header b st) w)
  end.

(** [Write] (compress.go 107-109); false is an error. *)
Fixpoint rw_write (w : rw k) (bs : bytes) : rw k * bool :=
  match w with
  | Plain b => let (b', ok) := base_write b bs in (Plain b', ok)
  | Comp s true w' => (w, false)
  | Comp s false w' =>
      let (s', out) := zwrite k s bs in
      match out with
      | [] => (Comp s' false w', true)
      | _ => let (w2, ok) := rw_write w' out in (Comp s' (negb ok) w2, ok)
      end
  end.

(** [Flush] (compress.go 115-117): the compressor is flushed, the writer below is
    not. *)
Definition rw_flush (w : rw k) : rw k :=
  match w with
  | Plain b => Plain (base_flush b)
  | Comp s true w' => w
  | Comp s false w' =>
      let (s', out) := zflush k s in
      match out with
      | [] => Comp s' false w'
      | _ => let (w2, ok) := rw_write w' out in Comp s' (negb ok) w2
      end
  end.

(** The deferred [Close] (compress.go 59, 70), which gives the writer below back. *)
Definition rw_close (w : rw k) : rw k :=
  match w with
  | Plain b => w
  | Comp s true w' => w'
  | Comp s false w' =>
      match zclose k s with
      | [] => w'
      | out => fst (rw_write w' out)
      end
  end.

End Writers.
Arguments rw_base {k}. Arguments rw_map {k}. Arguments rw_headers {k}. Arguments rw_set {k}. Arguments rw_add {k}.
Arguments rw_del {k}. Arguments rw_write_header {k}. Arguments rw_write {k}. Arguments rw_flush {k}.
Arguments rw_close {k}.

(** ** Server sent events (response/sse.go) *)

(** [ServerSentEvent] (sse.go 19-28). *)
Record event := Event { ev_name : bytes; ev_id : bytes; ev_data : list bytes; ev_retry : Z }.

Definition nl : bytes := [ascii_of_N 10].

(** [ServerSentEvent.String] (sse.go 30-59). *)
Fixpoint event_data (started : bool) (l : list bytes) : bytes :=
  match l with
  | [] => []
  | d :: l' => (if started then nl ++ str "data: " else str "data: ") ++ d ++ event_data true l'
  end.
Definition event_string (e : event) : bytes :=
  let named := negb (beqb (ev_name e) []) in
  let s :=
    (if named then str "event: " ++ ev_name e else []) ++
    event_data named (ev_data e) ++
    (if beqb (ev_id e) [] then [] else nl ++ str "id: " ++ ev_id e) ++
    (if (0 <? ev_retry e)%Z then nl ++ str "retry: " ++ itoa_z (ev_retry e) else []) in
  match s with [] => [] | _ => s ++ nl ++ nl end.

(** ** Responses *)

(** [HttpHeadersResponse] (headers.go 10-15); a nil map is [None]. *)
Record hresp := HResp {
  hr_status : Z;
  hr_ctype : bytes;
  hr_headers : option headers;
  hr_cookies : option cookies
}.

(** What a [http.Handler] does with the writer. *)
Inductive act :=
| ASet (key v : bytes) | AAdd (key v : bytes) | ADel (key : bytes)
| AStatus (st : Z) | AWrite (bs : bytes) | AFlush | APanic.

(** The responses.  The body of a raw, stream or template response is a list of pieces
    that are written one after the other, after which the function, reader or template
    of the program ends, with an error or not, or panics; a nil template panics at once.
    A failed write ends the body with an error.  A JSON payload is nil, or the result of [json.Marshal].  The
    events of an event stream are the ones the channel gives, [live] of them before the
    request is cancelled; [None] is a generator that panics when it is called, as nil does.
    The callback of a hijack response gets the connection (true) or an error (false) and
    returns (true) or panics, as a nil one does.  [CompressNil] is a compressed nil response. *)
Inductive response :=
| RHeaders (r : hresp)
| RText (r : hresp) (payload : bytes)
| RJson (r : hresp) (payload : option (option bytes))
| RRaw (r : hresp) (f : option (list bytes * wout))
| RStream (r : hresp) (f : option (list bytes * wout))
| RTemplate (r : hresp) (f : list bytes * wout)
| RSse (r : hresp) (events : option (list event)) (live : nat)
| RRedirect (r : hresp) (url : bytes)
| RHijack (callback : bool -> bool)
| RAdaptor (hs : option headers) (cs : option cookies) (acts : list act)
| RCompress (level : Z) (inner : response)
| RCompressNil (level : Z).

(** The events of a generator, and how its call ends. *)
Definition generated (evs : option (list event)) : list event := match evs with Some l => l | None => [] end.
Definition generator_end (evs : option (list event)) : wout := match evs with Some _ => Wrote None | None => WPanic end.

(** [StatusCode] (headers.go 17-22, hijack.go 23, adaptor.go 15, compress.go 34);
    [None] is a panic. *)
Definition hr_code (r : hresp) : Z := if (hr_status r =? 0)%Z then 200%Z else hr_status r.
Fixpoint status_code (r : response) : option Z :=
  match r with
  | RHeaders h | RText h _ | RJson h _ | RRaw h _ | RStream h _ | RTemplate h _ | RSse h _ _ | RRedirect h _ =>
      Some (hr_code h)
  | RHijack _ | RAdaptor _ _ _ => Some 0%Z
  | RCompress _ r' => status_code r'
  | RCompressNil _ => None
  end.

(** [Headers().Set(key, v)] (headers.go 24-29, hijack.go 27, adaptor.go 19-24,
    compress.go 38-40): the response afterwards, [None] is a panic (an assignment to a
    nil map).  The map that [Headers] creates comes from the pool and is empty. *)
Definition some_headers (h : option headers) : headers := match h with Some m => m | None => [] end.
Definition hr_set (r : hresp) (key v : bytes) : hresp :=
  HResp (hr_status r) (hr_ctype r) (Some (headers_set (some_headers (hr_headers r)) key v)) (hr_cookies r).
Fixpoint set_header (r : response) (key v : bytes) : option response :=
  match r with
  | RHeaders h => Some (RHeaders (hr_set h key v))
  | RText h p => Some (RText (hr_set h key v) p)
  | RJson h p => Some (RJson (hr_set h key v) p)
  | RRaw h p => Some (RRaw (hr_set h key v) p)
  | RStream h p => Some (RStream (hr_set h key v) p)
  | RTemplate h p => Some (RTemplate (hr_set h key v) p)
  | RSse h p n => Some (RSse (hr_set h key v) p n)
  | RRedirect h p => Some (RRedirect (hr_set h key v) p)
  | RHijack _ => None
  | RAdaptor hs cs a => Some (RAdaptor (Some (headers_set (some_headers hs) key v)) cs a)
  | RCompress l r' => option_map (RCompress l) (set_header r' key v)
  | RCompressNil _ => None
  end.

(** [Headers()] read as a map, without the effect of creating it; [None] is a panic. *)
Fixpoint get_headers (r : response) : option headers :=
  match r with
  | RHeaders h | RText h _ | RJson h _ | RRaw h _ | RStream h _ | RTemplate h _ | RSse h _ _ | RRedirect h _ =>
      Some (some_headers (hr_headers h))
  | RHijack _ => Some []
  | RAdaptor hs _ _ => Some (some_headers hs)
  | RCompress _ r' => get_headers r'
  | RCompressNil _ => None
  end.

(** [Cookies().Add(c)] (headers.go 31-36, hijack.go 31, adaptor.go 26-31,
    compress.go 42-44); [None] is a panic. *)
Definition some_cookies (h : option cookies) : cookies := match h with Some m => m | None => [] end.
Definition hr_add_cookie (r : hresp) (c : cookie) : hresp :=
  HResp (hr_status r) (hr_ctype r) (hr_headers r) (Some (cookies_add (some_cookies (hr_cookies r)) [Some c])).
Fixpoint add_cookie (r : response) (c : cookie) : option response :=
  match r with
  | RHeaders h => Some (RHeaders (hr_add_cookie h c))
  | RText h p => Some (RText (hr_add_cookie h c) p)
  | RJson h p => Some (RJson (hr_add_cookie h c) p)
  | RRaw h p => Some (RRaw (hr_add_cookie h c) p)
  | RStream h p => Some (RStream (hr_add_cookie h c) p)
  | RTemplate h p => Some (RTemplate (hr_add_cookie h c) p)
  | RSse h p n => Some (RSse (hr_add_cookie h c) p n)
  | RRedirect h p => Some (RRedirect (hr_add_cookie h c) p)
  | RHijack _ => None
  | RAdaptor hs cs a => Some (RAdaptor hs (Some (cookies_add (some_cookies cs) [Some c])) a)
  | RCompress l r' => option_map (RCompress l) (add_cookie r' c)
  | RCompressNil _ => None
  end.

(** [delete(r.Headers(), Accept-Encoding)] (compress.go 53, 64) if [cut] is set. *)
Definition hr_cut (cut : bool) (r : hresp) : hresp :=
  if cut
  then HResp (hr_status r) (hr_ctype r) (Some (aremove (str "Accept-Encoding") (some_headers (hr_headers r)))) (hr_cookies r)
  else r.

(** ** Content negotiation (response/compress.go) *)

(** [getCompressionAlgorithmFromHeaderValue] (compress.go 76-91); letter case outside of
    ASCII is not modelled. *)
Definition compression_algorithm (v : bytes) : option alg :=
  let encs := split_on ","%char (to_lower v) in
  if existsb (fun e => let t := trim_space e in beqb t (str "gzip") || beqb t (str "compress")) encs then Some Gzip
  else if existsb (fun e => beqb (trim_space e) (str "deflate")) encs then Some Deflate
  else None.
Definition alg_name (a : alg) : bytes := match a with Gzip => str "gzip" | Deflate => str "deflate" end.

(** ** Writing *)

(** What the responses see of the request. *)
Record wreq := WReq { wq_method : bytes; wq_headers : hmap; wq_major : N }.

Definition status_error : err := EOther (str "http status code should be between 100 and 999").
Definition body_error : err := EOther (str "failed to write the response").
Definition marshal_error : err := EOther (str "failed to marshal JSON response").
Definition http2_error : err := EOther (str "rejected, not a HTTP/2 request").

Section Write.
Variable k : compressor.
(** The orders of the range loops over headers and cookies. *)
Variable oh : headers -> headers.
Variable oc : cookies -> cookies.
(** [Cookie.String] (standard library); the empty text is a cookie that is not sent. *)
Variable render : cookie -> bytes.
(** The Location value that [http.Redirect] makes of a URL, and its body. *)
Variable location : wreq -> bytes -> bytes.
Variable redirect_body : Z -> bytes -> bytes.

(** [http.SetCookie] (standard library). *)
Definition set_cookie (w : rw k) (c : cookie) : rw k :=
  match render c with [] => w | t => rw_add w (str "Set-Cookie") t end.

(** The two loops over cookies and headers (headers.go 54-67, adaptor.go 35-47). *)
Definition put_cookies (w : rw k) (cs : option cookies) : rw k :=
  match cs with Some m => fold_left (fun w kc => set_cookie w (snd kc)) (oc m) w | None => w end.
Definition put_headers (w : rw k) (hs : option headers) : rw k :=
  match hs with Some m => fold_left (fun w kv => rw_set w (fst kv) (snd kv)) (oh m) w | None => w end.

(** [HttpHeadersResponse.Write] (headers.go 38-79), without the release of the maps. *)
Definition write_headers (r : hresp) (w : rw k) : option err * rw k :=
  let st := hr_code r in
  if ((st <? 100) || (999 <? st))%Z then (Some status_error, w)
  else
    let w1 := put_headers (put_cookies w (hr_cookies r)) (hr_headers r) in
    let w2 := if beqb (hget (rw_headers w1) (str "Content-Type")) [] && negb (beqb (hr_ctype r) [])
              then rw_set w1 (str "Content-Type") (hr_ctype r) else w1 in
    let w3 := if beqb (hget (rw_headers w2) (str "X-Content-Type-Options")) []
              then rw_set w2 (str "X-Content-Type-Options") (str "nosniff") else w2 in
    (None, rw_map (fun b => base_write_header b st) w3).

(** Pieces of a body. *)
Fixpoint write_pieces (l : list bytes) (o : wout) (w : rw k) : wout * rw k :=
  match l with
  | [] => (o, w)
  | p :: l' =>
      let (w1, ok) := rw_write w p in
      if ok then write_pieces l' o w1 else (Wrote (Some body_error), w1)
  end.

(** [writeTextResponse] (response.go 105-120). *)
Definition write_text (w : rw k) (payload : bytes) : rw k * bool :=
  match payload with [] => (w, true) | _ => rw_write w payload end.

(** The loop over the events (sse.go 91-101): false if a write failed. *)
Fixpoint write_events (l : list event) (w : rw k) : rw k :=
  match l with
  | [] => w
  | e :: l' =>
      let (w1, ok) := write_text w (event_string e) in
      if ok then write_events l' (rw_flush w1) else w1
  end.

(** A [http.Handler] at work; false is a panic, with the writer as it is then. *)
Fixpoint run_acts (l : list act) (w : rw k) : bool * rw k :=
  match l with
  | [] => (true, w)
  | ASet key v :: l' => run_acts l' (rw_set w key v)
  | AAdd key v :: l' => run_acts l' (rw_add w key v)
  | ADel key :: l' => run_acts l' (rw_del w key)
  | AStatus st :: l' =>
      match rw_write_header w st with
      | Some w' => run_acts l' w'
      | None => (false, w)
      end
  | AWrite bs :: l' => run_acts l' (fst (rw_write w bs))
  | AFlush :: l' => run_acts l' (rw_flush w)
  | APanic :: _ => (false, w)
  end.

(** [http.Redirect] (standard library, Go 1.19). *)
Definition http_redirect (q : wreq) (url : bytes) (st : Z) (w : rw k) : wout * rw k :=
  let had := match alookup (str "Content-Type") (rw_headers w) with Some _ => true | None => false end in
  let w1 := rw_set w (str "Location") (location q url) in
  let get := beqb (wq_method q) (str "GET") in
  let w2 := if negb had && (get || beqb (wq_method q) (str "HEAD"))
            then rw_set w1 (str "Content-Type") (str "text/html; charset=utf-8") else w1 in
  match rw_write_header w2 st with
  | None => (WPanic, w2)
  | Some w3 => (Wrote None, if negb had && get then fst (rw_write w3 (redirect_body st url)) else w3)
  end.

(** After the headers, if they could be written. *)
Definition after_headers (r : hresp) (w : rw k) (body : rw k -> wout * rw k) : wout * rw k :=
  match write_headers r w with
  | (Some e, w1) => (Wrote (Some e), w1)
  | (None, w1) => body w1
  end.

(** [Write] of the responses: text.go 14-22, json.go 22-44, raw.go 19-30,
    streaming.go 17-28, template.go 39-49, sse.go 70-104, redirect.go 14-17,
    hijack.go 35-42, adaptor.go 33-51, compress.go 46-74.  The level of a compressed
    response is one the compressors accept; of the channel of an event
    stream only the events matter (Stream_Model has its times).  A flush is deferred when the
    generator is called; the callback is called after the connection has been taken over.  The writers of HTTP/2
    and of compression are no [http.Hijacker].  [cut] tells that a compressed response has
    deleted Accept-Encoding from the headers of [r]. *)
Fixpoint write_cut (cut : bool) (r : response) (q : wreq) (w : rw k) : wout * rw k :=
  match r with
  | RHeaders h => after_headers (hr_cut cut h) w (fun w => (Wrote None, w))
  | RText h p =>
      after_headers (hr_cut cut h) w
        (fun w => let (w1, ok) := write_text w p in (Wrote (if ok then None else Some body_error), w1))
  | RJson h p =>
      after_headers (hr_cut cut h) w (fun w =>
        match p with
        | None => write_pieces [str "{}"] (Wrote None) w
        | Some None => (Wrote (Some marshal_error), w)
        | Some (Some bs) => write_pieces [bs] (Wrote None) w
        end)
  | RRaw h None | RStream h None => after_headers (hr_cut cut h) w (fun w => (Wrote None, w))
  | RRaw h (Some (l, o)) | RStream h (Some (l, o)) | RTemplate h (l, o) =>
      after_headers (hr_cut cut h) w (write_pieces l o)
  | RSse h evs live =>
      if (wq_major q =? 2)%N then
        after_headers (hr_cut cut h) w (fun w =>
          let w1 := rw_set (rw_set w (str "Cache-Control") (str "no-cache")) (str "Connection") (str "keep-alive") in
          (generator_end evs, rw_flush (write_events (firstn live (generated evs)) w1)))
      else
        (Wrote (Some http2_error), rw_map (fun b => base_write_header b 500) w)
  | RRedirect h url => http_redirect q url (hr_status h) w
  | RHijack callback =>
      let called given := if callback given then Wrote None else WPanic in
      match w with
      | Plain b => if (wq_major q =? 2)%N then (called false, w) else (called true, Plain (base_hijack b))
      | Comp _ _ _ => (called false, w)
      end
  | RAdaptor hs cs acts =>
      let hs' := if cut then Some (aremove (str "Accept-Encoding") (some_headers hs)) else hs in
      let (ok, w1) := run_acts acts (put_headers (put_cookies w cs) hs') in
      (if ok then Wrote None else WPanic, w1)
  | RCompress level r' =>
      match compression_algorithm (hget (wq_headers q) (str "Accept-Encoding")) with
      | None => write_cut cut r' q w
      | Some a =>
          match get_headers r' with
          | None => (WPanic, w)
          | Some _ =>
              let w1 := rw_set w (str "Content-Encoding") (alg_name a) in
              let (o, w2) := write_cut true r' q (Comp (znew k a level) false w1) in
              (o, rw_close w2)
          end
      end
  | RCompressNil _ => (WPanic, w)
  end.
Definition write (r : response) (q : wreq) (w : rw k) : wout * rw k := write_cut false r q w.

End Write.

(** ** JSON error bodies (response/json.go) *)

(** [errorToString] (json.go 110-116); a nil error is [None].  The first byte alone goes
    through [strings.ToUpper], which replaces a byte that is no character by U+FFFD. *)
Definition error_to_string (e : option bytes) : bytes :=
  match e with
  | None | Some [] => []
  | Some (c :: rest) =>
      (if (code c <? 128)%N then [upper c] else [ascii_of_N 239; ascii_of_N 191; ascii_of_N 189]) ++ rest
  end.

(** ** The compression middleware (middleware/compress.go 12-22 with
    [NewHttpCompressResponse], response/compress.go 24-32).  Beside the error of the latter
    Go returns an interface that holds a nil pointer, here nil: nothing in the code looks at
    the response beside an error. *)

Definition level_error : err := EOther (str "compression level not supported").

Definition compress_response {Req World : Type} (level : Z) : middleware Req response World :=
  fun h c q w =>
    match h c q w with
    | (HReturn _ (Some e), w') => (HReturn None (Some e), w')
    | (HReturn r None, w') =>
        if ((level <? -1) || (9 <? level))%Z then (HReturn None (Some level_error), w')
        else (HReturn (Some (match r with Some r0 => RCompress level r0 | None => RCompressNil level end)) None, w')
    | (HPanic v, w') => (HPanic v, w')
    end.

Arguments set_cookie {k}. Arguments put_cookies {k}. Arguments put_headers {k}. Arguments write_headers {k}.
Arguments write_pieces {k}. Arguments write_text {k}. Arguments write_events {k}. Arguments run_acts {k}.
Arguments http_redirect {k}. Arguments after_headers {k}. Arguments write_cut {k}. Arguments write {k}.
