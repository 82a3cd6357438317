(** * Model of [RequestDumper] (middleware/dump.go 15-74). *)
From Coq Require Import List NArith ZArith Ascii String Bool.
From Verif Require Import GoBase Http_Model Chain_Model Serve_Model Resp_Model Json_Model.
Import ListNotations.
Local Open Scope string_scope.
Local Open Scope list_scope.
Local Open Scope N_scope.

(** What is read of the request before the handler runs (dump.go 23-41) and kept as it
    is: method, protocol, request URI, [URL.String], remote address, transfer encoding
    (nil is [None]), content length, host, whether TLS is used, and the texts of the
    cookies ([Request.Cookies] and [Cookie.String], standard library). *)
Record dreq := DReq {
  dq_method : bytes;
  dq_proto : bytes;
  dq_uri : bytes;
  dq_url : bytes;
  dq_remote : bytes;
  dq_encoding : option (list bytes);
  dq_length : Z;
  dq_host : bytes;
  dq_tls : bool;
  dq_cookies : list bytes
}.

(** Slices and maps of strings as values for the encoder; nil is [None].  A header
    without values is an empty slice. *)
Definition text_list (l : list bytes) : gval := GSlice (map GStr l).
Definition text_lists (m : hmap) : gval := GMap (map (fun kv => (fst kv, text_list (snd kv))) m).
Definition or_nil {A : Type} (f : A -> gval) (x : option A) : gval := match x with Some a => f a | None => GNil end.
(** Cookies are only entered if there are some (dump.go 39-41, 57-59). *)
Definition with_cookies (l : list bytes) (m : list (bytes * gval)) : list (bytes * gval) :=
  match l with [] => m | _ => m ++ [(str "cookies", text_list l)] end.

(** [requestMap] (dump.go 22-41), with the maps of the header and of the form. *)
Definition request_map (d : dreq) (header form : option hmap) : gval :=
  GMap (with_cookies (dq_cookies d)
    [(str "method", GStr (dq_method d)); (str "protocolVersion", GStr (dq_proto d));
     (str "requestURI", GStr (dq_uri d)); (str "url", GStr (dq_url d)); (str "remoteAddress", GStr (dq_remote d));
     (str "transferEncoding", or_nil text_list (dq_encoding d)); (str "contentLength", GInt (dq_length d));
     (str "host", GStr (dq_host d)); (str "isSecure", GBool (dq_tls d));
     (str "header", or_nil text_lists header); (str "formFields", or_nil text_lists form)]).

(** The response after its methods [Headers] and [Cookies] have been called, which
    create the maps that are missing (headers.go 24-36, adaptor.go 19-31, hijack.go
    27-33, compress.go 38-44). *)
Definition hr_touch (h : hresp) : hresp :=
  HResp (hr_status h) (hr_ctype h) (Some (some_headers (hr_headers h))) (Some (some_cookies (hr_cookies h))).
Fixpoint touch (r : response) : response :=
  match r with
  | RHeaders h => RHeaders (hr_touch h)
  | RText h p => RText (hr_touch h) p
  | RJson h p => RJson (hr_touch h) p
  | RRaw h f => RRaw (hr_touch h) f
  | RStream h f => RStream (hr_touch h) f
  | RTemplate h f => RTemplate (hr_touch h) f
  | RSse h evs live => RSse (hr_touch h) evs live
  | RRedirect h url => RRedirect (hr_touch h) url
  | RHijack ok => RHijack ok
  | RAdaptor hs cs acts => RAdaptor (Some (some_headers hs)) (Some (some_cookies cs)) acts
  | RCompress level r' => RCompress level (touch r')
  | RCompressNil level => RCompressNil level
  end.

(** The values of [Headers] and [Cookies]; the outer [None] is a panic, the inner one
    nil. *)
Fixpoint seen_headers (r : response) : option (option headers) :=
  match r with
  | RHeaders h | RText h _ | RJson h _ | RRaw h _ | RStream h _ | RTemplate h _ | RSse h _ _ | RRedirect h _ =>
      Some (Some (some_headers (hr_headers h)))
  | RHijack _ => Some None
  | RAdaptor hs _ _ => Some (Some (some_headers hs))
  | RCompress _ r' => seen_headers r'
  | RCompressNil _ => None
  end.
Fixpoint seen_cookies (r : response) : cookies :=
  match r with
  | RHeaders h | RText h _ | RJson h _ | RRaw h _ | RStream h _ | RTemplate h _ | RSse h _ _ | RRedirect h _ =>
      some_cookies (hr_cookies h)
  | RAdaptor _ cs _ => some_cookies cs
  | RCompress _ r' => seen_cookies r'
  | RHijack _ | RCompressNil _ => []
  end.

Section Dump.
Variables Req World : Type.
Variable view : Req -> dreq.
(** The contents of the maps [R.Header] and [R.Form] at a moment; nil is [None].  The
    handler may change the maps, and it may create the map of the form by parsing it; it
    does not put another map in the place of an existing one. *)
Variable header form : World -> option hmap.
(** The clock in milliseconds, and the effect of a call of the logger. *)
Variable now : World -> Z.
Variable log : bytes -> World -> World.
(** The order of the range loop over the cookies of the response, and [Cookie.String]. *)
Variable oc : cookies -> cookies.
Variable render : cookie -> bytes.

(** [responseMap] (dump.go 49-59). *)
Definition response_map (st : Z) (hs : option headers) (cs : cookies) : gval :=
  GMap (with_cookies (map (fun kc => render (snd kc)) (oc cs))
    [(str "statusCode", GInt st);
     (str "header", or_nil (fun m => GMap (map (fun kv => (fst kv, GStr (snd kv))) m)) hs)]).

(** [RequestDumper].  [requestMap] holds the maps of the header and of the form, which
    are read when they are encoded (dump.go 61), after the handler; nil stays nil. *)
Definition request_dumper : middleware Req response World :=
  fun h c rq w =>
    match h c rq w with
    | (HReturn _ (Some e), w') => (HReturn None (Some e), w')
    | (HReturn None None, w') => (HPanic (Some 0%nat), w')
    | (HReturn (Some r) None, w') =>
        match status_code r, seen_headers r with
        | Some st, Some hs =>
            let later (f : World -> option hmap) := match f w with Some _ => f w' | None => None end in
            let text := marshal (GMap
              [(str "startTimeMs", GInt (now w)); (str "endTimeMs", GInt (now w'));
               (str "request", request_map (view rq) (later header) (later form));
               (str "response", response_map st hs (seen_cookies r))]) in
            (HReturn (Some (touch r)) None, log text w')
        | _, _ => (HPanic (Some 0%nat), w')
        end
    | (HPanic v, w') => (HPanic v, w')
    end.

End Dump.
Arguments request_dumper {Req World}.
