(** * Model of a whole application: muxes, router, middlewares, handlers, static
    resources, debug endpoints and the response writer (gofre.go, handler/handler.go). *)
From Coq Require Import List NArith ZArith Ascii String Bool Arith.
From Verif Require Import GoBase Http_Model Glob_Model Pattern_Model Url_Model Match_Model Router_Model Auth_Model Chain_Model Serve_Model
  Mux_Model Resp_Model Cors_Model.
Import ListNotations.
Local Open Scope string_scope.
Local Open Scope list_scope.
Local Open Scope nat_scope.

(** ** Registration *)

(** The handlers of net/http/pprof and expvar (standard library). *)
Inductive debug_handler := DIndex | DCmdline | DProfile | DSymbol | DTrace | DVars.

(** What is registered on the router: a handler of the program, the static resources
    below a prefix, or a debug handler. *)
Inductive target := TUser (h : nat) | TStatic (prefix : bytes) | TDebug (d : debug_handler).
Record entry := Entry { en_common : list mref; en_own : list mref; en_target : target }.

(** All muxes of a program, their router, and the registered handlers in the order of
    registration; the router knows them by number. *)
Record app := App { ap_mux : mstate; ap_router : router; ap_entries : list entry }.

(** A call of [Router.Handle]. *)
Definition register (fuel : nat) (re : engine) (a : app) (method path : bytes) (e : entry) : app * handle_end :=
  let (r, x) := handle fuel re (ap_router a) method path (List.length (ap_entries a)) in
  (App (ap_mux a) r (ap_entries a ++ [e]), x).

(** The prefix that is cut off from the paths of static resources (gofre.go 126-132), for
    a mapping path and a context path as given by the program. *)
Definition static_prefix (context mapping : bytes) : bytes :=
  let c := if Nat.eqb (List.length context) 0 then str "/" else context in
  (if beqb c (str "/") then [] else c) ++ str "/" ++ (if Nat.eqb (List.length mapping) 0 then str "assets" else mapping) ++ str "/".

(** [NewMuxHandler] (gofre.go 120-138): the application, and how the registration of the
    static resources ended if there is a resources configuration. *)
Definition new_app (fuel : nat) (re : engine) (ci : bool) (context : bytes) (mapping : option bytes) : app * option handle_end :=
  let (st, pattern) := new_mux_handler context mapping in
  let a := App st (new_router ci) [] in
  match pattern, mapping with
  | Some p, Some m =>
      let (a', x) := register fuel re a (str "GET") p (Entry [] [] (TStatic (static_prefix context m))) in (a', Some x)
  | _, _ => (a, None)
  end.

(** The debug endpoints (gofre.go 322-333). *)
Definition debug_endpoints : list (bytes * debug_handler) :=
  [(str "/debug/pprof/", DIndex); (str "/debug/pprof/allocs", DIndex); (str "/debug/pprof/block", DIndex);
   (str "/debug/pprof/goroutine", DIndex); (str "/debug/pprof/heap", DIndex); (str "/debug/pprof/mutex", DIndex);
   (str "/debug/pprof/threadcreate", DIndex); (str "/debug/pprof/cmdline", DCmdline); (str "/debug/pprof/profile", DProfile);
   (str "/debug/pprof/symbol", DSymbol); (str "/debug/pprof/trace", DTrace); (str "/debug/vars", DVars)].

(** [EnableDebugEndpoints] (gofre.go 320-334); a panic ends the call. *)
Fixpoint register_debug (fuel : nat) (re : engine) (a : app) (prefix : bytes) (l : list (bytes * debug_handler)) : app * handle_end :=
  match l with
  | [] => (a, Registered)
  | (p, d) :: l' =>
      match register fuel re a (str "GET") (resolve_path prefix p) (Entry [] [] (TDebug d)) with
      | (a', Registered) => register_debug fuel re a' prefix l'
      | (a', x) => (a', x)
      end
  end.

(** The calls a program makes while it sets up: those of [Mux_Model], and
    [EnableDebugEndpoints] on the mux with number [m]. *)
Inductive acall := AMux (c : mcall) | ADebug (m : nat).

(** One call: the application afterwards, and how the registration ended if the call is
    one.  The program recovers panics. *)
Definition acall_step (grow : nat -> nat -> nat) (fuel : nat) (re : engine) (a : app) (c : acall) : app * option handle_end :=
  match c with
  | AMux mc =>
      let (st, g) := mcall_step grow (ap_mux a) mc in
      let a1 := App st (ap_router a) (ap_entries a) in
      match g with
      | GReg method path common own h =>
          let (a2, x) := register fuel re a1 method path (Entry common own (TUser h)) in (a2, Some x)
      | _ => (a1, None)
      end
  | ADebug m =>
      match nth_error (ms_muxes (ap_mux a)) m with
      | None => (a, None)
      | Some x => let (a2, e) := register_debug fuel re a (mx_prefix x) debug_endpoints in (a2, Some e)
      end
  end.

Fixpoint acalls (grow : nat -> nat -> nat) (fuel : nat) (re : engine) (a : app) (cs : list acall) : app * list (option handle_end) :=
  match cs with
  | [] => (a, [])
  | c :: cs' =>
      let (a1, x) := acall_step grow fuel re a c in
      let (a2, xs) := acalls grow fuel re a1 cs' in
      (a2, x :: xs)
  end.

(** ** Requests *)

(** A request: what the middlewares see of it ([Cors_Model]), the path of its URL, the raw
    path (empty unless the encoding in the request line is not the default one), and the
    major version of the protocol. *)
Record request := Request { rq_x : xreq; rq_path : bytes; rq_raw : bytes; rq_major : N }.

(** What a handler gets: the request and the matching context. *)
Record areq := AReq { aq_request : request; aq_mc : mctx }.

(** [strings.HasPrefix]. *)
Definition has_prefix (p s : bytes) : bool := beqb (firstn (List.length p) s) p.

(** [http.NotFound] (standard library). *)
Definition not_found : list act :=
  [ASet (str "Content-Type") (str "text/plain; charset=utf-8"); ASet (str "X-Content-Type-Options") (str "nosniff");
   AStatus 404; AWrite (str "404 page not found" ++ [ascii_of_N 10])].

(** The pages of the debug handlers: [pprof.Index] (standard library, Go 1.19) shows the
    profile that the rest of the path behind /debug/pprof/ names, or else a list. *)
Inductive debug_page := PList | PNamed (name : bytes) | POther (d : debug_handler).
Definition page_of (d : debug_handler) (q : request) : debug_page :=
  match d with
  | DIndex =>
      let p := str "/debug/pprof/" in
      if has_prefix p (rq_path q) then
        match skipn (List.length p) (rq_path q) with [] => PList | name => PNamed name end
      else PList
  | _ => POther d
  end.

Section App.
Variable W : Type.
(** The handlers and middlewares of the program. *)
Variable user : nat -> handler areq response W.
Variable mid : nat -> middleware areq response W.
(** The file server ([http.FileServer], standard library) for the path behind the prefix,
    and the debug pages. *)
Variable files : bytes -> request -> list act.
Variable pages : debug_page -> request -> list act.

(** [http.StripPrefix] (standard library) around the file server. *)
Definition static_acts (prefix : bytes) (q : request) : list act :=
  if has_prefix prefix (rq_path q) && (beqb (rq_raw q) [] || has_prefix prefix (rq_raw q))
  then files (skipn (List.length prefix) (rq_path q)) q
  else not_found.

(** [Handler2Handler], [HandlerFunc2Handler] (handler.go 13-26), [HandlerAdaptor],
    [HandlerFuncAdaptor] (adaptor.go 54-66). *)
Definition adapted (acts : request -> list act) : handler areq response W :=
  fun _ q w => (HReturn (Some (RAdaptor None None (acts (aq_request q)))) None, w).

Definition target_handler (t : target) : handler areq response W :=
  match t with
  | TUser h => user h
  | TStatic p => adapted (static_acts p)
  | TDebug d => adapted (fun q => pages (page_of d q) q)
  end.

(** What is attached to the pattern: for the handlers of the program the chain that
    [HandleRequest] makes (gofre.go 296-299). *)
Definition entry_handler (e : entry) : handler areq response W :=
  registered_handler (map (option_map mid) (en_common e)) (map (option_map mid) (en_own e)) (target_handler (en_target e)).

(** ** Serving *)

Section Request.
Variable k : compressor.
Variable oh : headers -> headers.
Variable oc : cookies -> cookies.
Variable render : cookie -> bytes.
Variable location : wreq -> bytes -> bytes.
Variable redirect_body : Z -> bytes -> bytes.

(** The world while a request is served: that of the handlers, and the writer of
    net/http. *)
Definition app_code (a : app) (q : request) (i : nat) : handler mctx response (W * base) :=
  fun c mc wb =>
    match nth_error (ap_entries a) i with
    | None => (HPanic None, wb)
    | Some e => let (o, w') := entry_handler e c (AReq q mc) (fst wb) in (o, (w', snd wb))
    end.
Definition app_write (q : request) (r : response) (_ : mctx) (wb : W * base) : wout * (W * base) :=
  let (o, w') := write oh oc render location redirect_body r (WReq (xq_method (rq_x q)) (xq_headers (rq_x q)) (rq_major q)) (@Plain k (snd wb)) in
  (o, (fst wb, rw_base w')).

(** The statuses that the router itself sends. *)
Definition deliver (evs : list (sevent response)) (b : base) : base :=
  fold_left (fun b e => match e with EvStatus n => base_write_header b (Z.of_N n) | _ => b end) evs b.

(** [ServeHTTP] (gofre.go 336-338): the visible steps, the world of the handlers, the
    writer and how the call ended. *)
Definition app_serve (fuel : nat) (re : engine) (a : app) (q : request) (buf : list useg) (c : ctx) (w : W)
  : list (sevent response) * W * base * send :=
  let '(evs, wb, fin) :=
    serve (app_code a q) (app_write q) fuel re (ap_router a) c (xq_method (rq_x q)) (rq_path q) buf (w, base_new) in
  (evs, fst wb, deliver evs (snd wb), fin).

End Request.

(** A middleware that works on the result of the handler inside, as a middleware of an
    application ([Cors], [SecurityHeaders]). *)
Definition app_cors (c : cors_config) : middleware areq response W :=
  fun h x q w => let (o, w') := h x q w in cors c (fun _ _ _ => (o, w')) x (rq_x (aq_request q)) w.

End App.
Arguments static_acts files prefix q : assert. Arguments adapted {W}. Arguments target_handler {W}. Arguments entry_handler {W}.
Arguments app_code {W}. Arguments app_write {W}. Arguments app_serve {W}. Arguments app_cors {W}.

(** [SecurityHeaders] with its cached texts, which are part of the world. *)
Definition app_security {V : Type} (c : sec_config) : middleware areq response (V * sec_cache) :=
  fun h x q wk =>
    let (o, wk') := h x q wk in
    security_headers c (fun _ _ (_ : V) => (o, fst wk')) x (rq_x (aq_request q)) wk'.
