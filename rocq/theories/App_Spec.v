(** * What is claimed about whole applications *)
From Coq Require Import List NArith ZArith Ascii String Bool.
From Verif Require Import GoBase Http_Model Url_Model Pattern_Model Chain_Model Serve_Model Mux_Model Resp_Model Cors_Model App_Model
  Chain_Spec Resp_Spec Cors_Spec.
Import ListNotations.
Local Open Scope string_scope.
Local Open Scope list_scope.
Local Open Scope nat_scope.

(** The request never gets past these middlewares: whatever is inside of them, the
    outcome is [out], which may depend on the matching context. *)
Definition shuts {W : Type} (ms : list (middleware areq response W)) (x : ctx) (q : request)
    (out : mctx -> W -> hout response * W) : Prop :=
  forall h outer mc w, nested h ms outer -> outer x (AReq q mc) w = out mc w.

(** No debug endpoints are enabled. *)
Definition no_debug (cs : list acall) : Prop := forall m, ~ In (ADebug m) cs.

(** A request as a client sends it: GET or another method, a path and no headers. *)
Definition plain_request (method path : bytes) : request :=
  Request (XReq method [] [] [] false (str "a.example")) path [] 1%N.

(** The visible steps of an application that is answered by a refusal with the error
    [e]. *)
Definition refusal (i : nat) (e : err) : list (sevent response) := [EvRun i; EvLog (Uncaught e); EvStatus 500].

(** What the outcome of a handler becomes for the client: how the request ends, what is
    logged and sent, and the world. *)
Inductive answers {W : Type} (write : response -> wout * base) (w1 : W)
  : hout response -> list (sevent response) -> W -> base -> send -> Prop :=
| an_error : forall r e, answers write w1 (HReturn r (Some e)) [EvLog (Uncaught e); EvStatus 500] w1
    (base_write_header base_new 500) SDone
| an_nil : answers write w1 (HReturn None None) [] w1 base_new SCrash
| an_panic : forall v, answers write w1 (HPanic v) [] w1 base_new SCrash
| an_wrote : forall r b, write r = (Wrote None, b) -> answers write w1 (HReturn (Some r) None) [EvWrite r] w1 b SDone
| an_failed : forall r e b, write r = (Wrote (Some e), b) ->
    answers write w1 (HReturn (Some r) None) [EvWrite r; EvLog (WriteFailed e)] w1 b SDone
| an_crash : forall r b, write r = (WPanic, b) -> answers write w1 (HReturn (Some r) None) [EvWrite r] w1 b SCrash.

(** What is seen from outside: the visible steps, the world, what the client gets and
    how the call ends. *)
Definition outcome {W : Type} (t : list (sevent response) * W * base * send)
  : list (sevent response) * W * (Z * hmap * bytes) * send :=
  let '(evs, w, b, fin) := t in (visible evs, w, received b, fin).

(** The cached texts of [SecurityHeaders] are empty or the configured ones, and a handler
    that keeps them so. *)
Definition texts_right (c : sec_config) (k : sec_cache) : Prop :=
  (sc_sts k = [] \/ sc_sts k = wanted_sts c) /\ (sc_click k = [] \/ wanted_frame c (sc_click k)).
Definition keeps_texts {V : Type} (c : sec_config) (h : handler areq response (V * sec_cache)) : Prop :=
  forall x q w, texts_right c (snd w) -> texts_right c (snd (snd (h x q w))).

(** A response that is sent as it is meant: it writes its headers itself, no header has
    two spellings, and the status is one. *)
Definition regular (r : response) (q : request) : Prop :=
  exists h st, fields r = Some h /\ right_protocol r (WReq (xq_method (rq_x q)) (xq_headers (rq_x q)) (rq_major q)) /\
    meant_status h st /\ (200 <= st <= 999)%Z /\ one_spelling (custom_headers h).

(** How a response is written to a client that has got nothing yet. *)
Definition sends (k : compressor) (oh : headers -> headers) (oc : cookies -> cookies) (render : cookie -> bytes)
    (location : wreq -> bytes -> bytes) (redirect_body : Z -> bytes -> bytes) (q : request) (r : response) : wout * base :=
  let (o, w') := write oh oc render location redirect_body r (WReq (xq_method (rq_x q)) (xq_headers (rq_x q)) (rq_major q)) (@Plain k base_new) in
  (o, rw_base w').

(** The debug endpoints and their pages: the list of the profiles, the profiles, and the
    pages of the other handlers. *)
Definition endpoints : list (bytes * debug_page) :=
  (str "/debug/pprof/", PList) ::
  map (fun n => (str "/debug/pprof/" ++ n, PNamed n))
    [str "allocs"; str "block"; str "goroutine"; str "heap"; str "mutex"; str "threadcreate"] ++
  [(str "/debug/pprof/cmdline", POther DCmdline); (str "/debug/pprof/profile", POther DProfile); (str "/debug/pprof/symbol", POther DSymbol);
   (str "/debug/pprof/trace", POther DTrace); (str "/debug/vars", POther DVars)].

(** What a registration leads to, inside of its middlewares: the handler of the program;
    the file server, asked for the rest of the path, or else 404; or a debug page. *)
Definition does {W : Type} (user : nat -> handler areq response W) (files : bytes -> request -> list act)
    (pages : debug_page -> request -> list act) (t : target) (h : handler areq response W) : Prop :=
  match t with
  | TUser n => h = user n
  | TStatic dir => forall x q w, exists acts, h x q w = (HReturn (Some (RAdaptor None None acts)) None, w) /\
      (forall rest, rq_path (aq_request q) = dir ++ rest -> rq_raw (aq_request q) = [] -> acts = files rest (aq_request q)) /\
      ((forall rest, rq_path (aq_request q) <> dir ++ rest) -> In (AStatus 404) acts)
  | TDebug d => forall x q w, exists acts, h x q w = (HReturn (Some (RAdaptor None None acts)) None, w) /\
      (forall page, In (rq_path (aq_request q), page) endpoints -> (d = DIndex /\ (page = PList \/ exists n, page = PNamed n)) \/ (d <> DIndex /\ page = POther d) ->
         acts = pages page (aq_request q))
  end.
