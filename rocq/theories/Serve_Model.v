(** * Model of [Router.ServeHTTP] from the choice of the handler to the answer
    (router/router.go 64-104). *)
From Coq Require Import List NArith ZArith Ascii String Bool.
From Verif Require Import GoBase Glob_Model Pattern_Model Url_Model Match_Model Router_Model Chain_Model.
Import ListNotations.
Local Open Scope list_scope.

(** [path.MatchingContext] (matching_context.go 29-33); of the request only the
    method and the path are kept. *)
Record mctx := MCtx {
  mc_method : bytes;
  mc_path : bytes;
  mc_pattern : option pattern;
  mc_segs : list useg
}.

(** [MatchingContext.PathVar] (matching_context.go 53-89); [None] is a panic. *)
Definition mc_var (mc : mctx) (name : bytes) : option bytes :=
  path_var (mc_pattern mc) (mc_path mc) (mc_segs mc) name.

(** What goes to the error log function: a handler error, wrapped (router.go 96),
    or the error of a failed write (router.go 102). *)
Inductive logged := Uncaught (e : err) | WriteFailed (e : err).

(** The visible steps of [ServeHTTP]: the handler is called, [WriteHeader] is
    called by the router, an error is logged, a response is asked to write
    itself, the buffer goes back to the pool with the given content. *)
Inductive sevent (Resp : Type) :=
| EvRun (h : nat)
| EvStatus (n : N)
| EvLog (e : logged)
| EvWrite (r : Resp)
| EvPut (buf : list useg).
Arguments EvRun {Resp}. Arguments EvStatus {Resp}. Arguments EvLog {Resp}.
Arguments EvWrite {Resp}. Arguments EvPut {Resp}.

(** The call returns, it panics, or it is still searching a route. *)
Inductive send := SDone | SCrash | SRuns.

(** How [HttpResponse.Write] ends: it returns an error or nil, or it panics. *)
Inductive wout := Wrote (e : option err) | WPanic.

Section Serve.
Variables Resp World : Type.

(** The registered handlers and the [Write] method of the responses. *)
Variable code : nat -> handler mctx Resp World.
Variable write : Resp -> mctx -> World -> wout * World.

(** The deferred function (router.go 70-77): all 19 segments are reset. *)
Definition put_back : sevent Resp := EvPut (repeat useg_zero max_path_segments).

(** [ServeHTTP] after the handler has returned (router.go 94-103); calling [Write]
    on a nil response panics. *)
Definition answer (mc : mctx) (o : hout Resp) (w : World) : list (sevent Resp) * World * send :=
  match o with
  | HPanic _ => ([], w, SCrash)
  | HReturn _ (Some e) => ([EvLog (Uncaught e); EvStatus 500], w, SDone)
  | HReturn None None => ([], w, SCrash)
  | HReturn (Some r) None =>
      match write r mc w with
      | (Wrote None, w') => ([EvWrite r], w', SDone)
      | (Wrote (Some e), w') => ([EvWrite r; EvLog (WriteFailed e)], w', SDone)
      | (WPanic, w') => ([EvWrite r], w', SCrash)
      end
  end.

(** [ServeHTTP] (router.go 66-104).  The context is the one of the request, [buf]
    is what the pool returned. *)
Definition serve (fuel : nat) (re : engine) (r : router) (c : ctx) (method path : bytes) (buf : list useg)
    (w : World) : list (sevent Resp) * World * send :=
  match dispatch_request fuel re r method path buf with
  | ServeRuns => ([], w, SRuns)
  | ServeCrash => ([put_back], w, SCrash)
  | NotFound => ([EvStatus 404; put_back], w, SDone)
  | Calls h rec segs =>
      let mc := MCtx method path rec segs in
      let (o, w1) := code h c mc w in
      let '(evs, w2, fin) := answer mc o w1 in
      (EvRun h :: evs ++ [put_back], w2, fin)
  end.

End Serve.
Arguments answer {Resp World}. Arguments serve {Resp World}. Arguments put_back {Resp}.
