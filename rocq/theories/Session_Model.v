(** * Requests with everything the endpoints do not look at. *)
From Coq Require Import List NArith ZArith Ascii String Bool Arith.
From Verif Require Import GoBase Http_Model Cache_Model Auth_Model Mux_Model Csrf_Model Chain_Model OAuth_Model.
Import ListNotations.
Local Open Scope list_scope.

(** The OAuth endpoints (gofre.go 204-268) on whole requests, with cookies, addresses
    and so on.  The endpoints see [view r] of a request [r], the handler of the
    application sees the request. *)
Definition oauth_on {World Resp Req : Type} (view : Req -> oreq) (cfg : oconfig World) (prefix base : bytes)
  (h : handler Req (oresp Resp) (cache * World)) : handler Req (oresp Resp) (cache * World) :=
  fun c r cw => oauth_endpoints cfg prefix base (fun c' _ cw' => h c' r cw') c (view r) cw.
