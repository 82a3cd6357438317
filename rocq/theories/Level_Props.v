(** * C150: compression levels *)
From Coq Require Import List NArith ZArith Ascii String Bool.
From Verif Require Import GoBase Http_Model Auth_Model Chain_Model Serve_Model Resp_Model Level_Proofs.
Import ListNotations.
Local Open Scope string_scope.
Local Open Scope list_scope.
Local Open Scope nat_scope.

(** C150: with a level outside -1 to 9 every request whose handler succeeds ends in an error
    that says so, which the error middleware answers with status 500.  The handler has run. *)
Theorem C150_refused : forall (Req World : Type) level (h : handler Req response World) c q w w' r,
  ~ (-1 <= level <= 9)%Z -> h c q w = (HReturn r None, w') ->
  let e := EOther (str "compression level not supported") in
  compress_response level h c q w = (HReturn None (Some e), w') /\
  forall supplier, err_response supplier (compress_response level h) c q w = (HReturn (supplier 500%N e) None, w').
Proof. exact level_refused. Qed.
Print Assumptions C150_refused.

(** With a level from -1 to 9 there is no error; the answer has the status and headers of the
    response of the handler, and is written as that response to clients that name no
    encoding. *)
Theorem C150_taken : forall (Req World : Type) level (h : handler Req response World) c q w w' r,
  (-1 <= level <= 9)%Z -> h c q w = (HReturn (Some r) None, w') ->
  exists r', compress_response level h c q w = (HReturn (Some r') None, w') /\ status_code r' = status_code r /\ get_headers r' = get_headers r /\
    forall (k : compressor) oh oc render location redirect_body q' (o : rw k), hget (wq_headers q') (str "Accept-Encoding") = [] ->
      write oh oc render location redirect_body r' q' o = write oh oc render location redirect_body r q' o.
Proof. exact level_taken. Qed.
Print Assumptions C150_taken.

(** Errors and panics of the handler pass, whatever the level. *)
Theorem C150_errors : forall (Req World : Type) level (h : handler Req response World) c q w w',
  (forall r e, h c q w = (HReturn r (Some e), w') -> compress_response level h c q w = (HReturn None (Some e), w')) /\
  (forall v, h c q w = (HPanic v, w') -> compress_response level h c q w = (HPanic v, w')).
Proof. exact level_errors. Qed.
Print Assumptions C150_errors.

Example C150_case : forall c,
  (exists r, level_handler c tt 4 = (HReturn (Some r) None, 5) /\ compress_response 9 level_handler c tt 4 = (HReturn (Some (RCompress 9 r)) None, 5)) /\
  compress_response 10 level_handler c tt 4 = (HReturn None (Some (EOther (str "compression level not supported"))), 5) /\
  compress_response (-2) level_handler c tt 4 = (HReturn None (Some (EOther (str "compression level not supported"))), 5).
Proof. exact level_case. Qed.
