(** * Properties C89 to C91: RequestDumper *)
From Coq Require Import List NArith ZArith Ascii String Bool Arith Permutation.
From Verif Require Import GoBase Http_Model Auth_Model Chain_Model Serve_Model Resp_Model Chain_Spec Resp_Spec.
From Verif Require Import Json_Model Json_Spec JsonErr_Model JsonErr_Spec JsonErr_Proofs Dump_Model Dump_Spec Dump_Proofs RespMisc_Proofs DumpCases_Proofs.
Import ListNotations.
Local Open Scope string_scope.
Local Open Scope list_scope.
Local Open Scope N_scope.

(** C89, what holds: a request whose handler gives a response is logged in one text, which
    is JSON, can be read in one way only, and tells the request and the response.  Missing:
    handlers that fail, and handlers that change the header or the form. *)
Theorem C89_dump_partial : forall (Req World : Type) (view : Req -> dreq) (header form : World -> option hmap) (now : World -> Z)
    (log : bytes -> World -> World) (oc : cookies -> cookies) (render : cookie -> bytes),
  (forall m, Permutation (oc m) m) -> forall (h : handler Req response World) c rq w r w' st hs cs,
  h c rq w = (HReturn (Some r) None, w') -> shown r st hs cs -> header w' = header w -> form w' = form w ->
  exists r' t v rv sv, request_dumper view header form now log oc render h c rq w = (HReturn (Some r') None, log t w') /\
    (forall v', json_text t v' <-> v' = v) /\
    holds v (str "startTimeMs") (GInt (now w)) /\ holds v (str "endTimeMs") (GInt (now w')) /\
    member v (str "request") rv /\ tells_request rv (view rq) (header w) (form w) /\
    member v (str "response") sv /\ tells_response render sv st hs cs.
Proof. exact (@dumped_unchanged). Qed.
Print Assumptions C89_dump_partial.

Example C89_case :
  (exists r w', greets bare visit at_start = (HReturn (Some r) None, w') /\
     shown r 200 (Some []) [Cookie (str "c") [] [] []] /\ sn_header w' = sn_header at_start /\ sn_form w' = sn_form at_start) /\
  sn_log (snd (dumping greets bare visit at_start)) =
    [str "{""endTimeMs"":1007,""request"":{""contentLength"":0,""cookies"":[""sid=1""],""formFields"":null,""header"":{""X-Token"":[""t""]},""host"":""h"",""isSecure"":false,""method"":""GET"",""protocolVersion"":""HTTP/1.1"",""remoteAddress"":""1.2.3.4:5"",""requestURI"":""/a?b=1"",""transferEncoding"":null,""url"":""/a?b=1""},""response"":{""cookies"":[""c=1""],""header"":{},""statusCode"":200},""startTimeMs"":1000}"].
Proof. exact (@greets_case). Qed.

(** C89 is false of the header before processing: what is logged is the header that the
    handler has left. *)
Theorem C89_before_refuted : forall (Req World : Type) (view : Req -> dreq) (header form : World -> option hmap) (now : World -> Z)
    (log : bytes -> World -> World) (oc : cookies -> cookies) (render : cookie -> bytes),
  (forall m, Permutation (oc m) m) -> forall (h : handler Req response World) c rq w r w' st hs cs m0 m1,
  h c rq w = (HReturn (Some r) None, w') -> shown r st hs cs -> header w = Some m0 -> header w' = Some m1 ->
  exists r' t v rv, request_dumper view header form now log oc render h c rq w = (HReturn (Some r') None, log t w') /\
    (forall v', json_text t v' <-> v' = v) /\ member v (str "request") rv /\ holds rv (str "header") (named_texts m1).
Proof. exact (@dumped_late). Qed.
Print Assumptions C89_before_refuted.

Example C89_before_case :
  (exists r w', takes bare visit at_start = (HReturn (Some r) None, w') /\ shown r 204 (Some []) [] /\
     sn_header at_start = Some [(str "X-Token", [str "t"])] /\ sn_header w' = Some []) /\
  sn_log (snd (dumping takes bare visit at_start)) =
    [str "{""endTimeMs"":1000,""request"":{""contentLength"":0,""cookies"":[""sid=1""],""formFields"":null,""header"":{},""host"":""h"",""isSecure"":false,""method"":""GET"",""protocolVersion"":""HTTP/1.1"",""remoteAddress"":""1.2.3.4:5"",""requestURI"":""/a?b=1"",""transferEncoding"":null,""url"":""/a?b=1""},""response"":{""header"":{},""statusCode"":204},""startTimeMs"":1000}"].
Proof. exact (@takes_case). Qed.

(** C89 is false of requests whose handler fails: they are not logged. *)
Theorem C89_failed_refuted : forall (Req World : Type) (view : Req -> dreq) (header form : World -> option hmap) (now : World -> Z)
    (log : bytes -> World -> World) (oc : cookies -> cookies) (render : cookie -> bytes)
    (h : handler Req response World) c rq w r e w',
  h c rq w = (HReturn r (Some e), w') -> request_dumper view header form now log oc render h c rq w = (HReturn None (Some e), w').
Proof. exact (@not_dumped). Qed.
Print Assumptions C89_failed_refuted.

Example C89_failed_case : fails bare visit at_start = (HReturn None (Some EAccessDenied), at_start) /\
  sn_log (snd (dumping fails bare visit at_start)) = [].
Proof. exact (@fails_case). Qed.

(** C90: the text that is logged has no control characters, whatever the request and the
    handler are. *)
Theorem C90_one_line : forall (Req World : Type) (view : Req -> dreq) (header form : World -> option hmap) (now : World -> Z)
    (log : bytes -> World -> World) (oc : cookies -> cookies) (render : cookie -> bytes)
    (h : handler Req response World) c rq w o w', h c rq w = (o, w') ->
  exists o1 w1, request_dumper view header form now log oc render h c rq w = (o1, w1) /\ (w1 = w' \/ exists t, w1 = log t w' /\ Forall harmless t).
Proof. exact (@one_line). Qed.
Print Assumptions C90_one_line.

Example C90_case :
  sn_log (snd (dumping tells bare odd (Scene None (Some []) 5 []))) =
    [str "{""endTimeMs"":5,""request"":{""contentLength"":-1,""formFields"":{},""header"":null,""host"":""h\n\""\u003c"",""isSecure"":true,""method"":""GET"",""protocolVersion"":""HTTP/1.1"",""remoteAddress"":""1.2.3.4:5"",""requestURI"":""/"",""transferEncoding"":[""chunked""],""url"":""/""},""response"":{""header"":null,""statusCode"":0},""startTimeMs"":5}"].
Proof. exact (@odd_case). Qed.

(** C91, what holds: errors and panics pass, and a response is written as it would be
    without the middleware.  Missing: nil responses. *)
Theorem C91_transparent_partial : forall (Req World : Type) (view : Req -> dreq) (header form : World -> option hmap) (now : World -> Z)
    (log : bytes -> World -> World) (oc : cookies -> cookies) (render : cookie -> bytes),
  (forall m, Permutation (oc m) m) -> forall (h : handler Req response World) c rq w,
  (forall r e w', h c rq w = (HReturn r (Some e), w') -> request_dumper view header form now log oc render h c rq w = (HReturn None (Some e), w')) /\
  (forall v w', h c rq w = (HPanic v, w') -> request_dumper view header form now log oc render h c rq w = (HPanic v, w')) /\
  (forall r w' st hs cs, h c rq w = (HReturn (Some r) None, w') -> shown r st hs cs ->
     exists r' w1, request_dumper view header form now log oc render h c rq w = (HReturn (Some r') None, w1) /\
       forall (k : compressor) oh location redirect_body q (x : rw k), (forall m, Permutation (oh m) m) ->
         write oh oc render location redirect_body r' q x = write oh oc render location redirect_body r q x).
Proof. exact (@transparent). Qed.
Print Assumptions C91_transparent_partial.

Example C91_case :
  exists r' w1, dumping greets bare visit at_start = (HReturn (Some r') None, w1) /\
    received (written_toy (fun m => m) (fun m => m) r' get_req) =
      (200%Z, [(str "X-Content-Type-Options", [str "nosniff"]); (str "Content-Type", [str "text/plain"]);
               (str "Set-Cookie", [str "c="])], str "hi").
Proof. exact (@greets_written). Qed.

(** C91 is false of nil responses, also inside of a compressed response: there is a panic. *)
Theorem C91_nil_refuted : forall (Req World : Type) (view : Req -> dreq) (header form : World -> option hmap) (now : World -> Z)
    (log : bytes -> World -> World) (oc : cookies -> cookies) (render : cookie -> bytes)
    (h : handler Req response World) c rq w w' level,
  h c rq w = (HReturn None None, w') \/ h c rq w = (HReturn (Some (RCompressNil level)) None, w') ->
  request_dumper view header form now log oc render h c rq w = (HPanic (Some 0%nat), w').
Proof. exact (@nil_panics). Qed.
Print Assumptions C91_nil_refuted.
