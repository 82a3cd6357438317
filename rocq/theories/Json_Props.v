(** * Properties C86 to C88: JSON bodies *)
From Coq Require Import List NArith ZArith Ascii String Bool Arith Permutation.
From Verif Require Import GoBase Http_Model Auth_Model Chain_Model Serve_Model Resp_Model Chain_Spec Resp_Spec.
From Verif Require Import Json_Model Json_Spec JsonErr_Model JsonErr_Spec JsonErr_Proofs RespMisc_Proofs DumpCases_Proofs.
Import ListNotations.
Local Open Scope string_scope.
Local Open Scope list_scope.
Local Open Scope N_scope.

(** C86, what holds: the body is JSON that can be read in one way only, and it says the
    payload.  Missing: payloads of other types than nil, booleans, integers, strings, slices,
    maps and structs of these, and the restrictions of C44. *)
Theorem C86_payload_partial : forall (k : compressor) (oh : headers -> headers) (oc : cookies -> cookies) (render : cookie -> bytes)
    (location : wreq -> bytes -> bytes) (redirect_body : Z -> bytes -> bytes),
  (forall m, Permutation (oh m) m) -> (forall m, Permutation (oc m) m) -> forall st0 st p hs cs q b,
  meant_status (HResp st0 (str "application/json") hs cs) st -> with_body st -> one_spelling (some_headers hs) ->
  b_final b = None -> b_body b = [] ->
  exists b' hh body, write oh oc render location redirect_body (json_response st0 p hs cs) q (@Plain k b) = (Wrote None, Plain b') /\ received b' = (st, hh, body) /\
    says body (meant p) /\ Forall harmless body /\
    (~ given (some_headers hs) ct -> first_value (b_header b) ct = [] -> hvalues hh ct = [str "application/json"]).
Proof. exact (@payload_sent). Qed.
Print Assumptions C86_payload_partial.

Example C86_case :
  received (written_toy (fun m => m) (fun m => m) (json_response 201 (Some order) None None) get_req) =
    (201%Z, [(str "X-Content-Type-Options", [str "nosniff"]); (str "Content-Type", [str "application/json"])],
     str "{""items"":[""\u003ctea\u003e"",""" ++ [ascii_of_N 195; ascii_of_N 169] ++ str "\ufffd\n""],""note"":null,""open"":true,""total"":-120}") /\
  meant_status (HResp 201 (str "application/json") None None) 201 /\ with_body 201.
Proof. exact (@order_case). Qed.

(** C87: an error that reaches ErrJsonResponse is answered with its documented status and a
    JSON object that says its message and nothing else. *)
Theorem C87_error_body : forall (k : compressor) (oh : headers -> headers) (oc : cookies -> cookies) (render : cookie -> bytes)
    (location : wreq -> bytes -> bytes) (redirect_body : Z -> bytes -> bytes),
  (forall m, Permutation (oh m) m) -> (forall m, Permutation (oc m) m) -> forall (Req World : Type) (h : handler Req response World) c rq w r0 e w' q b,
  h c rq w = (HReturn r0 (Some e), w') -> b_final b = None -> b_body b = [] ->
  exists r b' n m hh body, err_json_response h c rq w = (HReturn (Some r) None, w') /\
    write oh oc render location redirect_body r q (@Plain k b) = (Wrote None, Plain b') /\ received b' = (Z.of_N n, hh, body) /\
    documented_status e n /\ message e m /\ says_error body m /\ Forall harmless body /\
    (first_value (b_header b) ct = [] -> hvalues hh ct = [str "application/json"]).
Proof. exact (@error_sent). Qed.
Print Assumptions C87_error_body.

Example C87_case :
  looks bare tt 0%nat = (HReturn None (Some (EObjectNotFound (str "no user ""x"""))), 1%nat) /\
  exists r, err_json_response looks bare tt 0%nat = (HReturn (Some r) None, 1%nat) /\
    received (written_toy (fun m => m) (fun m => m) r get_req) =
      (404%Z, [(str "X-Content-Type-Options", [str "nosniff"]); (str "Content-Type", [str "application/json"])],
       str "{""error"":""no user \""x\""""}").
Proof. exact (@looks_case). Qed.

(** C55, what holds of the body: the capitalised message is what the JSON object says.
    Missing: messages that begin with a character outside of ASCII. *)
Theorem C55_body_partial : forall (k : compressor) (oh : headers -> headers) (oc : cookies -> cookies) (render : cookie -> bytes)
    (location : wreq -> bytes -> bytes) (redirect_body : Z -> bytes -> bytes),
  (forall m, Permutation (oh m) m) -> (forall m, Permutation (oc m) m) -> forall st0 st c m hs cs q b,
  meant_status (HResp st0 (str "application/json") hs cs) st -> with_body st -> one_spelling (some_headers hs) ->
  b_final b = None -> b_body b = [] -> code c < 128 ->
  exists b' hh body text, write oh oc render location redirect_body (json_error_response st0 (Some (c :: m)) hs cs) q (@Plain k b) = (Wrote None, Plain b') /\
    received b' = (st, hh, body) /\ capitalised (c :: m) text /\ says_error body text /\ Forall harmless body /\
    (~ given (some_headers hs) ct -> first_value (b_header b) ct = [] -> hvalues hh ct = [str "application/json"]).
Proof. exact (@error_response_sent). Qed.
Print Assumptions C55_body_partial.

Example C55_body_case :
  received (written_toy (fun m => m) (fun m => m) (json_error_response 404 (Some (str "no user")) (Some [(str "x-a", str "1")]) None) get_req) =
      (404%Z, [(str "X-Content-Type-Options", [str "nosniff"]); (str "Content-Type", [str "application/json"]); (str "X-A", [str "1"])],
       str "{""error"":""No user""}") /\
  meant_status (HResp 404 (str "application/json") (Some [(str "x-a", str "1")]) None) 404 /\ with_body 404 /\
  one_spelling (some_headers (Some [(str "x-a", str "1")])).
Proof. exact (@looks_response_case). Qed.

(** C88 is false: inside of ErrJsonResponse, PanicRecover hands out the stack, and the
    client can read all of it. *)
Theorem C88_stack_refuted : forall (k : compressor) (oh : headers -> headers) (oc : cookies -> cookies) (render : cookie -> bytes)
    (location : wreq -> bytes -> bytes) (redirect_body : Z -> bytes -> bytes),
  (forall m, Permutation (oh m) m) -> (forall m, Permutation (oc m) m) -> forall (Req World : Type) stack below (h : handler Req response World) c rq w v w' ss q b,
  wrap_middleware h below c rq w = (HPanic (Some v), w') -> well_encoded (stack c rq w) ss -> b_final b = None -> b_body b = [] ->
  exists r b' hh body key cs,
    registered_handler [Some err_json_response; Some (panic_recover_text stack)] below h c rq w = (HReturn (Some r) None, w') /\
    write oh oc render location redirect_body r q (@Plain k b) = (Wrote None, Plain b') /\ received b' = (500%Z, hh, body) /\
    json_text body (VObj [(key, VStr cs)]) /\ contains cs ss.
Proof. exact (@stack_sent). Qed.
Print Assumptions C88_stack_refuted.

Example C88_case :
  wrap_middleware bursts [] bare tt 0%nat = (HPanic (Some 7%nat), 0%nat) /\
  well_encoded (its_stack bare tt 0%nat) (map code (str "main.go:12")) /\
  exists r, registered_handler [Some err_json_response; Some (panic_recover_text its_stack)] [] bursts bare tt 0%nat = (HReturn (Some r) None, 0%nat) /\
    received (written_toy (fun m => m) (fun m => m) r get_req) =
      (500%Z, [(str "X-Content-Type-Options", [str "nosniff"]); (str "Content-Type", [str "application/json"])],
       str "{""error"":""recover from panic, stack: [main.go:12]""}").
Proof. exact (@bursts_case). Qed.

(** C88, what holds: with PanicRecover around ErrJsonResponse, the client gets the status
    500 and nothing else. *)
Theorem C88_stack_partial : forall (World : Type) stack below (h : handler mctx response World) c mc w v w' wr,
  wrap_middleware h below c mc w = (HPanic (Some v), w') ->
  exists e, let (o, w1) := registered_handler [Some (panic_recover_text stack); Some err_json_response] below h c mc w in
    answer wr mc o w1 = ([EvLog (Uncaught e); EvStatus 500], w', SDone).
Proof. exact (@stack_kept). Qed.
Print Assumptions C88_stack_partial.
