(** * C122, C123: errors as Go values *)
From Coq Require Import List NArith ZArith Ascii String Bool Permutation.
From Verif Require Import GoBase Http_Model Chain_Model Serve_Model Resp_Model Resp_Spec Json_Model Json_Spec JsonErr_Model JsonErr_Spec
  Err_Model Err_Spec Err_Proofs.
Import ListNotations.
Local Open Scope string_scope.
Local Open Scope list_scope.
Local Open Scope N_scope.

(** C122 is false: whatever is wrapped or pointed to, and however deep, the status is 500. *)
Theorem C122_wrapped_refuted : forall (Req Resp World : Type) supplier (h : ehandler Req Resp World) c rq w r w' e n,
  h c rq w = (EReturn r (Some e), w') -> means e n -> ~ direct e n ->
  (forall r', supplier 500 e = Some r' -> go_err_response supplier h c rq w = (EReturn r' None, w')) /\ n <> 500.
Proof. exact (@wrapped_lost). Qed.
Print Assumptions C122_wrapped_refuted.

(** C122, what holds: errors that are not wrapped keep their status, and errors without a
    documented one get 500. *)
Theorem C122_direct_partial : forall (Req Resp World : Type) supplier (h : ehandler Req Resp World) c rq w r w' e,
  h c rq w = (EReturn r (Some e), w') ->
  exists n, answer_status e n /\ (forall r', supplier n e = Some r' -> go_err_response supplier h c rq w = (EReturn r' None, w')) /\
    ((forall n', ~ means e n') -> n = 500).
Proof. exact (@direct_kept). Qed.
Print Assumptions C122_direct_partial.

(** C123 is false: an error without a message, such as a bad request around nil, panics in
    ErrJsonResponse.  Then there is no answer, or the bare status 500 if PanicRecover is
    outside. *)
Theorem C123_answered_refuted : forall (Req World : Type) (h : ehandler Req response World) stack c rq w r w' e,
  h c rq w = (EReturn r (Some e), w') -> silent e ->
  go_answer (fst (go_err_json (go_panic_recover stack h) c rq w)) = NoAnswer /\
  go_answer (fst (go_err_json h c rq w)) = NoAnswer /\
  go_answer (fst (go_panic_recover stack (go_err_json h) c rq w)) = Status500 /\
  forall st, go_json_error_response st (Some e) = None.
Proof. exact (@silent_lost). Qed.
Print Assumptions C123_answered_refuted.

(** Nor is there an answer if a handler panics with nil, or returns neither a response nor
    an error: PanicRecover makes the one into the other. *)
Theorem C123_nothing_refuted : forall (Req World : Type) (h : ehandler Req response World) stack c rq w w',
  h c rq w = (EPanic None, w') \/ h c rq w = (EReturn None None, w') ->
  go_panic_recover stack h c rq w = (EReturn None None, w') /\
  go_panic_recover stack (go_err_json h) c rq w = (EReturn None None, w') /\
  go_answer (fst (go_err_json (go_panic_recover stack h) c rq w)) = NoAnswer /\
  go_answer (fst (go_panic_recover stack (go_err_json h) c rq w)) = NoAnswer.
Proof. exact (@nothing_lost). Qed.
Print Assumptions C123_nothing_refuted.

Example C123_nothing_case :
  let h : ehandler nat response nat := fun _ _ w => (EPanic None, w + 1)%nat in
  h (Ctx None None None) 0%nat 7%nat = (EPanic None, 8%nat).
Proof. reflexivity. Qed.

(** C123, what holds: an error with a message is answered with it, in both orders of the
    middlewares. *)
Theorem C123_answered_partial : forall (k : compressor) (oh : headers -> headers) (oc : cookies -> cookies) (render : cookie -> bytes)
    (location : wreq -> bytes -> bytes) (redirect_body : Z -> bytes -> bytes),
  (forall m, Permutation (oh m) m) -> (forall m, Permutation (oc m) m) ->
  forall (Req World : Type) (h : ehandler Req response World) stack c rq w r0 e w' q b m,
  h c rq w = (EReturn r0 (Some e), w') -> has_text e m -> b_final b = None -> b_body b = [] ->
  exists r b' n hh body,
    go_answer (fst (go_err_json (go_panic_recover stack h) c rq w)) = Writes r /\
    go_answer (fst (go_panic_recover stack (go_err_json h) c rq w)) = Writes r /\
    write oh oc render location redirect_body r q (@Plain k b) = (Wrote None, Plain b') /\ received b' = (Z.of_N n, hh, body) /\
    answer_status e n /\ says_error body m /\ Forall harmless body /\
    (first_value (b_header b) ct = [] -> hvalues hh ct = [str "application/json"]).
Proof. exact (@text_sent). Qed.
Print Assumptions C123_answered_partial.

(** C123: JsonErrorHttpResponse answers with the message too, with a capital letter and any
    status that has a body.  Missing: messages that begin outside of ASCII. *)
Theorem C123_response_partial : forall (k : compressor) (oh : headers -> headers) (oc : cookies -> cookies) (render : cookie -> bytes)
    (location : wreq -> bytes -> bytes) (redirect_body : Z -> bytes -> bytes),
  (forall m, Permutation (oh m) m) -> (forall m, Permutation (oc m) m) -> forall st e q b c m,
  has_text e (c :: m) -> code c < 128 -> with_body st -> st <> 0%Z -> b_final b = None -> b_body b = [] ->
  exists r b' hh body text, go_json_error_response st (Some e) = Some r /\
    write oh oc render location redirect_body r q (@Plain k b) = (Wrote None, Plain b') /\ received b' = (st, hh, body) /\
    capitalised (c :: m) text /\ says_error body text /\ Forall harmless body /\ (first_value (b_header b) ct = [] -> hvalues hh ct = [str "application/json"]).
Proof. exact (@json_error_sent). Qed.
Print Assumptions C123_response_partial.

(** Case: one error with a message and one without; [C122_case] says that they are such. *)
Example C123_case :
  let h (e : goerr) : ehandler nat response nat := fun _ _ w => (EReturn None (Some e), w + 1)%nat in
  let run e := go_err_json (go_panic_recover (str "stack") (h e)) (Ctx None None None) 0%nat 7%nat in
  (exists r, run (new_bad_request (Some go_access_denied)) = (EReturn (Some r) None, 8%nat) /\
     received (rw_base (snd (write (fun m => m) (fun m => m) (fun _ => []) (fun _ u => u) (fun _ _ => []) r (WReq (str "GET") [] 1) (@Plain toy base_new)))) =
       (400%Z, [(str "X-Content-Type-Options", [str "nosniff"]); (str "Content-Type", [str "application/json"])],
        str "{""error"":""access denied""}")) /\
  (exists r, go_json_error_response 418 (Some go_access_denied) = Some r /\
     snd (received (rw_base (snd (write (fun m => m) (fun m => m) (fun _ => []) (fun _ u => u) (fun _ _ => []) r (WReq (str "GET") [] 1) (@Plain toy base_new))))) =
       str "{""error"":""Access denied""}") /\
  run (new_bad_request None) = (EPanic (Some 0%nat), 8%nat).
Proof. exact (@message_case). Qed.

(** The errors of the other models are such values, with the same status and message. *)
Theorem C29_go_values : forall e, go_status (as_go e) = error_status e /\ go_error (as_go e) = Some (err_message e).
Proof. exact (@models_agree). Qed.
Print Assumptions C29_go_values.

(** C29: the three variables and the four functions of the package make errors with the
    promised status and message, and no variable is the same error as another. *)
Theorem C29_offered : forall (Req Resp World : Type) supplier (h : ehandler Req Resp World) c rq w r w',
  (forall e n t, offered e n t -> h c rq w = (EReturn r (Some e), w') ->
    go_error e = Some t /\ (forall r', supplier n e = Some r' -> go_err_response supplier h c rq w = (EReturn r' None, w'))) /\
  forall a b p, In a [go_access_denied; go_unauthorized; go_wrong_credentials] ->
    In b [go_access_denied; go_unauthorized; go_wrong_credentials] -> same_pointer p a = true -> same_pointer p b = true -> a = b.
Proof. exact (@offered_all). Qed.
Print Assumptions C29_offered.

Example C29_offered_case : offered (new_bad_request (Some (new_object_not_found_msg 9 (str "gone")))) 400 (str "gone") /\
  offered (new_object_not_found (Some go_access_denied)) 404 (str "access denied") /\
  let h (e : goerr) : ehandler nat (N * bytes) nat := fun _ _ w => (EReturn None (Some e), w + 1)%nat in
  let supplier n e := Some (option_map (fun t => (n, t)) (go_error e)) in
  go_err_response supplier (h (new_object_not_found (Some go_access_denied))) (Ctx None None None) 0%nat 7%nat =
    (EReturn (Some (404, str "access denied")) None, 8%nat).
Proof. exact offered_case. Qed.

Example C122_case :
  let wrapped := GoOther (str "loading user 7: access denied") (Some go_access_denied) in
  means wrapped 403 /\ ~ direct wrapped 403 /\ go_status wrapped = 500 /\
  means (GoOther (str "a") (Some (GoOther (str "b") (Some (new_bad_request_msg 9 (str "no id")))))) 400 /\
  means (GoBadRef (Some (Some (GoNew 9 (str "no id"))))) 400 /\ go_status (GoBadRef (Some (Some (GoNew 9 (str "no id"))))) = 500 /\
  direct go_unauthorized 401 /\ direct go_wrong_credentials 403 /\ direct go_access_denied 403 /\
  direct (new_object_not_found_msg 9 (str "gone")) 404 /\ (forall n, ~ means (GoNew 9 (str "access denied")) n) /\
  silent (new_bad_request None) /\ silent (new_object_not_found None) /\ silent (GoBadRef None) /\
  has_text (new_bad_request (Some go_access_denied)) (str "access denied").
Proof. exact err_case. Qed.
