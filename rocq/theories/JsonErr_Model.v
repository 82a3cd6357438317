(** * Model of JSON responses and of errors sent as JSON (response/json.go,
    middleware/errors.go 30-38, middleware/panic.go, errors/errors.go). *)
From Coq Require Import List NArith ZArith Ascii String Bool.
From Verif Require Import GoBase Http_Model Chain_Model Serve_Model Resp_Model Json_Model.
Import ListNotations.
Local Open Scope string_scope.
Local Open Scope list_scope.
Local Open Scope N_scope.

(** [JsonHttpResponseWithHeadersAndCookies] (json.go 68-79) with the call of
    [json.Marshal] (json.go 29-37), which does not fail for these payloads.  A nil
    payload is [None]; a nil map or slice is a payload. *)
Definition json_response (st : Z) (payload : option gval) (hs : option headers) (cs : option cookies) : response :=
  RJson (HResp st (str "application/json") hs cs) (option_map (fun v => Some (marshal v)) payload).

(** The payload map of one entry, error, with the message
    ([JsonErrorHttpResponseWithHeadersAndCookies], json.go 105, and [ErrJsonResponse],
    middleware/errors.go 33-35). *)
Definition error_payload (msg : bytes) : gval := GMap [(str "error", GStr msg)].

(** [JsonErrorHttpResponseWithHeadersAndCookies] (json.go 97-107); the error is seen
    through its message, nil is [None]. *)
Definition json_error_response (st : Z) (e : option bytes) (hs : option headers) (cs : option cookies) : response :=
  json_response st (Some (error_payload (error_to_string e))) hs cs.

(** [Error] of the errors of errors.go 5-7, 13-15 and 33-35.  A bad request or a missing
    object around a nil error, whose [Error] panics, is not modelled. *)
Definition err_message (e : err) : bytes :=
  match e with
  | EBadRequest m | EObjectNotFound m | EOther m => m
  | EUnauthorized => str "unauthorized request"
  | EWrongCredentials => str "wrong credentials"
  | EAccessDenied => str "access denied"
  end.

(** [ErrJsonResponse] (middleware/errors.go 31-37). *)
Definition err_json_response {Req World : Type} : middleware Req response World :=
  err_response (fun n e => Some (json_response (Z.of_N n) (Some (error_payload (err_message e))) None None)).

(** [PanicRecover] (middleware/panic.go 14-26) with the text of its error: [stack] is
    what [debug.Stack] says when the handler panics. *)
Definition panic_recover_text {Req Resp World : Type} (stack : ctx -> Req -> World -> bytes) : middleware Req Resp World :=
  fun h c rq w =>
    match h c rq w with
    | (HPanic (Some _), w') =>
        (HReturn None (Some (EOther (str "recover from panic, stack: [" ++ stack c rq w ++ str "]"))), w')
    | (HPanic None, w') => (HReturn None None, w')
    | r => r
    end.
