(** * Model of errors as Go values (errors/errors.go, middleware/errors.go,
    middleware/panic.go, router/router.go 94-103).

    The other models see an error through its kind and its message.  Here an error is what
    Go makes of it: errors can wrap one another, hold nil, or be pointers. *)
From Coq Require Import List NArith ZArith Ascii String Bool.
From Verif Require Import GoBase Http_Model Chain_Model Serve_Model Resp_Model Json_Model JsonErr_Model.
Import ListNotations.
Local Open Scope string_scope.
Local Open Scope list_scope.
Local Open Scope N_scope.

(** Values of the interface error.  [GoNew]: a pointer from [errors.New], known by its number, with
    its text; [GoBad] and [GoMissing]: [ErrBadRequest] (errors.go 9-11) and
    [ErrObjectNotFound] (errors.go 29-31) with the error inside, nil is [None];
    [GoBadRef] and [GoMissingRef]: pointers to those structs, nil is [None]; pointers have
    the methods of the struct; [GoOther]: a value of any other type, whose [Error] returns
    the text and whose [Unwrap], if it has one, returns the inner error;
    [fmt.Errorf] with %w makes one of them. *)
Inductive goerr :=
| GoNew (p : nat) (text : bytes)
| GoBad (inside : option goerr)
| GoMissing (inside : option goerr)
| GoBadRef (inside : option (option goerr))
| GoMissingRef (inside : option (option goerr))
| GoOther (text : bytes) (inner : option goerr).

(** The three variables (errors.go 5-7): the pointers 0, 1 and 2. *)
Definition go_access_denied : goerr := GoNew 0 (str "access denied").
Definition go_unauthorized : goerr := GoNew 1 (str "unauthorized request").
Definition go_wrong_credentials : goerr := GoNew 2 (str "wrong credentials").

(** [NewBadRequest], [NewObjectNotFound] (errors.go 23-27, 43-47) and the variants with a
    message (errors.go 17-21, 37-41), which call [errors.New]; [p] is the new pointer. *)
Definition new_bad_request (e : option goerr) : goerr := GoBad e.
Definition new_object_not_found (e : option goerr) : goerr := GoMissing e.
Definition new_bad_request_msg (p : nat) (msg : bytes) : goerr := GoBad (Some (GoNew p msg)).
Definition new_object_not_found_msg (p : nat) (msg : bytes) : goerr := GoMissing (Some (GoNew p msg)).

(** [Error] (errors.go 13-15, 33-35, and of the other types); [None] is a panic: a method
    called on a nil interface or a nil pointer. *)
Fixpoint go_error (e : goerr) : option bytes :=
  match e with
  | GoNew _ t | GoOther t _ => Some t
  | GoBad i | GoMissing i => match i with Some e' => go_error e' | None => None end
  | GoBadRef i | GoMissingRef i => match i with Some (Some e') => go_error e' | _ => None end
  end.

(** [==] of two interface values one of which is a pointer from [errors.New]: type and pointer are the
    same. *)
Definition same_pointer (p : nat) (e : goerr) : bool := match e with GoNew q _ => Nat.eqb q p | _ => false end.

(** [Error2HttpStatusCode] (middleware/errors.go 16-28), with its initial value. *)
Definition go_status (e : goerr) : N :=
  match e with
  | GoBad _ => 400
  | GoMissing _ => 404
  | _ =>
      if same_pointer 1 e then 401
      else if same_pointer 2 e || same_pointer 0 e then 403
      else 500
  end.

(** How a call of a handler ends, with Go errors; the panic value is nil for [panic(nil)]. *)
Inductive eout (Resp : Type) :=
| EReturn (r : option Resp) (e : option goerr)
| EPanic (v : option nat).
Arguments EReturn {Resp}. Arguments EPanic {Resp}.

Section Handlers.
Variables Req Resp World : Type.
Definition ehandler := ctx -> Req -> World -> eout Resp * World.
Definition emiddleware := ehandler -> ehandler.

(** [ErrResponse] (middleware/errors.go 40-51); [None] from the supplier is a panic in it. *)
Definition go_err_response (supplier : N -> goerr -> option (option Resp)) : emiddleware :=
  fun h c rq w =>
    match h c rq w with
    | (EReturn r (Some e), w') =>
        match supplier (go_status e) e with Some r' => (EReturn r' None, w') | None => (EPanic (Some 0%nat), w') end
    | (EReturn r None, w') => (EReturn r None, w')
    | (EPanic v, w') => (EPanic v, w')
    end.

(** [PanicRecover] (middleware/panic.go 14-26), as in [Chain_Model.panic_recover]; [stack] is the
    text of its error. *)
Definition go_panic_recover (stack : bytes) : emiddleware :=
  fun h c rq w =>
    match h c rq w with
    | (EPanic (Some _), w') => (EReturn None (Some (GoOther stack None)), w')
    | (EPanic None, w') => (EReturn None None, w')
    | r => r
    end.

(** [ServeHTTP] after the handler has returned (router.go 94-103), as in [Serve_Model.answer]:
    nothing is answered since the goroutine panics, the status 500 is sent without a body,
    or the response is asked to write itself.  The text of the logged error is left out:
    [fmt.Errorf] recovers from panics in [Error]. *)
Inductive eanswer := NoAnswer | Status500 | Writes (r : Resp).
Definition go_answer (o : eout Resp) : eanswer :=
  match o with
  | EPanic _ => NoAnswer
  | EReturn _ (Some _) => Status500
  | EReturn None None => NoAnswer
  | EReturn (Some r) None => Writes r
  end.
End Handlers.
Arguments go_err_response {Req Resp World}. Arguments go_panic_recover {Req Resp World}.
Arguments NoAnswer {Resp}. Arguments Status500 {Resp}. Arguments Writes {Resp}. Arguments go_answer {Resp}.

(** [ErrJsonResponse] (middleware/errors.go 31-37). *)
Definition go_err_json {Req World : Type} : emiddleware Req response World :=
  go_err_response (fun n e => option_map (fun m => Some (json_response (Z.of_N n) (Some (error_payload m)) None None)) (go_error e)).

(** [JsonErrorHttpResponse] (json.go 82-84): [errorToString] calls [Error] if the error is not nil; [None]
    is a panic. *)
Definition go_json_error_response (st : Z) (e : option goerr) : option response :=
  match e with
  | None => Some (json_error_response st None None None)
  | Some e' => option_map (fun m => json_error_response st (Some m) None None) (go_error e')
  end.
