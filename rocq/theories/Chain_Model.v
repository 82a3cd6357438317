(** * Model of handlers, middleware chains and the small middlewares
    (gofre.go 295-299, 340-352, handler/handler.go, errors/errors.go,
    middleware/errors.go, middleware/panic.go, middleware/auth.go,
    middleware/authz.go, auth/auth.go 15-21). *)
From Coq Require Import List NArith ZArith Ascii String Bool.
From Verif Require Import GoBase Auth_Model Json_Model.
Import ListNotations.
Local Open Scope string_scope.
Local Open Scope list_scope.
Local Open Scope N_scope.

(** Errors (errors/errors.go): the two struct types with the wrapped message, the
    three sentinel values, and any other error, wrapped ones included, with its
    message. *)
Inductive err :=
| EBadRequest (msg : bytes)
| EObjectNotFound (msg : bytes)
| EUnauthorized
| EWrongCredentials
| EAccessDenied
| EOther (msg : bytes).

(** The values that encoding/json sees of permissions, roles, groups and users: the fields
    of the structs (auth.go 62-65, 131-136, 154-157, 180-191).  A list without entries is a
    nil slice. *)
Definition slice_of {A : Type} (f : A -> gval) (l : list A) : gval := match l with [] => GNil | _ => GSlice (map f l) end.
Definition permission_value (p : permission) : gval :=
  GStruct [(str "Scope", GStr (pm_scope p)); (str "Access", GInt (Z.of_N (pm_access p)))].
Definition role_value (r : role) : gval :=
  GStruct [(str "Name", GStr (rl_name r)); (str "Description", GStr (rl_description r));
           (str "AllowedPermissions", slice_of permission_value (rl_allowed r));
           (str "DeniedPermissions", slice_of permission_value (rl_denied r))].
Definition group_value (g : group) : gval :=
  GStruct [(str "Name", GStr (gr_name g)); (str "Roles", slice_of role_value (gr_roles g))].
Definition user_value (u : user) : gval :=
  GStruct [(str "Id", GStr (us_id u)); (str "Name", GStr (us_name u)); (str "IdentityPlatform", GStr (us_platform u));
           (str "Groups", slice_of group_value (us_groups u)); (str "Attachment", GNil)].

(** A security principal is seen through [Identity] and [HasPermission] (auth.go 49-58), and
    as a value by encoding/json. *)
Record principal := Principal { pr_id : bytes; pr_has : permission -> bool; pr_value : gval }.
Definition user_principal (u : user) : principal := Principal (us_id u) (user_has u) (user_value u).

(** [oauth.AccessToken] (oauth2.go 67-78); scopes may be nil. *)
Record access_token := AccessToken {
  at_token : bytes; at_type : bytes; at_scopes : option (list bytes); at_refresh : bytes; at_expires : Z
}.

(** The values that gofre puts into the request context: the principal (auth.go
    13), the CSRF nonce (csrf.go 22), the OAuth token (oauth2.go 26). *)
Record ctx := Ctx {
  cx_principal : option principal;
  cx_nonce : option bytes;
  cx_token : option access_token
}.
Definition with_principal (c : ctx) (p : principal) : ctx := Ctx (Some p) (cx_nonce c) (cx_token c).
Definition with_nonce (c : ctx) (n : bytes) : ctx := Ctx (cx_principal c) (Some n) (cx_token c).
Definition with_token (c : ctx) (t : access_token) : ctx := Ctx (cx_principal c) (cx_nonce c) (Some t).

(** How a call of a handler ends: it returns a response (possibly nil) and an
    error (possibly nil), or it panics; the panic value is nil for [panic(nil)]. *)
Inductive hout (Resp : Type) :=
| HReturn (r : option Resp) (e : option err)
| HPanic (v : option nat).
Arguments HReturn {Resp}. Arguments HPanic {Resp}.

Section Handlers.
Variables Req Resp World : Type.

(** [handler.Handler] (handler.go 11).  The world stands for everything a handler
    can change; a handler is a function of context, request and world. *)
Definition handler := ctx -> Req -> World -> hout Resp * World.

(** [middleware.Middleware] (middleware.go 8); nil is [None]. *)
Definition middleware := handler -> handler.

(** [wrapMiddleware] (gofre.go 340-352): the loop runs from the last entry to the
    first. *)
Definition wrap_middleware (h : handler) (ms : list (option middleware)) : handler :=
  fold_left (fun acc m => match m with Some f => f acc | None => acc end) (rev ms) h.

(** The handler that [HandleRequest] registers (gofre.go 296-298). *)
Definition registered_handler (common own : list (option middleware)) (h : handler) : handler :=
  wrap_middleware (wrap_middleware h own) common.

(** [Error2HttpStatusCode] (middleware/errors.go 16-28), with its initial value. *)
Definition error_status (e : err) : N :=
  match e with
  | EBadRequest _ => 400
  | EObjectNotFound _ => 404
  | EUnauthorized => 401
  | EWrongCredentials => 403
  | EAccessDenied => 403
  | EOther _ => 500
  end.

(** [ErrResponse] (middleware/errors.go 40-51).  The response supplier is a
    function that does not panic. *)
Definition err_response (supplier : N -> err -> option Resp) : middleware :=
  fun h c rq w =>
    match h c rq w with
    | (HReturn r (Some e), w') => (HReturn (supplier (error_status e) e) None, w')
    | (HReturn r None, w') => (HReturn r None, w')
    | (HPanic v, w') => (HPanic v, w')
    end.

(** The message of the error made from a panic (panic.go 19); the stack text is
    left out. *)
Definition recovered : err := EOther (str "recover from panic").

(** [PanicRecover] (middleware/panic.go 14-26).  [recover] returns nil for
    [panic(nil)] under the language version of go.mod (1.19), so that the named
    results stay nil. *)
Definition panic_recover : middleware :=
  fun h c rq w =>
    match h c rq w with
    | (HPanic (Some _), w') => (HReturn None (Some recovered), w')
    | (HPanic None, w') => (HReturn None None, w')
    | r => r
    end.

(** [GetSecurityPrincipalFromContext] (auth.go 16-21). *)
Definition get_principal (c : ctx) : option principal := cx_principal c.

(** [SecurityPrincipalSupplier] (middleware/auth.go 15-28): the supplier returns an
    error, or a principal that may be nil. *)
Definition principal_supplier (sps : ctx -> Req -> option principal + err) : middleware :=
  fun h c rq w =>
    match sps c rq with
    | inr e => (HReturn None (Some e), w)
    | inl None => h c rq w
    | inl (Some p) => h (with_principal c p) rq w
    end.

(** The two loops over the permissions (authz.go 49-53 and 56-60). *)
Fixpoint all_permitted (p : principal) (l : list permission) : bool :=
  match l with
  | [] => true
  | q :: l' => if negb (pr_has p q) then false else all_permitted p l'
  end.
Fixpoint some_permitted (p : principal) (l : list permission) : bool :=
  match l with
  | [] => false
  | q :: l' => if pr_has p q then true else some_permitted p l'
  end.

(** [Authorize] (authz.go 37-65). *)
Definition authorize (supplier : ctx -> Req -> list permission + err) (match_all : bool) : middleware :=
  fun h c rq w =>
    match supplier c rq with
    | inr e => (HReturn None (Some e), w)
    | inl perms =>
        match get_principal c with
        | None => (HReturn None (Some EUnauthorized), w)
        | Some p =>
            if match_all then
              if all_permitted p perms then h c rq w else (HReturn None (Some EUnauthorized), w)
            else
              if some_permitted p perms then h c rq w else (HReturn None (Some EUnauthorized), w)
        end
    end.

(** [AuthorizeAll] and [AuthorizeAny] (authz.go 18-31). *)
Definition authorize_all (perms : list permission) : middleware := authorize (fun _ _ => inl perms) true.
Definition authorize_any (perms : list permission) : middleware := authorize (fun _ _ => inl perms) false.

End Handlers.
Arguments wrap_middleware {Req Resp World}. Arguments registered_handler {Req Resp World}.
Arguments err_response {Req Resp World}. Arguments panic_recover {Req Resp World}.
Arguments principal_supplier {Req Resp World}. Arguments authorize {Req Resp World}.
Arguments authorize_all {Req Resp World}. Arguments authorize_any {Req Resp World}.
