(** * What a chain of middlewares is supposed to do.

    Middlewares that note what happens, the documented status codes, and the
    documented outcome of a request. *)
From Coq Require Import List Ascii String NArith.
From Verif Require Import GoBase Pattern_Model Url_Model Auth_Model Chain_Model Serve_Model.
Import ListNotations.
Local Open Scope list_scope.

(** The middlewares that are not nil. *)
Fixpoint present {A : Type} (ms : list (option A)) : list A :=
  match ms with
  | [] => []
  | Some m :: ms' => m :: present ms'
  | None :: ms' => present ms'
  end.

(** Nesting: the first middleware is the outermost one. *)
Inductive nested {H : Type} (h : H) : list (H -> H) -> H -> Prop :=
| nested_none : nested h [] h
| nested_more : forall m ms inner, nested h ms inner -> nested h (m :: ms) (m inner).

(** What is noted: middleware [i] is entered, left, and the handler runs. *)
Inductive mark := Enter (i : nat) | Leave (i : nat) | Ran.

(** A middleware that notes that it is entered, then refuses the request or passes
    it on, and notes that it is left unless a panic passes through it. *)
Definition observer {Req Resp : Type} (i : nat) (refuse : ctx -> Req -> option err)
  : middleware Req Resp (list mark) :=
  fun h c rq w =>
    match refuse c rq with
    | Some e => (HReturn None (Some e), w ++ [Enter i; Leave i])
    | None => match h c rq (w ++ [Enter i]) with
              | (HReturn r e, w') => (HReturn r e, w' ++ [Leave i])
              | (HPanic v, w') => (HPanic v, w')
              end
    end.

(** A handler that notes that it runs and ends in a given way. *)
Definition noting {Req Resp : Type} (o : ctx -> Req -> hout Resp) : handler Req Resp (list mark) :=
  fun c rq w => (o c rq, w ++ [Ran]).

(** A user is granted a permission by one of the roles of one of the groups. *)
Definition user_granted (u : user) (q : permission) : Prop :=
  exists g r, In g (us_groups u) /\ In r (gr_roles g) /\
    (forall d, In d (rl_denied r) -> implies d q = false) /\
    exists p, In p (rl_allowed r) /\ implies p q = true.

(** The documented status codes. *)
Inductive documented_status : err -> N -> Prop :=
| ds_bad : forall m, documented_status (EBadRequest m) 400
| ds_missing : forall m, documented_status (EObjectNotFound m) 404
| ds_unauthorized : documented_status EUnauthorized 401
| ds_credentials : documented_status EWrongCredentials 403
| ds_denied : documented_status EAccessDenied 403
| ds_other : forall m, documented_status (EOther m) 500.

(** The visible steps apart from the recycling of the buffer. *)
Definition visible {Resp : Type} (evs : list (sevent Resp)) : list (sevent Resp) :=
  filter (fun e => match e with EvPut _ => false | _ => true end) evs.

(** The buffer goes back to the pool with 19 segments, all of them zero. *)
Definition gives_back {Resp : Type} : sevent Resp := EvPut (repeat (USeg 0 0 MTUnknown) 19).
