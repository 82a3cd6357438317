(** * Properties C22, C27, C28, C29 and C34: outcomes, middleware chains, errors,
    panics and authorization *)
From Coq Require Import List Ascii String NArith.
From Verif Require Import GoBase Glob_Spec Pattern_Model Pattern_Spec Priority_Spec Url_Model Url_Spec Router_Model Routing_Spec
  Choice_Spec Witness_Proofs ChoiceWitness_Proofs Auth_Model Json_Model Chain_Model Serve_Model Chain_Spec Chain_Proofs Serve_Proofs.
Import ListNotations.
Local Open Scope string_scope.
Local Open Scope list_scope.

(** C22 is false: a handler that returns neither a response nor an error makes the
    call crash, nothing is answered and nothing is logged. *)
Theorem C22_outcomes_refuted : exists (code : nat -> handler mctx nat unit) write fuel re ci regs r outs c mth path buf,
  handle_all fuel re (new_router ci) regs = (r, outs) /\ Forall (eq Registered) outs /\ List.length buf = 19 /\
  (forall h mc w, code h c mc w = (HReturn None None, w)) /\
  exists k, forall f w, serve code write (k + f) re r c mth path buf w = ([EvRun 1; gives_back], w, SCrash).
Proof. exact (@nil_response_crashes). Qed.
Print Assumptions C22_outcomes_refuted.

(** C22, what holds: with routes as in C11, handlers that return a response or an
    error, and responses that do not panic, every request has exactly one of the
    documented outcomes.  Missing: the exceptions of C11 and panics. *)
Theorem C22_documented_outcomes_partial : forall (Resp World : Type) (code : nat -> handler mctx Resp World) write
    fuel re ci regs r outs c mth path ts buf w,
  handle_all fuel re (new_router ci) regs = (r, outs) ->
  (N.of_nat (List.length regs) < 65536)%N ->
  Forall (fun rg => countable (re_ok re) ci (reg_text rg) /\ plain (re_ok re) ci (reg_text rg)) regs ->
  (blen path < 65536)%N -> segments_of path ts -> List.length buf = 19 ->
  (forall rg ks, route_of (re_ok re) ci (combine regs outs) mth rg ks ->
     any_only_last ks /\ calm_on ci ts ks /\ not_cut ci (re_match re) (route_of (re_ok re) ci (combine regs outs) mth) ts ks) ->
  (forall h mc w0, (exists rsp w1, code h c mc w0 = (HReturn (Some rsp) None, w1)) \/
                   (exists rsp e w1, code h c mc w0 = (HReturn rsp (Some e), w1))) ->
  (forall rsp mc w0, exists e w1, write rsp mc w0 = (Wrote e, w1)) ->
  exists k, forall f, exists evs w2,
    serve code write (k + f) re r c mth path buf w = (evs, w2, SDone) /\
    ((forall rg ks bs, route_of (re_ok re) ci (combine regs outs) mth rg ks -> ~ reads_as ci (re_match re) ks ts bs) ->
     visible evs = [EvStatus 404] /\ w2 = w) /\
    ((exists rg ks bs, route_of (re_ok re) ci (combine regs outs) mth rg ks /\ reads_as ci (re_match re) ks ts bs) ->
     exists rg ks bs mc,
       route_of (re_ok re) ci (combine regs outs) mth rg ks /\ reads_as ci (re_match re) ks ts bs /\
       mc_method mc = mth /\ mc_path mc = path /\
       (forall name, mc_var mc name = Some (match value_of name bs with Some v => v | None => [] end)) /\
       ((exists rsp e w1, code (reg_handler rg) c mc w = (HReturn rsp (Some e), w1) /\
           visible evs = [EvRun (reg_handler rg); EvLog (Uncaught e); EvStatus 500] /\ w2 = w1) \/
        (exists rsp w1 failed, code (reg_handler rg) c mc w = (HReturn (Some rsp) None, w1) /\
           write rsp mc w1 = (Wrote failed, w2) /\
           visible evs = EvRun (reg_handler rg) :: EvWrite rsp ::
             match failed with Some e => [EvLog (WriteFailed e)] | None => [] end))).
Proof. exact (@request_outcome). Qed.
Print Assumptions C22_documented_outcomes_partial.

(** C22, what holds on any router: the steps taken, depending on what routing and
    the handler do, crashes included. *)
Theorem C22_every_step_partial : forall (Resp World : Type) (code : nat -> handler mctx Resp World) write fuel re r c mth path buf w,
  match dispatch_request fuel re r mth path buf with
  | NotFound => serve code write fuel re r c mth path buf w = ([EvStatus 404; gives_back], w, SDone)
  | Calls h rec segs =>
      exists o w1 evs w2 fin, code h c (MCtx mth path rec segs) w = (o, w1) /\
        serve code write fuel re r c mth path buf w = (EvRun h :: evs ++ [gives_back], w2, fin) /\
        match o with
        | HReturn _ (Some e) => evs = [EvLog (Uncaught e); EvStatus 500] /\ w2 = w1 /\ fin = SDone
        | HReturn (Some rsp) None =>
            match write rsp (MCtx mth path rec segs) w1 with
            | (Wrote None, w') => evs = [EvWrite rsp] /\ w2 = w' /\ fin = SDone
            | (Wrote (Some e), w') => evs = [EvWrite rsp; EvLog (WriteFailed e)] /\ w2 = w' /\ fin = SDone
            | (WPanic, w') => evs = [EvWrite rsp] /\ w2 = w' /\ fin = SCrash
            end
        | _ => evs = [] /\ w2 = w1 /\ fin = SCrash
        end
  | ServeCrash => serve code write fuel re r c mth path buf w = ([gives_back], w, SCrash)
  | ServeRuns => serve code write fuel re r c mth path buf w = ([], w, SRuns)
  end.
Proof. exact (@serve_outcomes). Qed.
Print Assumptions C22_every_step_partial.

(** Case: the routes are those of C11_case_router. *)
Example C22_case :
  (forall h mc w0, (exists rsp w1, demo_code h (Ctx None None None) mc w0 = (HReturn (Some rsp) None, w1)) \/
     (exists rsp e w1, demo_code h (Ctx None None None) mc w0 = (HReturn rsp (Some e), w1))) /\
  (forall rsp mc w0, exists e w1, demo_write rsp mc w0 = (Wrote e, w1)) /\
  exists h w2, serve demo_code demo_write 100 lit_engine mall_router (Ctx None None None) GET mall_path zeros [] =
    ([EvRun h; EvWrite h; EvLog (WriteFailed (EOther (str "broken pipe"))); gives_back], w2, SDone) /\ w2 = [h; 100 + h].
Proof. exact (@serve_case). Qed.

(** C27: the middlewares that are not nil are nested, the common ones outside. *)
Theorem C27_nesting : forall (Req Resp World : Type) common own (h : handler Req Resp World),
  nested h (present common ++ present own) (registered_handler common own h).
Proof. exact (@registered_nested). Qed.
Print Assumptions C27_nesting.

(** C27: the order in which middlewares that note their execution are entered and
    left, also if one of them refuses the request or the handler panics. *)
Theorem C27_order : forall (Req Resp : Type) (o : ctx -> Req -> hout Resp)
    (common own : list (option (nat * (ctx -> Req -> option err)))) c rq w,
  let run := registered_handler (observers common) (observers own) (noting o) c rq w in
  let l := present common ++ present own in
  (Forall (fun p => snd p c rq = None) l ->
     run = (o c rq, w ++ map Enter (map fst l) ++ [Ran] ++
                      match o c rq with HReturn _ _ => rev (map Leave (map fst l)) | HPanic _ => [] end)) /\
  (forall l1 i f e l2, l = l1 ++ (i, f) :: l2 -> Forall (fun p => snd p c rq = None) l1 -> f c rq = Some e ->
     run = (HReturn None (Some e),
            w ++ map Enter (map fst l1) ++ [Enter i; Leave i] ++ rev (map Leave (map fst l1)))).
Proof. exact (@chain_order). Qed.
Print Assumptions C27_order.

Example C27_case :
  registered_handler (observers [Some (1, never); None; Some (2, never)]) (observers [Some (3, never)])
    (noting (fun _ (_ : unit) => HReturn (Some 7) None)) no_ctx tt [] =
    (HReturn (Some 7) None, [Enter 1; Enter 2; Enter 3; Ran; Leave 3; Leave 2; Leave 1]) /\
  registered_handler (observers [Some (1, never); Some (2, fun _ _ => Some EAccessDenied)])
    (observers [Some (3, never)])
    (noting (fun _ (_ : unit) => HReturn (Some 7) None)) no_ctx tt [] =
    (HReturn None (Some EAccessDenied), [Enter 1; Enter 2; Leave 2; Leave 1]).
Proof. exact (@chain_case). Qed.

(** C28 is false: after panic(nil) nothing is answered and the call crashes. *)
Theorem C28_panic_contained_refuted : exists (supplier : N -> err -> option nat) (h : handler mctx nat unit) write c mc w,
  (forall n e, supplier n e <> None) /\ (forall r w0, fst (write r mc w0) = Wrote None) /\
  (exists w', h c mc w = (HPanic None, w')) /\
  let (o, w1) := registered_handler [Some (err_response supplier); Some panic_recover] [] h c mc w in
  answer write mc o w1 = ([], w1, SCrash).
Proof. exact (@panic_nil_crashes). Qed.
Print Assumptions C28_panic_contained_refuted.

(** C28, what holds: no panic leaves PanicRecover, and a panic with a value becomes
    an error.  Missing: panic(nil). *)
Theorem C28_panic_contained_partial : forall (Req Resp World : Type) (h : handler Req Resp World) c rq w,
  (forall v w', h c rq w = (HPanic (Some v), w') ->
     exists m, panic_recover h c rq w = (HReturn None (Some (EOther m)), w')) /\
  (forall r e w', h c rq w = (HReturn r e, w') -> panic_recover h c rq w = (HReturn r e, w')) /\
  (forall v w', panic_recover h c rq w <> (HPanic v, w')).
Proof. exact (@recover_contains). Qed.
Print Assumptions C28_panic_contained_partial.

(** C28, what holds: below the error translation and PanicRecover a panic with a
    value, through any further middlewares, gives the response for status 500. *)
Theorem C28_panic_answered_partial : forall (Req Resp World : Type) supplier below (h : handler Req Resp World) c rq w v w',
  wrap_middleware h below c rq w = (HPanic (Some v), w') ->
  exists m, registered_handler [Some (err_response supplier); Some panic_recover] below h c rq w =
              (HReturn (supplier 500%N (EOther m)) None, w').
Proof. exact (@panic_answered). Qed.
Print Assumptions C28_panic_answered_partial.

(** C28, what holds: the client gets a response unless the code below panics with
    nil or returns neither a response nor an error. *)
Theorem C28_client_answered_partial : forall (Req Resp World : Type) (supplier : N -> err -> option Resp) write below
    (h : handler mctx Resp World) c mc w,
  (forall n e, supplier n e <> None) ->
  (forall r w0, fst (write r mc w0) <> WPanic) ->
  (forall w', wrap_middleware h below c mc w <> (HPanic None, w')) ->
  (forall w', wrap_middleware h below c mc w <> (HReturn None None, w')) ->
  let (o, w1) := registered_handler [Some (err_response supplier); Some panic_recover] below h c mc w in
  exists r, In (EvWrite r) (fst (fst (answer write mc o w1))) /\ snd (answer write mc o w1) = SDone.
Proof. exact (@always_answered). Qed.
Print Assumptions C28_client_answered_partial.

Example C28_case :
  (forall n e, (fun (n : N) (e : err) => Some n) n e <> None) /\
  wrap_middleware (fun _ (_ : mctx) (w : unit) => (@HPanic N (Some 3), w)) [Some (authorize_all [])]
    (with_principal no_ctx (Principal (str "u") (fun _ => true) GNil))
    (MCtx (str "GET") (str "/") None []) tt = (HPanic (Some 3), tt).
Proof. exact (@panic_case). Qed.

(** C29: the status of an error is the documented one. *)
Theorem C29_status_codes : forall e n, error_status e = n <-> documented_status e n.
Proof. exact (@status_documented). Qed.
Print Assumptions C29_status_codes.

(** C29: an error becomes the response for its documented status, a result without
    error passes unchanged, and no error is returned. *)
Theorem C29_error_response : forall (Req Resp World : Type) (supplier : N -> err -> option Resp)
    (h : handler Req Resp World) c rq w,
  (forall r e w', h c rq w = (HReturn r (Some e), w') ->
     exists n, documented_status e n /\ err_response supplier h c rq w = (HReturn (supplier n e) None, w')) /\
  (forall r w', h c rq w = (HReturn r None, w') -> err_response supplier h c rq w = (HReturn r None, w')) /\
  (forall r e w', err_response supplier h c rq w = (HReturn r e, w') -> e = None).
Proof. exact (@err_response_behaves). Qed.
Print Assumptions C29_error_response.

Example C29_case :
  err_response (fun n e => Some (n, e)) (fun _ (_ : unit) (w : unit) => (HReturn None (Some (EBadRequest (str "x"))), w))
    no_ctx tt tt = (HReturn (Some (400%N, EBadRequest (str "x"))) None, tt).
Proof. exact (@err_response_case). Qed.

(** C34: the handler runs, with unchanged context and request, exactly if the
    permissions are known, a principal is present and it has all (one) of them.
    Otherwise the unauthorized or the supplier's error is returned and nothing
    happens. *)
Theorem C34_authorize : forall (Req Resp World : Type) (supplier : ctx -> Req -> list permission + err) (all : bool) (h : handler Req Resp World) c rq w,
  let pass := exists perms p, supplier c rq = inl perms /\ cx_principal c = Some p /\
                if all then Forall (fun q => pr_has p q = true) perms
                else Exists (fun q => pr_has p q = true) perms in
  (pass -> authorize supplier all h c rq w = h c rq w) /\
  (~ pass -> forall perms, supplier c rq = inl perms ->
     authorize supplier all h c rq w = (HReturn None (Some EUnauthorized), w)) /\
  (forall e, supplier c rq = inr e -> authorize supplier all h c rq w = (HReturn None (Some e), w)).
Proof. exact (@authorize_behaves). Qed.
Print Assumptions C34_authorize.

(** C34: where the principal comes from. *)
Theorem C34_principal_supplier : forall (Req Resp World : Type) sps (h : handler Req Resp World) c rq w,
  (forall p, sps c rq = inl (Some p) -> principal_supplier sps h c rq w = h (Ctx (Some p) (cx_nonce c) (cx_token c)) rq w) /\
  (sps c rq = inl None -> principal_supplier sps h c rq w = h c rq w) /\
  (forall e, sps c rq = inr e -> principal_supplier sps h c rq w = (HReturn None (Some e), w)).
Proof. exact (@supplier_behaves). Qed.
Print Assumptions C34_principal_supplier.

(** C34: behind the supplier of a user, the roles of the user decide. *)
Theorem C34_user_roles : forall (Req Resp World : Type) sps u perms (h : handler Req Resp World) c rq w,
  sps c rq = inl (Some (user_principal u)) ->
  let c' := Ctx (Some (user_principal u)) (cx_nonce c) (cx_token c) in
  (Forall (user_granted u) perms ->
     registered_handler [Some (principal_supplier sps); Some (authorize_all perms)] [] h c rq w = h c' rq w) /\
  (~ Forall (user_granted u) perms ->
     registered_handler [Some (principal_supplier sps); Some (authorize_all perms)] [] h c rq w =
       (HReturn None (Some EUnauthorized), w)) /\
  (Exists (user_granted u) perms ->
     registered_handler [Some (principal_supplier sps); Some (authorize_any perms)] [] h c rq w = h c' rq w) /\
  (~ Exists (user_granted u) perms ->
     registered_handler [Some (principal_supplier sps); Some (authorize_any perms)] [] h c rq w =
       (HReturn None (Some EUnauthorized), w)).
Proof. exact (@authorized_user). Qed.
Print Assumptions C34_user_roles.

Example C34_case : user_granted staff (Perm (str "a/c") 2) /\ ~ user_granted staff (Perm (str "a/b") 2).
Proof. exact (@authorize_case). Qed.

