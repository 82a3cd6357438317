(** * Proofs about middleware chains, the small middlewares and answers. *)
From Coq Require Import List NArith ZArith Ascii String Bool Lia.
From Verif Require Import GoBase Auth_Model Auth_Spec Auth_Proofs Json_Model Chain_Model Serve_Model Chain_Spec.
Import ListNotations.
Local Open Scope string_scope.
Local Open Scope list_scope.

(** ** Order *)

Lemma wrap_cons {Req Resp World} (h : handler Req Resp World) m ms :
  wrap_middleware h (m :: ms) =
  match m with Some f => f (wrap_middleware h ms) | None => wrap_middleware h ms end.
Proof.
  unfold wrap_middleware. cbn [rev]. rewrite fold_left_app. reflexivity.
Qed.

Lemma wrap_app {Req Resp World} (h : handler Req Resp World) a b :
  wrap_middleware h (a ++ b) = wrap_middleware (wrap_middleware h b) a.
Proof.
  unfold wrap_middleware. rewrite rev_app_distr, fold_left_app. reflexivity.
Qed.

Lemma wrap_nested {Req Resp World : Type} (h : handler Req Resp World) inner own ms :
  nested h ms inner -> nested h (present own ++ ms) (wrap_middleware inner own).
Proof.
  intros N. induction own as [|o os IH]; [exact N|].
  replace (wrap_middleware inner (o :: os)) with
    (match o with Some f => f (wrap_middleware inner os) | None => wrap_middleware inner os end)
    by (symmetry; apply wrap_cons).
  destruct o as [m|]; cbn [present app].
  - constructor. exact IH.
  - exact IH.
Qed.

Lemma registered_nested {Req Resp World : Type} common own (h : handler Req Resp World) :
  nested h (present common ++ present own) (registered_handler common own h).
Proof.
  apply wrap_nested. rewrite <- (app_nil_r (present own)). apply wrap_nested. constructor.
Qed.

Lemma nested_unique {H : Type} (h : H) ms a b : nested h ms a -> nested h ms b -> a = b.
Proof.
  intro A. revert b. induction A as [|m ms inner A IH]; intros b B; inversion B; subst; auto.
  f_equal. auto.
Qed.

(** The chain of observers. *)
Definition observers {Req Resp} (l : list (option (nat * (ctx -> Req -> option err))))
  : list (option (middleware Req Resp (list mark))) :=
  map (fun o => match o with Some (i, f) => Some (observer i f) | None => None end) l.

Lemma nested_observers {Req Resp : Type} (o : ctx -> Req -> hout Resp) :
  forall l H, nested (noting o) (map (fun p => observer (fst p) (snd p)) l) H ->
  forall c rq w,
  (Forall (fun p => snd p c rq = None) l ->
     H c rq w = (o c rq, w ++ map Enter (map fst l) ++ [Ran] ++
                   match o c rq with HReturn _ _ => rev (map Leave (map fst l)) | HPanic _ => [] end)) /\
  (forall l1 i f e l2, l = l1 ++ (i, f) :: l2 -> Forall (fun p => snd p c rq = None) l1 -> f c rq = Some e ->
     H c rq w = (HReturn None (Some e),
                 w ++ map Enter (map fst l1) ++ [Enter i; Leave i] ++ rev (map Leave (map fst l1)))).
Proof.
  induction l as [|[i f] l IH]; intros H N c rq w; inversion N; subst.
  - split.
    + intros _. cbn. unfold noting. destruct (o c rq); cbn; rewrite ?app_nil_r; reflexivity.
    + intros l1 i f e l2 E. destruct l1; discriminate.
  - destruct (IH inner H3 c rq (w ++ [Enter i])) as [A B]. split.
    + intros F. inversion F as [|? ? F1 F2]; subst. cbn [fst snd map] in *.
      unfold observer. rewrite F1, (A F2). destruct (o c rq); cbn [rev]; f_equal; rewrite <- ?app_assoc; cbn;
        rewrite <- ?app_assoc; reflexivity.
    + intros l1 j g e l2 E F G. destruct l1 as [|[i' f'] l1]; cbn [app] in E.
      * injection E as <- <- <-. cbn [fst snd]. unfold observer. rewrite G. reflexivity.
      * injection E as <- <- ->. inversion F as [|? ? F1 F2]; subst. cbn [fst snd map] in *.
        unfold observer at 1. rewrite F1, (B _ _ _ _ _ eq_refl F2 G). cbn [rev]. f_equal.
        rewrite <- ?app_assoc. cbn. rewrite <- ?app_assoc. reflexivity.
Qed.

Lemma present_observers {Req Resp : Type} l :
  present (@observers Req Resp l) = map (fun p => observer (fst p) (snd p)) (present l).
Proof.
  induction l as [|[[i f]|] l IH]; cbn; [reflexivity| |exact IH]. f_equal. exact IH.
Qed.

Lemma chain_order {Req Resp : Type} (o : ctx -> Req -> hout Resp)
    (common own : list (option (nat * (ctx -> Req -> option err)))) c rq w :
  let run := registered_handler (observers common) (observers own) (noting o) c rq w in
  let l := present common ++ present own in
  (Forall (fun p => snd p c rq = None) l ->
     run = (o c rq, w ++ map Enter (map fst l) ++ [Ran] ++
                      match o c rq with HReturn _ _ => rev (map Leave (map fst l)) | HPanic _ => [] end)) /\
  (forall l1 i f e l2, l = l1 ++ (i, f) :: l2 -> Forall (fun p => snd p c rq = None) l1 -> f c rq = Some e ->
     run = (HReturn None (Some e),
            w ++ map Enter (map fst l1) ++ [Enter i; Leave i] ++ rev (map Leave (map fst l1)))).
Proof.
  cbv zeta. apply nested_observers.
  pose proof (registered_nested (@observers Req Resp common) (observers own) (noting o)) as N.
  pose proof (@present_observers Req Resp common) as P1. pose proof (@present_observers Req Resp own) as P2.
  unfold middleware in *. rewrite P1, P2, <- map_app in N. exact N.
Qed.

Definition never {Req} : ctx -> Req -> option err := fun _ _ => None.
Definition no_ctx : ctx := Ctx None None None.
Lemma chain_case :
  registered_handler (observers [Some (1, never); None; Some (2, never)]) (observers [Some (3, never)])
    (noting (fun _ (_ : unit) => HReturn (Some 7) None)) no_ctx tt [] =
    (HReturn (Some 7) None, [Enter 1; Enter 2; Enter 3; Ran; Leave 3; Leave 2; Leave 1]) /\
  registered_handler (observers [Some (1, never); Some (2, fun _ _ => Some EAccessDenied)])
    (observers [Some (3, never)])
    (noting (fun _ (_ : unit) => HReturn (Some 7) None)) no_ctx tt [] =
    (HReturn None (Some EAccessDenied), [Enter 1; Enter 2; Leave 2; Leave 1]).
Proof. split; reflexivity. Qed.

(** ** Errors *)

Lemma status_documented : forall e n, error_status e = n <-> documented_status e n.
Proof.
  intros e n. split.
  - intros <-. destruct e; constructor.
  - intros D. destruct D; reflexivity.
Qed.

Lemma err_response_behaves {Req Resp World : Type} (supplier : N -> err -> option Resp)
    (h : handler Req Resp World) c rq w :
  (forall r e w', h c rq w = (HReturn r (Some e), w') ->
     exists n, documented_status e n /\ err_response supplier h c rq w = (HReturn (supplier n e) None, w')) /\
  (forall r w', h c rq w = (HReturn r None, w') -> err_response supplier h c rq w = (HReturn r None, w')) /\
  (forall r e w', err_response supplier h c rq w = (HReturn r e, w') -> e = None).
Proof.
  unfold err_response. repeat split.
  - intros r e w' E. rewrite E. exists (error_status e). split; [apply status_documented|]; reflexivity.
  - intros r w' E. rewrite E. reflexivity.
  - intros r e w'. destruct (h c rq w) as [[r0 [e0|]|v] w0]; intro E; inversion E; reflexivity.
Qed.

Lemma err_response_case :
  err_response (fun n e => Some (n, e)) (fun _ (_ : unit) (w : unit) => (HReturn None (Some (EBadRequest (str "x"))), w))
    no_ctx tt tt = (HReturn (Some (400%N, EBadRequest (str "x"))) None, tt).
Proof. reflexivity. Qed.

(** ** Panics *)

Lemma recover_contains {Req Resp World : Type} (h : handler Req Resp World) c rq w :
  (forall v w', h c rq w = (HPanic (Some v), w') ->
     exists m, panic_recover h c rq w = (HReturn None (Some (EOther m)), w')) /\
  (forall r e w', h c rq w = (HReturn r e, w') -> panic_recover h c rq w = (HReturn r e, w')) /\
  (forall v w', panic_recover h c rq w <> (HPanic v, w')).
Proof.
  unfold panic_recover. repeat split.
  - intros v w' E. rewrite E. eexists. reflexivity.
  - intros r e w' E. rewrite E. reflexivity.
  - intros v w'. destruct (h c rq w) as [[r0 [e0|]|[v0|]] w0]; discriminate.
Qed.

(** Below an error translation and the recovery, through any further middlewares,
    a panic with a value that is not nil is answered with the response for 500. *)
Lemma panic_answered {Req Resp World : Type} supplier below (h : handler Req Resp World) c rq w v w' :
  wrap_middleware h below c rq w = (HPanic (Some v), w') ->
  exists m, registered_handler [Some (err_response supplier); Some panic_recover] below h c rq w =
              (HReturn (supplier 500%N (EOther m)) None, w').
Proof.
  intros E. unfold registered_handler. rewrite !wrap_cons. unfold wrap_middleware at 1. cbn [rev fold_left].
  exists (str "recover from panic"). unfold err_response, panic_recover. rewrite E. reflexivity.
Qed.

(** With a response supplier that gives a response, the client always gets an
    answer unless something below returns or panics with nothing. *)
Lemma always_answered {Req Resp World : Type} (supplier : N -> err -> option Resp) write below
    (h : handler mctx Resp World) c mc w :
  (forall n e, supplier n e <> None) ->
  (forall r w0, fst (write r mc w0) <> WPanic) ->
  (forall w', wrap_middleware h below c mc w <> (HPanic None, w')) ->
  (forall w', wrap_middleware h below c mc w <> (HReturn None None, w')) ->
  let (o, w1) := registered_handler [Some (err_response supplier); Some panic_recover] below h c mc w in
  exists r, In (EvWrite r) (fst (fst (answer write mc o w1))) /\ snd (answer write mc o w1) = SDone.
Proof.
  intros S W P N. unfold registered_handler. rewrite !wrap_cons. unfold wrap_middleware at 1. cbn [rev fold_left].
  unfold err_response, panic_recover.
  destruct (wrap_middleware h below c mc w) as [[r0 [e0|]|[v0|]] w0]; cbn.
  - destruct (supplier (error_status e0) e0) as [r|] eqn:E; [|destruct (S _ _ E)].
    exists r. specialize (W r w0). destruct (write r mc w0) as [[[e|]|] w2]; cbn in *; auto; congruence.
  - destruct r0 as [r|]; [|destruct (N w0 eq_refl)].
    exists r. specialize (W r w0). destruct (write r mc w0) as [[[e|]|] w2]; cbn in *; auto; congruence.
  - destruct (supplier 500%N recovered) as [r|] eqn:E; [|destruct (S _ _ E)].
    exists r. specialize (W r w0). destruct (write r mc w0) as [[[e|]|] w2]; cbn in *; auto; congruence.
  - destruct (P w0 eq_refl).
Qed.

(** [panic(nil)]: nothing is answered and the call crashes. *)
Lemma panic_nil_crashes : exists (supplier : N -> err -> option nat) (h : handler mctx nat unit) write c mc w,
  (forall n e, supplier n e <> None) /\ (forall r w0, fst (write r mc w0) = Wrote None) /\
  (exists w', h c mc w = (HPanic None, w')) /\
  let (o, w1) := registered_handler [Some (err_response supplier); Some panic_recover] [] h c mc w in
  answer write mc o w1 = ([], w1, SCrash).
Proof.
  exists (fun n _ => Some (N.to_nat n)), (fun _ _ w => (HPanic None, w)), (fun _ _ w => (Wrote None, w)),
    no_ctx, (MCtx (str "GET") (str "/") None []), tt.
  repeat split; try discriminate. exists tt. reflexivity.
Qed.

Lemma panic_case :
  (forall n e, (fun (n : N) (e : err) => Some n) n e <> None) /\
  wrap_middleware (fun _ (_ : mctx) (w : unit) => (@HPanic N (Some 3), w)) [Some (authorize_all [])]
    (with_principal no_ctx (Principal (str "u") (fun _ => true) GNil))
    (MCtx (str "GET") (str "/") None []) tt = (HPanic (Some 3), tt).
Proof. split; [discriminate|reflexivity]. Qed.

(** ** Authorization *)

Lemma all_permitted_iff p l : all_permitted p l = true <-> Forall (fun q => pr_has p q = true) l.
Proof.
  induction l as [|q l IH]; cbn [all_permitted].
  - split; constructor.
  - destruct (pr_has p q) eqn:E; cbn [negb].
    + rewrite IH. split; [constructor; assumption|inversion 1; assumption].
    + split; [discriminate|]. inversion 1. congruence.
Qed.
Lemma some_permitted_iff p l : some_permitted p l = true <-> Exists (fun q => pr_has p q = true) l.
Proof.
  induction l as [|q l IH]; cbn [some_permitted].
  - split; [discriminate|inversion 1].
  - destruct (pr_has p q) eqn:E.
    + split; [constructor; assumption|reflexivity].
    + rewrite IH. split; [constructor 2; assumption|]. inversion 1; [congruence|assumption].
Qed.

Lemma authorize_behaves {Req Resp World : Type} (supplier : ctx -> Req -> list permission + err) (all : bool) (h : handler Req Resp World) c rq w :
  let pass := exists perms p, supplier c rq = inl perms /\ cx_principal c = Some p /\
                if all then Forall (fun q => pr_has p q = true) perms
                else Exists (fun q => pr_has p q = true) perms in
  (pass -> authorize supplier all h c rq w = h c rq w) /\
  (~ pass -> forall perms, supplier c rq = inl perms ->
     authorize supplier all h c rq w = (HReturn None (Some EUnauthorized), w)) /\
  (forall e, supplier c rq = inr e -> authorize supplier all h c rq w = (HReturn None (Some e), w)).
Proof.
  cbv zeta. unfold authorize, get_principal. repeat split.
  - intros (perms & p & A & B & C). rewrite A, B. destruct all.
    + apply all_permitted_iff in C. rewrite C. reflexivity.
    + apply some_permitted_iff in C. rewrite C. reflexivity.
  - intros N perms A. rewrite A. destruct (cx_principal c) as [p|] eqn:B; [|reflexivity].
    destruct all.
    + destruct (all_permitted p perms) eqn:C; [|reflexivity]. destruct N. exists perms, p.
      repeat split; auto. apply all_permitted_iff. exact C.
    + destruct (some_permitted p perms) eqn:C; [|reflexivity]. destruct N. exists perms, p.
      repeat split; auto. apply some_permitted_iff. exact C.
  - intros e A. rewrite A. reflexivity.
Qed.

(** [AuthorizeAll] and [AuthorizeAny] with the principal found by
    [SecurityPrincipalSupplier] above them. *)
Lemma authorized_user {Req Resp World : Type} sps u perms (h : handler Req Resp World) c rq w :
  sps c rq = inl (Some (user_principal u)) ->
  let c' := with_principal c (user_principal u) in
  (Forall (user_granted u) perms ->
     registered_handler [Some (principal_supplier sps); Some (authorize_all perms)] [] h c rq w = h c' rq w) /\
  (~ Forall (user_granted u) perms ->
     registered_handler [Some (principal_supplier sps); Some (authorize_all perms)] [] h c rq w =
       (HReturn None (Some EUnauthorized), w)) /\
  (Exists (user_granted u) perms ->
     registered_handler [Some (principal_supplier sps); Some (authorize_any perms)] [] h c rq w = h c' rq w) /\
  (~ Exists (user_granted u) perms ->
     registered_handler [Some (principal_supplier sps); Some (authorize_any perms)] [] h c rq w =
       (HReturn None (Some EUnauthorized), w)).
Proof.
  intros S. cbv zeta. set (c' := with_principal c (user_principal u)).
  assert (G : forall q, pr_has (user_principal u) q = true <-> user_granted u q).
  { intros q. apply (user_grants u q []). }
  set (sup := fun (_ : ctx) (_ : Req) => @inl _ err perms).
  assert (T : forall all : bool, registered_handler [Some (principal_supplier sps); Some (authorize sup all)] [] h c rq w =
               authorize sup all h c' rq w).
  { intros all. unfold registered_handler. rewrite !wrap_cons. unfold wrap_middleware. cbn [rev fold_left].
    unfold principal_supplier. rewrite S. reflexivity. }
  unfold authorize_all, authorize_any. fold sup. rewrite !T.
  assert (FA : Forall (fun q => pr_has (user_principal u) q = true) perms <-> Forall (user_granted u) perms).
  { split; apply Forall_impl; intros q; apply G. }
  assert (EX : Exists (fun q => pr_has (user_principal u) q = true) perms <-> Exists (user_granted u) perms).
  { split; apply Exists_impl; intros q; apply G. }
  repeat split.
  - intros F. apply (authorize_behaves sup true h c' rq w). exists perms, (user_principal u).
    repeat split. apply FA. exact F.
  - intros F. apply (authorize_behaves sup true h c' rq w) with (perms := perms); [|reflexivity].
    intros (perms' & p & A & B & C). injection A as <-. injection B as <-. apply F, FA. exact C.
  - intros F. apply (authorize_behaves sup false h c' rq w). exists perms, (user_principal u).
    repeat split. apply EX. exact F.
  - intros F. apply (authorize_behaves sup false h c' rq w) with (perms := perms); [|reflexivity].
    intros (perms' & p & A & B & C). injection A as <-. injection B as <-. apply F, EX. exact C.
Qed.

(** No permissions: with [AuthorizeAny] nobody passes, with [AuthorizeAll]
    everybody who is known. *)
Definition staff : user :=
  User (str "ann") (str "Ann") [] [Group (str "g") [Role (str "r") [] [Perm (str "a/*") 3] [Perm (str "a/b") 2]]].
Lemma authorize_case : user_granted staff (Perm (str "a/c") 2) /\ ~ user_granted staff (Perm (str "a/b") 2).
Proof.
  split.
  - apply (user_grants staff _ []). reflexivity.
  - intros G. apply (user_grants staff _ []) in G. discriminate.
Qed.

(** ** Supplier *)
Lemma supplier_behaves {Req Resp World : Type} sps (h : handler Req Resp World) c rq w :
  (forall p, sps c rq = inl (Some p) -> principal_supplier sps h c rq w = h (with_principal c p) rq w) /\
  (sps c rq = inl None -> principal_supplier sps h c rq w = h c rq w) /\
  (forall e, sps c rq = inr e -> principal_supplier sps h c rq w = (HReturn None (Some e), w)).
Proof.
  unfold principal_supplier. repeat split; intros; rewrite H; reflexivity.
Qed.
