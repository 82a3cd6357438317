(** * Proofs about the outcome of a request. *)
From Coq Require Import List NArith ZArith Ascii String Bool Lia.
From Verif Require Import GoBase Glob_Spec Pattern_Model Pattern_Spec Priority_Spec Url_Model Url_Spec Url_Proofs
  Router_Model Routing_Spec Routing_Proofs Witness_Proofs Complete_Proofs Choice_Spec Choice_Proofs ChoiceWitness_Proofs
  Chain_Model Serve_Model Chain_Spec.
Import ListNotations.
Local Open Scope string_scope.
Local Open Scope list_scope.

(** Any router: the outcome follows from what routing and the handler do. *)
Lemma serve_outcomes {Resp World : Type} (code : nat -> handler mctx Resp World) write fuel re r c mth path buf w :
  match dispatch_request fuel re r mth path buf with
  | NotFound => serve code write fuel re r c mth path buf w = ([EvStatus 404; gives_back], w, SDone)
  | Calls h rec segs =>
      exists o w1 evs w2 fin, code h c (MCtx mth path rec segs) w = (o, w1) /\
        serve code write fuel re r c mth path buf w = (EvRun h :: evs ++ [gives_back], w2, fin) /\
        match o with
        | HReturn _ (Some e) => evs = [EvLog (Uncaught e); EvStatus 500] /\ w2 = w1 /\ fin = SDone
        | HReturn (Some rsp) None =>
            match write rsp (MCtx mth path rec segs) w1 with
            | (Wrote None, w') => evs = [EvWrite rsp] /\ w2 = w' /\ fin = SDone
            | (Wrote (Some e), w') => evs = [EvWrite rsp; EvLog (WriteFailed e)] /\ w2 = w' /\ fin = SDone
            | (WPanic, w') => evs = [EvWrite rsp] /\ w2 = w' /\ fin = SCrash
            end
        | _ => evs = [] /\ w2 = w1 /\ fin = SCrash
        end
  | ServeCrash => serve code write fuel re r c mth path buf w = ([gives_back], w, SCrash)
  | ServeRuns => serve code write fuel re r c mth path buf w = ([], w, SRuns)
  end.
Proof.
  unfold serve. destruct (dispatch_request fuel re r mth path buf) as [|h rec segs| |] eqn:D; try reflexivity.
  destruct (code h c (MCtx mth path rec segs) w) as [o w1] eqn:C.
  destruct (answer write (MCtx mth path rec segs) o w1) as [[evs w2] fin] eqn:A.
  exists o, w1, evs, w2, fin. split; [reflexivity|]. split; [reflexivity|].
  destruct o as [[rsp|] [e|]|v]; cbn in A; try (injection A as <- <- <-; auto; fail).
  destruct (write rsp (MCtx mth path rec segs) w1) as [[[e|]|] w']; injection A as <- <- <-; auto.
Qed.

(** With routes as in C11 and handlers that return a response or an error, every
    request has one of the documented outcomes. *)
Lemma request_outcome {Resp World : Type} (code : nat -> handler mctx Resp World) write
    fuel re ci regs r outs c mth path ts buf w :
  handle_all fuel re (new_router ci) regs = (r, outs) ->
  (N.of_nat (List.length regs) < 65536)%N ->
  Forall (fun rg => countable (re_ok re) ci (reg_text rg) /\ plain (re_ok re) ci (reg_text rg)) regs ->
  (blen path < 65536)%N -> segments_of path ts -> List.length buf = 19 ->
  (forall rg ks, route_of (re_ok re) ci (combine regs outs) mth rg ks ->
     any_only_last ks /\ calm_on ci ts ks /\ not_cut ci (re_match re) (route_of (re_ok re) ci (combine regs outs) mth) ts ks) ->
  (forall h mc w0, (exists rsp w1, code h c mc w0 = (HReturn (Some rsp) None, w1)) \/
                   (exists rsp e w1, code h c mc w0 = (HReturn rsp (Some e), w1))) ->
  (forall rsp mc w0, exists e w1, write rsp mc w0 = (Wrote e, w1)) ->
  exists k, forall f, exists evs w2,
    serve code write (k + f) re r c mth path buf w = (evs, w2, SDone) /\
    ((forall rg ks bs, route_of (re_ok re) ci (combine regs outs) mth rg ks -> ~ reads_as ci (re_match re) ks ts bs) ->
     visible evs = [EvStatus 404] /\ w2 = w) /\
    ((exists rg ks bs, route_of (re_ok re) ci (combine regs outs) mth rg ks /\ reads_as ci (re_match re) ks ts bs) ->
     exists rg ks bs mc,
       route_of (re_ok re) ci (combine regs outs) mth rg ks /\ reads_as ci (re_match re) ks ts bs /\
       mc_method mc = mth /\ mc_path mc = path /\
       (forall name, mc_var mc name = Some (match value_of name bs with Some v => v | None => [] end)) /\
       ((exists rsp e w1, code (reg_handler rg) c mc w = (HReturn rsp (Some e), w1) /\
           visible evs = [EvRun (reg_handler rg); EvLog (Uncaught e); EvStatus 500] /\ w2 = w1) \/
        (exists rsp w1 failed, code (reg_handler rg) c mc w = (HReturn (Some rsp) None, w1) /\
           write rsp mc w1 = (Wrote failed, w2) /\
           visible evs = EvRun (reg_handler rg) :: EvWrite rsp ::
             match failed with Some e => [EvLog (WriteFailed e)] | None => [] end))).
Proof.
  intros HA LR FR BP SG LB RT HC HW.
  destruct (complete_routing fuel re ci regs r outs mth path ts buf HA LR FR BP SG LB RT) as (k0 & Yes & _).
  assert (FR' : Forall (fun rg => countable (re_ok re) ci (reg_text rg)) regs).
  { eapply Forall_impl; [|exact FR]. intros a [A _]. exact A. }
  destruct (routing_ends fuel re ci regs r outs mth path buf HA FR' LB) as (k & D & ND & ED).
  assert (V1 : forall h evs, visible (@EvRun Resp h :: evs ++ [gives_back]) = EvRun h :: visible evs).
  { intros h evs. cbn. f_equal. unfold visible. rewrite filter_app. apply app_nil_r. }
  exists k. intros f. pose proof (serve_outcomes code write (k + f) re r c mth path buf w) as O.
  rewrite (ED f) in O. destruct D as [|h rec segs| |]; [| | |congruence].
  - rewrite O. eexists _, _. split; [reflexivity|]. split; [intros _; split; reflexivity|].
    intros E. destruct (Yes E) as (h & rec & segs & C). specialize (C k). specialize (ED k0).
    rewrite Nat.add_comm in C. congruence.
  - destruct O as (o & w1 & evs & w2 & fin & C & O & A).
    destruct (routed_sound _ _ _ _ _ _ _ _ _ _ _ _ _ _ HA FR BP SG LB (ED f)) as (m' & text & ks & bs & I & SM & P & RA & PV).
    exists (EvRun h :: evs ++ [gives_back]), w2. rewrite O.
    assert (RO : route_of (re_ok re) ci (combine regs outs) mth (m', text, h) ks) by (repeat split; assumption).
    split; [|split].
    + destruct (HC h (MCtx mth path rec segs) w) as [(rsp & w' & E)|(rsp & e & w' & E)]; rewrite E in C; injection C as <- <-.
      * destruct (HW rsp (MCtx mth path rec segs) w') as (e & w'' & F). rewrite F in A.
        destruct e; destruct A as (_ & _ & ->); reflexivity.
      * destruct rsp; destruct A as (_ & _ & ->); reflexivity.
    + intros N. destruct (N _ _ _ RO RA).
    + intros _. exists (m', text, h), ks, bs, (MCtx mth path rec segs). rewrite V1. repeat split; try assumption.
      cbn [reg_handler snd].
      destruct (HC h (MCtx mth path rec segs) w) as [(rsp & w' & E)|(rsp & e & w' & E)]; rewrite E in C; injection C as <- <-.
      * right. destruct (HW rsp (MCtx mth path rec segs) w') as (e & w'' & F). rewrite F in A.
        exists rsp, w', e. split; [exact E|]. destruct e; destruct A as (-> & -> & _); (split; [exact F|reflexivity]).
      * left. exists rsp, e, w'. split; [exact E|]. destruct rsp; destruct A as (-> & -> & _); split; reflexivity.
  - exfalso. revert ED. intros ED. specialize (ED 0).
    apply (never_crashes fuel re ci regs r outs (k + 0) mth path buf HA FR' BP LB) in ED; [exact ED|].
    intros m' text h ks I SM P. destruct (RT (m', text, h) ks) as (A1 & A2 & _); [repeat split; assumption|].
    split; [right; exact A1|]. intros ts' w' t S' Iw It. apply A2; [exact Iw|].
    rewrite <- (segments_of_unique _ _ _ S' SG). exact It.
Qed.

(** A handler that returns neither a response nor an error crashes the call. *)
Lemma nil_response_crashes : exists (code : nat -> handler mctx nat unit) write fuel re ci regs r outs c mth path buf,
  handle_all fuel re (new_router ci) regs = (r, outs) /\ Forall (eq Registered) outs /\ List.length buf = 19 /\
  (forall h mc w, code h c mc w = (HReturn None None, w)) /\
  exists k, forall f w, serve code write (k + f) re r c mth path buf w = ([EvRun 1; gives_back], w, SCrash).
Proof.
  set (HA := handle_all 100 lit_engine (new_router false) [route "/a" 1]).
  exists (fun _ _ _ w => (HReturn None None, w)), (fun _ _ w => (Wrote None, w)), 100, lit_engine, false,
    [route "/a" 1], (fst HA), (snd HA), (Ctx None None None), GET, (str "/a"), zeros.
  split; [apply surjective_pairing|]. split; [vm_compute; constructor; [reflexivity|constructor]|].
  split; [reflexivity|]. split; [reflexivity|].
  exists 9. intros f w. reflexivity.
Qed.

(** Case: the routes of C11; handler 1 returns its number, the others an error. *)
Definition demo_code : nat -> handler mctx nat (list nat) :=
  fun h _ mc w => (if Nat.eqb h 1 then HReturn (Some h) None else HReturn None (Some EAccessDenied), w ++ [h]).
Definition demo_write : nat -> mctx -> list nat -> wout * list nat :=
  fun r mc w => (Wrote (Some (EOther (str "broken pipe"))), w ++ [100 + r]).
Lemma serve_case :
  (forall h mc w0, (exists rsp w1, demo_code h (Ctx None None None) mc w0 = (HReturn (Some rsp) None, w1)) \/
     (exists rsp e w1, demo_code h (Ctx None None None) mc w0 = (HReturn rsp (Some e), w1))) /\
  (forall rsp mc w0, exists e w1, demo_write rsp mc w0 = (Wrote e, w1)) /\
  exists h w2, serve demo_code demo_write 100 lit_engine mall_router (Ctx None None None) GET mall_path zeros [] =
    ([EvRun h; EvWrite h; EvLog (WriteFailed (EOther (str "broken pipe"))); gives_back], w2, SDone) /\ w2 = [h; 100 + h].
Proof.
  split; [|split].
  - intros h mc w0. unfold demo_code. destruct (Nat.eqb h 1); [left|right]; repeat eexists.
  - intros. repeat eexists.
  - vm_compute. exists 1, [1; 101]. split; reflexivity.
Qed.
