(** * Errors as Go values: proofs *)
From Coq Require Import List NArith ZArith Ascii String Bool Lia Permutation.
From Verif Require Import GoBase Http_Model Chain_Model Serve_Model Resp_Model Resp_Spec Json_Model Json_Spec JsonErr_Model JsonErr_Spec
  Resp_Proofs RespBody_Proofs JsonRead_Proofs JsonEnc_Proofs JsonErr_Proofs Err_Model Err_Spec.
Import ListNotations.
Local Open Scope string_scope.
Local Open Scope list_scope.
Local Open Scope N_scope.

Lemma status_is e n : go_status e = n <-> answer_status e n.
Proof.
  unfold answer_status. split.
  - intros <-. destruct e as [[|[|[|p]]] t|i|i|i|i|t i]; cbn; (left; constructor) || (right; split; [intros n' D; inversion D|reflexivity]).
  - intros [D|[N ->]].
    + inversion D; reflexivity.
    + destruct e as [[|[|[|p]]] t|i|i|i|i|t i]; cbn; try reflexivity; exfalso; eapply N; constructor.
Qed.

Lemma text_is e : forall t, go_error e = Some t <-> has_text e t.
Proof.
  cut ((forall t, go_error e = Some t -> has_text e t) /\ (forall t, has_text e t -> go_error e = Some t)); [intros [A B] t; split; auto|].
  split.
  - revert e. fix IH 1. intros [p u|[i|]|[i|]|[[i|]|]|[[i|]|]|u i] t; cbn; intros H; try discriminate H.
    all: try (injection H as <-); constructor; apply IH; exact H.
  - induction 1; cbn; auto.
Qed.

Lemma silent_is e : silent e <-> go_error e = None.
Proof.
  unfold silent. split.
  - intros S. destruct (go_error e) as [t|] eqn:E; [|reflexivity]. exfalso. apply (S t), text_is, E.
  - intros E t H. apply text_is in H. congruence.
Qed.

Lemma wrapped_lost (Req Resp World : Type) supplier (h : ehandler Req Resp World) c rq w r w' e n :
  h c rq w = (EReturn r (Some e), w') -> means e n -> ~ direct e n ->
  (forall r', supplier 500 e = Some r' -> go_err_response supplier h c rq w = (EReturn r' None, w')) /\ n <> 500.
Proof.
  intros H M D. split.
  - intros r' S. unfold go_err_response. rewrite H. replace (go_status e) with 500; [rewrite S; reflexivity|].
    symmetry. destruct M; [contradiction|reflexivity..].
  - clear -M. induction M as [e n D| | |]; try discriminate; [inversion D; discriminate|assumption].
Qed.

Lemma direct_kept (Req Resp World : Type) supplier (h : ehandler Req Resp World) c rq w r w' e :
  h c rq w = (EReturn r (Some e), w') ->
  exists n, answer_status e n /\ (forall r', supplier n e = Some r' -> go_err_response supplier h c rq w = (EReturn r' None, w')) /\
    ((forall n', ~ means e n') -> n = 500).
Proof.
  intros H. exists (go_status e). assert (A : answer_status e (go_status e)) by (apply status_is; reflexivity).
  split; [exact A|]. split.
  - intros r' S. unfold go_err_response. rewrite H, S. reflexivity.
  - intros N. destruct A as [D|[_ E]]; [exfalso; eapply N; constructor; exact D|exact E].
Qed.

(** ** Errors without a message *)
Lemma silent_lost (Req World : Type) (h : ehandler Req response World) stack c rq w r w' e :
  h c rq w = (EReturn r (Some e), w') -> silent e ->
  go_answer (fst (go_err_json (go_panic_recover stack h) c rq w)) = NoAnswer /\
  go_answer (fst (go_err_json h c rq w)) = NoAnswer /\
  go_answer (fst (go_panic_recover stack (go_err_json h) c rq w)) = Status500 /\
  forall st, go_json_error_response st (Some e) = None.
Proof.
  intros H S. apply silent_is in S.
  unfold go_err_json, go_err_response, go_panic_recover, go_json_error_response. rewrite H, S. cbn. auto.
Qed.

Section Sent.
Variable k : compressor.
Variable oh : headers -> headers.
Variable oc : cookies -> cookies.
Variable render : cookie -> bytes.
Variable location : wreq -> bytes -> bytes.
Variable redirect_body : Z -> bytes -> bytes.
Hypothesis ohP : forall m, Permutation (oh m) m.
Hypothesis ocP : forall m, Permutation (oc m) m.

Lemma answer_status_code e n : answer_status e n -> (n = 400 \/ n = 404 \/ n = 401 \/ n = 403 \/ n = 500).
Proof. intros [D|[_ ->]]; [inversion D|]; auto 6. Qed.

Lemma text_sent : forall (Req World : Type) (h : ehandler Req response World) stack c rq w r0 e w' q b m,
  h c rq w = (EReturn r0 (Some e), w') -> has_text e m -> b_final b = None -> b_body b = [] ->
  exists r b' n hh body,
    go_answer (fst (go_err_json (go_panic_recover stack h) c rq w)) = Writes r /\
    go_answer (fst (go_panic_recover stack (go_err_json h) c rq w)) = Writes r /\
    write oh oc render location redirect_body r q (@Plain k b) = (Wrote None, Plain b') /\ received b' = (Z.of_N n, hh, body) /\
    answer_status e n /\ says_error body m /\ Forall harmless body /\
    (first_value (b_header b) ct = [] -> hvalues hh ct = [str "application/json"]).
Proof.
  intros Req World h stack c rq w r0 e w' q b m H T F B. apply text_is in T.
  assert (A : answer_status e (go_status e)) by (apply status_is; reflexivity).
  assert (WB : with_body (Z.of_N (go_status e)) /\ Z.of_N (go_status e) <> 0%Z).
  { apply answer_status_code in A. unfold with_body. lia. }
  destruct WB as [WB NZ].
  destruct (json_sent k oh oc render location redirect_body ohP ocP (Z.of_N (go_status e)) (Z.of_N (go_status e)) (Some (error_payload m)) None None q b) as [b' [hh [W [R C]]]];
    [right; split; [exact NZ|reflexivity]|exact WB|apply no_headers_spelling|assumption|assumption|].
  eexists. exists b', (go_status e), hh. eexists.
  split; [|split; [|split; [exact W|split; [exact R|]]]].
  - unfold go_err_json, go_err_response, go_panic_recover. rewrite H, T. reflexivity.
  - unfold go_err_json, go_err_response, go_panic_recover. rewrite H, T. reflexivity.
  - split; [exact A|]. split; [apply error_says|]. split; [apply marshal_harmless|].
    intros N. apply C; [apply no_headers_given|exact N].
Qed.

Lemma json_error_sent : forall st e q b c m,
  has_text e (c :: m) -> code c < 128 -> with_body st -> st <> 0%Z -> b_final b = None -> b_body b = [] ->
  exists r b' hh body text, go_json_error_response st (Some e) = Some r /\
    write oh oc render location redirect_body r q (@Plain k b) = (Wrote None, Plain b') /\ received b' = (st, hh, body) /\
    capitalised (c :: m) text /\ says_error body text /\ Forall harmless body /\ (first_value (b_header b) ct = [] -> hvalues hh ct = [str "application/json"]).
Proof.
  intros st e q b c m T A WB NZ F B. apply text_is in T.
  destruct (error_response_sent k oh oc render location redirect_body ohP ocP st st c m None None q b) as (b' & hh & body & text & W & R & C1 & C2 & C3 & C4);
    [right; split; [exact NZ|reflexivity]|exact WB|apply no_headers_spelling|assumption|assumption|exact A|].
  eexists. exists b', hh, body, text. split; [unfold go_json_error_response; rewrite T; reflexivity|]. repeat (split; [assumption|]).
  intros N. apply C4; [apply no_headers_given|exact N].
Qed.
End Sent.

(** ** The errors of the other models *)
Definition as_go (e : err) : goerr :=
  match e with
  | EBadRequest m => new_bad_request_msg 3 m
  | EObjectNotFound m => new_object_not_found_msg 3 m
  | EUnauthorized => go_unauthorized
  | EWrongCredentials => go_wrong_credentials
  | EAccessDenied => go_access_denied
  | EOther m => GoOther m None
  end.
Lemma models_agree e : go_status (as_go e) = error_status e /\ go_error (as_go e) = Some (err_message e).
Proof. destruct e; split; reflexivity. Qed.

(** ** The package errors *)
Lemma offered_kept : forall (Req Resp World : Type) supplier (h : ehandler Req Resp World) c rq w r w' e n t,
  offered e n t -> h c rq w = (EReturn r (Some e), w') ->
  go_error e = Some t /\ (forall r', supplier n e = Some r' -> go_err_response supplier h c rq w = (EReturn r' None, w')).
Proof.
  intros Req Resp World supplier h c rq w r w' e n t O H.
  assert (S : go_error e = Some t /\ go_status e = n) by (destruct O; split; try reflexivity; cbn; apply text_is; assumption).
  destruct S as [S1 S2]. split; [exact S1|]. intros r' E. unfold go_err_response. rewrite H, S2, E. reflexivity.
Qed.
Lemma sentinels_differ a b p : In a [go_access_denied; go_unauthorized; go_wrong_credentials] ->
  In b [go_access_denied; go_unauthorized; go_wrong_credentials] -> same_pointer p a = true -> same_pointer p b = true -> a = b.
Proof.
  intros A B X Y. cbn [In] in A, B.
  destruct A as [<-|[<-|[<-|[]]]], B as [<-|[<-|[<-|[]]]]; try reflexivity; exfalso; destruct p as [|[|[|p]]]; discriminate.
Qed.
Lemma offered_all : forall (Req Resp World : Type) supplier (h : ehandler Req Resp World) c rq w r w',
  (forall e n t, offered e n t -> h c rq w = (EReturn r (Some e), w') ->
    go_error e = Some t /\ (forall r', supplier n e = Some r' -> go_err_response supplier h c rq w = (EReturn r' None, w'))) /\
  forall a b p, In a [go_access_denied; go_unauthorized; go_wrong_credentials] ->
    In b [go_access_denied; go_unauthorized; go_wrong_credentials] -> same_pointer p a = true -> same_pointer p b = true -> a = b.
Proof. intros. split; [intros e n t; apply offered_kept|apply sentinels_differ]. Qed.
Lemma offered_case : offered (new_bad_request (Some (new_object_not_found_msg 9 (str "gone")))) 400 (str "gone") /\
  offered (new_object_not_found (Some go_access_denied)) 404 (str "access denied") /\
  let h (e : goerr) : ehandler nat (N * bytes) nat := fun _ _ w => (EReturn None (Some e), w + 1)%nat in
  let supplier n e := Some (option_map (fun t => (n, t)) (go_error e)) in
  go_err_response supplier (h (new_object_not_found (Some go_access_denied))) (Ctx None None None) 0%nat 7%nat =
    (EReturn (Some (404, str "access denied")) None, 8%nat).
Proof. split; [apply of_bad, ht_missing, ht_new|]. split; [apply of_missing, ht_new|reflexivity]. Qed.

Lemma err_case :
  let wrapped := GoOther (str "loading user 7: access denied") (Some go_access_denied) in
  means wrapped 403 /\ ~ direct wrapped 403 /\ go_status wrapped = 500 /\
  means (GoOther (str "a") (Some (GoOther (str "b") (Some (new_bad_request_msg 9 (str "no id")))))) 400 /\
  means (GoBadRef (Some (Some (GoNew 9 (str "no id"))))) 400 /\ go_status (GoBadRef (Some (Some (GoNew 9 (str "no id"))))) = 500 /\
  direct go_unauthorized 401 /\ direct go_wrong_credentials 403 /\ direct go_access_denied 403 /\
  direct (new_object_not_found_msg 9 (str "gone")) 404 /\ (forall n, ~ means (GoNew 9 (str "access denied")) n) /\
  silent (new_bad_request None) /\ silent (new_object_not_found None) /\ silent (GoBadRef None) /\
  has_text (new_bad_request (Some go_access_denied)) (str "access denied").
Proof.
  cbv zeta. repeat match goal with |- _ /\ _ => split end.
  - apply mn_wraps, mn_direct, dr_denied.
  - intros D. inversion D.
  - reflexivity.
  - apply mn_wraps, mn_wraps, mn_direct, dr_bad.
  - apply mn_bad_ref.
  - reflexivity.
  - constructor.
  - constructor.
  - constructor.
  - constructor.
  - intros n M. inversion M. subst. inversion H.
  - intros t H. inversion H.
  - intros t H. inversion H.
  - intros t H. inversion H.
  - constructor. constructor.
Qed.

Lemma message_case :
  let h (e : goerr) : ehandler nat response nat := fun _ _ w => (EReturn None (Some e), w + 1)%nat in
  let run e := go_err_json (go_panic_recover (str "stack") (h e)) (Ctx None None None) 0%nat 7%nat in
  (exists r, run (new_bad_request (Some go_access_denied)) = (EReturn (Some r) None, 8%nat) /\
     received (rw_base (snd (write (fun m => m) (fun m => m) (fun _ => []) (fun _ u => u) (fun _ _ => []) r (WReq (str "GET") [] 1) (@Plain toy base_new)))) =
       (400%Z, [(str "X-Content-Type-Options", [str "nosniff"]); (str "Content-Type", [str "application/json"])],
        str "{""error"":""access denied""}")) /\
  (exists r, go_json_error_response 418 (Some go_access_denied) = Some r /\
     snd (received (rw_base (snd (write (fun m => m) (fun m => m) (fun _ => []) (fun _ u => u) (fun _ _ => []) r (WReq (str "GET") [] 1) (@Plain toy base_new))))) =
       str "{""error"":""Access denied""}") /\
  run (new_bad_request None) = (EPanic (Some 0%nat), 8%nat).
Proof.
  cbv zeta. split; [|split]; [| |reflexivity]; eexists; (split; [reflexivity|vm_compute; reflexivity]).
Qed.

(** Neither a response nor an error *)
Lemma nothing_lost (Req World : Type) (h : ehandler Req response World) stack c rq w w' :
  h c rq w = (EPanic None, w') \/ h c rq w = (EReturn None None, w') ->
  go_panic_recover stack h c rq w = (EReturn None None, w') /\
  go_panic_recover stack (go_err_json h) c rq w = (EReturn None None, w') /\
  go_answer (fst (go_err_json (go_panic_recover stack h) c rq w)) = NoAnswer /\
  go_answer (fst (go_panic_recover stack (go_err_json h) c rq w)) = NoAnswer.
Proof. intros [E|E]; unfold go_err_json, go_err_response, go_panic_recover; rewrite E; repeat split. Qed.
