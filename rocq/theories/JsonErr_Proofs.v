(** * JSON bodies as they are sent *)
From Coq Require Import List NArith ZArith Ascii String Bool Lia Arith Permutation.
From Verif Require Import GoBase Http_Model Chain_Model Serve_Model Resp_Model Resp_Spec Chain_Spec.
From Verif Require Import Json_Model Json_Spec JsonUtf8_Proofs JsonEnc_Proofs JsonRead_Proofs JsonErr_Model JsonErr_Spec.
From Verif Require Import Chain_Proofs RespMisc_Proofs.
Import ListNotations.
Local Open Scope string_scope.
Local Open Scope list_scope.
Local Open Scope N_scope.

Lemma json_is_text : forall t v, json t v -> json_text t v.
Proof. intros t v H. exists [], t, []. repeat split; try constructor; [assumption|]. cbn. rewrite app_nil_r. reflexivity. Qed.

Lemma marshal_says : forall v, says (marshal v) v.
Proof.
  intros v. destruct (marshal_json v) as [w [S J]]. exists w. split; [assumption|]. intros w'. split.
  - intros H. eapply json_text_unique; [eassumption|]. apply json_is_text. assumption.
  - intros ->. apply json_is_text. assumption.
Qed.
Lemma marshal_harmless : forall v, Forall harmless (marshal v).
Proof. intros v. exact (marshal_tame v). Qed.

Definition error_key : list N := [101; 114; 114; 111; 114].
Lemma error_key_is : well_encoded (str "error") error_key.
Proof. split; [|reflexivity]. repeat constructor; unfold scalar; lia. Qed.

Lemma stands_error : forall m w, stands_for (error_payload m) w -> exists cs, text_of m cs /\ w = VObj [(error_key, VStr cs)].
Proof.
  intros m w H. inversion H as [| | | | |m0 m' vs P F|]; subst. apply Permutation_length_1_inv in P. subst m'.
  inversion F as [|x [k v] l l' [K V] F']; subst. inversion F'; subst. cbn in K, V. inversion V as [| | |s cs T| | |]; subst.
  pose proof (text_of_fun _ _ K _ (text_of_well _ _ error_key_is)) as ->. exists cs. auto.
Qed.
Lemma error_says : forall m, says_error (marshal (error_payload m)) m.
Proof.
  intros m. destruct (marshal_says (error_payload m)) as [w [S U]]. destruct (stands_error _ _ S) as [cs [T ->]].
  exists error_key, cs. split; [apply error_key_is|]. split; assumption.
Qed.
Lemma well_text : forall s cs ds, well_encoded s cs -> text_of s ds -> ds = cs.
Proof. intros s cs ds W T. eapply text_of_fun; [eassumption|]. apply text_of_well. assumption. Qed.

(** ** What the client gets *)

Section Sent.
Variable k : compressor.
Variable oh : headers -> headers.
Variable oc : cookies -> cookies.
Variable render : cookie -> bytes.
Variable location : wreq -> bytes -> bytes.
Variable redirect_body : Z -> bytes -> bytes.
Hypothesis OH : forall m, Permutation (oh m) m.
Hypothesis OC : forall m, Permutation (oc m) m.
Local Notation put := (write oh oc render location redirect_body).

Lemma json_sent : forall st0 st p hs cs q b,
  meant_status (HResp st0 (str "application/json") hs cs) st -> with_body st -> one_spelling (some_headers hs) ->
  b_final b = None -> b_body b = [] ->
  exists b' hh, put (json_response st0 p hs cs) q (@Plain k b) = (Wrote None, Plain b') /\ received b' = (st, hh, marshal (meant p)) /\
    (~ given (some_headers hs) ct -> first_value (b_header b) ct = [] -> hvalues hh ct = [str "application/json"]).
Proof.
  intros st0 st p hs cs q b M WB O F B. set (h := HResp st0 (str "application/json") hs cs) in *. set (r := json_response st0 p hs cs).
  assert (FR : fields r = Some h) by reflexivity. assert (PR : right_protocol r q) by exact I.
  destruct (response_body k oh oc render location redirect_body r q h st b FR PR M WB F B) as [b' [W Bd]].
  destruct (response_sent k oh oc render location redirect_body r q h st (Plain b) OH OC FR PR M) as [hh [ts [E [_ S]]]];
    [destruct WB as [L _]; lia|assumption|exact O|].
  rewrite W in E. cbn [snd rw_base] in E. exists b', hh. split; [|split].
  - rewrite W. unfold r, json_response. destruct p; reflexivity.
  - unfold received. rewrite E, Bd. destruct p; reflexivity.
  - intros G N. apply (sent_type_default _ _ _ _ _ S); [|intros _; exact N|discriminate].
    intros k0 v I0 Same. exfalso. apply G. exists k0, v. split; assumption.
Qed.

Lemma payload_sent : forall st0 st p hs cs q b,
  meant_status (HResp st0 (str "application/json") hs cs) st -> with_body st -> one_spelling (some_headers hs) ->
  b_final b = None -> b_body b = [] ->
  exists b' hh body, put (json_response st0 p hs cs) q (@Plain k b) = (Wrote None, Plain b') /\ received b' = (st, hh, body) /\
    says body (meant p) /\ Forall harmless body /\
    (~ given (some_headers hs) ct -> first_value (b_header b) ct = [] -> hvalues hh ct = [str "application/json"]).
Proof.
  intros st0 st p hs cs q b M WB O F B. destruct (json_sent st0 st p hs cs q b M WB O F B) as [b' [hh [W [R C]]]].
  exists b', hh, (marshal (meant p)). split; [exact W|]. split; [exact R|]. split; [apply marshal_says|]. split; [apply marshal_harmless|exact C].
Qed.

Lemma message_of : forall e, message e (err_message e).
Proof. intros []; constructor. Qed.

Lemma no_headers_spelling : one_spelling (some_headers None).
Proof. split; [constructor|]. intros ? ? ? ? []. Qed.
Lemma no_headers_given : ~ given (some_headers None) ct.
Proof. intros [? [? [[] _]]]. Qed.

Lemma status_with_body : forall e n, documented_status e n -> with_body (Z.of_N n) /\ Z.of_N n <> 0%Z.
Proof. intros e n H. destruct H; cbn; unfold with_body; lia. Qed.

Lemma error_sent : forall (Req World : Type) (h : handler Req response World) c rq w r0 e w' q b,
  h c rq w = (HReturn r0 (Some e), w') -> b_final b = None -> b_body b = [] ->
  exists r b' n m hh body, err_json_response h c rq w = (HReturn (Some r) None, w') /\
    put r q (@Plain k b) = (Wrote None, Plain b') /\ received b' = (Z.of_N n, hh, body) /\
    documented_status e n /\ message e m /\ says_error body m /\ Forall harmless body /\
    (first_value (b_header b) ct = [] -> hvalues hh ct = [str "application/json"]).
Proof.
  intros Req World h c rq w r0 e w' q b H F B. pose proof (proj1 (status_documented e (error_status e)) eq_refl) as D.
  destruct (status_with_body _ _ D) as [WB NZ].
  destruct (json_sent (Z.of_N (error_status e)) (Z.of_N (error_status e)) (Some (error_payload (err_message e))) None None q b) as [b' [hh [W [R C]]]];
    [right; split; [exact NZ|reflexivity]|exact WB|apply no_headers_spelling|assumption|assumption|].
  eexists. exists b', (error_status e), (err_message e), hh. eexists. split; [|split; [exact W|split; [exact R|]]].
  - unfold err_json_response, err_response. rewrite H. reflexivity.
  - split; [exact D|]. split; [apply message_of|]. split; [apply error_says|]. split; [apply marshal_harmless|].
    intros N. apply C; [apply no_headers_given|exact N].
Qed.

Lemma error_response_sent : forall st0 st c m hs cs q b,
  meant_status (HResp st0 (str "application/json") hs cs) st -> with_body st -> one_spelling (some_headers hs) ->
  b_final b = None -> b_body b = [] -> code c < 128 ->
  exists b' hh body text, put (json_error_response st0 (Some (c :: m)) hs cs) q (@Plain k b) = (Wrote None, Plain b') /\
    received b' = (st, hh, body) /\ capitalised (c :: m) text /\ says_error body text /\ Forall harmless body /\
    (~ given (some_headers hs) ct -> first_value (b_header b) ct = [] -> hvalues hh ct = [str "application/json"]).
Proof.
  intros st0 st c m hs cs q b M WB O F B A.
  destruct (json_sent st0 st (Some (error_payload (error_to_string (Some (c :: m))))) hs cs q b M WB O F B) as [b' [hh [W [R C]]]].
  exists b', hh. eexists. exists (error_to_string (Some (c :: m))). split; [exact W|]. split; [exact R|].
  split; [apply error_capitalised; assumption|]. split; [apply error_says|]. split; [apply marshal_harmless|exact C].
Qed.

(** The stack of a panic. *)
Lemma text_app_ascii : forall a s cs, Forall (fun b => code b < 128) a -> text_of s cs -> text_of (a ++ s) (map code a ++ cs).
Proof.
  intros a s cs H T. induction H as [|b a Hb H IH]; [assumption|]. cbn [app map].
  replace (b :: a ++ s) with (utf8 (code b) ++ (a ++ s)) by (rewrite utf8_ascii by assumption; reflexivity).
  apply to_char; [left; lia|assumption].
Qed.
Lemma text_app_well : forall s cs t ds, well_encoded s cs -> text_of t ds -> text_of (s ++ t) (cs ++ ds).
Proof.
  intros s cs t ds [H ->] T. induction H as [|c cs Hc H IH]; [assumption|]. cbn [map List.concat app]. rewrite <- app_assoc.
  apply to_char; assumption.
Qed.
Lemma ascii_all : forall s, forallb (fun b => code b <? 128) s = true -> Forall (fun b => code b < 128) s.
Proof. intros s H. rewrite forallb_forall in H. apply Forall_forall. intros b I0. apply N.ltb_lt. apply H. assumption. Qed.

Lemma stack_sent : forall (Req World : Type) stack below (h : handler Req response World) c rq w v w' ss q b,
  wrap_middleware h below c rq w = (HPanic (Some v), w') -> well_encoded (stack c rq w) ss -> b_final b = None -> b_body b = [] ->
  exists r b' hh body key cs,
    registered_handler [Some err_json_response; Some (panic_recover_text stack)] below h c rq w = (HReturn (Some r) None, w') /\
    put r q (@Plain k b) = (Wrote None, Plain b') /\ received b' = (500%Z, hh, body) /\
    json_text body (VObj [(key, VStr cs)]) /\ contains cs ss.
Proof.
  intros Req World stack below h c rq w v w' ss q b H W F B.
  set (m := str "recover from panic, stack: [" ++ stack c rq w ++ str "]").
  assert (P : panic_recover_text stack (wrap_middleware h below) c rq w = (HReturn None (Some (EOther m)), w')).
  { unfold panic_recover_text. rewrite H. reflexivity. }
  destruct (error_sent _ _ (panic_recover_text stack (wrap_middleware h below)) c rq w _ _ w' q b P F B)
    as [r [b' [n [m' [hh [body [R1 [R2 [R3 [D [M [S _]]]]]]]]]]]].
  inversion D; subst n. inversion M; subst m'. destruct S as [key [cs [_ [T U]]]].
  exists r, b', hh, body, key, cs. split; [exact R1|]. split; [exact R2|]. split; [exact R3|]. split; [apply U; reflexivity|].
  exists (map code (str "recover from panic, stack: [")), (map code (str "]")).
  apply (text_of_fun _ _ T). unfold m. apply text_app_ascii; [apply ascii_all; reflexivity|]. apply text_app_well; [assumption|].
  assert (X : text_of (str "]" ++ []) (map code (str "]") ++ [])) by (apply text_app_ascii; [apply ascii_all; reflexivity|constructor]).
  rewrite !app_nil_r in X. exact X.
Qed.

Lemma stack_kept : forall (World : Type) stack below (h : handler mctx response World) c mc w v w' wr,
  wrap_middleware h below c mc w = (HPanic (Some v), w') ->
  exists e, let (o, w1) := registered_handler [Some (panic_recover_text stack); Some err_json_response] below h c mc w in
    answer wr mc o w1 = ([EvLog (Uncaught e); EvStatus 500], w', SDone).
Proof.
  intros World stack below h c mc w v w' wr H. eexists.
  change (registered_handler [Some (panic_recover_text stack); Some err_json_response] below h c mc w)
    with (panic_recover_text stack (err_json_response (wrap_middleware h below)) c mc w).
  unfold panic_recover_text, err_json_response, err_response. rewrite H. reflexivity.
Qed.

End Sent.
