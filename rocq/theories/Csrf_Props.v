(** * Properties C35 to C38 and C58: cache, nonces, CSRF middleware *)
From Coq Require Import List NArith ZArith Ascii String Bool Arith.
From Verif Require Import GoBase Http_Model Cache_Model Auth_Model Chain_Model Csrf_Model Csrf_Spec Csrf_Proofs CsrfConc_Proofs.
Import ListNotations.
Local Open Scope string_scope.
Local Open Scope list_scope.
Local Open Scope nat_scope.

(** C35: after any history of calls the cache contains exactly the live keys. *)
Theorem C35_cache_live_keys : forall ops now k,
  cache_contains (cache_after ops) now k = true <-> live ops now k.
Proof. exact (@cache_reports_live). Qed.
Print Assumptions C35_cache_live_keys.

(** Case: a live key, an expired one, a removed one, one that expires at this moment. *)
Example C35_case : let ops := [CAdd 5 (str "a") 10; CAdd 6 (str "b") 10; CContains 7 (str "a"); CRemove (str "b"); CAdd 8 (str "c") 1] in
  live ops 14 (str "a") /\ ~ live ops 15 (str "a") /\ ~ live ops 7 (str "b") /\ ~ live ops 9 (str "c").
Proof. exact (@cache_case). Qed.

(** C36: requests handled one after the other have the events the specification asks
    for: a handler runs exactly for safe methods and for fresh nonces. *)
Theorem C36_fresh_nonce : forall (Req Resp World : Type) (view : Req -> creq) param header (h : handler Req Resp World) c qs w,
  exists evs, csrf_history param header (map view qs) evs /\
    run_events h c qs evs w =
    (snd (fst (serve_in_turn (csrf view param header (beside_cache h)) c qs (new_cache, w))),
     snd (serve_in_turn (csrf view param header (beside_cache h)) c qs (new_cache, w))).
Proof. exact (@csrf_in_turn). Qed.
Print Assumptions C36_fresh_nonce.

(** The specification leaves no choice. *)
Theorem C36_events_unique : forall param header qs,
  forall e1 e2,
  csrf_history param header qs e1 -> csrf_history param header qs e2 -> e1 = e2.
Proof. exact (@history_unique). Qed.
Print Assumptions C36_events_unique.

(** C36: two requests pass with the same value only if it was issued again in
    between. *)
Theorem C36_single_use : forall param header qs evs,
  csrf_history param header qs evs ->
  forall i k tok, i < k -> uses param header qs evs i tok -> uses param header qs evs k tok ->
  exists j, i <= j < k /\ nth_error evs j = Some (EvRan tok).
Proof. exact (@single_use). Qed.
Print Assumptions C36_single_use.

(** Case: a nonce is issued and used; its second use is refused; the next nonce is used too late. *)
Example C36_case : csrf_history (str "_csrf") (str "X-Csrf-Token")
  [get_req 1 0; post_req (tok_of 1) 2 5; post_req (tok_of 1) 3 6; post_req (tok_of 2) 4 3600000000005]
  [EvRan (tok_of 1); EvRan (tok_of 2); EvRefused; EvRefused].
Proof. exact (@csrf_case). Qed.

(** C37 is false: two requests at the same time pass with one nonce that was issued
    once. *)
Theorem C37_concurrent_refuted : exists ts schedule tok i j s t,
  all_start ts /\ drawn_once tok ts /\
  let (c', ts') := csrf_run (str "_csrf") (str "X-Csrf-Token") new_cache ts schedule in
  i <> j /\ nth_error ts' i = Some s /\ nth_error ts' j = Some t /\
  past_check (str "_csrf") (str "X-Csrf-Token") s tok /\ past_check (str "_csrf") (str "X-Csrf-Token") t tok /\
  exists n m, snd s = AtHandler n /\ snd t = AtHandler m.
Proof. exact (@race_passes_twice). Qed.
Print Assumptions C37_concurrent_refuted.

(** C37, what holds for all interleavings: a request that passes carries a nonce that
    was issued and has not expired. *)
Theorem C37_issued_partial : forall param header ts schedule,
  all_start ts ->
  let (c', ts') := csrf_run param header new_cache ts schedule in
  forall i t tok, nth_error ts' i = Some t -> past_check param header t tok -> issued ts' (cq_check (fst t)) tok.
Proof. exact (@passed_is_issued). Qed.
Print Assumptions C37_issued_partial.

(** C37, what holds: if nothing comes between a successful check and the removal, a
    nonce that is drawn once lets at most one request pass. *)
Theorem C37_atomic_partial : forall param header tok ts schedule,
  all_start ts -> drawn_once tok ts -> atomic_checks param header new_cache ts schedule ->
  let (c', ts') := csrf_run param header new_cache ts schedule in
  forall i j s t, nth_error ts' i = Some s -> nth_error ts' j = Some t ->
    past_check param header s tok -> past_check param header t tok -> i = j.
Proof. exact (@atomic_use_once). Qed.
Print Assumptions C37_atomic_partial.

Example C37_case : all_start racers /\ drawn_once (tok_of 1) racers /\
  atomic_checks (str "_csrf") (str "X-Csrf-Token") new_cache racers [0; 0; 1; 1; 2; 1; 2] /\
  exists s, nth_error (snd (csrf_run (str "_csrf") (str "X-Csrf-Token") new_cache racers [0; 0; 1; 1; 2; 1; 2])) 1 = Some s /\
    past_check (str "_csrf") (str "X-Csrf-Token") s (tok_of 1).
Proof. exact (@no_race_case). Qed.

(** C38: a nonce has 32 characters from 0-9A-F and decodes to the random bytes. *)
Theorem C38_nonce_encoding : forall rnd n,
  generate_nonce (Some rnd) = Some n -> List.length rnd = 16 ->
  List.length n = 32 /\ (forall c, In c n -> In c (str "0123456789ABCDEF")) /\ hex_decode n = Some rnd.
Proof. exact (@nonces_encode). Qed.
Print Assumptions C38_nonce_encoding.

(** C38: different random bytes give different nonces. *)
Theorem C38_nonce_injective : forall r1 r2 n,
  generate_nonce (Some r1) = Some n -> generate_nonce (Some r2) = Some n -> r1 = r2.
Proof. exact (@nonces_differ). Qed.
Print Assumptions C38_nonce_injective.

Example C38_case : generate_nonce (Some (map ascii_of_N [0;255;16;1;171;205;239;18;52;86;120;154;188;222;240;9]%N))
  = Some (str "00FF1001ABCDEF123456789ABCDEF009").
Proof. exact (@nonce_case). Qed.

(** C58 is false: a request with a valid nonce in the form parameter is refused, as
    the form has not been parsed. *)
Theorem C58_form_parameter_refuted : forall (Resp World : Type) (param header tok : bytes),
  exists r,
  alookup param (cl_params r) = Some [tok] /\ ~ safe_method (cl_method r) /\
  forall check add random (h : handler creq Resp (cache * World)) c k w,
  cache_contains k check tok = true ->
  csrf (fun q => q) param header h c (received r check add random) (k, w) = (HReturn None (Some EAccessDenied), (k, w)).
Proof. exact (@form_not_seen). Qed.
Print Assumptions C58_form_parameter_refuted.

(** Every request that has the nonce only in the form parameter is refused. *)
Theorem C58_form_refused_always_refuted : forall (Resp World : Type) (param header : bytes),
  forall r : client_request,
  ~ safe_method (cl_method r) -> hget (cl_headers r) header = [] ->
  forall check add random (h : handler creq Resp (cache * World)) c cw,
  csrf (fun q => q) param header h c (received r check add random) cw = (HReturn None (Some EAccessDenied), cw).
Proof. exact (@form_refused). Qed.
Print Assumptions C58_form_refused_always_refuted.

(** C58, what holds: if something before the middleware has parsed the form, the
    handler runs. *)
Theorem C58_parsed_form_partial : forall (Resp World : Type) (param header tok : bytes) (vs : list bytes) (r : client_request),
  ~ safe_method (cl_method r) -> hget (cl_headers r) header = [] -> alookup param (cl_params r) = Some (tok :: vs) -> tok <> [] ->
  forall check add rnd (h : handler creq Resp (cache * World)) c k w,
  cache_contains k check tok = true ->
  exists k' n, csrf (fun q => q) param header h c (received_parsed r check add (Some rnd)) (k, w) =
    h (Ctx (cx_principal c) (Some n) (cx_token c)) (received_parsed r check add (Some rnd)) (k', w).
Proof. exact (@parsed_form_seen). Qed.
Print Assumptions C58_parsed_form_partial.

(** Case: one request, before and after its form is parsed. *)
Example C58_case :
  let r := Client (str "POST") [(str "Accept", [str "*/*"])] [(str "name", [str "ann"]); (str "_csrf", [tok_of 1; str "x"])] in
  let k := cache_add new_cache 0 (tok_of 1) 100 in
  let h : handler creq (option bytes) (cache * nat) := fun c _ w => (HReturn (Some (cx_nonce c)) None, (fst w, S (snd w))) in
  let run q := csrf (fun q => q) (str "_csrf") (str "X-Csrf-Token") h (Ctx None None None) q (k, 7) in
  ~ safe_method (cl_method r) /\ hget (cl_headers r) (str "X-Csrf-Token") = [] /\ cache_contains k 50 (tok_of 1) = true /\
  run (received r 50 51 (Some (str "0123456789abcdef"))) = (HReturn None (Some EAccessDenied), (k, 7)) /\
  exists k', run (received_parsed r 50 51 (Some (str "0123456789abcdef"))) =
    (HReturn (Some (Some (str "30313233343536373839616263646566"))) None, (k', 8)).
Proof. exact (@parsed_form_case). Qed.

