(** * Property C92: goroutines that share an in-memory cache *)
From Coq Require Import List NArith ZArith Ascii String Bool Arith.
From Verif Require Import GoBase Http_Model Cache_Model Csrf_Model Csrf_Spec Csrf_Proofs CacheRace_Model CacheRace_Spec CacheRace_Proofs.
Import ListNotations.
Local Open Scope string_scope.
Local Open Scope list_scope.
Local Open Scope nat_scope.

(** C92 is false: any two requests that change nothing can end the process, when they add
    their nonces at the same time. *)
Theorem C92_crash_refuted : forall param header c qs i j q1 q2 r1 r2,
  i <> j -> nth_error qs i = Some q1 -> nth_error qs j = Some q2 ->
  safe_method (cq_method q1) -> safe_method (cq_method q2) -> cq_random q1 = Some r1 -> cq_random q2 = Some r2 ->
  csrf_race param header c qs [i; j; i; j] = Fatal.
Proof. exact (@csrf_adds_clash). Qed.
Print Assumptions C92_crash_refuted.

(** C92 is false too for a request that carries any nonce while another one adds its own. *)
Theorem C92_read_refuted : forall param header c qs i j q1 q2 r1 tok,
  c <> [] -> i <> j -> nth_error qs i = Some q1 -> nth_error qs j = Some q2 ->
  safe_method (cq_method q1) -> cq_random q1 = Some r1 -> ~ safe_method (cq_method q2) -> carries param header q2 tok ->
  csrf_race param header c qs [i; i; j] = Fatal.
Proof. exact (@csrf_read_clash). Qed.
Print Assumptions C92_read_refuted.

(** Case: two visits in two interleavings. *)
Example C92_case : csrf_race (str "_csrf") (str "X-Csrf-Token") new_cache [Csrf_Proofs.get_req 1 0; Csrf_Proofs.get_req 2 0] [0; 1; 0; 1] = Fatal /\
  exists s, csrf_race (str "_csrf") (str "X-Csrf-Token") new_cache [Csrf_Proofs.get_req 1 0; Csrf_Proofs.get_req 2 0] [0; 1; 0; 0; 1; 1] = Running s /\
    map fst (rs_map s) = [Csrf_Proofs.tok_of 2; Csrf_Proofs.tok_of 1] /\
    map fst (rs_routines s) = [(Csrf_Proofs.get_req 1 0, AtHandler (Csrf_Proofs.tok_of 1)); (Csrf_Proofs.get_req 2 0, AtHandler (Csrf_Proofs.tok_of 2))].
Proof. exact (@race_case). Qed.

(** Case: a forged request during a visit, and two forged requests. *)
Example C92_case_read : csrf_race (str "_csrf") (str "X-Csrf-Token") [(str "old", 7%Z)]
  [Csrf_Proofs.get_req 1 0; Csrf_Proofs.post_req (str "x") 2 0] [0; 0; 1] = Fatal /\
  exists s, csrf_race (str "_csrf") (str "X-Csrf-Token") [(str "old", 7%Z)]
    [Csrf_Proofs.post_req (str "x") 1 0; Csrf_Proofs.post_req (str "y") 2 0] [0; 1; 0; 1] = Running s /\
    map (fun t => snd (fst t)) (rs_routines s) = [AtRefused; AtRefused].
Proof. exact (@race_read_case). Qed.

(** C92, exactly when it fails: the process ends when a call on the cache begins while
    another one is changing the cache, and only then. *)
Theorem C92_exactly_partial : forall param header c qs sched,
  csrf_race param header c qs sched = Fatal <->
  exists before i after s, sched = before ++ i :: after /\ csrf_race param header c qs before = Running s /\
    clash (csrf_next param header) s i.
Proof. exact (@csrf_fatal_iff). Qed.
Print Assumptions C92_exactly_partial.

(** C92, what holds: nothing happens as long as the calls do not overlap. *)
Theorem C92_alone_partial : forall param header c qs sched,
  (forall before i after s j, sched = before ++ i :: after -> csrf_race param header c qs before = Running s ->
     in_call (csrf_next param header) s j -> j = i) ->
  exists s, csrf_race param header c qs sched = Running s.
Proof. exact (@csrf_alone_safe). Qed.
Print Assumptions C92_alone_partial.

(** C92, what holds: requests with unknown nonces alone, in any number and order, do not
    end the process and do not pass. *)
Theorem C92_forged_partial : forall param header c qs sched,
  (forall q, In q qs -> ~ safe_method (cq_method q) /\
     forall tok, carries param header q tok -> cache_contains c (cq_check q) tok = false) ->
  exists s, csrf_race param header c qs sched = Running s /\ rs_map s = c /\
    forall i q pc b, nth_error (rs_routines s) i = Some ((q, pc), b) -> pc = AtStart \/ pc = AtRefused.
Proof. exact (@forged_alive). Qed.
Print Assumptions C92_forged_partial.

(** C92, what holds: as long as the process lives, the requests behave as if each call on
    the cache were one step. *)
Theorem C92_one_step_partial : forall param header c qs sched s,
  csrf_race param header c qs sched = Running s ->
  exists sched', csrf_run param header c (map (fun q => (q, AtStart)) qs) sched' = (rs_map s, map fst (rs_routines s)).
Proof. exact (@csrf_race_atomic). Qed.
Print Assumptions C92_one_step_partial.

(** C92, so who passes carries an issued nonce that has not expired. *)
Theorem C92_issued_partial : forall param header qs sched s,
  csrf_race param header new_cache qs sched = Running s ->
  forall i t tok, nth_error (map fst (rs_routines s)) i = Some t -> past_check param header t tok ->
    issued (map fst (rs_routines s)) (cq_check (fst t)) tok.
Proof. exact (@csrf_race_issued). Qed.
Print Assumptions C92_issued_partial.
