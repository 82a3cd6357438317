(** * What the cache, the nonces and the CSRF middleware should do. *)
From Coq Require Import List NArith ZArith Ascii String Bool Arith.
From Verif Require Import GoBase Http_Model Cache_Model Auth_Model Chain_Model Csrf_Model.
Import ListNotations.
Local Open Scope string_scope.
Local Open Scope list_scope.
Local Open Scope nat_scope.

(** ** The cache *)

(** A call that adds or removes the key. *)
Definition touches (k : bytes) (op : ccall) : Prop :=
  match op with
  | CAdd _ k' _ => k' = k
  | CRemove k' => k' = k
  | CContains _ _ => False
  end.

(** The latest call on the key was an addition that has not expired. *)
Definition live (ops : list ccall) (now : Z) (k : bytes) : Prop :=
  exists before t d after, ops = before ++ CAdd t k d :: after /\
    (forall op, In op after -> ~ touches k op) /\ (now < t + d)%Z.

(** ** Nonces *)

(** Decoding of upper case hexadecimal digits. *)
Definition hex_value (c : byte) : option N :=
  let n := code c in
  if ((48 <=? n) && (n <=? 57))%N then Some (n - 48)%N
  else if ((65 <=? n) && (n <=? 70))%N then Some (n - 55)%N
  else None.
Fixpoint hex_decode (s : bytes) : option bytes :=
  match s with
  | [] => Some []
  | x :: y :: s' =>
      match hex_value x, hex_value y, hex_decode s' with
      | Some a, Some b, Some r => Some (ascii_of_N (16 * a + b) :: r)
      | _, _, _ => None
      end
  | [_] => None
  end.

(** ** The middleware *)

(** What happened with a request: refused, let through but failed for lack of random
    bytes, or its handler ran with the new nonce. *)
Inductive cevent := EvRefused | EvNoNonce | EvRan (nonce : bytes).

(** The methods that change nothing. *)
Definition safe_method (m : bytes) : Prop :=
  m = str "GET" \/ m = str "HEAD" \/ m = str "TRACE" \/ m = str "OPTIONS".

(** The nonce a request carries: in the header, or else as a form parameter. *)
Definition carries (param header : bytes) (q : creq) (tok : bytes) : Prop :=
  tok <> [] /\
  (hget (cq_headers q) header = tok \/
   hget (cq_headers q) header = [] /\ exists form vs, cq_form q = Some form /\ alookup param form = Some (tok :: vs)).

(** Request number k of a history used the nonce up. *)
Definition uses (param header : bytes) (qs : list creq) (evs : list cevent) (k : nat) (tok : bytes) : Prop :=
  exists q e, nth_error qs k = Some q /\ nth_error evs k = Some e /\ e <> EvRefused /\
    ~ safe_method (cq_method q) /\ carries param header q tok.

(** The nonce was issued by an earlier request, less than an hour before the time
    [now], and after that neither issued again nor used. *)
Definition fresh (param header : bytes) (qs : list creq) (evs : list cevent) (i : nat) (now : Z) (tok : bytes) : Prop :=
  exists j qj, j < i /\ nth_error qs j = Some qj /\ nth_error evs j = Some (EvRan tok) /\
    (now < cq_add qj + 3600000000000)%Z /\
    forall k, j < k < i -> nth_error evs k <> Some (EvRan tok) /\ ~ uses param header qs evs k tok.

(** Request number i may pass. *)
Definition admitted (param header : bytes) (qs : list creq) (evs : list cevent) (i : nat) (q : creq) : Prop :=
  safe_method (cq_method q) \/
  exists tok, carries param header q tok /\ fresh param header qs evs i (cq_check q) tok.

(** The events of a history of requests are the right ones. *)
Definition csrf_history (param header : bytes) (qs : list creq) (evs : list cevent) : Prop :=
  List.length evs = List.length qs /\
  forall i q e, nth_error qs i = Some q -> nth_error evs i = Some e ->
    match e with
    | EvRefused => ~ admitted param header qs evs i q
    | EvNoNonce => admitted param header qs evs i q /\ cq_random q = None
    | EvRan n => admitted param header qs evs i q /\ exists rnd, cq_random q = Some rnd /\ hex_decode n = Some rnd
    end.

(** The visible effect of events: only requests with [EvRan] reach their handler,
    which finds the nonce in its context. *)
Fixpoint run_events {Req Resp World : Type} (h : handler Req Resp World) (c : ctx) (qs : list Req) (evs : list cevent)
  (w : World) : World * list (hout Resp) :=
  match qs, evs with
  | q :: qs', ev :: evs' =>
      let (o, w1) :=
        match ev with
        | EvRefused => (HReturn None (Some EAccessDenied), w)
        | EvNoNonce => (HReturn None (Some (EOther (str "failed to generate nonce"))), w)
        | EvRan n => h (Ctx (cx_principal c) (Some n) (cx_token c)) q w
        end in
      let (w2, os) := run_events h c qs' evs' w1 in
      (w2, o :: os)
  | _, _ => (w, [])
  end.

(** A handler of the application: it does not use the cache of the nonces. *)
Definition beside_cache {Req Resp World : Type} (h : handler Req Resp World) : handler Req Resp (cache * World) :=
  fun c q cw => let (o, w') := h c q (snd cw) in (o, (fst cw, w')).

(** ** Concurrent requests *)

(** The request is past the check (and needed one): with the nonce it carried. *)
Definition past_check (param header : bytes) (t : creq * cpc) (tok : bytes) : Prop :=
  ~ safe_method (cq_method (fst t)) /\ carries param header (fst t) tok /\
  match snd t with AtAdd _ | AtFailure | AtHandler _ => True | _ => False end.

(** All requests are at their beginning. *)
Definition all_start (ts : cthreads) : Prop := forall i q pc, nth_error ts i = Some (q, pc) -> pc = AtStart.

(** A request issued the nonce for longer than the given time and runs its handler. *)
Definition issued (ts : cthreads) (now : Z) (tok : bytes) : Prop :=
  exists j q, nth_error ts j = Some (q, AtHandler tok) /\ (now < cq_add q + 3600000000000)%Z.

(** At most one request draws the nonce. *)
Definition drawn_once (tok : bytes) (ts : cthreads) : Prop := forall i j p q,
  nth_error ts i = Some p -> nth_error ts j = Some q ->
  generate_nonce (cq_random (fst p)) = Some tok -> generate_nonce (cq_random (fst q)) = Some tok -> i = j.

(** The schedule lets each request that has passed the check do its removal at once. *)
Fixpoint atomic_checks (param header : bytes) (c : cache) (ts : cthreads) (schedule : list nat) : Prop :=
  match schedule with
  | [] => True
  | i :: rest =>
      let (c', ts') := csrf_run param header c ts [i] in
      (forall q n, nth_error ts' i = Some (q, AtRemove n) ->
         nth_error rest 0 = Some i) /\
      atomic_checks param header c' ts' rest
  end.

(** ** The form of a request *)

(** A request as the client sends it, with its form parameters, and as the middleware
    sees it: [net/http] leaves the form nil until [ParseForm] is called. *)
Record client_request := Client {
  cl_method : bytes;
  cl_headers : hmap;
  cl_params : list (bytes * list bytes)
}.
Definition received (r : client_request) (check add : Z) (random : option bytes) : creq :=
  CReq (cl_method r) (cl_headers r) None check add random.
Definition received_parsed (r : client_request) (check add : Z) (random : option bytes) : creq :=
  CReq (cl_method r) (cl_headers r) (Some (cl_params r)) check add random.
