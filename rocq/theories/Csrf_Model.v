(** * Model of the CSRF middleware (middleware/csrf.go). *)
From Coq Require Import List NArith ZArith Ascii String Bool Arith.
From Verif Require Import GoBase Http_Model Cache_Model Auth_Model Chain_Model.
Import ListNotations.
Local Open Scope string_scope.
Local Open Scope list_scope.

(** [CSRFExpirationTime] (csrf.go 20): one hour in nanoseconds, its initial value. *)
Definition csrf_expiration : Z := 3600000000000.

(** What the middleware sees of a request: the method, the headers, and the form,
    which is nil as long as nobody has called [ParseForm].  The results of the calls
    of [time.Now] and of the random source belong to the request: the time of the
    check, the time of the addition, the 16 random bytes or a failure. *)
Record creq := CReq {
  cq_method : bytes;
  cq_headers : hmap;
  cq_form : option (list (bytes * list bytes));
  cq_check : Z;
  cq_add : Z;
  cq_random : option bytes
}.

(** A hexadecimal digit (csrf.go 83-92). *)
Definition hex_digit (n : N) : byte :=
  if (n <? 10)%N then ascii_of_N (48 + n) else ascii_of_N (65 + (n - 10)).

(** [generateNonce] (csrf.go 71-96) on the random bytes. *)
Fixpoint nonce_of (rnd : bytes) : bytes :=
  match rnd with
  | [] => []
  | b :: rnd' =>
      hex_digit (N.shiftr (N.land (code b) 240) 4) :: hex_digit (N.land (code b) 15) :: nonce_of rnd'
  end.
Definition generate_nonce (random : option bytes) : option bytes := option_map nonce_of random.

(** The methods that need no nonce (csrf.go 43-46). *)
Definition skip_check (method : bytes) : bool :=
  beqb method (str "GET") || beqb method (str "HEAD") || beqb method (str "TRACE") || beqb method (str "OPTIONS").

(** The nonce of the request (csrf.go 48-51). *)
Definition previous_nonce (param header : bytes) (q : creq) : bytes :=
  let h := hget (cq_headers q) header in
  if beqb h [] then vget (cq_form q) param else h.

(** The error of a failed random source (csrf.go 77). *)
Definition nonce_failure : err := EOther (str "failed to generate nonce").

(** How the middleware ends without the handler, or the nonce it issues. *)
Inductive cgate := Refused | NoNonce | Issued (nonce : bytes).

(** The part before the handler (csrf.go 43-65): the cache afterwards and the
    outcome.  The cache does not fail. *)
Definition csrf_gate (param header : bytes) (c : cache) (q : creq) : cache * cgate :=
  let checked :=
    if skip_check (cq_method q) then Some c
    else
      let n := previous_nonce param header q in
      if beqb n [] || negb (cache_contains c (cq_check q) n) then None
      else Some (cache_remove c n) in
  match checked with
  | None => (c, Refused)
  | Some c1 =>
      match generate_nonce (cq_random q) with
      | None => (c1, NoNonce)
      | Some n => (cache_add c1 (cq_add q) n csrf_expiration, Issued n)
      end
  end.

Section Csrf.
Variables Req Resp World : Type.

(** What the middleware sees of a request of the application. *)
Variable view : Req -> creq.

(** [CSRFPreventionWithCustomParamAndHeaderName] (csrf.go 40-69).  The world holds the
    cache beside everything else. *)
Definition csrf (param header : bytes) : middleware Req Resp (cache * World) :=
  fun h c q cw =>
    let (c', g) := csrf_gate param header (fst cw) (view q) in
    match g with
    | Refused => (HReturn None (Some EAccessDenied), (c', snd cw))
    | NoNonce => (HReturn None (Some nonce_failure), (c', snd cw))
    | Issued n => h (with_nonce c n) q (c', snd cw)
    end.
End Csrf.
Arguments csrf {Req Resp World}.

(** Requests handled one after the other, with the outcomes. *)
Fixpoint serve_in_turn {Req Resp World : Type} (h : handler Req Resp World) (c : ctx) (qs : list Req) (w : World)
  : World * list (hout Resp) :=
  match qs with
  | [] => (w, [])
  | q :: qs' =>
      let (o, w1) := h c q w in
      let (w2, os) := serve_in_turn h c qs' w1 in
      (w2, o :: os)
  end.

(** ** Concurrent requests

    The cache calls of requests handled at the same time can come in any order; each
    single call is atomic (the in-memory cache has no lock of its own). *)

(** Where a request is: before the check, between check and removal, before the
    addition with the new nonce, refused, without a nonce, in its handler. *)
Inductive cpc := AtStart | AtRemove (n : bytes) | AtAdd (n : bytes) | AtRefused | AtFailure | AtHandler (n : bytes).

(** One step of a request (csrf.go 52, 55, 62); the random bytes are drawn when the
    check is over. *)
Definition draw (q : creq) : cpc :=
  match generate_nonce (cq_random q) with Some n => AtAdd n | None => AtFailure end.
Definition csrf_step (param header : bytes) (c : cache) (q : creq) (pc : cpc) : cache * cpc :=
  match pc with
  | AtStart =>
      if skip_check (cq_method q) then (c, draw q)
      else
        let n := previous_nonce param header q in
        if beqb n [] || negb (cache_contains c (cq_check q) n) then (c, AtRefused) else (c, AtRemove n)
  | AtRemove n => (cache_remove c n, draw q)
  | AtAdd n => (cache_add c (cq_add q) n csrf_expiration, AtHandler n)
  | _ => (c, pc)
  end.

(** All requests with their places, and a schedule: the numbers of the requests that
    make the next steps. *)
Definition cthreads := list (creq * cpc).
Fixpoint csrf_run (param header : bytes) (c : cache) (ts : cthreads) (schedule : list nat) : cache * cthreads :=
  match schedule with
  | [] => (c, ts)
  | i :: rest =>
      match nth_error ts i with
      | None => csrf_run param header c ts rest
      | Some (q, pc) =>
          let (c', pc') := csrf_step param header c q pc in
          csrf_run param header c' (firstn i ts ++ (q, pc') :: skipn (S i) ts) rest
      end
  end.
