(** * What is claimed about requests served at the same time *)
From Coq Require Import List NArith Bool Arith.
From Verif Require Import GoBase Pattern_Model Url_Model Match_Model Router_Model Pool_Model RoutePool_Model.
Import ListNotations.
Local Open Scope list_scope.

(** A way to cut routing into reads and writes: alone on a new buffer it decides like
    [dispatch_request] and leaves the segments at the front of the buffer. *)
Definition routes_as (fuel : nat) (re : engine) (r : router) (route : request -> proc dispatch) : Prop :=
  forall q, exists o b,
    run (route q) (new_buffer 0) = (o, b) /\ List.length b = 19 /\
    match dispatch_request fuel re r (q_method q) (q_path q) (new_buffer 0), o with
    | ServeCrash, None => True
    | ServeCrash, Some _ => False
    | d, o => o = Some d
    end /\
    forall h rec segs, o = Some (Calls h rec segs) -> firstn (List.length segs) b = segs.

(** The rule for handlers (goroutines work on clones): a goroutine does not
    use the matching context of the handler. *)
Fixpoint careful (own : bool) (p : hproc) : Prop :=
  match p with
  | HDone => True
  | HVar c _ k => (c = 0 -> own = true) /\ forall b, careful own (k b)
  | HClone c k => (c = 0 -> own = true) /\ careful own k
  | HAsk k => forall x, careful own (k x)
  | HGo g k => careful false g /\ careful own k
  end.

(** Any number of requests, arriving at any time. *)
Definition requests_only (route : request -> proc dispatch) (code : request -> nat -> hproc)
    (ls : list (label (list useg) (option useg) event)) : Prop :=
  forall p, In (Begin p) ls -> exists q, p = serve_thread route code q.
