(** * Properties C103 and C104: event streams over time *)
From Coq Require Import List NArith ZArith Ascii String Bool.
From Verif Require Import GoBase Resp_Model Stream_Model Stream_Spec Stream_Proofs.
Import ListNotations.
Local Open Scope string_scope.
Local Open Scope list_scope.

(** C103: the events that the generator gave are written in order, all but at most the last
    one, for every generator and every order of steps. *)
Theorem C103_order : forall g last ls s, sruns (begin g last) ls s -> exists rest, given ls = written ls ++ rest /\ List.length rest <= 1 /\
  (sm_write s = WWait -> rest = []).
Proof. exact (@stream_order). Qed.
Print Assumptions C103_order.

(** C103: when the client has left nothing is written, and at most one more event is taken
    from the generator. *)
Theorem C103_left : forall g last before after s, sruns (begin g last) (before ++ LLeave :: after) s ->
  written after = [] /\ List.length (given after) <= 1.
Proof. exact (@stream_left). Qed.
Print Assumptions C103_left.

(** C103: when the loop is over nothing is written or taken. *)
Theorem C103_over : forall g last before after s, sruns (begin g last) (before ++ LEnd :: after) s ->
  written after = [] /\ given after = [].
Proof. exact (@stream_over). Qed.
Print Assumptions C103_over.

(** Case: two events, the client leaves after the second was given. *)
Example C103_case : let e1 := Event (str "message") (str "1") [str "a"] 0 in let e2 := Event (str "message") (str "2") [str "b"] 0 in
  exists s, sruns (begin ticking []) [LOwn; LGive e1; LWrite e1; LOwn; LGive e2; LLeave; LOwn; LEnd; LClose] s /\ sm_gen s = TEnded.
Proof. exact (@stream_case). Qed.

(** C104 is false: with a generator that gives nothing the request never ends, whether or
    not the client has left. *)
Theorem C104_mute_refuted : (exists g, mute g) /\ forall g last ls s, mute g -> sruns (begin g last) ls s -> sm_write s = WWait /\ ~ In LEnd ls.
Proof. exact (@mute_request). Qed.
Print Assumptions C104_mute_refuted.

(** C104 is false of the example: after any events the client can leave so that the request
    ends and the goroutine stays at its send for ever. *)
Theorem C104_leak_refuted : forall es e last, exists ls s, sruns (begin ticking last) ls s /\ written ls = es /\
  sm_done s = true /\ sm_write s = WEnd /\ forall ls2 s2, sruns s ls2 s2 -> sm_gen s2 = TSend e.
Proof. exact (@ticking_leaks). Qed.
Print Assumptions C104_leak_refuted.

(** C104, what holds: when the client has left, one more event, or the end of the channel,
    ends the loop at its next step. *)
Theorem C104_next_partial : forall g (s : stream g), sm_done s = true -> (exists e, sm_write s = WGot e) \/ (sm_write s = WWait /\ sm_closed s = true) ->
  (exists s', sstep s LEnd s' /\ sm_write s' = WEnd) /\
  forall l s', sstep s l s' -> sm_write s' = WEnd \/
    (sm_done s' = true /\ ((exists e, sm_write s' = WGot e) \/ (sm_write s' = WWait /\ sm_closed s' = true))).
Proof. exact (@next_ends). Qed.
Print Assumptions C104_next_partial.

(** C104, what holds: if the generator gives up sending when the context is done, request
    and goroutine can always end and stop only when both have ended. *)
Theorem C104_polite_partial : forall last ls s, sruns (begin polite last) ls s -> sm_done s = true ->
  (exists ls2 s2, sruns s ls2 s2 /\ sm_write s2 = WEnd /\ sm_gen s2 = TEnded) /\
  ((forall l s', ~ sstep s l s') -> sm_write s = WEnd /\ sm_gen s = TEnded).
Proof. exact (@polite_ends). Qed.
Print Assumptions C104_polite_partial.

(** C104, the other side: the stream of the example does not end as long as its client is
    there, but for a write that fails. *)
Theorem C104_open_partial : forall last ls s, sruns (begin ticking last) ls s -> ~ In LLeave ls ->
  sm_closed s = false /\ ~ In LClose ls /\ (sm_write s = WEnd -> exists e, given ls = written ls ++ [e]).
Proof. exact (@ticking_open). Qed.
Print Assumptions C104_open_partial.

Example C104_case : let e := Event (str "message") (str "1") [str "a"] 0 in
  exists s, sruns (begin ticking []) [LOwn; LGive e; LOwn; LEnd] s /\ sm_write s = WEnd.
Proof. exact (@ticking_open_case). Qed.
