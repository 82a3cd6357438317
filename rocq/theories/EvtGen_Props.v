(** * Properties C105 to C107: the event source of the example *)
From Coq Require Import List NArith ZArith Ascii String Bool Arith.
From Verif Require Import GoBase Resp_Model EvtGen_Model EvtGen_Spec EvtGen_Proofs.
Import ListNotations.
Local Open Scope string_scope.
Local Open Scope list_scope.
Local Open Scope Z_scope.

(** C105 is false: after any run one request with a negative number in Last-Event-Id, other
    than a multiple of the size of the buffer, can end the process. *)
Theorem C105_crash_refuted : forall (P : esys -> eact -> Prop) n l s i last z, runs_with P (esys_new n) l s -> es_crashed s = false ->
  cl_phase (es_clients s i) = POutside -> says_number last z -> z < 0 -> Z.rem z (Z.of_nat n) <> 0 ->
  exists s', erun s [EConnect i last; ELoad i; ECompare i; EFetch i] = Some s' /\ es_crashed s' = true.
Proof. exact (@client_crashes). Qed.
Print Assumptions C105_crash_refuted.

Example C105_case : says_number (str "-1") (-1) /\ Z.rem (-1) (Z.of_nat 10) <> 0 /\
  exists s', erun (esys_new 10) [EConnect 0 (str "-1"); ELoad 0; ECompare 0; EFetch 0] = Some s' /\ es_crashed s' = true.
Proof. exact (@crash_case). Qed.

(** C105, what holds: the process goes on if no number is negative. *)
Theorem C105_lives_partial : forall n l s, (0 < n)%nat -> runs_with (never_from (fun z => z < 0)) (esys_new n) l s -> es_crashed s = false.
Proof. exact (@process_lives). Qed.
Print Assumptions C105_lives_partial.

(** C106 is false: of two clients each one gets a part of the events. *)
Theorem C106_shared_refuted : exists s, erun (esys_new 10) (pushes 1 ++ nexts 0 ++ pushes 1 ++ nexts 1) = Some s /\
  eg_read (es_gen s) = 2 /\ eg_write (es_gen s) = 2 /\ cl_got (es_clients s 0%nat) = [message 1] /\ cl_got (es_clients s 1%nat) = [message 2].
Proof. exact (@events_shared). Qed.
Print Assumptions C106_shared_refuted.

(** C106 is false: two clients can both get the first event, and then nobody the second. *)
Theorem C106_lost_refuted : exists s, erun (esys_new 10) (pushes 2 ++ [ELoad 0; ELoad 1; ECompare 0; ECompare 1; EFetch 0; EFetch 1; EAdvance 0; EAdvance 1]) = Some s /\
  eg_read (es_gen s) = 2 /\ eg_write (es_gen s) = 2 /\ cl_got (es_clients s 0%nat) = [message 1] /\ cl_got (es_clients s 1%nat) = [message 1].
Proof. exact (@event_lost). Qed.
Print Assumptions C106_lost_refuted.

(** C106 is false: a client that is late gets events twice and in a wrong order. *)
Theorem C106_repeated_refuted : exists s, erun (esys_new 10) (pushes 11 ++ List.concat (repeat (nexts 0) 11)) = Some s /\
  cl_got (es_clients s 0%nat) = message 11 :: map message [2; 3; 4; 5; 6; 7; 8; 9; 10] ++ [message 11].
Proof. exact (@events_repeated). Qed.
Print Assumptions C106_repeated_refuted.

(** C106, what holds: a client on its own that is never late by the size of the buffer gets
    all events in order, over any number of connections, and can always get the next one. *)
Theorem C106_one_client_partial : forall n l s, (0 < n)%nat -> runs_with one_client (esys_new n) l s -> eg_write (es_gen s) < 2 ^ 63 ->
  exists k, cl_got (es_clients s 0%nat) = first_events k /\ Z.of_nat k = eg_read (es_gen s) /\ Z.of_nat k <= eg_write (es_gen s) /\
    (es_crashed s = false -> cl_phase (es_clients s 0%nat) = POutside -> Z.of_nat k < eg_write (es_gen s) ->
     eg_write (es_gen s) - Z.of_nat k < Z.of_nat n ->
     exists s', erun s [ELoad 0; ECompare 0; EFetch 0; EAdvance 0] = Some s' /\ cl_got (es_clients s' 0%nat) = first_events (S k)).
Proof. exact (@one_client_served). Qed.
Print Assumptions C106_one_client_partial.

Example C106_case : exists s, runs_with one_client (esys_new 10) demo_run s /\ cl_got (es_clients s 0%nat) = [message 1; message 2].
Proof. exact (@one_client_case). Qed.

(** C107 is false: a request with a number above those of all events keeps all events up to
    that number from all clients. *)
Theorem C107_silenced_refuted : forall s i last M s1 l s2, (forall j, cl_phase (es_clients s j) = POutside) ->
  says_number last M -> edo s (EConnect i last) = Some s1 -> runs_with (never_from (fun _ => True)) s1 l s2 -> eg_write (es_gen s2) <= M ->
  forall j, cl_got (es_clients s2 j) = cl_got (es_clients s j).
Proof. exact (@clients_silenced). Qed.
Print Assumptions C107_silenced_refuted.

Example C107_case : says_number (str "9223372036854775807") 9223372036854775807 /\
  exists s, erun (esys_new 10) (EConnect 1 (str "9223372036854775807") :: pushes 5 ++ [ELoad 0; ECompare 0]) = Some s /\
    eg_write (es_gen s) = 5 /\ cl_got (es_clients s 0%nat) = [].
Proof. exact (@silence_case). Qed.
