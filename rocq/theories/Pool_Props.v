(** * Properties C23, C24 and C53: requests and responses at the same time

    [ls] is any schedule: requests arrive at any time, threads take turns in any order,
    the pools give any of their objects or a new one, the garbage collector empties
    them at any time. *)
From Coq Require Import List NArith ZArith Ascii String Bool Arith.
From Verif Require Import GoBase Glob_Spec Pattern_Model Pattern_Spec Priority_Spec Url_Model Url_Spec Match_Model Router_Model
  Routing_Spec Routing_Proofs Witness_Proofs Resp_Model Pool_Model Pool_Spec
  RoutePool_Model RoutePool_Spec RoutePool_Proofs RouteProc_Proofs RespPool_Model RespPool_Spec RespPool_Proofs PoolCases_Proofs.
Import ListNotations.
Local Open Scope string_scope.
Local Open Scope list_scope.
Local Open Scope nat_scope.

(** C23: for every way to cut routing into single reads and writes, every router and all
    handlers that keep the rule, in every schedule no thread touches a missing object,
    there is no race, and every reading of a variable gives what the own request, routed
    alone on a new buffer, gives. *)
Theorem C23_own_segments : forall fuel re r route code ls,
  routes_as fuel re r route -> (forall q h, careful true (code q h)) -> requests_only route code ls ->
  exists c, steps new_buffer ls start = Some c /\ race_free c /\
    forall q h k name v, In (Saw q h k name v) (cf_log c) ->
      exists rec segs, dispatch_request fuel re r (q_method q) (q_path q) (repeat useg_zero 19) = Calls h rec segs /\
        v = path_var rec (q_path q) segs name.
Proof. exact (@served_together). Qed.
Print Assumptions C23_own_segments.

(** C16 for requests served at the same time: all readings of the variables
    of a request agree with one reading of the request path by the pattern.  Missing: as
    for C10. *)
Theorem C16_concurrent_partial : forall fuel re ci regs r outs f route code ls,
  handle_all fuel re (new_router ci) regs = (r, outs) ->
  Forall (fun rg => countable (re_ok re) ci (reg_text rg) /\ plain (re_ok re) ci (reg_text rg)) regs ->
  routes_as f re r route -> (forall q h, careful true (code q h)) -> requests_only route code ls ->
  exists c, steps new_buffer ls start = Some c /\ race_free c /\
    forall q h ts, (blen (q_path q) < 65536)%N -> segments_of (q_path q) ts ->
      (exists k name v, In (Saw q h k name v) (cf_log c)) ->
      exists mth text ks bs, In ((mth, text, h), Registered) (combine regs outs) /\ same_method mth (q_method q) /\
        pieces_of (re_ok re) ci text ks /\ reads_as ci (re_match re) ks ts bs /\
        forall k name v, In (Saw q h k name v) (cf_log c) ->
          v = Some (match value_of name bs with Some x => x | None => [] end).
Proof. exact (@served_values). Qed.
Print Assumptions C16_concurrent_partial.

(** There is such a way for every router: parsing step by step as in the code, then
    matching. *)
Theorem C23_routing_cut : forall fuel re r,
  routes_as fuel re r (route_proc fuel re r).
Proof. exact (@route_proc_routes). Qed.
Print Assumptions C23_routing_cut.

Example C23_case_rule : forall q h,
  careful true (reader q h).
Proof. exact (@reader_careful). Qed.

Example C23_case_schedule : requests_only (route_proc 100 lit_engine shop_router) reader in_turn /\
  seen (steps new_buffer in_turn start) =
  Some (3, [Saw order42 1 0 (str "id") (Some (str "42")); Over order42;
            Saw order9 1 0 (str "id") (Some (str "9")); Over order9;
            Saw order42 1 1 (str "id") (Some (str "42"))]).
Proof. exact (@in_turn_case). Qed.

Example C23_case_alternating :
  seen (steps new_buffer alternating start) =
  Some (4, [Saw order42 1 0 (str "id") (Some (str "42")); Saw order9 1 0 (str "id") (Some (str "9"));
            Saw order42 1 1 (str "id") (Some (str "42")); Saw order9 1 1 (str "id") (Some (str "9"));
            Over order42; Over order9]).
Proof. exact (@alternating_case). Qed.

(** Without the rule it is false. *)
Example C23_rule_needed : (forall q h, ~ careful true (careless q h)) /\
  seen (steps new_buffer leaked start) = Some (1, [Over order42; Saw order42 1 0 (str "id") (Some (str "4"))]).
Proof. exact (@leaked_case). Qed.

(** C24: a clone gives the same values as the context of the handler, at all times, also
    after the request is over and whatever requests are served then.  The values are
    those of C23.  Case: the last event of [C23_case_schedule]. *)
Theorem C24_clones_agree : forall f re r route code ls,
  routes_as f re r route -> (forall q h, careful true (code q h)) -> requests_only route code ls ->
  exists c, steps new_buffer ls start = Some c /\
    forall q h h' k k' name v v', In (Saw q h k name v) (cf_log c) -> In (Saw q h' k' name v') (cf_log c) -> h = h' /\ v = v'.
Proof. exact (@clones_agree). Qed.
Print Assumptions C24_clones_agree.

(** C53: in every schedule there is no race, and the entries that a response shows are
    exactly those of the own calls on its maps. *)
Theorem C53_own_entries : forall ls,
  programs_only ls ->
  exists c, steps new_map ls start = Some c /\ race_free c /\
    forall hcalls h ccalls k, In (Sent hcalls h ccalls k) (cf_log c) -> own_entries hcalls h /\ own_entries ccalls k.
Proof. exact (@responses_together). Qed.
Print Assumptions C53_own_entries.

(** For all calls and keys the specification says what the entry is. *)
Theorem C53_entries_exist : forall l key,
  exists x, entry_after l key x.
Proof. exact (@entry_total). Qed.
Print Assumptions C53_entries_exist.

Example C53_case_rule : forall key v,
  polite 0 [] [] (page key v).
Proof. exact (@page_polite). Qed.

Example C53_case : programs_only pages /\
  sent_by (steps new_map pages start) = Some (2, [page_sent (str "A") (str "1"); page_sent (str "B") (str "2")]).
Proof. exact (@pages_case). Qed.

(** Without the rule it is false: a map in two responses. *)
Example C53_rule_needed : ~ polite 0 [] [] shared_map /\
  sent_by (steps new_map shared_run start) =
  Some (1, [Sent (Some [SetHeader (str "A") (str "1")]) (Some [(str "A", HeaderValue (str "1"))]) None None;
            Sent (Some [SetHeader (str "A") (str "1")]) (Some [(str "Secret", HeaderValue (str "2"))]) None None]).
Proof. exact (@shared_case). Qed.
