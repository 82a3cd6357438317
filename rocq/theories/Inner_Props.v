(** * Property C11 for routes with a double star in the middle

    Setting as in Choice_Props. *)
From Coq Require Import List Ascii String NArith.
From Verif Require Import GoBase Glob_Spec Pattern_Model Pattern_Spec Url_Model Url_Spec
  Router_Model Routing_Spec Priority_Spec Witness_Proofs Choice_Spec Inner_Spec InnerRoute_Proofs InnerCases_Proofs.
Import ListNotations.
Local Open Scope string_scope.
Local Open Scope list_scope.

(** C11 is false: once the search has entered a double star in the middle of a
    pattern and the pattern does not match, it gives up, although another route
    without any double star matches and no pattern goes on where the request ends. *)
Theorem C11_some_route_matches_inner_refuted : exists fuel re ci regs r outs mth path ts buf,
  handle_all fuel re (new_router ci) regs = (r, outs) /\ Forall (eq Registered) outs /\
  segments_of path ts /\ List.length buf = 19 /\
  (exists rg ks bs, route_of (re_ok re) ci (combine regs outs) mth rg ks /\ ~ In Any ks /\
     reads_as ci (re_match re) ks ts bs) /\
  (forall rg ks, route_of (re_ok re) ci (combine regs outs) mth rg ks -> List.length ks <= 18 /\ calm_on ci ts ks /\
     not_ended ci (re_match re) (route_of (re_ok re) ci (combine regs outs) mth) ts ks) /\
  exists k, forall f, dispatch_request (k + f) re r mth path buf = NotFound.
Proof. exact (@incomplete_inner). Qed.
Print Assumptions C11_some_route_matches_inner_refuted.

(** C11 with any number of double stars anywhere in the patterns: the request is
    routed to a route that matches if there is one and no pattern leads the search
    astray ([not_stuck], [not_ended]), and gets 404 if there is none.  Missing: the
    requests that these two conditions leave out (they are refuted above and in
    Choice_Props), patterns of 19 and more pieces with an inner double star,
    wildcard texts that may crash, and the restrictions of C10. *)
Theorem C11_inner_double_star_partial : forall fuel re ci regs r outs mth path ts buf,
  handle_all fuel re (new_router ci) regs = (r, outs) ->
  (N.of_nat (List.length regs) < 65536)%N ->
  Forall (fun rg => countable (re_ok re) ci (reg_text rg) /\ plain (re_ok re) ci (reg_text rg)) regs ->
  (blen path < 65536)%N -> segments_of path ts -> List.length buf = 19 ->
  (forall rg ks, route_of (re_ok re) ci (combine regs outs) mth rg ks ->
     (List.length ks <= 18 \/ any_only_last ks) /\ calm_on ci ts ks) ->
  exists k,
    ((exists rg ks bs, route_of (re_ok re) ci (combine regs outs) mth rg ks /\ reads_as ci (re_match re) ks ts bs) ->
     (forall rg ks, route_of (re_ok re) ci (combine regs outs) mth rg ks ->
        not_stuck ci (re_match re) (route_of (re_ok re) ci (combine regs outs) mth) ts ks /\
        not_ended ci (re_match re) (route_of (re_ok re) ci (combine regs outs) mth) ts ks) ->
     exists rg ks bs rec segs, route_of (re_ok re) ci (combine regs outs) mth rg ks /\ reads_as ci (re_match re) ks ts bs /\
       forall f, dispatch_request (k + f) re r mth path buf = Calls (reg_handler rg) rec segs) /\
    ((forall rg ks bs, route_of (re_ok re) ci (combine regs outs) mth rg ks -> ~ reads_as ci (re_match re) ks ts bs) ->
     forall f, dispatch_request (k + f) re r mth path buf = NotFound).
Proof. exact (@inner_routing). Qed.
Print Assumptions C11_inner_double_star_partial.

(** Case: two patterns go through the same double star. *)
Example C11_case_docs : handle_all 100 lit_engine (new_router false) docs = (docs_router, docs_outs) /\
  Forall (fun rg => countable (re_ok lit_engine) false (reg_text rg) /\ plain (re_ok lit_engine) false (reg_text rg)) docs /\
  (N.of_nat (List.length docs) < 65536)%N /\ (blen docs_path < 65536)%N /\ segments_of docs_path docs_ts.
Proof. exact (@docs_registered). Qed.

Example C11_case_docs_routes : forall rg ks, route_of (re_ok lit_engine) false (combine docs docs_outs) GET rg ks ->
  (List.length ks <= 18 \/ any_only_last ks) /\ calm_on false docs_ts ks /\
  not_stuck false (re_match lit_engine) (route_of (re_ok lit_engine) false (combine docs docs_outs) GET) docs_ts ks /\
  not_ended false (re_match lit_engine) (route_of (re_ok lit_engine) false (combine docs docs_outs) GET) docs_ts ks.
Proof. exact (@docs_routes). Qed.

Example C11_case_docs_read : exists bs, reads_as false (re_match lit_engine) docs_2 docs_ts bs.
Proof. exact (@docs_read). Qed.

Example C11_case_docs_served : exists rec segs, dispatch_request 100 lit_engine docs_router GET docs_path zeros = Calls 2 rec segs.
Proof. exact (@docs_served). Qed.

(** C11 for a method with a single route, which may have any number of double
    stars: the request is routed to it exactly if it matches.  Missing: as above,
    but neither of the two conditions. *)
Theorem C11_only_route_partial : forall fuel re ci regs r outs mth path ts buf rg ks,
  handle_all fuel re (new_router ci) regs = (r, outs) ->
  (N.of_nat (List.length regs) < 65536)%N ->
  Forall (fun rg => countable (re_ok re) ci (reg_text rg) /\ plain (re_ok re) ci (reg_text rg)) regs ->
  (blen path < 65536)%N -> segments_of path ts -> List.length buf = 19 ->
  route_of (re_ok re) ci (combine regs outs) mth rg ks ->
  (forall rg' ks', route_of (re_ok re) ci (combine regs outs) mth rg' ks' -> rg' = rg) ->
  List.length ks <= 18 \/ any_only_last ks -> calm_on ci ts ks ->
  exists k,
    ((exists bs, reads_as ci (re_match re) ks ts bs) ->
     exists rec segs, forall f, dispatch_request (k + f) re r mth path buf = Calls (reg_handler rg) rec segs) /\
    ((forall bs, ~ reads_as ci (re_match re) ks ts bs) ->
     forall f, dispatch_request (k + f) re r mth path buf = NotFound).
Proof. exact (@lone_routing). Qed.
Print Assumptions C11_only_route_partial.

(** Case: a route with two double stars and a request with two ways to read it. *)
Example C11_case_files : handle_all 100 lit_engine (new_router false) files = (files_router, [Registered]) /\
  Forall (fun rg => countable (re_ok lit_engine) false (reg_text rg) /\ plain (re_ok lit_engine) false (reg_text rg)) files /\
  (N.of_nat (List.length files) < 65536)%N /\ (blen files_path < 65536)%N /\ segments_of files_path files_ts /\
  route_of (re_ok lit_engine) false (combine files [Registered]) GET (route "/files/**/v/**/x" 1) files_ks /\
  (forall rg' ks', route_of (re_ok lit_engine) false (combine files [Registered]) GET rg' ks' -> rg' = route "/files/**/v/**/x" 1) /\
  List.length files_ks <= 18 /\ calm_on false files_ts files_ks /\
  (exists bs, reads_as false (re_match lit_engine) files_ks files_ts bs).
Proof. exact (@files_registered). Qed.

Example C11_case_files_served : exists rec segs, dispatch_request 100 lit_engine files_router GET files_path zeros = Calls 1 rec segs.
Proof. exact (@files_served). Qed.

