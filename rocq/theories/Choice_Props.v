(** * Properties C11 to C14: which route answers

    Setting as in Routing_Props: handlers are registered with [handle_all] on a
    new router, then a request is routed with [dispatch_request]. *)
From Coq Require Import List Ascii String NArith Permutation.
From Verif Require Import GoBase Glob_Spec Pattern_Model Pattern_Spec Priority_Spec Url_Model Url_Spec
  Router_Model Routing_Spec Routing_Proofs Witness_Proofs Choice_Spec Choice_Proofs ChoiceWitness_Proofs Many_Proofs.
Import ListNotations.
Local Open Scope string_scope.
Local Open Scope list_scope.

(** C11 is false: a request that ends in the middle of a longer pattern is
    answered with 404 although another route matches, without any [**]. *)
Theorem C11_some_route_matches_refuted : exists fuel re ci regs r outs mth path ts buf,
  handle_all fuel re (new_router ci) regs = (r, outs) /\ Forall (eq Registered) outs /\
  segments_of path ts /\ List.length buf = 19 /\
  (exists rg ks bs, route_of (re_ok re) ci (combine regs outs) mth rg ks /\ reads_as ci (re_match re) ks ts bs) /\
  (forall rg ks, route_of (re_ok re) ci (combine regs outs) mth rg ks -> ~ In Any ks) /\
  exists k, forall f, dispatch_request (k + f) re r mth path buf = NotFound.
Proof. exact incomplete_prefix. Qed.
Print Assumptions C11_some_route_matches_refuted.

(** C11 is false: a route that ends with [**] is lost once a longer pattern goes
    through the same [**]. *)
Theorem C11_some_route_matches_any_refuted : exists fuel re ci regs r outs mth path ts buf,
  handle_all fuel re (new_router ci) regs = (r, outs) /\ Forall (eq Registered) outs /\
  segments_of path ts /\ List.length buf = 19 /\
  (exists rg ks bs, route_of (re_ok re) ci (combine regs outs) mth rg ks /\ any_only_last ks /\
     reads_as ci (re_match re) ks ts bs) /\
  exists k, forall f, dispatch_request (k + f) re r mth path buf = NotFound.
Proof. exact incomplete_any. Qed.
Print Assumptions C11_some_route_matches_any_refuted.

(** C11 is false: 65536 routes that are one literal piece each, or a multiple of that, are
    all registered, and every request is answered with 404. *)
Theorem C11_many_routes_refuted : forall fuel re mth names (h : bytes -> nat),
  0 < fuel -> NoDup names -> Forall (fun n => reads n (Lit n) /\ ~ In "/"%char n) names -> names <> [] ->
  (N.of_nat (List.length names) mod 65536 = 0)%N ->
  let regs := map (fun n => (mth, "/"%char :: n, h n)) names in
  exists r outs, handle_all fuel re (new_router false) regs = (r, outs) /\ Forall (eq Registered) outs /\
    (forall n, In n names -> route_of (re_ok re) false (combine regs outs) mth (mth, "/"%char :: n, h n) [Lit n] /\
       reads_as false (re_match re) [Lit n] [n] []) /\
    forall mth' path buf f, List.length buf = 19 -> dispatch_request (S f) re r mth' path buf = NotFound.
Proof. exact many_routes. Qed.
Print Assumptions C11_many_routes_refuted.

Example C11_many_case : exists names, NoDup names /\ Forall (fun n => reads n (Lit n) /\ ~ In "/"%char n) names /\ names <> [] /\
  (N.of_nat (List.length names) = 65536)%N /\ In (str "abababababababab") names /\ segments_of (str "/abababababababab") [str "abababababababab"].
Proof. exact many_case. Qed.

(** C11, what holds: the request is routed if and only if a route matches.
    Missing: routes with an inner [**], requests that end in the middle of a
    pattern where a route with a last piece of a worse kind, or of the same kind
    but another text, is the one that matches ([not_cut] says when this is not so),
    wildcard texts that may crash, and the restrictions of C10. *)
Theorem C11_some_route_matches_partial : forall fuel re ci regs r outs mth path ts buf,
  handle_all fuel re (new_router ci) regs = (r, outs) ->
  (N.of_nat (List.length regs) < 65536)%N ->
  Forall (fun rg => countable (re_ok re) ci (reg_text rg) /\ plain (re_ok re) ci (reg_text rg)) regs ->
  (blen path < 65536)%N -> segments_of path ts -> List.length buf = 19 ->
  (forall rg ks, route_of (re_ok re) ci (combine regs outs) mth rg ks ->
     any_only_last ks /\ calm_on ci ts ks /\ not_cut ci (re_match re) (route_of (re_ok re) ci (combine regs outs) mth) ts ks) ->
  exists k,
    ((exists rg ks bs, route_of (re_ok re) ci (combine regs outs) mth rg ks /\ reads_as ci (re_match re) ks ts bs) ->
     exists h rec segs, forall f, dispatch_request (k + f) re r mth path buf = Calls h rec segs) /\
    ((forall rg ks bs, route_of (re_ok re) ci (combine regs outs) mth rg ks -> ~ reads_as ci (re_match re) ks ts bs) ->
     forall f, dispatch_request (k + f) re r mth path buf = NotFound).
Proof. exact complete_routing. Qed.
Print Assumptions C11_some_route_matches_partial.

(** Case for C11, C12 and C13: four routes, three of them match the request. *)
Example C11_case_router : handle_all 100 lit_engine (new_router false) mall = (mall_router, mall_outs) /\
  handle_all 100 lit_engine (new_router false) mall_back = (mall_back_router, mall_outs) /\
  Forall (eq Registered) mall_outs /\ Permutation mall mall_back /\ (N.of_nat (List.length mall) < 65536)%N /\
  (blen mall_path < 65536)%N.
Proof. exact mall_registered. Qed.

Example C11_case_routes : Forall (fun rg => countable (re_ok lit_engine) false (reg_text rg) /\ plain (re_ok lit_engine) false (reg_text rg)) mall.
Proof. exact mall_fine. Qed.

Example C11_case_path : segments_of mall_path mall_ts.
Proof. exact mall_segments. Qed.

Example C11_case_pieces : forall rg ks, route_of (re_ok lit_engine) false (combine mall mall_outs) GET rg ks ->
  List.length ks <= 19 /\ any_only_last ks /\ calm_on false mall_ts ks /\ 
  not_cut false (re_match lit_engine) (route_of (re_ok lit_engine) false (combine mall mall_outs) GET) mall_ts ks.
Proof. exact mall_routes. Qed.

Example C11_case_matching : exists bs1 bs2 bs3,
  reads_as false (re_match lit_engine) [Lit (str "api"); Var (str "v"); Lit (str "items"); Constrained (str "id") (str "7")] mall_ts bs1 /\
  reads_as false (re_match lit_engine) [Lit (str "api"); Glob (str "v?"); Lit (str "items"); Var (str "id")] mall_ts bs2 /\
  reads_as false (re_match lit_engine) [Lit (str "api"); Glob (str "v?"); Any] mall_ts bs3.
Proof. exact mall_reads. Qed.

(** Second case: two patterns go on where the request ends, and a third one that
    shares no beginning with the routes that match. *)
Example C11_case_town : handle_all 100 lit_engine (new_router false) town = (town_router, town_outs) /\
  handle_all 100 lit_engine (new_router false) (rev town) = (town_back_router, town_outs) /\
  Forall (eq Registered) town_outs /\
  Forall (fun rg => countable (re_ok lit_engine) false (reg_text rg) /\ plain (re_ok lit_engine) false (reg_text rg)) town /\
  segments_of town_path town_ts /\
  (forall rg ks, route_of (re_ok lit_engine) false (combine town town_outs) GET rg ks ->
    List.length ks <= 19 /\ any_only_last ks /\ calm_on false town_ts ks /\
    not_cut false (re_match lit_engine) (route_of (re_ok lit_engine) false (combine town town_outs) GET) town_ts ks) /\
  exists rec segs, dispatch_request 100 lit_engine town_router GET town_path zeros = Calls 1 rec segs.
Proof. exact town_case. Qed.

(** Third case: a router that ignores letter case, with a constraint that is the text of
    another piece. *)
Example C11_case_nested : handle_all 100 lit_engine (new_router true) nested = (nested_router, nested_outs) /\
  Forall (eq Registered) nested_outs /\
  Forall (fun rg => countable (re_ok lit_engine) true (reg_text rg) /\ plain (re_ok lit_engine) true (reg_text rg)) nested /\
  segments_of nested_path nested_ts /\
  (forall rg ks, route_of (re_ok lit_engine) true (combine nested nested_outs) GET rg ks ->
    any_only_last ks /\ calm_on true nested_ts ks /\
    not_cut true (re_match lit_engine) (route_of (re_ok lit_engine) true (combine nested nested_outs) GET) nested_ts ks) /\
  (exists rg ks bs, route_of (re_ok lit_engine) true (combine nested nested_outs) GET rg ks /\
     reads_as true (re_match lit_engine) ks nested_ts bs) /\
  exists rec segs, dispatch_request 100 lit_engine nested_router GET nested_path zeros = Calls 2 rec segs.
Proof. exact nested_case. Qed.

(** C12 is false: of two wildcard texts that accept the same segment, the one
    whose first registered pattern ranks better is tried first with all patterns
    below it. *)
Theorem C12_most_specific_refuted : exists fuel re ci regs r outs mth path ts buf rec segs rg ks bs rg2 ks2 bs2,
  handle_all fuel re (new_router ci) regs = (r, outs) /\ Forall (eq Registered) outs /\
  segments_of path ts /\ List.length buf = 19 /\ NoDup (map reg_handler regs) /\
  route_of (re_ok re) ci (combine regs outs) mth rg ks /\ reads_as ci (re_match re) ks ts bs /\
  (exists k, forall f, dispatch_request (k + f) re r mth path buf = Calls (reg_handler rg) rec segs) /\
  route_of (re_ok re) ci (combine regs outs) mth rg2 ks2 /\ reads_as ci (re_match re) ks2 ts bs2 /\
  more_specific ks2 ks.
Proof. exact less_specific_chosen. Qed.
Print Assumptions C12_most_specific_refuted.

(** C12, what holds: no route that matches the request is more specific than the
    chosen one.  Missing: matching routes that differ in a wildcard text after equal kinds, and
    the restrictions of C11. *)
Theorem C12_most_specific_partial : forall fuel re ci regs r outs mth path ts buf f h rec segs,
  handle_all fuel re (new_router ci) regs = (r, outs) ->
  (N.of_nat (List.length regs) < 65536)%N ->
  Forall (fun rg => countable (re_ok re) ci (reg_text rg) /\ plain (re_ok re) ci (reg_text rg)) regs ->
  (blen path < 65536)%N -> segments_of path ts -> List.length buf = 19 ->
  (forall rg ks, route_of (re_ok re) ci (combine regs outs) mth rg ks ->
     List.length ks <= 19 /\ any_only_last ks /\ calm_on ci ts ks /\ not_cut ci (re_match re) (route_of (re_ok re) ci (combine regs outs) mth) ts ks) ->
  (forall rg1 ks1 bs1 rg2 ks2 bs2, route_of (re_ok re) ci (combine regs outs) mth rg1 ks1 ->
     route_of (re_ok re) ci (combine regs outs) mth rg2 ks2 ->
     reads_as ci (re_match re) ks1 ts bs1 -> reads_as ci (re_match re) ks2 ts bs2 -> same_globs ci ks1 ks2) ->
  dispatch_request f re r mth path buf = Calls h rec segs ->
  exists rg ks bs, route_of (re_ok re) ci (combine regs outs) mth rg ks /\ reg_handler rg = h /\
    reads_as ci (re_match re) ks ts bs /\
    (forall name, path_var rec path segs name = Some (match value_of name bs with Some v => v | None => [] end)) /\
    forall rg2 ks2 bs2, route_of (re_ok re) ci (combine regs outs) mth rg2 ks2 ->
      reads_as ci (re_match re) ks2 ts bs2 -> ~ more_specific ks2 ks.
Proof. exact specific_routing. Qed.
Print Assumptions C12_most_specific_partial.

(** C13 is false: the same three routes in another order choose another route. *)
Theorem C13_order_irrelevant_refuted : exists fuel re ci regs r outs regs' r' outs' mth path ts buf h rec segs h' rec' segs',
  handle_all fuel re (new_router ci) regs = (r, outs) /\ handle_all fuel re (new_router ci) regs' = (r', outs') /\
  Permutation regs regs' /\ Forall (eq Registered) outs /\ Forall (eq Registered) outs' /\
  segments_of path ts /\ List.length buf = 19 /\ h <> h' /\
  exists k, forall f, dispatch_request (k + f) re r mth path buf = Calls h rec segs /\
    dispatch_request (k + f) re r' mth path buf = Calls h' rec' segs'.
Proof. exact order_matters. Qed.
Print Assumptions C13_order_irrelevant_refuted.

(** C13, what holds: both routers give the same answer.  Missing: matching routes
    with the same kinds of pieces, and the restrictions of C12. *)
Theorem C13_order_irrelevant_partial : forall fuel re ci regs r outs fuel' regs' r' outs' mth path ts buf buf',
  handle_all fuel re (new_router ci) regs = (r, outs) ->
  handle_all fuel' re (new_router ci) regs' = (r', outs') ->
  Permutation regs regs' -> Forall (eq Registered) outs -> Forall (eq Registered) outs' ->
  (N.of_nat (List.length regs) < 65536)%N ->
  Forall (fun rg => countable (re_ok re) ci (reg_text rg) /\ plain (re_ok re) ci (reg_text rg)) regs ->
  (blen path < 65536)%N -> segments_of path ts -> List.length buf = 19 -> List.length buf' = 19 ->
  (forall rg ks, route_of (re_ok re) ci (combine regs outs) mth rg ks ->
     List.length ks <= 19 /\ any_only_last ks /\ calm_on ci ts ks /\ not_cut ci (re_match re) (route_of (re_ok re) ci (combine regs outs) mth) ts ks) ->
  (forall rg1 ks1 bs1 rg2 ks2 bs2, route_of (re_ok re) ci (combine regs outs) mth rg1 ks1 ->
     route_of (re_ok re) ci (combine regs outs) mth rg2 ks2 ->
     reads_as ci (re_match re) ks1 ts bs1 -> reads_as ci (re_match re) ks2 ts bs2 ->
     same_globs ci ks1 ks2 /\ (map kind_rank ks1 = map kind_rank ks2 -> rg1 = rg2)) ->
  exists k, forall f,
    match dispatch_request (k + f) re r mth path buf, dispatch_request (k + f) re r' mth path buf' with
    | Calls h rec segs, Calls h' rec' segs' =>
        h = h' /\ forall name, path_var rec path segs name = path_var rec' path segs' name
    | NotFound, NotFound => True
    | _, _ => False
    end.
Proof. exact order_routing. Qed.
Print Assumptions C13_order_irrelevant_partial.

Example C12_C13_case : forall rg1 ks1 bs1 rg2 ks2 bs2,
  route_of (re_ok lit_engine) false (combine mall mall_outs) GET rg1 ks1 ->
  route_of (re_ok lit_engine) false (combine mall mall_outs) GET rg2 ks2 ->
  reads_as false (re_match lit_engine) ks1 mall_ts bs1 -> reads_as false (re_match lit_engine) ks2 mall_ts bs2 ->
  same_globs false ks1 ks2 /\ (map kind_rank ks1 = map kind_rank ks2 -> rg1 = rg2).
Proof. exact mall_apart. Qed.

Example C13_case_calls : exists rec segs,
  dispatch_request 100 lit_engine mall_router GET mall_path zeros = Calls 1 rec segs /\
  dispatch_request 100 lit_engine mall_back_router GET mall_path zeros = Calls 1 rec segs /\
  path_var rec mall_path segs (str "id") = Some (str "7").
Proof. exact mall_calls. Qed.

(** C14 is false: the very same pattern with a constraint is accepted twice. *)
Theorem C14_duplicates_refuted : exists fuel re ci regs r outs ks,
  handle_all fuel re (new_router ci) regs = (r, outs) /\ Forall (eq Registered) outs /\
  (exists m t h h', regs = [(m, t, h); (m, t, h')] /\ h <> h' /\ pieces_of (re_ok re) ci t ks).
Proof. exact same_constraint_twice. Qed.
Print Assumptions C14_duplicates_refuted.

(** C14, what holds: a legal pattern is registered or refused as a duplicate; if it
    is refused, an accepted route of the method has the same pieces up to variable
    names; the converse holds for patterns without constraints.  Missing: constraints, where the
    converse is false, and the restrictions of C10. *)
Theorem C14_duplicates_partial : forall fuel re ci regs r outs fuel' mth txt h r' e ks,
  handle_all fuel re (new_router ci) regs = (r, outs) ->
  Forall (fun rg => countable (re_ok re) ci (reg_text rg) /\ plain (re_ok re) ci (reg_text rg)) regs ->
  countable (re_ok re) ci txt -> plain (re_ok re) ci txt -> pieces_of (re_ok re) ci txt ks ->
  handle fuel' re r mth txt h = (r', e) -> e <> HandleRuns ->
  (e = Registered \/ e = Duplicate) /\
  (e = Duplicate -> exists rg ks', route_of (re_ok re) ci (combine regs outs) mth rg ks' /\ Forall2 (same_piece ci) ks' ks) /\
  ((forall n x, ~ In (Constrained n x) ks) ->
   (exists rg ks', route_of (re_ok re) ci (combine regs outs) mth rg ks' /\ Forall2 (same_piece ci) ks' ks) ->
   e = Duplicate).
Proof. exact duplicate_exact. Qed.
Print Assumptions C14_duplicates_partial.

Example C14_case :
  snd (handle 100 lit_engine mall_router (str "get") (str "/api/v?/items/{other}/") 9) = Duplicate /\
  snd (handle 100 lit_engine mall_router GET (str "/api/v*/items/{other}") 9) = Registered /\
  snd (handle 100 lit_engine mall_router (str "PUT") (str "/api/v?/items/{other}") 9) = Registered /\
  exists rg ks', route_of (re_ok lit_engine) false (combine mall mall_outs) (str "get") rg ks' /\
    Forall2 (same_piece false) ks' [Lit (str "api"); Glob (str "v?"); Lit (str "items"); Var (str "other")].
Proof. exact mall_dup. Qed.

