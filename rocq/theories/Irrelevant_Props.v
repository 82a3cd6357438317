(** * Property C134: registrations that do not match a request *)
From Coq Require Import List NArith ZArith Ascii String Bool.
From Verif Require Import GoBase Glob_Spec Pattern_Model Pattern_Spec Priority_Spec Url_Model Url_Spec Match_Model Router_Model Routing_Spec Choice_Spec
  Witness_Proofs ChoiceWitness_Proofs Irrelevant_Proofs.
Import ListNotations.
Local Open Scope string_scope.
Local Open Scope list_scope.
Local Open Scope nat_scope.

(** C134 is false: "/a/{x}" answers /a/b; once "/a/b/c" is registered too, the request gets 404. *)
Theorem C134_later_refuted : exists fuel re ci regs rg r outs r' outs' mth path ts buf ks,
  handle_all fuel re (new_router ci) regs = (r, outs) /\ handle_all fuel re (new_router ci) (regs ++ [rg]) = (r', outs') /\
  Forall (eq Registered) outs' /\ segments_of path ts /\ List.length buf = 19 /\
  pieces_of (re_ok re) ci (reg_text rg) ks /\ ~ In Any ks /\ (forall bs, ~ reads_as ci (re_match re) ks ts bs) /\
  exists k, forall f, (exists rec segs, dispatch_request (k + f) re r mth path buf = Calls 1 rec segs) /\
    dispatch_request (k + f) re r' mth path buf = NotFound.
Proof. exact later_harms. Qed.
Print Assumptions C134_later_refuted.

(** C134, what holds: a registration no beginning of which reads the request changes
    neither the handler nor the path variables.  Missing: the restrictions of C13 on the other routes. *)
Theorem C134_later_partial : forall fuel re ci regs rg r outs r' outs' mth path ts buf buf',
  handle_all fuel re (new_router ci) regs = (r, outs) ->
  handle_all fuel re (new_router ci) (regs ++ [rg]) = (r', outs') ->
  (N.of_nat (List.length regs) < 65535)%N ->
  Forall (fun rg => countable (re_ok re) ci (reg_text rg) /\ plain (re_ok re) ci (reg_text rg)) (regs ++ [rg]) ->
  (blen path < 65536)%N -> segments_of path ts -> List.length buf = 19 -> List.length buf' = 19 ->
  (forall rg ks, route_of (re_ok re) ci (combine regs outs) mth rg ks ->
     List.length ks <= 19 /\ any_only_last ks /\ calm_on ci ts ks /\ not_cut ci (re_match re) (route_of (re_ok re) ci (combine regs outs) mth) ts ks) ->
  (forall rg1 ks1 bs1 rg2 ks2 bs2, route_of (re_ok re) ci (combine regs outs) mth rg1 ks1 ->
     route_of (re_ok re) ci (combine regs outs) mth rg2 ks2 ->
     reads_as ci (re_match re) ks1 ts bs1 -> reads_as ci (re_match re) ks2 ts bs2 ->
     same_globs ci ks1 ks2 /\ (map kind_rank ks1 = map kind_rank ks2 -> rg1 = rg2)) ->
  (forall ks, pieces_of (re_ok re) ci (reg_text rg) ks -> List.length ks <= 19 /\ any_only_last ks /\ calm_on ci ts ks /\
     forall bs n, 0 < n -> ~ reads_as ci (re_match re) (firstn n ks) ts bs) ->
  exists k, forall f,
    match dispatch_request (k + f) re r mth path buf, dispatch_request (k + f) re r' mth path buf' with
    | Calls h rec segs, Calls h' rec' segs' =>
        h = h' /\ forall name, path_var rec path segs name = path_var rec' path segs' name
    | NotFound, NotFound => True
    | _, _ => False
    end.
Proof. exact later_irrelevant. Qed.
Print Assumptions C134_later_partial.

(** C134 for any two sets of routes: where the same routes read the request, the answer is the same. *)
Theorem C134_matches_partial : forall fuel re ci regs r outs fuel' regs' r' outs' mth path ts buf buf',
  handle_all fuel re (new_router ci) regs = (r, outs) ->
  handle_all fuel' re (new_router ci) regs' = (r', outs') ->
  (N.of_nat (List.length regs) < 65536)%N -> (N.of_nat (List.length regs') < 65536)%N ->
  Forall (fun rg => countable (re_ok re) ci (reg_text rg) /\ plain (re_ok re) ci (reg_text rg)) regs ->
  Forall (fun rg => countable (re_ok re) ci (reg_text rg) /\ plain (re_ok re) ci (reg_text rg)) regs' ->
  (blen path < 65536)%N -> segments_of path ts -> List.length buf = 19 -> List.length buf' = 19 ->
  (forall rg ks, route_of (re_ok re) ci (combine regs outs) mth rg ks ->
     List.length ks <= 19 /\ any_only_last ks /\ calm_on ci ts ks /\ not_cut ci (re_match re) (route_of (re_ok re) ci (combine regs outs) mth) ts ks) ->
  (forall rg ks, route_of (re_ok re) ci (combine regs' outs') mth rg ks ->
     List.length ks <= 19 /\ any_only_last ks /\ calm_on ci ts ks /\ not_cut ci (re_match re) (route_of (re_ok re) ci (combine regs' outs') mth) ts ks) ->
  (forall rg ks bs, reads_as ci (re_match re) ks ts bs ->
     (route_of (re_ok re) ci (combine regs outs) mth rg ks <-> route_of (re_ok re) ci (combine regs' outs') mth rg ks)) ->
  (forall rg1 ks1 bs1 rg2 ks2 bs2, route_of (re_ok re) ci (combine regs outs) mth rg1 ks1 ->
     route_of (re_ok re) ci (combine regs outs) mth rg2 ks2 ->
     reads_as ci (re_match re) ks1 ts bs1 -> reads_as ci (re_match re) ks2 ts bs2 ->
     same_globs ci ks1 ks2 /\ (map kind_rank ks1 = map kind_rank ks2 -> rg1 = rg2)) ->
  exists k, forall f,
    match dispatch_request (k + f) re r mth path buf, dispatch_request (k + f) re r' mth path buf' with
    | Calls h rec segs, Calls h' rec' segs' =>
        h = h' /\ forall name, path_var rec path segs name = path_var rec' path segs' name
    | NotFound, NotFound => True
    | _, _ => False
    end.
Proof. exact matches_decide. Qed.
Print Assumptions C134_matches_partial.

(** Case: the four routes of C13 and a fifth for other requests. *)
Example C134_case : exists r' outs',
  handle_all 100 lit_engine (new_router false) (mall ++ [other_route]) = (r', outs') /\ Forall (eq Registered) outs' /\
  Forall (fun rg => countable (re_ok lit_engine) false (reg_text rg) /\ plain (re_ok lit_engine) false (reg_text rg)) (mall ++ [other_route]) /\
  (forall ks, pieces_of (re_ok lit_engine) false (reg_text other_route) ks -> List.length ks <= 19 /\ any_only_last ks /\ calm_on false mall_ts ks /\
     forall bs n, 0 < n -> ~ reads_as false (re_match lit_engine) (firstn n ks) mall_ts bs) /\
  exists rec segs, dispatch_request 100 lit_engine r' GET mall_path zeros = Calls 1 rec segs.
Proof. exact mall_other. Qed.
