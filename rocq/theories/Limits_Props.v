(** * Where C83 to C86 are false, and C16 for patterns with any constraints *)
From Coq Require Import List NArith ZArith Ascii String Bool.
From Verif Require Import GoBase Http_Model Pattern_Model Url_Model Match_Model Router_Model Auth_Model Chain_Model Serve_Model
  Mux_Model Resp_Model Cors_Model App_Model Json_Model JsonErr_Model Chain_Spec Mux_Spec App_Spec
  Pattern_Spec Url_Spec Routing_Spec Loose_Spec Loose_Proofs Priority_Spec Choice_Spec Witness_Proofs AppWire_Spec CorsCases_Proofs AppWhole_Proofs.
From Verif Require Import Resp_Spec Json_Spec JsonErr_Spec RespMisc_Proofs DumpCases_Proofs Limits_Proofs LongPattern_Proofs.
Import ListNotations.
Local Open Scope string_scope.
Local Open Scope list_scope.
Local Open Scope nat_scope.

(** C16 is false (and C10, C83): the variable of the 257th piece of a pattern has the text of the first
    segment, in a request that the pattern does not read. *)
Theorem C16_far_refuted : forall re, exists r rec segs,
  handle_all 1 re (new_router false) [(str "GET", far_text, 7)] = (r, [Registered]) /\
  segments_of (str "/q") [str "q"] /\
  dispatch_request 4 re r (str "GET") (str "/q") zeros = Calls 7 rec segs /\
  path_var rec (str "/q") segs (str "x") = Some (str "q") /\
  pieces_of (re_ok re) false far_text far_kinds /\ nth_error far_kinds 256 = Some (Var (str "x")) /\
  forall ks bs, pieces_of (re_ok re) false far_text ks -> ~ reads_as false (re_match re) ks [str "q"] bs.
Proof. exact far_variable. Qed.
Print Assumptions C16_far_refuted.

(** C10 and C16, what holds for every constraint: the pattern of the called handler reads the
    request, where a constraint that spells a constrained piece may be taken for the one of that
    piece; a variable has the text of the segment that stands at it, the first one when the name
    is repeated, and other names have the empty text.  Missing: patterns of more than 255 pieces. *)
Theorem C16_segments_partial : forall fuel re ci regs r outs f mth path ts buf h rec segs,
  handle_all fuel re (new_router ci) regs = (r, outs) ->
  Forall (fun rg => countable (re_ok re) ci (reg_text rg)) regs ->
  (blen path < 65536)%N -> segments_of path ts -> List.length buf = 19 ->
  dispatch_request f re r mth path buf = Calls h rec segs ->
  exists mth' text ks bs, In ((mth', text, h), Registered) (combine regs outs) /\ same_method mth' mth /\
    pieces_of (re_ok re) ci text ks /\ reads_as ci (meets (re_match re)) ks ts bs /\
    forall name, path_var rec path segs name = Some (match value_of name bs with Some v => v | None => [] end).
Proof. exact routed_loose. Qed.
Print Assumptions C16_segments_partial.

Example C16_segments_case : exists r outs rec segs,
  handle_all 50 lit_engine (new_router false) braces = (r, outs) /\ Forall (eq Registered) outs /\
  Forall (fun rg => countable (re_ok lit_engine) false (reg_text rg)) braces /\
  segments_of (str "/a/r") [str "a"; str "r"] /\
  dispatch_request 50 lit_engine r GET (str "/a/r") zeros = Calls 2 rec segs /\
  reads_as false (meets (re_match lit_engine)) [Constrained (str "x") (str "{b:a}"); Lit (str "r")] [str "a"; str "r"] [(str "x", str "a")] /\
  path_var rec (str "/a/r") segs (str "x") = Some (str "a") /\ path_var rec (str "/a/r") segs (str "b") = Some [].
Proof. exact braces_case. Qed.

(** C10 and C16 for routers that ignore letter case: no restriction on constraints. *)
Theorem C10_ignoring_case_partial : forall fuel re regs r outs f mth path ts buf h rec segs,
  handle_all fuel re (new_router true) regs = (r, outs) ->
  Forall (fun rg => countable (re_ok re) true (reg_text rg)) regs ->
  (blen path < 65536)%N -> segments_of path ts -> List.length buf = 19 ->
  dispatch_request f re r mth path buf = Calls h rec segs ->
  exists mth' text ks bs, In ((mth', text, h), Registered) (combine regs outs) /\ same_method mth' mth /\
    pieces_of (re_ok re) true text ks /\ reads_as true (re_match re) ks ts bs /\
    forall name, path_var rec path segs name = Some (match value_of name bs with Some v => v | None => [] end).
Proof. exact routed_marked. Qed.
Print Assumptions C10_ignoring_case_partial.

(** Case: the same two routes; the request is not routed. *)
Example C10_ignoring_case_case : exists r outs,
  handle_all 50 lit_engine (new_router true) braces = (r, outs) /\ Forall (eq Registered) outs /\
  dispatch_request 50 lit_engine r GET (str "/a/r") zeros = NotFound /\
  exists rec segs, dispatch_request 50 lit_engine r GET (str "/(?i){b:a}/R") zeros = Calls 2 rec segs /\
    path_var rec (str "/(?i){b:a}/R") segs (str "x") = Some (str "(?i){b:a}").
Proof. exact braces_marked. Qed.

(** C83 is false: after "/{b:a}/q" is registered, "/{x:{b:a}}/r" answers /a/r, which no
    registration reads. *)
Theorem C83_called_refuted : forall k oc render location redirect_body,
  wires [VMux [] []] (program braced) (wiring braced) /\
  (exists xs, new_app 60 lit_engine false [] None = (first_app, None) /\
     acalls doubling 60 lit_engine first_app (program braced) = (begun braced, xs) /\ Forall smooth xs) /\
  segments_of (str "/a/r") [str "a"; str "r"] /\
  told_get k oc render location redirect_body braced (str "/a/r") = answered_with 1 /\
  forall i r ks bs, leads lit_engine false (wiring braced) GET i r ks -> ~ reads_as false (re_match lit_engine) ks [str "a"; str "r"] bs.
Proof. exact (@stranger_called). Qed.
Print Assumptions C83_called_refuted.

(** C84 is false: "/a*/{z}" answers /abc/x although "/ab*/x" reads it and is more specific. *)
Theorem C84_answered_refuted : forall k oc render location redirect_body,
  wires [VMux [] []] (program rivals) (wiring rivals) /\
  (exists xs, new_app 60 lit_engine false [] None = (first_app, None) /\
     acalls doubling 60 lit_engine first_app (program rivals) = (begun rivals, xs) /\ Forall smooth xs) /\
  ordinary lit_engine false (wiring rivals) /\ segments_of (str "/abc/x") [str "abc"; str "x"] /\
  told_get k oc render location redirect_body rivals (str "/abc/x") = answered_with 1 /\
  exists r ks bs r2 ks2 bs2, leads lit_engine false (wiring rivals) GET 1 r ks /\ reads_as false (re_match lit_engine) ks [str "abc"; str "x"] bs /\
    leads lit_engine false (wiring rivals) GET 2 r2 ks2 /\ reads_as false (re_match lit_engine) ks2 [str "abc"; str "x"] bs2 /\ more_specific ks2 ks.
Proof. exact (@rival_called). Qed.
Print Assumptions C84_answered_refuted.

(** C85 is false: a path of 20 literals is registered, and the handler of "/" answers the
    requests for it. *)
Theorem C85_exact_refuted : forall k oc render location redirect_body,
  wires [VMux [] []] (program deep) (wiring deep) /\
  (exists xs, new_app 60 lit_engine false [] None = (first_app, None) /\
     acalls doubling 60 lit_engine first_app (program deep) = (begun deep, xs) /\ Forall smooth xs) /\
  ordinary lit_engine false (wiring deep) /\
  leads lit_engine false (wiring deep) GET 1 (on_wired (spelled twenty) 1) (map Lit twenty) /\
  leads lit_engine false (wiring deep) GET 0 (on_wired (str "/") 0) [] /\
  told_get k oc render location redirect_body deep (spelled twenty) = answered_with 0.
Proof. exact (@exact_missed). Qed.
Print Assumptions C85_exact_refuted.

(** C86 is false: a JSON response with the status 204 has no body, which says nothing. *)
Theorem C86_payload_refuted :
  received (written_toy (fun m => m) (fun m => m) (json_response 204 (Some order) None None) get_req) =
    (204%Z, [(str "X-Content-Type-Options", [str "nosniff"]); (str "Content-Type", [str "application/json"])], []) /\
  meant_status (HResp 204 (str "application/json") None None) 204 /\ ~ says [] (meant (Some order)).
Proof. exact nothing_said. Qed.
Print Assumptions C86_payload_refuted.
