(** * Properties C08, C09, C10, C15, C16, C17, C18 and C21: routing

    A program registers handlers with [handle_all] on a new router; [outs] says
    how each call ended.  A request is then routed with [dispatch_request]; [buf]
    is the recycled buffer of 19 segments, with arbitrary content. *)
From Coq Require Import List Ascii String NArith.
From Verif Require Import GoBase Glob_Model Glob_Spec Pattern_Model Pattern_Spec Priority_Spec Url_Model Url_Spec
  Router_Model Routing_Spec Routing_Proofs Ends_Proofs Witness_Proofs.
Import ListNotations.
Local Open Scope string_scope.
Local Open Scope list_scope.

(** C08 is false: a path with too many segments is served by the route /. *)
Theorem C08_too_long_not_served_refuted : exists fuel re ci regs r outs f mth path buf h rec segs,
  handle_all fuel re (new_router ci) regs = (r, outs) /\ (blen path < 65536)%N /\ overlong path /\
  List.length buf = 19 /\ dispatch_request f re r mth path buf = Calls h rec segs.
Proof. exact overlong_served. Qed.
Print Assumptions C08_too_long_not_served_refuted.

(** C08, what holds: such a path is answered with 404 if the route / is not
    registered for the method. *)
Theorem C08_too_long_not_served_partial : forall fuel re ci regs r outs mth path buf f,
  handle_all fuel re (new_router ci) regs = (r, outs) ->
  Forall (fun rg => countable (re_ok re) ci (reg_text rg)) regs ->
  (blen path < 65536)%N -> overlong path -> List.length buf = 19 ->
  (forall mth' text h ks, In ((mth', text, h), Registered) (combine regs outs) -> same_method mth' mth ->
     pieces_of (re_ok re) ci text ks -> ks <> []) ->
  dispatch_request (S f) re r mth path buf = NotFound.
Proof. exact overlong_404. Qed.
Print Assumptions C08_too_long_not_served_partial.
Example C08_case : overlong (spelled (repeat (str "a") 20)) /\
  dispatch_request 9 lit_engine (fst (handle_all 50 lit_engine (new_router false) [route "/a/{x}" 7])) GET
    (spelled (repeat (str "a") 20)) zeros = NotFound.
Proof. exact overlong_case. Qed.

(** C09 is false: with a path of 65536 bytes a path variable, or the choice of
    the route itself, crashes. *)
Theorem C09_no_crash_refuted : exists fuel re ci regs r outs f mth path buf h rec segs name,
  handle_all fuel re (new_router ci) regs = (r, outs) /\ List.length buf = 19 /\
  dispatch_request f re r mth path buf = Calls h rec segs /\ path_var rec path segs name = None.
Proof. exact long_path_crashes. Qed.
Print Assumptions C09_no_crash_refuted.
Theorem C09_no_crash_routing_refuted : exists fuel re ci regs r outs f mth path buf,
  handle_all fuel re (new_router ci) regs = (r, outs) /\ List.length buf = 19 /\
  dispatch_request f re r mth path buf = ServeCrash.
Proof. exact long_path_crashes_routing. Qed.
Print Assumptions C09_no_crash_routing_refuted.

(** C09, what holds: below 65536 bytes no path variable crashes.  Missing: longer
    paths, where the property is false.  Case: the router of [C10_case_router] and the
    request of [C16_case]. *)
Theorem C09_no_crash_partial : forall fuel re ci regs r outs f mth path buf h rec segs,
  handle_all fuel re (new_router ci) regs = (r, outs) ->
  Forall (fun rg => countable (re_ok re) ci (reg_text rg)) regs ->
  (blen path < 65536)%N -> List.length buf = 19 ->
  dispatch_request f re r mth path buf = Calls h rec segs ->
  forall name, path_var rec path segs name <> None.
Proof. exact path_var_safe. Qed.
Print Assumptions C09_no_crash_partial.

(** C10 is false: a constraint that is spelled like another constrained piece
    takes its place. *)
Theorem C10_only_matching_refuted : exists fuel re ci regs r outs f mth path ts buf h rec segs,
  handle_all fuel re (new_router ci) regs = (r, outs) /\ Forall (eq Registered) outs /\
  segments_of path ts /\ List.length buf = 19 /\
  dispatch_request f re r mth path buf = Calls h rec segs /\
  ~ exists mth' text ks bs, In ((mth', text, h), Registered) (combine regs outs) /\ same_method mth' mth /\
      pieces_of (re_ok re) ci text ks /\ reads_as ci (re_match re) ks ts bs.
Proof. exact routed_unsound. Qed.
Print Assumptions C10_only_matching_refuted.

(** C10, what holds: the chosen route was registered for the method and its
    pattern reads the request.  This also holds when the number of routes no longer fits the
    sixteen bits the loop counts children with.  Missing: constraints that start with a brace,
    patterns of more than 255 pieces. *)
Theorem C10_only_matching_partial : forall fuel re ci regs r outs f mth path ts buf h rec segs,
  handle_all fuel re (new_router ci) regs = (r, outs) ->
  Forall (fun rg => countable (re_ok re) ci (reg_text rg) /\ plain (re_ok re) ci (reg_text rg)) regs ->
  (blen path < 65536)%N -> segments_of path ts -> List.length buf = 19 ->
  dispatch_request f re r mth path buf = Calls h rec segs ->
  exists mth' text ks bs, In ((mth', text, h), Registered) (combine regs outs) /\ same_method mth' mth /\
    pieces_of (re_ok re) ci text ks /\ reads_as ci (re_match re) ks ts bs.
Proof. exact routed_matching. Qed.
Print Assumptions C10_only_matching_partial.

(** C16, what holds: each path variable has the value that some reading of the
    request by the chosen pattern gives it; other names have the empty value.
    Missing: as for C10. *)
Theorem C16_path_variables_partial : forall fuel re ci regs r outs f mth path ts buf h rec segs,
  handle_all fuel re (new_router ci) regs = (r, outs) ->
  Forall (fun rg => countable (re_ok re) ci (reg_text rg) /\ plain (re_ok re) ci (reg_text rg)) regs ->
  (blen path < 65536)%N -> segments_of path ts -> List.length buf = 19 ->
  dispatch_request f re r mth path buf = Calls h rec segs ->
  exists mth' text ks bs, In ((mth', text, h), Registered) (combine regs outs) /\ same_method mth' mth /\
    pieces_of (re_ok re) ci text ks /\ reads_as ci (re_match re) ks ts bs /\
    forall name, path_var rec path segs name = Some (match value_of name bs with Some v => v | None => [] end).
Proof. exact routed_sound. Qed.
Print Assumptions C16_path_variables_partial.

(** Case: five routes; the hypotheses hold and two variables are read. *)
Example C10_case_router : handle_all 100 lit_engine (new_router false) shop = (shop_router, shop_outs) /\
  Forall (eq Registered) shop_outs /\ (N.of_nat (List.length shop) < 65536)%N.
Proof. exact shop_registered. Qed.
Example C10_case_routes : Forall (fun rg => countable (re_ok lit_engine) false (reg_text rg) /\
  plain (re_ok lit_engine) false (reg_text rg)) shop.
Proof. exact shop_fine. Qed.
Example C10_case_path : segments_of shop_path [str "users"; str "42"; str "orders"; str "7"].
Proof. exact shop_segments. Qed.
Example C16_case : exists rec segs,
  dispatch_request 100 lit_engine shop_router (str "get") shop_path zeros = Calls 1 rec segs /\
  path_var rec shop_path segs (str "id") = Some (str "42") /\
  path_var rec shop_path segs (str "no") = Some (str "7") /\
  path_var rec shop_path segs (str "zz") = Some [].
Proof. exact shop_calls. Qed.

(** C15 is false for patterns of more than 256 pieces: a refused call can raise
    the number of segments a node accepts, and a request that was answered with
    404 then crashes. *)
Theorem C15_refused_changes_nothing_refuted : exists fuel re ci regs r outs mth txt h r' path buf f,
  handle_all fuel re (new_router ci) regs = (r, outs) /\
  handle fuel re r mth txt h = (r', Duplicate) /\ List.length buf = 19 /\
  dispatch_request f re r mth path buf = NotFound /\ dispatch_request f re r' mth path buf = ServeCrash.
Proof. exact refused_changes. Qed.
Print Assumptions C15_refused_changes_nothing_refuted.

(** C15, what holds: for patterns of at most 255 pieces, after a refused call all
    later registrations and requests go as if it had not happened. *)
Theorem C15_refused_changes_nothing_partial : forall fuel re ci regs r outs mth txt h r' e,
  handle_all fuel re (new_router ci) regs = (r, outs) ->
  Forall (fun rg => countable (re_ok re) ci (reg_text rg)) regs -> countable (re_ok re) ci txt ->
  handle fuel re r mth txt h = (r', e) -> e <> Registered ->
  forall later,
    snd (handle_all fuel re r' later) = snd (handle_all fuel re r later) /\
    forall f m path buf,
      dispatch_request f re (fst (handle_all fuel re r' later)) m path buf =
      dispatch_request f re (fst (handle_all fuel re r later)) m path buf.
Proof. exact refused_changes_nothing. Qed.
Print Assumptions C15_refused_changes_nothing_partial.
Example C15_case :
  snd (handle 100 lit_engine shop_router (str "Get") (str "/users/*/x?z/") 9) = Duplicate /\
  countable (re_ok lit_engine) false (str "/users/*/x?z/").
Proof. exact shop_dup. Qed.

(** C17: the search ends for every router and every request, whatever was registered and
    however long the patterns are. *)
Theorem C17_search_ends : forall re r mth path buf,
  List.length buf = 19 ->
  exists k D, D <> ServeRuns /\ forall f, dispatch_request (k + f) re r mth path buf = D.
Proof. exact search_ends. Qed.
Print Assumptions C17_search_ends.

(** C17: the comparison of a path segment with a wildcard text of an accepted pattern ends. *)
Theorem C17_wildcards_end : forall fuel re t ci p s,
  parse_pattern fuel re t ci = POk p -> In s (p_segs p) -> s_mt s = MTRegex ->
  forall u ci', regex_segment_match u (s_val s) ci' <> GFuel.
Proof. exact wildcards_end. Qed.
Print Assumptions C17_wildcards_end.

Example C17_case :
  snd (handle_all 100 far_engine (new_router false) [(str "GET", str "/**/a*b/**/c?", 1); (str "GET", str "/x/**", 2)]) = [Registered; Registered] /\
  dispatch_request 2 far_engine far_router (str "GET") (str "/a/ab/ab/d/e") (repeat useg_zero 19) = ServeRuns /\
  dispatch_request 30 far_engine far_router (str "GET") (str "/a/ab/ab/d/e") (repeat useg_zero 19) = NotFound /\
  (exists p s, parse_pattern 100 far_engine (str "/**/a*b/**/c?") false = POk p /\ In s (p_segs p) /\ s_mt s = MTRegex /\ s_val s = str "a*b").
Proof. exact far_case. Qed.

(** C18 is false: the stack is too small when a [**] covers nothing, without any
    wildcard text involved. *)
Theorem C18_stack_refuted : exists fuel re ci regs r outs f mth path ts buf,
  handle_all fuel re (new_router ci) regs = (r, outs) /\ Forall (eq Registered) outs /\ segments_of path ts /\
  List.length buf = 19 /\
  (forall mth' text h ks, In (mth', text, h) regs -> pieces_of (re_ok re) ci text ks -> forall w, ~ In (Glob w) ks) /\
  dispatch_request f re r mth path buf = ServeCrash.
Proof. exact stack_overrun. Qed.
Print Assumptions C18_stack_refuted.

(** C18, what holds: routing never crashes if every route of the method has at
    most 18 pieces or [**] at most as last piece, apart from the crashes of
    wildcard texts (C02).  Missing: longer routes with an inner [**]. *)
Theorem C18_stack_partial : forall fuel re ci regs r outs f mth path buf,
  handle_all fuel re (new_router ci) regs = (r, outs) ->
  Forall (fun rg => countable (re_ok re) ci (reg_text rg)) regs ->
  (blen path < 65536)%N -> List.length buf = 19 ->
  (forall mth' text h ks, In ((mth', text, h), Registered) (combine regs outs) -> same_method mth' mth ->
     pieces_of (re_ok re) ci text ks ->
     (List.length ks <= 18 \/ any_only_last ks) /\
     forall ts w t, segments_of path ts -> In (Glob w) ks -> In t ts -> calm ci w t) ->
  dispatch_request f re r mth path buf <> ServeCrash.
Proof. exact never_crashes. Qed.
Print Assumptions C18_stack_partial.
Example C18_case : forall mth' text h ks,
  In ((mth', text, h), Registered) (combine shop shop_outs) -> same_method mth' GET ->
  pieces_of (re_ok lit_engine) false text ks ->
  (List.length ks <= 18 \/ any_only_last ks) /\
  forall ts w t, segments_of shop_path ts -> In (Glob w) ks -> In t ts -> calm false w t.
Proof. exact shop_calm. Qed.

(** C21.  Only the registrations made for the method of the request matter, on
    any router. *)
Theorem C21_methods_independent : forall fuel re r regs f m path buf,
  dispatch_request f re (fst (handle_all fuel re r regs)) m path buf =
  dispatch_request f re (fst (handle_all fuel re r
    (filter (fun rg => if same_method_dec (fst (fst rg)) m then true else false) regs))) m path buf.
Proof. exact only_matters. Qed.
Print Assumptions C21_methods_independent.
Theorem C21_other_method_unchanged : forall fuel re r m1 txt h f m2 path buf, ~ same_method m1 m2 ->
  dispatch_request f re (fst (handle fuel re r m1 txt h)) m2 path buf = dispatch_request f re r m2 path buf.
Proof. exact handle_other_method. Qed.
Print Assumptions C21_other_method_unchanged.
Theorem C21_method_case_registration : forall fuel re r m1 m2 txt h, same_method m1 m2 ->
  handle fuel re r m1 txt h = handle fuel re r m2 txt h.
Proof. exact method_case_handle. Qed.
Print Assumptions C21_method_case_registration.
Theorem C21_method_case_request : forall f re r m1 m2 path buf, same_method m1 m2 ->
  dispatch_request f re r m1 path buf = dispatch_request f re r m2 path buf.
Proof. exact method_case_dispatch. Qed.
Print Assumptions C21_method_case_request.
Example C21_case : ~ same_method (str "POST") (str "get") /\ same_method (str "PoSt") (str "post").
Proof. split; [discriminate|reflexivity]. Qed.
