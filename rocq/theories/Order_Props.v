(** * Properties C12, C115, C116 and C117: which of several routes is preferred *)
From Coq Require Import List Ascii String NArith Bool.
From Verif Require Import GoBase Pattern_Model Pattern_Spec Priority_Spec Priority_Proofs Url_Model Url_Spec
  Router_Model Routing_Spec Choice_Spec Witness_Proofs Narrow_Spec Narrow_Proofs NarrowCase_Proofs
  Filled_Spec Filled_Proofs Order_Proofs.
Import ListNotations.
Local Open Scope string_scope.
Local Open Scope list_scope.

(** C12 is also false with two [**] and without any wildcard text: in both orders
    of registration [/**/a/**] is chosen before [/**/a/a]. *)
Theorem C12_two_any_refuted : exists fuel re ci regs r outs mth path ts buf rec segs rg ks rg2 ks2,
  handle_all fuel re (new_router ci) regs = (r, outs) /\
  snd (handle_all fuel re (new_router ci) (rev regs)) = outs /\ Forall (eq Registered) outs /\
  segments_of path ts /\ List.length buf = 19 /\ NoDup (map reg_handler regs) /\
  (forall rg' ks', route_of (re_ok re) ci (combine regs outs) mth rg' ks' -> Forall with_variables ks') /\
  route_of (re_ok re) ci (combine regs outs) mth rg ks /\ accepts_path ci (re_match re) ks ts /\
  (exists k, forall f, dispatch_request (k + f) re r mth path buf = Calls (reg_handler rg) rec segs /\
     dispatch_request (k + f) re (fst (handle_all fuel re (new_router ci) (rev regs))) mth path buf =
       Calls (reg_handler rg) rec segs) /\
  route_of (re_ok re) ci (combine regs outs) mth rg2 ks2 /\ accepts_path ci (re_match re) ks2 ts /\
  more_specific ks2 ks /\ narrower ci (re_match re) ks2 ks.
Proof. exact inner_less_specific. Qed.
Print Assumptions C12_two_any_refuted.

(** C115 is false: [/{x}/*] is chosen although [/*/a] matches and accepts strictly
    fewer requests; no [**] is involved. *)
Theorem C115_narrowest_refuted : exists fuel re ci regs r outs mth path ts buf rec segs rg ks rg2 ks2,
  handle_all fuel re (new_router ci) regs = (r, outs) /\ Forall (eq Registered) outs /\
  segments_of path ts /\ List.length buf = 19 /\ NoDup (map reg_handler regs) /\
  (forall rg' ks', route_of (re_ok re) ci (combine regs outs) mth rg' ks' ->
     Forall (fun k => with_variables k \/ with_stars k) ks' /\ ~ In Any ks') /\
  route_of (re_ok re) ci (combine regs outs) mth rg ks /\ accepts_path ci (re_match re) ks ts /\
  (exists k, forall f, dispatch_request (k + f) re r mth path buf = Calls (reg_handler rg) rec segs) /\
  route_of (re_ok re) ci (combine regs outs) mth rg2 ks2 /\ accepts_path ci (re_match re) ks2 ts /\
  narrower ci (re_match re) ks2 ks.
Proof. exact wider_chosen. Qed.
Print Assumptions C115_narrowest_refuted.

(** C115, what holds: no route that matches the request accepts strictly fewer
    requests than the chosen one, if all routes are made of literal texts, a final
    [**] and either variables or [*].  Missing: variables and [*] side by side,
    constraints, wildcard texts, an inner [**], and the restrictions of C11. *)
Theorem C115_narrowest_partial : forall fuel re ci regs r outs mth path ts buf f h rec segs,
  handle_all fuel re (new_router ci) regs = (r, outs) ->
  (N.of_nat (List.length regs) < 65536)%N ->
  Forall (fun rg => countable (re_ok re) ci (reg_text rg)) regs ->
  (blen path < 65536)%N -> segments_of path ts -> List.length buf = 19 ->
  (forall rg ks, In rg regs -> pieces_of (re_ok re) ci (reg_text rg) ks -> Forall with_variables ks) \/
  (forall rg ks, In rg regs -> pieces_of (re_ok re) ci (reg_text rg) ks -> Forall with_stars ks) ->
  (forall rg ks, route_of (re_ok re) ci (combine regs outs) mth rg ks ->
     List.length ks <= 19 /\ any_only_last ks /\
     not_cut ci (re_match re) (route_of (re_ok re) ci (combine regs outs) mth) ts ks) ->
  dispatch_request f re r mth path buf = Calls h rec segs ->
  exists rg ks, route_of (re_ok re) ci (combine regs outs) mth rg ks /\ reg_handler rg = h /\
    accepts_path ci (re_match re) ks ts /\
    forall rg2 ks2, route_of (re_ok re) ci (combine regs outs) mth rg2 ks2 ->
      accepts_path ci (re_match re) ks2 ts -> ~ narrower ci (re_match re) ks2 ks.
Proof. exact narrowest_chosen. Qed.
Print Assumptions C115_narrowest_partial.

Example C115_case :
  handle_all 100 lit_engine (new_router false) lane = (lane_router, lane_outs) /\
  Forall (eq Registered) lane_outs /\
  Forall (fun rg => countable (re_ok lit_engine) false (reg_text rg)) lane /\
  segments_of (str "/a/b") [str "a"; str "b"] /\
  (forall rg ks, In rg lane -> pieces_of (re_ok lit_engine) false (reg_text rg) ks -> Forall with_variables ks) /\
  (forall rg ks, route_of (re_ok lit_engine) false (combine lane lane_outs) GET rg ks ->
     List.length ks <= 19 /\ any_only_last ks /\
     not_cut false (re_match lit_engine) (route_of (re_ok lit_engine) false (combine lane lane_outs) GET)
       [str "a"; str "b"] ks) /\
  narrower false (re_match lit_engine) [Lit (str "a"); Var (str "x")] [Lit (str "a"); Any] /\
  narrower false (re_match lit_engine) [Lit (str "a"); Var (str "x")] [Var (str "y"); Var (str "z")] /\
  exists rec segs, dispatch_request 100 lit_engine lane_router GET (str "/a/b") zeros = Calls 2 rec segs.
Proof. exact lane_case. Qed.

(** C116 is false with two [**]: the pattern with fewer of them ranks behind. *)
Theorem C116_inner_refuted : forall re, exists t1 t2 ps1 ps2 ks1 ks2 p1 p2,
  means (re_ok re) false t1 ps1 ks1 /\ means (re_ok re) false t2 ps2 ks2 /\
  parse_pattern 20 re t1 false = POk p1 /\ parse_pattern 20 re t2 false = POk p2 /\
  any_count ks1 = 1 /\ any_count ks2 = 2 /\
  more_specific ks1 ks2 /\ more_specific (filled ks1) (filled ks2) /\ (p_prio p2 < p_prio p1)%N.
Proof. exact rank_two_wrong. Qed.
Print Assumptions C116_inner_refuted.

(** C116, what holds: with at most one [**] in each pattern, anywhere.  Missing:
    several [**]. *)
Theorem C116_inner_partial : forall re fuel1 fuel2 t1 t2 ci1 ci2 p1 p2 ps1 ps2 ks1 ks2,
  parse_pattern fuel1 re t1 ci1 = POk p1 -> parse_pattern fuel2 re t2 ci2 = POk p2 ->
  means (re_ok re) ci1 t1 ps1 ks1 -> means (re_ok re) ci2 t2 ps2 ks2 ->
  1 <= List.length ps1 <= 19 -> 1 <= List.length ps2 <= 19 ->
  any_count ks1 <= 1 -> any_count ks2 <= 1 ->
  (high_priority_than p1 p2 = true <->
   more_specific (filled ks1) (filled ks2) \/
   map kind_rank (filled ks1) = map kind_rank (filled ks2) /\ text_before t1 t2).
Proof. exact high_inner. Qed.
Print Assumptions C116_inner_partial.

Example C116_case : forall re, exists p1 p2,
  parse_pattern 20 re (str "/a/**/{x}/b") false = POk p1 /\ parse_pattern 20 re (str "/a/**/b") false = POk p2 /\
  (p_prio p1 < p_prio p2)%N /\
  more_specific (filled [Lit (str "a"); Any; Var (str "x"); Lit (str "b")]) (filled [Lit (str "a"); Any; Lit (str "b")]).
Proof. exact rank_inner_case. Qed.

(** C117.  [HighPriorityThan] is a strict order on all patterns, total up to the
    text. *)
Theorem C117_strict_order : forall p q r,
  high_priority_than p p = false /\
  (high_priority_than p q = true -> high_priority_than q r = true -> high_priority_than p r = true) /\
  (p_raw p <> p_raw q -> high_priority_than p q = true \/ high_priority_than q p = true).
Proof. exact high_order. Qed.
Print Assumptions C117_strict_order.

Example C117_case : forall re, exists p q,
  parse_pattern 20 re (str "/a/{x}") false = POk p /\ parse_pattern 20 re (str "/a/{y}") false = POk q /\
  high_priority_than p q = true /\ high_priority_than q p = false.
Proof. intros re. do 2 eexists. do 3 (split; [vm_compute; reflexivity|]). vm_compute. reflexivity. Qed.
