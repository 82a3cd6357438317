(** * Property C141: a route is registered while requests are served *)
From Coq Require Import List NArith ZArith Ascii String Bool Arith.
From Verif Require Import GoBase Pattern_Model Url_Model Match_Model RegRace_Model RegRace_Spec RegAnswer_Proofs.
Import ListNotations.
Local Open Scope string_scope.
Local Open Scope list_scope.
Local Open Scope nat_scope.

(** C141 is false: when the array of the children has room for the new one and the new one
    does not come last, a request that only the last child answers can go unanswered. *)
Theorem C141_lost_refuted : forall fuel re m p s pre post cap path u,
  p_segs p = [s] -> find_child (m_ci m) s (n_ch (m_trie m)) = None -> n_ch (m_trie m) = pre ++ post ->
  in_order (pre ++ post) -> Forall (fun c => stands_before c (fresh_node p s)) pre -> Forall (stands_before (fresh_node p s)) post ->
  List.length (pre ++ post) < cap -> post <> [] ->
  match_path fuel re (with_root_children m (pre ++ fresh_node p s :: removelast post)) path [u] = NoMatch ->
  exists schedule arr len seen,
    g_lookup (reg_run (pre ++ post) cap (fresh_node p s) schedule (reg_start (pre ++ post))) = Looking arr len seen /\
    List.length seen = len /\ lookup_answer fuel re m path u seen = NoMatch.
Proof. exact (@answer_lost). Qed.
Print Assumptions C141_lost_refuted.

(** C141: with a full array, or when the new child comes last, every request with one
    segment gets the answer of before or of after. *)
Theorem C141_full_partial : forall fuel re m p s pre post cap path u schedule arr len seen,
  p_segs p = [s] -> find_child (m_ci m) s (n_ch (m_trie m)) = None -> n_ch (m_trie m) = pre ++ post ->
  List.length (pre ++ post) < N.to_nat 65535 -> in_order (pre ++ post) ->
  Forall (fun c => stands_before c (fresh_node p s)) pre -> Forall (stands_before (fresh_node p s)) post ->
  g_lookup (reg_run (pre ++ post) cap (fresh_node p s) schedule (reg_start (pre ++ post))) = Looking arr len seen ->
  List.length seen = len ->
  cap <= List.length (pre ++ post) \/ post = [] ->
  lookup_answer fuel re m path u seen = match_path fuel re m path [u] \/
  lookup_answer fuel re m path u seen = match_path fuel re (fst (add_pattern m p)) path [u].
Proof. exact (@answers_full). Qed.
Print Assumptions C141_full_partial.

(** C141: otherwise nothing but the last child can be missing. *)
Theorem C141_most_partial : forall fuel re m p s pre post cap path u schedule arr len seen,
  p_segs p = [s] -> find_child (m_ci m) s (n_ch (m_trie m)) = None -> n_ch (m_trie m) = pre ++ post ->
  List.length (pre ++ post) < N.to_nat 65535 -> in_order (pre ++ post) ->
  Forall (fun c => stands_before c (fresh_node p s)) pre -> Forall (stands_before (fresh_node p s)) post ->
  g_lookup (reg_run (pre ++ post) cap (fresh_node p s) schedule (reg_start (pre ++ post))) = Looking arr len seen ->
  List.length seen = len ->
  lookup_answer fuel re m path u seen = match_path fuel re m path [u] \/
  lookup_answer fuel re m path u seen = match_path fuel re (fst (add_pattern m p)) path [u] \/
  List.length (pre ++ post) < cap /\ post <> [] /\
    (lookup_answer fuel re m path u seen = match_path fuel re (with_root_children m (removelast (pre ++ post))) path [u] \/
     lookup_answer fuel re m path u seen = match_path fuel re (with_root_children m (pre ++ fresh_node p s :: removelast post)) path [u]).
Proof. exact (@answers_most). Qed.
Print Assumptions C141_most_partial.

(** C141: a request that begins after the registration gets the answer of after. *)
Theorem C141_after_partial : forall fuel re m p s pre post cap path u s1 s2 arr len seen,
  p_segs p = [s] -> find_child (m_ci m) s (n_ch (m_trie m)) = None -> n_ch (m_trie m) = pre ++ post ->
  in_order (pre ++ post) -> Forall (fun c => stands_before c (fresh_node p s)) pre -> Forall (stands_before (fresh_node p s)) post ->
  g_pc (reg_run (pre ++ post) cap (fresh_node p s) s1 (reg_start (pre ++ post))) = AtEnd ->
  g_lookup (reg_run (pre ++ post) cap (fresh_node p s) s1 (reg_start (pre ++ post))) = NotBegun ->
  g_lookup (reg_run (pre ++ post) cap (fresh_node p s) (s1 ++ s2) (reg_start (pre ++ post))) = Looking arr len seen ->
  List.length seen = len ->
  lookup_answer fuel re m path u seen = match_path fuel re (fst (add_pattern m p)) path [u].
Proof. exact (@answers_late). Qed.
Print Assumptions C141_after_partial.

(** Case: /b is registered beside /c, /d and /{name}; GET /zoe is answered by /{name}
    before and after. *)
Example C141_case :
  p_segs fourth = [seg_of fourth] /\ find_child (m_ci three) (seg_of fourth) (n_ch (m_trie three)) = None /\
  n_ch (m_trie three) = [] ++ three_children /\ in_order ([] ++ three_children) /\
  Forall (stands_before (fresh_node fourth (seg_of fourth))) three_children /\ List.length ([] ++ three_children) = 3 /\
  match_path 10 any_engine (with_root_children three ([] ++ fresh_node fourth (seg_of fourth) :: removelast three_children)) asked [asked_seg] = NoMatch /\
  raw_answer (match_path 10 any_engine three asked [asked_seg]) = Some (str "/{name}") /\
  raw_answer (match_path 10 any_engine (fst (add_pattern three fourth)) asked [asked_seg]) = Some (str "/{name}").
Proof. exact three_ok. Qed.

(** Case: the same request in four interleavings, with room for four children and for three. *)
Example C141_case_raced :
  option_map raw_answer (raced 4 [false; true; true; true; true; false; false; false]) = Some None /\
  option_map raw_answer (raced 4 [false; false; true; true; false; false]) = Some None /\
  option_map raw_answer (raced 3 [false; true; true; true; true; false; false; false]) = Some (Some (str "/{name}")) /\
  option_map raw_answer (raced 4 [true; true; true; false; true; false; false; false; false]) = Some (Some (str "/{name}")).
Proof. exact three_raced. Qed.

(** Case: the request waits for the registration. *)
Example C141_case_after : let wait := [true; true; true; true] in
  g_pc (reg_run three_children 4 (fresh_node fourth (seg_of fourth)) wait (reg_start three_children)) = AtEnd /\
  g_lookup (reg_run three_children 4 (fresh_node fourth (seg_of fourth)) wait (reg_start three_children)) = NotBegun /\
  option_map raw_answer (raced 4 (wait ++ [false; false; false; false; false])) = Some (Some (str "/{name}")).
Proof. exact four_raced. Qed.
