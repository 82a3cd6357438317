(** * C148: how much work one wildcard comparison is *)
From Coq Require Import List NArith Ascii String.
From Verif Require Import GoBase Glob_Model Pattern_Model GlobWork_Model Glob_Spec GlobWork_Proofs GlobOrder_Proofs.
Import ListNotations.
Local Open Scope nat_scope.

(** C148: however many stars a wildcard piece of an accepted pattern has, comparing a text
    with it takes at most as many rounds as the length of the text times twice the length
    of the piece, up to small constants. *)
Theorem C148_work : forall fuel re t ci p s, parse_pattern fuel re t ci = POk p -> In s (p_segs p) -> s_mt s = MTRegex ->
  forall f u, segment_rounds f ci u (s_val s) <= (List.length u + 2) * (2 * List.length (s_val s) + 3).
Proof. exact parsed_work. Qed.
Print Assumptions C148_work.

Example C148_case :
  let re := Engine (fun _ => true) (fun _ _ => true) in
  exists p s, parse_pattern 20 re (str "/x/*aaaaaaab") false = POk p /\ In s (p_segs p) /\ s_mt s = MTRegex /\
    segment_rounds 400 false (str "aaaaaaaaaaaaaaaaaaac") (s_val s) = 172 /\ (20 + 2) * (2 * List.length (s_val s) + 3) = 462.
Proof. exact work_parsed. Qed.

(** The rounds of the main loop alone: after so many, the answer is there. *)
Theorem C148_rounds : forall ci u w n, no_adjacent_stars w -> (List.length u + 2) * (2 * List.length w + 3) <= n ->
  existsb (fun c => Ascii.eqb c "*"%char) w = true \/ List.length u = List.length w ->
  glob_loop n ci u w (GState 0 0 false None) = regex_segment_match u w ci.
Proof. exact wildcard_soon. Qed.
Print Assumptions C148_rounds.

Example C148_rounds_case :
  let u := str "aaaaaaaaaaaaaaaaaaac" in let p := str "*aaaaaaab" in
  no_adjacent_stars p /\ regex_segment_match u p false = GRet false /\ segment_rounds 400 false u p = 172.
Proof. exact wildcard_case. Qed.

(** The product cannot be avoided: the piece with a star, m times a and b, and the text of n
    times a take (n-m)*(m+3) rounds at least. *)
Theorem C148_order : forall n m, 1 <= m -> m < n ->
  (n - m) * (m + 3) <=
    segment_rounds (S ((n - m) * (m + 2))) false (repeat "a"%char n) ("*"%char :: repeat "a"%char m ++ ["b"%char]).
Proof. exact hard_rounds. Qed.
Print Assumptions C148_order.

Example C148_order_case :
  segment_rounds 400 false (repeat "a"%char 30) ("*"%char :: repeat "a"%char 9 ++ ["b"%char]) = 316 /\ (30 - 9) * (9 + 3) = 252.
Proof. vm_compute. split; reflexivity. Qed.

(** Looking for the byte behind a star takes a round for each byte. *)
Theorem C148_search : forall x y n f, x <> y -> y <> "?"%char -> y <> "*"%char ->
  segment_rounds (3 + f) false (repeat x n ++ [y]) ["*"%char; y] = n + 4.
Proof. exact far_rounds. Qed.
Print Assumptions C148_search.

Example C148_search_case : segment_rounds 3 false (str "aaaaab") (str "*b") = 9 /\ regex_segment_match (str "aaaaab") (str "*b") false = GRet true.
Proof. vm_compute. split; reflexivity. Qed.
