(** * C149: how much work all wildcard comparisons of a request are *)
From Coq Require Import List NArith Ascii String.
From Verif Require Import GoBase Glob_Model Pattern_Model Url_Model Match_Model Router_Model Work_Model GlobWork_Model RouteWork_Model
  Routing_Spec Url_Spec Work_Spec RouteWork_Spec RouteWork_Proofs.
Import ListNotations.
Local Open Scope string_scope.
Local Open Scope list_scope.
Local Open Scope nat_scope.

(** C149: whatever was registered and whatever path is asked for, all wildcard comparisons
    together take at most so many rounds: the length of the path times twice the length of
    the longest pattern, up to small constants, for each comparison that C147 allows. *)
Theorem C149_work : forall fuel f gf re ci regs r ends mth path buf,
  List.length buf = 19 -> handle_all fuel re (new_router ci) regs = (r, ends) ->
  request_rounds f gf re r mth path buf <=
    (List.length path + 2) * (2 * longest regs + 3) * ((2 * Nat.min 19 (slashes path) + 1) * accepted_pieces mth regs ends).
Proof. exact routing_rounds. Qed.
Print Assumptions C149_work.

Example C149_case :
  snd wild_router = [Registered; Registered; Registered] /\ longest wild_regs = 11 /\
  accepted_pieces (str "GET") wild_regs (snd wild_router) = 8 /\ slashes (str "/x/aaaaaac/aaab/cab/c") = 5 /\
  dispatch_request 200 wild_engine (fst wild_router) (str "GET") (str "/x/aaaaaac/aaab/cab/c") (repeat useg_zero 19) = NotFound /\
  request_calls 200 wild_engine (fst wild_router) (str "GET") (str "/x/aaaaaac/aaab/cab/c") (repeat useg_zero 19) = 12 /\
  request_rounds 200 100 wild_engine (fst wild_router) (str "GET") (str "/x/aaaaaac/aaab/cab/c") (repeat useg_zero 19) = 75.
Proof. exact wild_case. Qed.

(** What is counted: with a single wildcard piece it is the rounds of the comparisons made. *)
Example C149_one_case :
  request_rounds 40 200 wild_engine (one_wild "*aaab") (str "GET") (str "/aaaaaaaaac") (repeat useg_zero 19) = segment_rounds 200 false (str "aaaaaaaaac") (str "*aaab") /\
  request_rounds 40 200 wild_engine (one_wild "**/*ab/c") (str "GET") (str "/aac/ac/c/d") (repeat useg_zero 19) =
    segment_rounds 200 false (str "aac") (str "*ab") + segment_rounds 200 false (str "ac") (str "*ab") +
    segment_rounds 200 false (str "c") (str "*ab") + segment_rounds 200 false (str "d") (str "*ab").
Proof. exact wild_one. Qed.

(** All comparisons behind a [**] are counted: with the route /**/*ab, a request none of
    whose segments ends in ab costs what comparing each of them with *ab costs. *)
Theorem C149_counted : forall re f gf path ts buf, (blen path < 65536)%N -> segments_of path ts -> ts <> [] -> List.length buf = 19 ->
  Forall (fun t => regex_segment_match t (str "*ab") false = GRet false) ts ->
  request_rounds (S f) gf re (far_router re) (str "GET") path buf = list_sum (map (fun t => segment_rounds gf false t (str "*ab")) ts).
Proof. exact rounds_counted. Qed.
Print Assumptions C149_counted.

Example C149_counted_case : segments_of (str "/aaac/d") [str "aaac"; str "d"] /\
  regex_segment_match (str "aaac") (str "*ab") false = GRet false /\ regex_segment_match (str "d") (str "*ab") false = GRet false /\
  request_rounds 1 100 wild_engine (far_router wild_engine) (str "GET") (str "/aaac/d") (repeat useg_zero 19) = 18.
Proof. exact counted_case. Qed.

(** So are those at several levels and with several children: with the routes /x*/*ab and
    /?y/z, a request for /t1/t2 where t1 starts with x and is not of the form ?y and t2
    does not end in ab costs three comparisons. *)
Theorem C149_summed : forall re f gf path t1 t2 buf, (blen path < 65536)%N -> segments_of path [t1; t2] -> List.length buf = 19 ->
  regex_segment_match t1 (str "?y") false = GRet false ->
  regex_segment_match t1 (str "x*") false = GRet true -> regex_segment_match t2 (str "*ab") false = GRet false ->
  request_rounds (3 + f) gf re (near_router re) (str "GET") path buf =
    segment_rounds gf false t1 (str "?y") + segment_rounds gf false t1 (str "x*") + segment_rounds gf false t2 (str "*ab").
Proof. exact rounds_summed. Qed.
Print Assumptions C149_summed.

Example C149_summed_case : segments_of (str "/xaa/aac") [str "xaa"; str "aac"] /\
  regex_segment_match (str "xaa") (str "?y") false = GRet false /\
  regex_segment_match (str "xaa") (str "x*") false = GRet true /\ regex_segment_match (str "aac") (str "*ab") false = GRet false /\
  request_rounds 3 100 wild_engine (near_router wild_engine) (str "GET") (str "/xaa/aac") (repeat useg_zero 19) = 13.
Proof. exact summed_case. Qed.
