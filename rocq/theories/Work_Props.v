(** * C147: how much work routing a request is *)
From Coq Require Import List NArith Ascii String.
From Verif Require Import GoBase Pattern_Model Url_Model Match_Model Router_Model Work_Model Routing_Spec Work_Spec Work_Proofs WorkAsk_Proofs.
Import ListNotations.
Local Open Scope nat_scope.

(** C147: whatever was registered and whatever path is asked for, however far the search
    goes, it compares a segment with a piece at most so often: the pieces accepted for the
    method times one more than twice the segments, of which at most 19 count. *)
Theorem C147_work : forall fuel f re ci regs r ends mth path buf,
  List.length buf = 19 -> handle_all fuel re (new_router ci) regs = (r, ends) ->
  request_calls f re r mth path buf <= (2 * Nat.min 19 (slashes path) + 1) * accepted_pieces mth regs ends.
Proof. exact routing_work. Qed.
Print Assumptions C147_work.

Example C147_case :
  snd work_router = [Registered; Duplicate; Registered; Registered] /\
  accepted_pieces (str "Get") work_regs (snd work_router) = 5 /\ slashes work_path = 19 /\
  dispatch_request 200 work_engine (fst work_router) (str "Get") work_path (repeat useg_zero 19) = NotFound /\
  request_calls 200 work_engine (fst work_router) (str "Get") work_path (repeat useg_zero 19) = 75.
Proof. exact work_case. Qed.

(** C147 without the factor two is false: a piece can be compared with the same segment
    more than once. *)
Theorem C147_once_refuted : ~ (forall fuel f re ci regs r ends mth path buf,
  List.length buf = 19 -> handle_all fuel re (new_router ci) regs = (r, ends) ->
  request_calls f re r mth path buf <= slashes path * accepted_pieces mth regs ends).
Proof. exact work_product. Qed.
Print Assumptions C147_once_refuted.

(** The comparisons that are counted decide: among them are all questions to regular
    expressions on which the answer depends.  Whoever answers these in the same way gets
    the same answer from the router. *)
Theorem C147_asked : forall f re r mth path buf, exists asked : list (bytes * bytes),
  List.length asked <= request_calls f re r mth path buf /\
  forall re', (forall e t, In (e, t) asked -> re_match re e t = re_match re' e t) ->
    dispatch_request f re' r mth path buf = dispatch_request f re r mth path buf.
Proof. exact routing_asks. Qed.
Print Assumptions C147_asked.

Example C147_asked_case :
  let buf := repeat useg_zero 19 in
  (exists rec segs, dispatch_request 40 (ask_engine true) ask_router (str "GET") (str "/x/b") buf = Calls 7 rec segs) /\
  dispatch_request 40 (ask_engine false) ask_router (str "GET") (str "/x/b") buf = NotFound /\
  request_calls 40 (ask_engine true) ask_router (str "GET") (str "/x/b") buf = 2.
Proof. exact ask_case. Qed.
