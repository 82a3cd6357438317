(** * Property C07 and the parsing part of C09: request paths *)
From Coq Require Import List Ascii String NArith Lia.
From Verif Require Import GoBase Pattern_Model Url_Model Url_Spec Url_Proofs.
Import ListNotations.
Local Open Scope string_scope.
Local Open Scope list_scope.

(** C07.  The recorded segments are the segments of the path, each one an exact
    slice of it, whatever the recycled buffer holds. *)
Theorem C07_segments_exact : forall path ts buf,
  (blen path < 65536)%N -> segments_of path ts -> List.length buf = 19 ->
  exists us, parse_url_path path buf = Some us /\
    Forall2 (fun u t => useg_text path u = Some t /\ u_mt u = MTUnknown) us ts.
Proof. exact parse_url_texts. Qed.
Print Assumptions C07_segments_exact.

(** C07: every path has exactly one reading or holds too many segments, in which
    case none is recorded. *)
Theorem C07_reading_total : forall path, overlong path \/ exists ts, segments_of path ts.
Proof. exact path_cases. Qed.
Print Assumptions C07_reading_total.

Theorem C07_reading_unique : forall path ts1 ts2,
  segments_of path ts1 -> segments_of path ts2 -> ts1 = ts2.
Proof. exact segments_of_unique. Qed.
Print Assumptions C07_reading_unique.

Theorem C07_overlong_empty : forall path buf, (blen path < 65536)%N -> overlong path ->
  List.length buf = 19 -> parse_url_path path buf = Some [].
Proof. exact parse_url_overlong. Qed.
Print Assumptions C07_overlong_empty.

Example C07_case : segments_of (str "/users//x/../7/") [str "users"; str "7"].
Proof. exact case_path. Qed.
Example C07_case_parsed :
  option_map (map (useg_text (str "/users//x/../7/")))
    (parse_url_path (str "/users//x/../7/") (repeat useg_zero 19)) = Some [Some (str "users"); Some (str "7")].
Proof. vm_compute. reflexivity. Qed.

(** C09: reading a request path never panics, whatever its length. *)
Theorem C09_parse_never_panics : forall path buf, List.length buf = 19 -> parse_url_path path buf <> None.
Proof. exact parse_url_total. Qed.
Print Assumptions C09_parse_never_panics.

Example C09_parse_case : forall f, let buf := repeat f 19 in
  List.length buf = 19 /\ exists us, parse_url_path (str "/users//42/") buf = Some us.
Proof. intro f. split; [reflexivity|]. eexists. vm_compute. reflexivity. Qed.
