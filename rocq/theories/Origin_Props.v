(** * Properties C70 and C75, exactly: which origins are answered *)
From Coq Require Import List NArith ZArith Ascii String Bool Arith.
From Verif Require Import GoBase Http_Model Auth_Model Csrf_Model Chain_Model.
From Verif Require Import Resp_Model Resp_Spec Cors_Model Cors_Spec CorsCases_Proofs Origin_Spec Origin_Proofs.
Import ListNotations.
Local Open Scope string_scope.
Local Open Scope list_scope.
Local Open Scope nat_scope.

(** C75, exactly: what is not of the form of [accepted_origin] is refused, whatever the
    configuration; the handler has run and its effects stay. *)
Theorem C75_exact : forall (World : Type) (h : handler xreq response World) c x q w o,
  carries q (str "Origin") o -> ~ accepted_origin o ->
  cors c h x q w =
  (match fst (h x q w) with
   | HPanic v => HPanic v
   | HReturn _ (Some e) => HReturn None (Some e)
   | HReturn _ None => HReturn None (Some EAccessDenied)
   end, snd (h x q w)).
Proof. exact (@refused_not_accepted). Qed.
Print Assumptions C75_exact.

(** Odd texts that are origins, two that look like them, and some that are none. *)
Example C75_exact_case :
  (forall o, In o [str "null"; str "file://"; str "https://shop.example"; str "x+y-1.z://me:pw@shop.example:8080/?//";
                   str "http://[::1]:80"; str "http://[a]b"; str "a:b@c:d"; str "h://:1:2"; str "h:///x"; str "H://a<b>@c"; str "mailto:me"] ->
     accepted_origin o <-> ~ In o [str "http://[a]b"; str "H://a<b>@c"]) /\
  (forall o, In o [str "http://a^b"; str "http://a b"; str "http://a:b"; str "http://a:80x/"; str "1a://b"; str "://b"; str "http://[a:80"; str "h://a@b@[c"; str "*"; str "/a:b"] ->
     ~ accepted_origin o /\ fst (cors open_to_all counting nobody (get_from o) 0) = HReturn None (Some EAccessDenied)).
Proof. exact (@accepted_case). Qed.

(** C70, exactly what holds: a request of another origin gets the answer of the handler if
    and only if the origin is one, origin, method and headers are allowed, a POST has a
    media type and a preflight names a method. *)
Theorem C70_exact_partial : forall (World : Type) (h : handler xreq response World) c x q w r w' o,
  answered h x q w r w' -> carries q (str "Origin") o -> web_url q ->
  ~ odd_ports (to_lower (xq_scheme q)) (xq_host q) o -> ~ own (to_lower (xq_scheme q)) (xq_host q) o ->
  is_answer (fst (cors c h x q w)) <-> accepted_origin o /\ allows_origin c o /\ allows c q /\ full_request q.
Proof. exact (@cross_exact). Qed.
Print Assumptions C70_exact_partial.

Example C70_exact_case :
  let o := str "x+y-1.z://me:pw@shop.example:8080" in
  answered counting nobody (get_from o) 0 page 1 /\ carries (get_from o) (str "Origin") o /\ web_url (get_from o) /\
  ~ odd_ports (to_lower (xq_scheme (get_from o))) (xq_host (get_from o)) o /\ ~ own (to_lower (xq_scheme (get_from o))) (xq_host (get_from o)) o /\
  is_answer (fst (cors open_to_all counting nobody (get_from o) 0)) /\ accepted_origin o /\
  ~ is_answer (fst (cors open_to_all counting nobody (get_from (str "http://a^b")) 0)) /\ ~ accepted_origin (str "http://a^b").
Proof. exact (@cross_exact_case). Qed.

(** Content types, and a POST request without a type. *)
Example C70_type_case :
  names_type (str " text/plain ; charset=utf-8") /\ ~ names_type (str " ; charset=utf-8") /\
  let q t := XReq (str "POST") [(str "Origin", [str "https://shop.example"]); (str "Content-Type", [t])] [] [] true (str "api.example") in
  let c := CorsConfig true false 0 [] [str "POST"] [] [] in
  full_request (q (str "text/plain")) /\ is_answer (fst (cors c counting nobody (q (str "text/plain")) 0)) /\
  ~ full_request (q (str ";a")) /\ ~ is_answer (fst (cors c counting nobody (q (str ";a")) 0)).
Proof. exact (@type_case). Qed.

(** The origins that browsers send are among them. *)
Theorem C70_browser_partial : forall o, browser_origin o -> accepted_origin o.
Proof. exact (@browser_accepted). Qed.
Print Assumptions C70_browser_partial.

Example C70_browser_case : browser_origin (str "https://shop.example:8443").
Proof. exact (@browser_case). Qed.
