(** * Property C142: the cookies of a request *)
From Coq Require Import List NArith ZArith Ascii String Bool Arith Permutation.
From Verif Require Import GoBase Http_Model Auth_Model Chain_Model Serve_Model Resp_Model Chain_Spec Resp_Spec Json_Model Json_Spec Dump_Model Dump_Spec.
From Verif Require Import Cookie_Model Cookie_Spec CookieDump_Model CookieDump_Spec CookieDump_Proofs.
Import ListNotations.
Local Open Scope string_scope.
Local Open Scope list_scope.
Local Open Scope nat_scope.

(** C142: the cookies of a request are the well-formed texts between semicolons, in order. *)
Theorem C142_read : forall lines l, cookies_in (between_semicolons lines) l <-> read_cookies lines = l.
Proof. exact read_exact. Qed.
Print Assumptions C142_read.

(** C142: when the handler gives a response, every one of them is in the log, with its name
    and value, and no other; whatever the handler does to the header. *)
Theorem C142_logged : forall (Req World : Type) (view : Req -> dreq) (header form : World -> option hmap) (now : World -> Z)
    (log : bytes -> World -> World) (oc : cookies -> cookies) (render : cookie -> bytes),
  (forall m, Permutation (oc m) m) -> forall (h : handler Req response World) c rq w r w' st hs cs lines l,
  h c rq w = (HReturn (Some r) None, w') -> shown r st hs cs ->
  dq_cookies (view rq) = dumped_cookies lines -> cookies_in (between_semicolons lines) l ->
  exists r' t v rv, request_dumper view header form now log oc render h c rq w = (HReturn (Some r') None, log t w') /\
    (forall v', json_text t v' <-> v' = v) /\ member v (str "request") rv /\
    (l = [] -> lacks rv (str "cookies")) /\
    (l <> [] -> exists ts, Forall2 written l ts /\ holds rv (str "cookies") (texts ts)).
Proof. exact dump_cookies. Qed.
Print Assumptions C142_logged.

(** Case: texts that are cookies and texts that are not. *)
Example C142_case : is_cookie (str " a=""1, 2"" ") (str "a") (str "1, 2") /\ is_cookie (str "flag") (str "flag") [] /\
  (forall n v, ~ is_cookie (str "b=""x") n v) /\ (forall n v, ~ is_cookie (str "a b=1") n v) /\ (forall n v, ~ is_cookie (str " =1") n v).
Proof. exact is_cookie_case. Qed.

(** Case: two lines. *)
Example C142_case_logged : let lines := [str " a=""1, 2"" ; b=""x; flag;"; str "c=d=e"] in
  cookies_in (between_semicolons lines) [(str "a", str "1, 2"); (str "flag", []); (str "c", str "d=e")] /\
  dumped_cookies lines = [str "a=""1, 2"""; str "flag="; str "c=d=e"].
Proof. exact dumped_case. Qed.
