(** * Property C128: responses are what the functions that make them say *)
From Coq Require Import List NArith ZArith Ascii String Bool Arith Permutation.
From Verif Require Import GoBase Http_Model Chain_Model Serve_Model Resp_Model Json_Model JsonErr_Model Ctor_Model Resp_Spec JsonErr_Spec Ctor_Spec
  RespMisc_Proofs Ctor_Proofs.
Import ListNotations.
Local Open Scope string_scope.
Local Open Scope list_scope.
Local Open Scope nat_scope.

(** C128 is false for templates: a template of any type but the one of html/template is
    sent as plain text, by the function that makes an HTML response. *)
Theorem C128_template_refuted : forall (k : compressor) (oh : headers -> headers) (oc : cookies -> cookies) (render : cookie -> bytes)
    (location : wreq -> bytes -> bytes) (redirect_body : Z -> bytes -> bytes),
  (forall m, Permutation (oh m) m) -> (forall m, Permutation (oc m) m) -> forall (Data : Type) (t : template Data) n d q,
  (forall f, t <> THtml f) ->
  exists b hs, write oh oc render location redirect_body (template_ok t n d) q (@Plain k base_new) = (snd (execute t n d), Plain b) /\
    received b = (200%Z, hs, joined (fst (execute t n d))) /\ hvalues hs (str "Content-Type") = [str "text/plain; charset=utf-8"].
Proof. exact (@other_plain). Qed.
Print Assumptions C128_template_refuted.

(** So is the nil template of the package, whose page is empty. *)
Theorem C128_nil_refuted : forall (k : compressor) (oh : headers -> headers) (oc : cookies -> cookies) (render : cookie -> bytes)
    (location : wreq -> bytes -> bytes) (redirect_body : Z -> bytes -> bytes),
  (forall m, Permutation (oh m) m) -> (forall m, Permutation (oc m) m) -> forall (Data : Type) n (d : Data) q,
  exists b hs, write oh oc render location redirect_body (template_ok nil_template n d) q (@Plain k base_new) = (Wrote None, Plain b) /\
    received b = (200%Z, hs, []) /\ hvalues hs (str "Content-Type") = [str "text/plain; charset=utf-8"].
Proof. exact (@nil_plain). Qed.
Print Assumptions C128_nil_refuted.

(** C128, what holds: the other functions, unless the custom headers have a name in two
    spellings, the status is none with a body, or an event stream is asked for without
    HTTP/2.  Missing: those (C44, C48), and templates of other types. *)
Theorem C128_made_partial : forall (k : compressor) (oh : headers -> headers) (oc : cookies -> cookies) (render : cookie -> bytes)
    (location : wreq -> bytes -> bytes) (redirect_body : Z -> bytes -> bytes),
  (forall m, Permutation (oh m) m) -> (forall m, Permutation (oc m) m) -> forall r p q,
  promised r p -> right_protocol r q -> with_body (pg_status p) -> one_spelling (pg_headers p) ->
  exists b, write oh oc render location redirect_body r q (@Plain k base_new) = (pg_end p, Plain b) /\ delivered render p (pg_end p) b.
Proof. exact (@as_promised). Qed.
Print Assumptions C128_made_partial.

Example C128_case : forall k,
  let r := json_error_with_headers_and_cookies 404 (Some (str "no such user")) (Some [(str "X-A", str "1")]) (Some (new_http_cookie [Some sid])) in
  let q := WReq (str "GET") [] 1%N in
  exists p, promised r p /\ right_protocol r q /\ with_body (pg_status p) /\ one_spelling (pg_headers p) /\
    received (rw_base (snd (@write k (fun m => m) (fun m => m) (fun c => ck_name c ++ str "=" ++ ck_rest c) (fun _ u => u) (fun _ _ => []) r q (Plain base_new)))) =
      (404%Z, [(str "X-Content-Type-Options", [str "nosniff"]); (str "Content-Type", [str "application/json"]); (str "X-A", [str "1"]); (str "Set-Cookie", [str "sid=1"])],
       str "{""error"":""No such user""}").
Proof. exact made_case. Qed.

(** C128, templates of html/template. *)
Theorem C128_html_partial : forall (k : compressor) (oh : headers -> headers) (oc : cookies -> cookies) (render : cookie -> bytes)
    (location : wreq -> bytes -> bytes) (redirect_body : Z -> bytes -> bytes),
  (forall m, Permutation (oh m) m) -> (forall m, Permutation (oc m) m) -> forall (Data : Type) (f : bytes -> Data -> list bytes * wout) r p q,
  promised_template (THtml f) r p -> with_body (pg_status p) -> one_spelling (pg_headers p) ->
  exists b, write oh oc render location redirect_body r q (@Plain k base_new) = (pg_end p, Plain b) /\ delivered render p (pg_end p) b.
Proof. exact (@as_promised_html). Qed.
Print Assumptions C128_html_partial.

(** C128, redirects. *)
Theorem C128_redirects : forall (k : compressor) (oh : headers -> headers) (oc : cookies -> cookies) (render : cookie -> bytes)
    (location : wreq -> bytes -> bytes) (redirect_body : Z -> bytes -> bytes) url q st r,
  (st, r) = (301%Z, redirect_moved_permanently url) \/ (st, r) = (302%Z, redirect_found url) \/ (st, r) = (303%Z, redirect_see_other url) ->
  exists b hs body, write oh oc render location redirect_body r q (@Plain k base_new) = (Wrote None, Plain b) /\ received b = (st, hs, body) /\
    hvalues hs (str "Location") = [location q url] /\ (wq_method q <> str "GET" -> body = []).
Proof. exact (@redirected). Qed.
Print Assumptions C128_redirects.

Example C128_html_case :
  let t := THtml (fun n (d : bytes) => ([str "<p>"; d], Wrote None)) in
  exists p, promised_template t (template_with_headers t 404 (str "a.html") (str "gone") (Some [(str "Content-Type", str "text/xml")])) p /\
    with_body (pg_status p) /\ one_spelling (pg_headers p) /\ pg_headers p = [(str "Content-Type", str "text/xml")] /\ (forall f, nil_template <> @THtml bytes f).
Proof. exact html_case. Qed.
