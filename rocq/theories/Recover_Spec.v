(** * What is claimed about panics while a response is written *)
From Coq Require Import List NArith ZArith Ascii String Bool.
From Verif Require Import GoBase Http_Model Chain_Model Serve_Model Resp_Model Resp_Spec.
Import ListNotations.
Local Open Scope string_scope.
Local Open Scope list_scope.
Local Open Scope nat_scope.

(** Responses that cannot be written: an adapted handler that panics or sends an
    impossible status; a write function, reader, template or event generator that panics
    after its headers; a hijack response whose callback panics; a redirect with an
    impossible status; a compressed response around none; and
    the compressed ones of these. *)
Inductive breaks (q : wreq) : response -> Prop :=
| bk_handler : forall hs cs acts, acts_fault acts -> breaks q (RAdaptor hs cs acts)
| bk_body : forall r h st, fields r = Some h -> right_protocol r q -> meant_status h st -> with_body st -> end_of r = WPanic -> breaks q r
| bk_redirect : forall h url, ~ (100 <= hr_status h <= 999)%Z -> breaks q (RRedirect h url)
| bk_callback : forall callback, (forall given, callback given = false) -> breaks q (RHijack callback)
| bk_nothing : forall level, breaks q (RCompressNil level)
| bk_compressed : forall level r, breaks q r -> breaks q (RCompress level r).
