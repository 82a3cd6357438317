(** * C121: compressed answers and HTTP clients *)
From Coq Require Import List NArith ZArith Ascii String Bool Permutation.
From Verif Require Import GoBase Http_Model Auth_Model Chain_Model Serve_Model Resp_Model Resp_Spec Zip_Model Zip_Spec RespMisc_Proofs Zip_Proofs.
Import ListNotations.
Local Open Scope N_scope.

(** C121 is false for the coding deflate: the answer does not have the zlib format, at any
    level and for every response, so that a client that keeps to HTTP cannot read it. *)
Theorem C121_deflate_refuted : forall (k : compressor) (oh : headers -> headers) (oc : cookies -> cookies) render location redirect_body level r q h st b b' hs e,
  writes_blocks k -> (forall m, Permutation (oh m) m) -> (forall m, Permutation (oc m) m) ->
  fields r = Some h -> right_protocol r q -> meant_status h st -> with_body st ->
  one_spelling (custom_headers h) -> ~ given (custom_headers h) ce ->
  b_final b = None -> b_body b = [] -> hvalues (b_header b) ce = [] ->
  write oh oc render location redirect_body (RCompress level r) q (@Plain k b) = (e, Plain b') -> b_final b' = Some (st, hs) -> hvalues hs ce = [str "deflate"] ->
  ~ zlib_start (b_body b') /\ http_body hs (b_body b') = None.
Proof. exact (@deflate_unread). Qed.
Print Assumptions C121_deflate_refuted.

(** C121 (partial): at level 0 clients read the body from every other answer; from one in
    deflate they read it if they do without the zlib format. *)
Theorem C121_stored_partial : forall (oh : headers -> headers) (oc : cookies -> cookies) render location redirect_body r q h st b,
  (forall m, Permutation (oh m) m) -> (forall m, Permutation (oc m) m) ->
  fields r = Some h -> right_protocol r q -> meant_status h st -> with_body st ->
  one_spelling (custom_headers h) -> ~ given (custom_headers h) ce ->
  b_final b = None -> b_body b = [] -> hvalues (b_header b) ce = [] ->
  exists b' hs, write oh oc render location redirect_body (RCompress 0 r) q (@Plain storing b) = (end_of r, Plain b') /\
    b_final b' = Some (st, hs) /\
    (http_body hs (b_body b') = Some (body_of r) \/ hvalues hs ce = [str "deflate"] /\ bare_body (b_body b') = Some (body_of r)).
Proof. exact (@storing_answers). Qed.
Print Assumptions C121_stored_partial.

Example C121_case :
  let r := plain_text (HResp 200 [] None None) in let h := HResp 200 [] None None in
  fields r = Some h /\ right_protocol r (asks (str "deflate")) /\ meant_status h 200 /\ with_body 200 /\ one_spelling (custom_headers h) /\ ~ given (custom_headers h) ce /\
  map code (b_body (stored_answer (str "gzip"))) =
    [31; 139; 8; 0; 0; 0; 0; 0; 0; 255; 0; 2; 0; 253; 255; 104; 105; 1; 0; 0; 255; 255; 172; 42; 147; 216; 2; 0; 0; 0] /\
  http_body (snd (fst (received (stored_answer (str "gzip"))))) (b_body (stored_answer (str "gzip"))) = Some (str "hi") /\
  map code (b_body (stored_answer (str "deflate"))) = [0; 2; 0; 253; 255; 104; 105; 1; 0; 0; 255; 255] /\
  hvalues (snd (fst (received (stored_answer (str "deflate"))))) ce = [str "deflate"] /\
  http_body (snd (fst (received (stored_answer (str "deflate"))))) (b_body (stored_answer (str "deflate"))) = None /\
  writes_blocks storing /\ crc32 (str "123456789") = 3421780262 /\
  unzlib (map ascii_of_N [120; 1; 1; 2; 0; 253; 255; 104; 105; 1; 59; 0; 210]) = Some (str "hi").
Proof. exact zip_case. Qed.
