(** * Properties C108 to C114: the example program *)
From Coq Require Import List NArith ZArith Ascii String Bool Arith.
From Verif Require Import GoBase Http_Model Glob_Model Pattern_Model Url_Model Match_Model Router_Model Auth_Model Chain_Model Serve_Model
  Mux_Model Resp_Model Json_Model JsonErr_Model Cors_Model App_Model Example_Model Chain_Spec Mux_Spec App_Spec
  Url_Spec Routing_Spec AppWire_Spec Auth_Spec JsonErr_Spec Example_Spec Witness_Proofs Example_Proofs ExampleAns_Proofs ExampleCase_Proofs.
Import ListNotations.
Local Open Scope string_scope.
Local Open Scope list_scope.
Local Open Scope nat_scope.

(** C108, the start: no registration of the program fails. *)
Theorem C108_starts_partial : forall grow fuel re,
  snd (example_start (60 + fuel) re) = Some Registered /\ snd (example_app grow (60 + fuel) re) = example_ends.
Proof. exact (@example_starts). Qed.
Print Assumptions C108_starts_partial.

(** C108, what holds: a GET request for a page is answered by the handler of the page behind
    its middlewares, with the path variables of the page, and every other request gets 404.
    Missing: paths with more than 19 segments. *)
Theorem C108_pages_partial : forall (W : Type) (o : outside) (p : parts W) fuel q ts buf,
  (blen (rq_path q) < 65536)%N -> segments_of (rq_path q) ts -> List.length buf = 19 ->
  exists k0, forall f x w evs w' b fin, example_serve o p (60 + fuel) (k0 + f) q buf x w = (evs, w', b, fin) ->
    (forall e bs, same_method (str "GET") (xq_method (rq_x q)) -> page ts e bs ->
       exists i mc evs', sees mc q bs /\ visible evs = EvRun i :: evs' /\
         answered_by (parts_user p) (parts_mid p) (os_files o) (os_pages o)
           (sends (os_k o) (os_oh o) (os_oc o) (os_render o) (os_location o) (os_body o) q) e x q mc w evs' w' b fin) /\
    (~ same_method (str "GET") (xq_method (rq_x q)) \/ (forall e bs, ~ page ts e bs) ->
       visible evs = [EvStatus 404] /\ w' = w /\ received b = (404%Z, [], []) /\ fin = SDone).
Proof. exact (@example_pages). Qed.
Print Assumptions C108_pages_partial.

Example C108_case : forall (o : outside),
  segments_of (str "/oauth/authorize/github") [str "oauth"; str "authorize"; str "github"] /\
  segments_of (str "/nowhere") [str "nowhere"] /\
  page [str "oauth"; str "authorize"; str "github"] (behind [] 2) [(str "providerName", str "github")] /\ (forall e bs, ~ page [str "nowhere"] e bs) /\
  get o "/nowhere" = ([EvStatus 404], 3, (404%Z, [], []), SDone) /\
  snd (fst (get o "/")) = (200%Z, typed "text/html; charset=utf-8", str "<p></p>").
Proof. exact (@example_served_case). Qed.

(** C108 is false: every GET request with more than 19 segments gets the index page. *)
Theorem C108_long_refuted : forall (W : Type) (o : outside) (p : parts W) fuel q buf l e f x w evs w' b fin,
  (blen (rq_path q) < 65536)%N -> overlong (rq_path q) -> List.length buf = 19 -> same_method (str "GET") (xq_method (rq_x q)) ->
  pt_template p (str "index.html") = (l, e) ->
  example_serve o p (60 + fuel) (S f) q buf x w = (evs, w', b, fin) ->
  received b = (200%Z, typed "text/html; charset=utf-8", List.concat l) /\ w' = w /\ fin = SDone.
Proof. exact (@example_too_long). Qed.
Print Assumptions C108_long_refuted.

Example C108_long_case : forall (o : outside),
  overlong (str long_path) /\ get o long_path = get o "/" /\
  snd (fst (get o long_path)) = (200%Z, typed "text/html; charset=utf-8", str "<p></p>").
Proof. exact (@example_overlong_case). Qed.

(** C109: the JSON page says the two segments of the path, whatever bytes they hold. *)
Theorem C109_json : forall (W : Type) (o : outside) (p : parts W) fuel q buf u i,
  asked q [str "json"; u; i] buf ->
  exists k0, forall f x w evs w' b fin, example_serve o p (60 + fuel) (k0 + f) q buf x w = (evs, w', b, fin) ->
    exists body, received b = (200%Z, typed "application/json", body) /\ says body (GMap [(str "user", GStr u); (str "id", GStr i)]) /\
      w' = w /\ fin = SDone.
Proof. exact (@example_json). Qed.
Print Assumptions C109_json.

Example C109_json_case : forall (o : outside),
  asked (plain_request GET (str "/json/bob/7")) [str "json"; str "bob"; str "7"] zeros /\
  exists evs, get o "/json/bob/7" = (evs, 3, (200%Z, typed "application/json", json "{'id':'7','user':'bob'}"), SDone).
Proof. exact (@example_json_case). Qed.

(** C109: the pages below /text. *)
Theorem C109_text : forall (W : Type) (o : outside) (p : parts W) fuel q buf t,
  asked q [str "text"; t] buf ->
  exists k0, forall f x w evs w' b fin, example_serve o p (60 + fuel) (k0 + f) q buf x w = (evs, w', b, fin) ->
    w' = w /\ fin = SDone /\
    (t = str "html" -> received b = (200%Z, typed "text/html; charset=utf-8", html_text)) /\
    (t <> str "html" -> received b = (200%Z, typed "text/plain; charset=utf-8", str "Text plain response")).
Proof. exact (@example_text). Qed.
Print Assumptions C109_text.

Example C109_text_case : forall (o : outside),
  asked (plain_request GET (str "/text/html")) [str "text"; str "html"] zeros /\
  asked (plain_request GET (str "/text/any")) [str "text"; str "any"] zeros /\
  (exists evs, get o "/text/any" = (evs, 3, (200%Z, typed "text/plain; charset=utf-8", str "Text plain response"), SDone)) /\
  (exists evs, get o "/text/html" = (evs, 3, (200%Z, typed "text/html; charset=utf-8", html_text), SDone)).
Proof. exact (@example_text_case). Qed.

(** C110: who is authorized, who is not, and who named no permission. *)
Theorem C110_permission : forall (W : Type) (o : outside) (p : parts W) fuel q buf v,
  asked q [str "security"; str "authorize"; v] buf ->
  exists k0, forall f x w evs w' b fin, example_serve o p (60 + fuel) (k0 + f) q buf x w = (evs, w', b, fin) ->
    w' = w /\ fin = SDone /\
    (forall n, names_access v n -> N.testbit n 3 = true ->
       exists body, received b = (200%Z, typed "application/json", body) /\ says body (GMap [(str "authorized", GStr (str "true"))])) /\
    (forall n, names_access v n -> N.testbit n 3 = false ->
       exists body, received b = (401%Z, typed "application/json", body) /\ says_error body (str "unauthorized request")) /\
    (other_scope v ->
       exists body, received b = (401%Z, typed "application/json", body) /\ says_error body (str "unauthorized request")) /\
    ((forall n, ~ names_access v n) -> ~ other_scope v ->
       exists body, received b = (500%Z, typed "application/json", body) /\ says_error body (pt_failure p v)).
Proof. exact (@example_permission). Qed.
Print Assumptions C110_permission.

Example C110_case : forall (o : outside),
  asked (plain_request GET (str "/security/authorize/12")) [str "security"; str "authorize"; str "12"] zeros /\
  names_access (str "12") 12 /\ names_access (str "7") 7 /\ other_scope (str "b:8") /\ (forall n, ~ names_access (str "x") n) /\ ~ other_scope (str "x") /\
  snd (fst (get o "/security/authorize/12")) = (200%Z, typed "application/json", json "{'authorized':'true'}") /\
  snd (fst (get o "/security/authorize/7")) = (401%Z, typed "application/json", json "{'error':'unauthorized request'}") /\
  snd (fst (get o "/security/authorize/b:8")) = (401%Z, typed "application/json", json "{'error':'unauthorized request'}") /\
  snd (fst (get o "/security/authorize/x")) = (500%Z, typed "application/json", json "{'error':'parsing x'}").
Proof. exact (@example_permission_case). Qed.

(** C111: an error of a handler becomes its status and its message, a panic becomes 500
    without any text, and a panic without value ends the connection. *)
Theorem C111_fails : forall (W : Type) (o : outside) (p : parts W) fuel q ts buf h bs,
  asked q ts buf -> page ts (behind [] h) bs ->
  exists k0, forall f x w evs w' b fin, example_serve o p (60 + fuel) (k0 + f) q buf x w = (evs, w', b, fin) ->
    forall out w1, (forall mc, sees mc q bs -> parts_user p h x (AReq q mc) w = (out, w1)) ->
    w' = w1 /\
    (forall r e, out = HReturn r (Some e) -> fin = SDone /\
       exists n m body, documented_status e n /\ message e m /\ received b = (Z.of_N n, typed "application/json", body) /\ says_error body m) /\
    (forall v, out = HPanic (Some v) -> fin = SDone /\ received b = (500%Z, [], [])) /\
    (out = HPanic None -> fin = SCrash).
Proof. exact (@example_fails). Qed.
Print Assumptions C111_fails.

(** Case: here the message tells clients the path of a file on the server. *)
Example C111_case : forall (o : outside),
  asked (plain_request GET (str "/download")) [str "download"] zeros /\ page [str "download"] (behind [] 8) [] /\
  page [str "oauth"; str "initiate"] (behind [] 1) [] /\
  snd (fst (get o "/download")) = (500%Z, typed "application/json", json "{'error':'open ./resources/assets/image.png: no such file or directory'}") /\
  snd (fst (get o "/oauth/initiate")) = (500%Z, [], []) /\ snd (get o "/oauth/authorize/x") = SCrash /\
  snd (fst (get o "/sse")) = (403%Z, typed "application/json", json "{'error':'access denied'}").
Proof. exact (@example_fails_case). Qed.

(** C112 is false: a template that fails, or that does not exist, gives status 200 and what
    was written before.  The error is only logged. *)
Theorem C112_template_refuted : forall (W : Type) (o : outside) (p : parts W) fuel q buf n l er,
  asked q [str "tmpl"; n] buf -> pt_template p (n ++ str ".html") = (l, Some er) ->
  exists k0, forall f x w evs w' b fin, example_serve o p (60 + fuel) (k0 + f) q buf x w = (evs, w', b, fin) ->
    received b = (200%Z, typed "text/html; charset=utf-8", List.concat l) /\ w' = w /\ fin = SDone /\ In (EvLog (WriteFailed er)) evs.
Proof. exact (@example_template_fails). Qed.
Print Assumptions C112_template_refuted.

(** C112, what holds: a template that works is sent with status 200. *)
Theorem C112_template_partial : forall (W : Type) (o : outside) (p : parts W) fuel q buf n l,
  asked q [str "tmpl"; n] buf -> pt_template p (n ++ str ".html") = (l, None) ->
  exists k0, forall f x w evs w' b fin, example_serve o p (60 + fuel) (k0 + f) q buf x w = (evs, w', b, fin) ->
    received b = (200%Z, typed "text/html; charset=utf-8", List.concat l) /\ w' = w /\ fin = SDone.
Proof. exact (@example_template_works). Qed.
Print Assumptions C112_template_partial.

Example C112_good_case : forall (o : outside),
  asked (plain_request GET (str "/tmpl/index")) [str "tmpl"; str "index"] zeros /\
  pt_template sample (str "index" ++ str ".html") = ([str "<p>"; str "</p>"], None) /\
  snd (fst (get o "/tmpl/index")) = (200%Z, typed "text/html; charset=utf-8", str "<p></p>").
Proof. exact (@example_template_good_case). Qed.

(** C112, the index page. *)
Theorem C112_index_partial : forall (W : Type) (o : outside) (p : parts W) fuel q buf l,
  asked q [] buf -> pt_template p (str "index.html") = (l, None) ->
  exists k0, forall f x w evs w' b fin, example_serve o p (60 + fuel) (k0 + f) q buf x w = (evs, w', b, fin) ->
    received b = (200%Z, typed "text/html; charset=utf-8", List.concat l) /\ w' = w /\ fin = SDone.
Proof. exact (@example_index). Qed.
Print Assumptions C112_index_partial.

Example C112_index_case : forall (o : outside),
  asked (plain_request GET (str "/")) [] zeros /\ pt_template sample (str "index.html") = ([str "<p>"; str "</p>"], None) /\
  snd (fst (get o "/")) = (200%Z, typed "text/html; charset=utf-8", str "<p></p>").
Proof. exact (@example_index_case). Qed.

Example C112_case : forall (o : outside),
  asked (plain_request GET (str "/tmpl/none")) [str "tmpl"; str "none"] zeros /\
  pt_template sample (str "none" ++ str ".html") = ([str "<p>"], Some (EOther (str "none.html"))) /\
  snd (fst (get o "/tmpl/none")) = (200%Z, typed "text/html; charset=utf-8", str "<p>").
Proof. exact (@example_template_case). Qed.

(** C113, what holds: the whole file, or why it cannot be opened. *)
Theorem C113_download_partial : forall (W : Type) (o : outside) (p : parts W) fuel q buf,
  asked q [str "download"] buf ->
  exists k0, forall f x w evs w' b fin, example_serve o p (60 + fuel) (k0 + f) q buf x w = (evs, w', b, fin) ->
    fin = SDone /\
    (forall l w1, pt_image p w = (inl (l, None), w1) -> received b = (200%Z, typed "image/png", List.concat l)) /\
    (forall er w1, pt_image p w = (inr er, w1) ->
       exists n m body, documented_status er n /\ message er m /\ received b = (Z.of_N n, typed "application/json", body) /\ says_error body m).
Proof. exact (@example_download). Qed.
Print Assumptions C113_download_partial.

(** C113 is false: if reading fails, the client gets 200 and the part that was read. *)
Theorem C113_cut_refuted : forall (W : Type) (o : outside) (p : parts W) fuel q buf,
  asked q [str "download"] buf ->
  exists k0, forall f x w evs w' b fin, example_serve o p (60 + fuel) (k0 + f) q buf x w = (evs, w', b, fin) ->
    forall l er w1, pt_image p w = (inl (l, Some er), w1) -> received b = (200%Z, typed "image/png", List.concat l) /\ In (EvLog (WriteFailed er)) evs.
Proof. exact (@example_download_cut). Qed.
Print Assumptions C113_cut_refuted.

(** Case: the file cannot be opened; [C114_case] has a file that is sent and one that is
    read in part. *)
Example C113_case : forall (o : outside),
  asked (plain_request GET (str "/download")) [str "download"] zeros /\
  pt_image sample 3 = (inr (EOther (str "open ./resources/assets/image.png: no such file or directory")), 3) /\
  snd (fst (get o "/download")) = (500%Z, typed "application/json", json "{'error':'open ./resources/assets/image.png: no such file or directory'}").
Proof. exact (@example_unopened_case). Qed.

(** C114 is false: every download leaves one more file open, whatever [open] counts in a world, if opening
    a file adds one. *)
Theorem C114_open_refuted : forall (W : Type) (o : outside) (p : parts W) (open : W -> nat) fuel q buf,
  asked q [str "download"] buf ->
  (forall w f w1, pt_image p w = (inl f, w1) -> open w1 = S (open w)) ->
  exists k0, forall f x w evs w' b fin, example_serve o p (60 + fuel) (k0 + f) q buf x w = (evs, w', b, fin) ->
    forall g w1, pt_image p w = (inl g, w1) -> fin = SDone /\ open w' = S (open w).
Proof. exact (@example_download_open). Qed.
Print Assumptions C114_open_refuted.

Example C114_case : forall (o : outside),
  asked (plain_request GET (str "/download")) [str "download"] zeros /\
  pt_image (with_image None) 3 = (inl ([str "\x89PNG"; str "data"], None), 4) /\
  snd (fst (outcome (example_serve o (with_image None) 60 60 (plain_request GET (str "/download")) zeros (Ctx None None None) 3))) =
    (200%Z, typed "image/png", str "\x89PNGdata") /\
  snd (fst (outcome (example_serve o (with_image (Some (EOther (str "disk")))) 60 60 (plain_request GET (str "/download")) zeros (Ctx None None None) 3))) =
    (200%Z, typed "image/png", str "\x89PNGdata") /\
  snd (fst (fst (outcome (example_serve o (with_image None) 60 60 (plain_request GET (str "/download")) zeros (Ctx None None None) 3)))) = 4.
Proof. exact (@example_download_case). Qed.
