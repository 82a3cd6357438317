(** * What the functions that make responses say in their comments *)
From Coq Require Import List NArith ZArith Ascii String Bool Permutation.
From Verif Require Import GoBase Http_Model Chain_Model Serve_Model Resp_Model Json_Model JsonErr_Model Ctor_Model Resp_Spec JsonErr_Spec.
Import ListNotations.
Local Open Scope string_scope.
Local Open Scope list_scope.

(** What a function makes: the status, the type of the content, the custom headers and
    cookies, the bodies, and how the body ends. *)
Record page := Page { pg_status : Z; pg_type : bytes; pg_headers : headers; pg_cookies : list cookie; pg_body : bytes -> Prop; pg_end : wout }.

Definition opt_headers (hs : option headers) : headers := match hs with Some m => m | None => [] end.
Definition opt_cookies (cs : option cookies) : list cookie := match cs with Some m => map snd m | None => [] end.
Definition joined (l : list bytes) : bytes := flat_map (fun x => x) l.

(** The body of a JSON response, and whether it can be made. *)
Definition json_body (p : option (option bytes)) : bytes := match p with None => str "{}" | Some (Some b) => b | Some None => [] end.
Definition json_end (p : option (option bytes)) : wout := match p with Some None => Wrote (Some marshal_error) | _ => Wrote None end.
(** An error body says the message with a capital letter; nothing is claimed about messages
    that start with a byte outside of ASCII (C55). *)
Definition error_body (e : option bytes) (b : bytes) : Prop :=
  exists m, says_error b m /\
    match e with None | Some [] => m = [] | Some (c :: t) => (code c < 128)%N -> capitalised (c :: t) m end.
Definition source_body (f : option (list bytes * wout)) : bytes := match f with Some (l, _) => joined l | None => [] end.
Definition source_end (f : option (list bytes * wout)) : wout := match f with Some (_, o) => o | None => Wrote None end.

(** The events of a generator; one that is nil or panics gives none. *)
Definition events_body (evs : option (list event)) (live : nat) : bytes :=
  match evs with Some l => joined (map event_string (firstn live l)) | None => [] end.
Definition events_end (evs : option (list event)) : wout := match evs with Some _ => Wrote None | None => WPanic end.

(** The comments of the functions (text.go, json.go, raw.go, streaming.go, sse.go,
    headers.go). *)
Inductive promised : response -> page -> Prop :=
| pr_plain_ok : forall p, promised (plain_text_ok p) (Page 200 (str "text/plain; charset=utf-8") [] [] (eq p) (Wrote None))
| pr_plain : forall st p, promised (plain_text_response st p) (Page st (str "text/plain; charset=utf-8") [] [] (eq p) (Wrote None))
| pr_plain_h : forall st p hs, promised (plain_text_with_headers st p hs) (Page st (str "text/plain; charset=utf-8") (opt_headers hs) [] (eq p) (Wrote None))
| pr_plain_hc : forall st p hs cs, promised (plain_text_with_headers_and_cookies st p hs cs)
    (Page st (str "text/plain; charset=utf-8") (opt_headers hs) (opt_cookies cs) (eq p) (Wrote None))
| pr_html_ok : forall p, promised (html_ok p) (Page 200 (str "text/html; charset=utf-8") [] [] (eq p) (Wrote None))
| pr_html : forall st p, promised (html_response st p) (Page st (str "text/html; charset=utf-8") [] [] (eq p) (Wrote None))
| pr_html_h : forall st p hs, promised (html_with_headers st p hs) (Page st (str "text/html; charset=utf-8") (opt_headers hs) [] (eq p) (Wrote None))
| pr_html_hc : forall st p hs cs, promised (html_with_headers_and_cookies st p hs cs)
    (Page st (str "text/html; charset=utf-8") (opt_headers hs) (opt_cookies cs) (eq p) (Wrote None))
| pr_json_ok : forall p, promised (json_ok p) (Page 200 (str "application/json") [] [] (eq (json_body p)) (json_end p))
| pr_json : forall st p, promised (json_plain st p) (Page st (str "application/json") [] [] (eq (json_body p)) (json_end p))
| pr_json_c : forall st p cs, promised (json_with_cookies st p cs) (Page st (str "application/json") [] (opt_cookies cs) (eq (json_body p)) (json_end p))
| pr_json_h : forall st p hs, promised (json_with_headers st p hs) (Page st (str "application/json") (opt_headers hs) [] (eq (json_body p)) (json_end p))
| pr_json_hc : forall st p hs cs, promised (json_with_headers_and_cookies st p hs cs)
    (Page st (str "application/json") (opt_headers hs) (opt_cookies cs) (eq (json_body p)) (json_end p))
| pr_error : forall st e, promised (json_error st e) (Page st (str "application/json") [] [] (error_body e) (Wrote None))
| pr_error_c : forall st e cs, promised (json_error_with_cookies st e cs)
    (Page st (str "application/json") [] (opt_cookies cs) (error_body e) (Wrote None))
| pr_error_h : forall st e hs, promised (json_error_with_headers st e hs)
    (Page st (str "application/json") (opt_headers hs) [] (error_body e) (Wrote None))
| pr_error_hc : forall st e hs cs, promised (json_error_with_headers_and_cookies st e hs cs)
    (Page st (str "application/json") (opt_headers hs) (opt_cookies cs) (error_body e) (Wrote None))
| pr_raw_ok : forall t f, promised (raw_ok t f) (Page 200 t [] [] (eq (source_body f)) (source_end f))
| pr_raw_h : forall st t hs f, promised (raw_with_headers st t hs f) (Page st t (opt_headers hs) [] (eq (source_body f)) (source_end f))
| pr_raw_c : forall st t cs f, promised (raw_with_cookies st t cs f) (Page st t [] (opt_cookies cs) (eq (source_body f)) (source_end f))
| pr_raw_hc : forall st t hs cs f, promised (raw_with_headers_and_cookies st t hs cs f)
    (Page st t (opt_headers hs) (opt_cookies cs) (eq (source_body f)) (source_end f))
| pr_stream_ok : forall t f, promised (stream_ok t f) (Page 200 t [] [] (eq (source_body f)) (source_end f))
| pr_stream_h : forall st t hs f, promised (stream_with_headers st t hs f) (Page st t (opt_headers hs) [] (eq (source_body f)) (source_end f))
| pr_stream_c : forall st t cs f, promised (stream_with_cookies st t cs f) (Page st t [] (opt_cookies cs) (eq (source_body f)) (source_end f))
| pr_stream_hc : forall st t hs cs f, promised (stream_with_headers_and_cookies st t hs cs f)
    (Page st t (opt_headers hs) (opt_cookies cs) (eq (source_body f)) (source_end f))
| pr_sse : forall evs live, promised (sse evs live) (Page 200 (str "text/event-stream") [] [] (eq (events_body evs live)) (events_end evs))
| pr_sse_h : forall evs live hs, promised (sse_with_headers evs live hs)
    (Page 200 (str "text/event-stream") (opt_headers hs) [] (eq (events_body evs live)) (events_end evs))
| pr_sse_hc : forall evs live hs cs, promised (sse_with_headers_and_cookies evs live hs cs)
    (Page 200 (str "text/event-stream") (opt_headers hs) (opt_cookies cs) (eq (events_body evs live)) (events_end evs))
| pr_500 : promised internal_server_error (Page 500 [] [] [] (eq []) (Wrote None)).

(** The comments of template.go: an HTML response with what the template writes. *)
Inductive promised_template {Data : Type} (t : template Data) : response -> page -> Prop :=
| pt_ok : forall n d, promised_template t (template_ok t n d)
    (Page 200 (str "text/html; charset=utf-8") [] [] (eq (joined (fst (execute t n d)))) (snd (execute t n d)))
| pt_missing : forall n d, promised_template t (template_not_found t n d)
    (Page 404 (str "text/html; charset=utf-8") [] [] (eq (joined (fst (execute t n d)))) (snd (execute t n d)))
| pt_h : forall st n d hs, promised_template t (template_with_headers t st n d hs)
    (Page st (str "text/html; charset=utf-8") (opt_headers hs) [] (eq (joined (fst (execute t n d)))) (snd (execute t n d)))
| pt_c : forall st n d cs, promised_template t (template_with_cookies t st n d cs)
    (Page st (str "text/html; charset=utf-8") [] (opt_cookies cs) (eq (joined (fst (execute t n d)))) (snd (execute t n d)))
| pt_hc : forall st n d hs cs, promised_template t (template_with_headers_and_cookies t st n d hs cs)
    (Page st (str "text/html; charset=utf-8") (opt_headers hs) (opt_cookies cs) (eq (joined (fst (execute t n d)))) (snd (execute t n d))).

(** The client gets the page. *)
Definition delivered (render : cookie -> bytes) (p : page) (o : wout) (b : base) : Prop :=
  exists hs ts body, o = pg_end p /\ received b = (pg_status p, hs, body) /\ pg_body p body /\
    Permutation ts (texts_of render (pg_cookies p)) /\ sent_as [] hs (pg_headers p) ts (pg_type p).
