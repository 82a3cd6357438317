(** * Model of the functions that make responses (response/text.go, json.go, raw.go,
    streaming.go, template.go, sse.go, redirect.go, headers.go). *)
From Coq Require Import List NArith ZArith Ascii String Bool.
From Verif Require Import GoBase Http_Model Chain_Model Serve_Model Resp_Model Json_Model JsonErr_Model.
Import ListNotations.
Local Open Scope string_scope.
Local Open Scope list_scope.

(** The content types (json.go 12, template.go 12-13, sse.go 15). *)
Definition html_content_type : bytes := str "text/html; charset=utf-8".
Definition plain_text_content_type : bytes := str "text/plain; charset=utf-8".
Definition json_content_type : bytes := str "application/json".
Definition event_stream_content_type : bytes := str "text/event-stream".

(** text.go 42-52 *)
Definition plain_text_with_headers_and_cookies (st : Z) (p : bytes) (hs : option headers) (cs : option cookies) : response :=
  RText (HResp st plain_text_content_type hs cs) p.
(** text.go 25-27 *)
Definition plain_text_ok (p : bytes) : response := plain_text_with_headers_and_cookies 200 p None None.
(** text.go 30-32 *)
Definition plain_text_response (st : Z) (p : bytes) : response := plain_text_with_headers_and_cookies st p None None.
(** text.go 36-38 *)
Definition plain_text_with_headers (st : Z) (p : bytes) (hs : option headers) : response := plain_text_with_headers_and_cookies st p hs None.
(** text.go 72-82 *)
Definition html_with_headers_and_cookies (st : Z) (p : bytes) (hs : option headers) (cs : option cookies) : response :=
  RText (HResp st html_content_type hs cs) p.
(** text.go 55-57 *)
Definition html_ok (p : bytes) : response := html_with_headers_and_cookies 200 p None None.
(** text.go 60-62 *)
Definition html_response (st : Z) (p : bytes) : response := html_with_headers_and_cookies st p None None.
(** text.go 66-68 *)
Definition html_with_headers (st : Z) (p : bytes) (hs : option headers) : response := html_with_headers_and_cookies st p hs None.

(** json.go 67-77.  The payload is what [json.Marshal] makes of it: [None] is a nil
    payload, [Some None] one that cannot be written as JSON. *)
Definition json_with_headers_and_cookies (st : Z) (p : option (option bytes)) (hs : option headers) (cs : option cookies) : response :=
  RJson (HResp st json_content_type hs cs) p.
(** json.go 47-49 *)
Definition json_ok (p : option (option bytes)) : response := json_with_headers_and_cookies 200 p None None.
(** json.go 52-54 *)
Definition json_plain (st : Z) (p : option (option bytes)) : response := json_with_headers_and_cookies st p None None.
(** json.go 57-59 *)
Definition json_with_cookies (st : Z) (p : option (option bytes)) (cs : option cookies) : response := json_with_headers_and_cookies st p None cs.
(** json.go 62-64 *)
Definition json_with_headers (st : Z) (p : option (option bytes)) (hs : option headers) : response := json_with_headers_and_cookies st p hs None.
(** json.go 98-108 *)
Definition json_error_with_headers_and_cookies (st : Z) (e : option bytes) (hs : option headers) (cs : option cookies) : response :=
  json_error_response st e hs cs.
(** json.go 80-82 *)
Definition json_error (st : Z) (e : option bytes) : response := json_error_with_headers_and_cookies st e None None.
(** json.go 86-88 *)
Definition json_error_with_cookies (st : Z) (e : option bytes) (cs : option cookies) : response := json_error_with_headers_and_cookies st e None cs.
(** json.go 92-94 *)
Definition json_error_with_headers (st : Z) (e : option bytes) (hs : option headers) : response := json_error_with_headers_and_cookies st e hs None.

(** raw.go 51-61.  A write function is what it writes and how it ends; nil is [None]. *)
Definition raw_with_headers_and_cookies (st : Z) (ctype : bytes) (hs : option headers) (cs : option cookies) (f : option (list bytes * wout)) : response :=
  RRaw (HResp st ctype hs cs) f.
(** raw.go 33-35 *)
Definition raw_ok (ctype : bytes) (f : option (list bytes * wout)) : response := raw_with_headers_and_cookies 200 ctype None None f.
(** raw.go 39-41 *)
Definition raw_with_headers (st : Z) (ctype : bytes) (hs : option headers) (f : option (list bytes * wout)) : response :=
  raw_with_headers_and_cookies st ctype hs None f.
(** raw.go 45-47 *)
Definition raw_with_cookies (st : Z) (ctype : bytes) (cs : option cookies) (f : option (list bytes * wout)) : response :=
  raw_with_headers_and_cookies st ctype None cs f.

(** streaming.go 49-59; a reader is what it gives and how it ends. *)
Definition stream_with_headers_and_cookies (st : Z) (ctype : bytes) (hs : option headers) (cs : option cookies) (f : option (list bytes * wout)) : response :=
  RStream (HResp st ctype hs cs) f.
(** streaming.go 31-33 *)
Definition stream_ok (ctype : bytes) (f : option (list bytes * wout)) : response := stream_with_headers_and_cookies 200 ctype None None f.
(** streaming.go 37-39 *)
Definition stream_with_headers (st : Z) (ctype : bytes) (hs : option headers) (f : option (list bytes * wout)) : response :=
  stream_with_headers_and_cookies st ctype hs None f.
(** streaming.go 43-45 *)
Definition stream_with_cookies (st : Z) (ctype : bytes) (cs : option cookies) (f : option (list bytes * wout)) : response :=
  stream_with_headers_and_cookies st ctype None cs f.

(** [ExecutableTemplate] (template.go 15-18): a template of html/template, a value of
    another type such as one of text/template, or nil.  What a template does is what it
    writes for a name and data, and how it ends. *)
Inductive template (Data : Type) :=
| THtml (execute : bytes -> Data -> list bytes * wout)
| TOther (execute : bytes -> Data -> list bytes * wout)
| TNone.
Arguments THtml {Data}. Arguments TOther {Data}. Arguments TNone {Data}.

(** [NilTemplate] (template.go 21-29). *)
Definition nil_template {Data : Type} : template Data := TOther (fun _ _ => ([], Wrote None)).

(** [ExecuteTemplate] of a template; nil panics. *)
Definition execute {Data : Type} (t : template Data) (name : bytes) (d : Data) : list bytes * wout :=
  match t with THtml f | TOther f => f name d | TNone => ([], WPanic) end.

(** template.go 75-97 with the execution (template.go 45-47).  The content type is the one
    in the headers, if it is not empty; the key is compared byte by byte. *)
Definition template_with_headers_and_cookies {Data : Type} (t : template Data) (st : Z) (name : bytes) (d : Data)
    (hs : option headers) (cs : option cookies) : response :=
  let own := match hs with
             | Some m => match alookup (str "Content-Type") m with Some v => v | None => [] end
             | None => []
             end in
  let ctype := match own with
               | [] => match t with THtml _ => html_content_type | _ => plain_text_content_type end
               | _ => own
               end in
  RTemplate (HResp st ctype hs cs) (execute t name d).
(** template.go 52-54 *)
Definition template_ok {Data : Type} (t : template Data) (name : bytes) (d : Data) : response :=
  template_with_headers_and_cookies t 200 name d None None.
(** template.go 57-59 *)
Definition template_not_found {Data : Type} (t : template Data) (name : bytes) (d : Data) : response :=
  template_with_headers_and_cookies t 404 name d None None.
(** template.go 63-65 *)
Definition template_with_headers {Data : Type} (t : template Data) (st : Z) (name : bytes) (d : Data) (hs : option headers) : response :=
  template_with_headers_and_cookies t st name d hs None.
(** template.go 69-71 *)
Definition template_with_cookies {Data : Type} (t : template Data) (st : Z) (name : bytes) (d : Data) (cs : option cookies) : response :=
  template_with_headers_and_cookies t st name d None cs.

(** sse.go 124-134.  The generator is the events it gives and how many of them are sent
    before the client leaves. *)
Definition sse_with_headers_and_cookies (evs : option (list event)) (live : nat) (hs : option headers) (cs : option cookies) : response :=
  RSse (HResp 200 event_stream_content_type hs cs) evs live.
(** sse.go 113-115 *)
Definition sse (evs : option (list event)) (live : nat) : response := sse_with_headers_and_cookies evs live None None.
(** sse.go 118-120 *)
Definition sse_with_headers (evs : option (list event)) (live : nat) (hs : option headers) : response := sse_with_headers_and_cookies evs live hs None.

(** redirect.go 34-41 *)
Definition redirect (st : Z) (url : bytes) : response := RRedirect (HResp st [] None None) url.
(** redirect.go 20-22, 25-27, 30-32 *)
Definition redirect_moved_permanently (url : bytes) : response := redirect 301 url.
Definition redirect_found (url : bytes) : response := redirect 302 url.
Definition redirect_see_other (url : bytes) : response := redirect 303 url.

(** headers.go 82-86 *)
Definition internal_server_error : response := RHeaders (HResp 500 [] None None).
