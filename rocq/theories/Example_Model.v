(** * Model of the example program (examples/cmd.go).

    The OAuth handlers ([OAuth_Model]) and the event stream ([Stream_Model],
    [EvtGen_Model]) are given as handlers.  Templates and the image are given by what
    they write. *)
From Coq Require Import List NArith ZArith Ascii String Bool.
From Verif Require Import GoBase Http_Model Glob_Model Pattern_Model Match_Model Router_Model Auth_Model Chain_Model Serve_Model
  Mux_Model Resp_Model Json_Model JsonErr_Model Cors_Model App_Model.
Import ListNotations.
Local Open Scope string_scope.
Local Open Scope list_scope.
Local Open Scope nat_scope.

(** The registrations (cmd.go 28-147; [HandleOAUTH2], gofre.go 193-195, and the two calls
    of [HandleGet], gofre.go 207 and 233).  Mux 0 is the one of the program, mux 1 the one
    of line 64. *)
Definition example_get (m : nat) (p : string) (own : list mref) (h : nat) : acall := AMux (CHandle m (str "GET") (str p) own h).
Definition example_calls : list acall :=
  [AMux (CCommon 0 [Some 0; Some 1]);
   example_get 0 "/" [] 0;
   example_get 0 "/oauth/initiate" [] 1;
   example_get 0 "/oauth/authorize/{providerName}" [] 2;
   AMux (CRoute 0 (str "/text"));
   example_get 1 "/{plain}" [] 3;
   example_get 1 "/*" [] 4;
   example_get 1 "/plain" [] 5;
   example_get 1 "/html" [] 6;
   example_get 0 "/json/{user}/{id}" [] 7;
   example_get 0 "/download" [] 8;
   example_get 0 "/tmpl/{tmplName}" [] 9;
   example_get 0 "/sse" [] 10;
   example_get 0 "/security/authorize/{permission}" [Some 2; Some 3] 11].

(** The program when it starts to serve: [NewMuxHandlerWithDefaultConfigAndTemplateSupport]
    (gofre.go 106-108) and the calls. *)
Definition example_start (fuel : nat) (re : engine) : app * option handle_end :=
  new_app fuel re false [] (Some []).
Definition example_app (grow : nat -> nat -> nat) (fuel : nat) (re : engine) : app * list (option handle_end) :=
  acalls grow fuel re (fst (example_start fuel re)) example_calls.

Section Example.
Variable W : Type.
(** The OAuth handlers and the event stream. *)
Variables initiate oauth_return stream : handler areq response W.
(** [ExecuteTemplate] for a name: what it writes, and its error. *)
Variable template : bytes -> list bytes * option err.
(** [os.Open] of the image (cmd.go 90): the error, or what is read from the file.  The
    world after the call has the open file. *)
Variable image : W -> ((list bytes * option err) + err) * W.
(** [debug.Stack] (panic.go 19), and the error of [ParsePermission] for a text that is no
    permission (auth.go 220-239). *)
Variable stack : ctx -> areq -> W -> bytes.
Variable parse_failure : bytes -> bytes.

(** A handler that asks for a path variable; a panic of [PathVar] is one of the handler. *)
Definition with_var (name : bytes) (k : bytes -> handler areq response W) : handler areq response W :=
  fun c q w => match mc_var (aq_mc q) name with Some v => k v c q w | None => (HPanic (Some 0), w) end.
Definition gives (r : response) : handler areq response W := fun _ _ w => (HReturn (Some r) None, w).

(** [PlainTextHttpResponseOK] and [HtmlHttpResponseOK] (text.go 25-27, 55-57). *)
Definition plain_ok (t : bytes) : response := RText (HResp 200 (str "text/plain; charset=utf-8") None None) t.
Definition html_ok (t : bytes) : response := RText (HResp 200 (str "text/html; charset=utf-8") None None) t.
(** [JsonHttpResponseOK] (json.go 47-49). *)
Definition json_ok (v : gval) : response := json_response 200 (Some v) None None.
(** [TemplateHttpResponseOK] with a template of html/template (template.go 52-54, 75-97). *)
Definition template_ok (name : bytes) : response :=
  RTemplate (HResp 200 (str "text/html; charset=utf-8") None None) (fst (template name), Wrote (snd (template name))).
(** [StreamHttpResponse] (streaming.go 31-33). *)
Definition stream_ok (ctype : bytes) (f : list bytes * option err) : response := RStream (HResp 200 ctype None None) (Some (fst f, Wrote (snd f))).

Definition plain_text : bytes := str "Text plain response".
Definition html_text : bytes := str "<!DOCTYPE html><html><body><h1>HTML example</h1></body></html>".

(** The handlers (cmd.go 31-34, 54-61, 65-78, 81-86, 89-95, 98-101, 105-130, 133-135). *)
Definition example_user (h : nat) : handler areq response W :=
  match h with
  | 0 => gives (template_ok (str "index.html"))
  | 1 => initiate
  | 2 => oauth_return
  | 3 | 4 | 5 => gives (plain_ok plain_text)
  | 6 => gives (html_ok html_text)
  | 7 => with_var (str "user") (fun u => with_var (str "id") (fun i =>
           gives (json_ok (GMap [(str "user", GStr u); (str "id", GStr i)]))))
  | 8 => fun _ _ w =>
           match image w with
           | (inr e, w') => (HReturn None (Some e), w')
           | (inl f, w') => (HReturn (Some (stream_ok (str "image/png") f)) None, w')
           end
  | 9 => with_var (str "tmplName") (fun n => gives (template_ok (n ++ str ".html")))
  | 10 => stream
  | _ => gives (json_ok (GMap [(str "authorized", GStr (str "true"))]))
  end.

(** The principal of the last handler (cmd.go 135-147): a user with one group, one role
    and the permission of the path.  [PathVar] does not panic for requests that are
    served (C83); a panic is an error here. *)
Definition example_scope : bytes := str "domain/subdomain/resource".
Definition example_principal (c : ctx) (q : areq) : option principal + err :=
  match mc_var (aq_mc q) (str "permission") with
  | None => inr (EOther [])
  | Some v =>
      match parse_permission (example_scope ++ str ":" ++ v) with
      | None => inr (EOther (parse_failure v))
      | Some p => inl (Some (user_principal (User [] [] [] [Group [] [Role [] [] [p] []]])))
      end
  end.

(** The middlewares: [PanicRecover] and [ErrJsonResponse] for all (cmd.go 28), the
    supplier and [AuthorizeAll] (cmd.go 135-147).  [AccessDelete] is 8 (auth.go 25-29). *)
Definition example_mid (m : nat) : middleware areq response W :=
  match m with
  | 0 => panic_recover_text stack
  | 1 => err_json_response
  | 2 => principal_supplier example_principal
  | _ => authorize_all [Perm example_scope 8%N]
  end.

End Example.
Arguments example_user {W}. Arguments example_mid {W}. Arguments with_var {W}. Arguments gives {W}.

(** ** Serving *)

(** The parts that are given. *)
Record parts (W : Type) := Parts {
  pt_initiate : handler areq response W; pt_return : handler areq response W; pt_stream : handler areq response W;
  pt_template : bytes -> list bytes * option err;
  pt_image : W -> ((list bytes * option err) + err) * W;
  pt_stack : ctx -> areq -> W -> bytes;
  pt_failure : bytes -> bytes
}.
Arguments pt_initiate {W}. Arguments pt_return {W}. Arguments pt_stream {W}. Arguments pt_template {W}. Arguments pt_image {W}.
Arguments pt_stack {W}. Arguments pt_failure {W}.
Definition parts_user {W : Type} (p : parts W) : nat -> handler areq response W :=
  example_user (pt_initiate p) (pt_return p) (pt_stream p) (pt_template p) (pt_image p).
Definition parts_mid {W : Type} (p : parts W) : nat -> middleware areq response W := example_mid (pt_stack p) (pt_failure p).

(** The standard library as [App_Model] has it, and what it leaves open: the growth of slices, the
    regular expressions, the file server, the debug pages, compressors, the order of range
    loops, cookies and redirects. *)
Record outside := Outside {
  os_grow : nat -> nat -> nat; os_re : engine;
  os_files : bytes -> request -> list act; os_pages : debug_page -> request -> list act;
  os_k : compressor; os_oh : headers -> headers; os_oc : cookies -> cookies; os_render : cookie -> bytes;
  os_location : wreq -> bytes -> bytes; os_body : Z -> bytes -> bytes
}.

(** A request to the program (cmd.go 149-166); [fuel] is for the registrations, [f] for the
    search of the handler. *)
Definition example_serve {W : Type} (o : outside) (p : parts W) (fuel f : nat) (q : request) (buf : list Url_Model.useg) (x : ctx) (w : W) :=
  app_serve (parts_user p) (parts_mid p) (os_files o) (os_pages o) (os_k o) (os_oh o) (os_oc o) (os_render o) (os_location o) (os_body o)
    f (os_re o) (fst (example_app (os_grow o) fuel (os_re o))) q buf x w.
