(** * What is claimed about the example program *)
From Coq Require Import List NArith ZArith Ascii String Bool.
From Verif Require Import GoBase Http_Model Url_Model Url_Spec Auth_Spec Chain_Model Serve_Model Mux_Model Resp_Model Cors_Model App_Model Routing_Spec AppWire_Spec.
Import ListNotations.
Local Open Scope string_scope.
Local Open Scope list_scope.
Local Open Scope nat_scope.

(** The handlers of the program stand behind the two common middlewares. *)
Definition behind (own : list mref) (h : nat) : entry := Entry [Some 0; Some 1] own (TUser h).

(** [page ts e bs]: GET requests with the segments [ts] are for [e], with these path
    variables.  Below /text, a request for plain or html goes to the handler of that
    name, every other one to the handler with the variable. *)
Inductive page : list bytes -> entry -> list (bytes * bytes) -> Prop :=
| pg_index : page [] (behind [] 0) []
| pg_initiate : page [str "oauth"; str "initiate"] (behind [] 1) []
| pg_return : forall p, page [str "oauth"; str "authorize"; p] (behind [] 2) [(str "providerName", p)]
| pg_text : forall x, x <> str "plain" -> x <> str "html" -> page [str "text"; x] (behind [] 3) [(str "plain", x)]
| pg_plain : page [str "text"; str "plain"] (behind [] 5) []
| pg_html : page [str "text"; str "html"] (behind [] 6) []
| pg_json : forall u i, page [str "json"; u; i] (behind [] 7) [(str "user", u); (str "id", i)]
| pg_download : page [str "download"] (behind [] 8) []
| pg_template : forall n, page [str "tmpl"; n] (behind [] 9) [(str "tmplName", n)]
| pg_events : page [str "sse"] (behind [] 10) []
| pg_permission : forall p, page [str "security"; str "authorize"; p] (behind [Some 2; Some 3] 11) [(str "permission", p)]
| pg_assets : forall t ts, page (str "assets" :: t :: ts) (Entry [] [] (TStatic (str "/assets/"))) [].

(** A text that names a permission with the access bits [n], which are those of a uint32. *)
Definition names_access (p : bytes) (n : N) : Prop := numeral p n /\ (n < 4294967296)%N.

(** A permission for another scope: everything up to the last colon belongs to the scope. *)
Definition other_scope (p : bytes) : Prop := exists x ds n, p = x ++ ":"%char :: ds /\ names_access ds n.

(** The headers of JSON and text responses. *)
Definition typed (ctype : string) : hmap :=
  [(str "X-Content-Type-Options", [str "nosniff"]); (str "Content-Type", [str ctype])].

(** A GET request with these segments, and a buffer from the pool. *)
Definition asked (q : request) (ts : list bytes) (buf : list useg) : Prop :=
  same_method (str "GET") (xq_method (rq_x q)) /\ (blen (rq_path q) < 65536)%N /\ segments_of (rq_path q) ts /\ List.length buf = 19.
