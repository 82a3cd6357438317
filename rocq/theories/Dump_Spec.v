(** * What is claimed about [RequestDumper] *)
From Coq Require Import List NArith ZArith Ascii String Bool Permutation.
From Verif Require Import GoBase Http_Model Chain_Model Resp_Model Resp_Spec Json_Model Json_Spec Dump_Model.
Import ListNotations.
Local Open Scope string_scope.
Local Open Scope list_scope.
Local Open Scope N_scope.

(** An object whose members have different names has the member [name] with the value
    [x]; the value stands for [g]; there is no such member. *)
Definition member (v : value) (name : bytes) (x : value) : Prop :=
  exists ms key, v = VObj ms /\ NoDup (map fst ms) /\ well_encoded name key /\ In (key, x) ms.
Definition holds (v : value) (name : bytes) (g : gval) : Prop := exists x, member v name x /\ stands_for g x.
Definition lacks (v : value) (name : bytes) : Prop :=
  exists ms, v = VObj ms /\ forall key x, well_encoded name key -> ~ In (key, x) ms.

(** Lists of texts, and headers or form fields: every name with the list of its values. *)
Definition texts (l : list bytes) : gval := GSlice (map GStr l).
Definition named_texts (m : hmap) : gval := GMap (map (fun kv => (fst kv, texts (snd kv))) m).
Definition if_any {A : Type} (f : A -> gval) (x : option A) (g : gval) : Prop :=
  match x with Some a => g = f a | None => g = GNil end.

(** [v] has the members of a request. *)
Record tells_request (v : value) (d : dreq) (header form : option hmap) : Prop := {
  tr_method : holds v (str "method") (GStr (dq_method d));
  tr_proto : holds v (str "protocolVersion") (GStr (dq_proto d));
  tr_uri : holds v (str "requestURI") (GStr (dq_uri d));
  tr_url : holds v (str "url") (GStr (dq_url d));
  tr_remote : holds v (str "remoteAddress") (GStr (dq_remote d));
  tr_encoding : exists g, if_any texts (dq_encoding d) g /\ holds v (str "transferEncoding") g;
  tr_length : holds v (str "contentLength") (GInt (dq_length d));
  tr_host : holds v (str "host") (GStr (dq_host d));
  tr_secure : holds v (str "isSecure") (GBool (dq_tls d));
  tr_header : exists g, if_any named_texts header g /\ holds v (str "header") g;
  tr_form : exists g, if_any named_texts form g /\ holds v (str "formFields") g;
  tr_cookies : dq_cookies d <> [] -> holds v (str "cookies") (texts (dq_cookies d));
  tr_no_cookies : dq_cookies d = [] -> lacks v (str "cookies")
}.

(** The status, headers and cookies that a response says it has; adapted handlers and
    hijacked connections say 0. *)
Inductive shown : response -> Z -> option headers -> list cookie -> Prop :=
| sh_fields : forall r h st, fields r = Some h -> meant_status h st -> shown r st (Some (custom_headers h)) (custom_cookies h)
| sh_redirect : forall h url st, meant_status h st -> shown (RRedirect h url) st (Some (custom_headers h)) (custom_cookies h)
| sh_hijack : forall ok, shown (RHijack ok) 0 None []
| sh_adaptor : forall hs cs acts h, h = HResp 0 [] hs cs -> shown (RAdaptor hs cs acts) 0 (Some (custom_headers h)) (custom_cookies h)
| sh_compress : forall level r st hs cs, shown r st hs cs -> shown (RCompress level r) st hs cs.

(** [v] has the members of a response. *)
Record tells_response (render : cookie -> bytes) (v : value) (st : Z) (hs : option headers) (cs : list cookie) : Prop := {
  ts_status : holds v (str "statusCode") (GInt st);
  ts_header : exists g, if_any (fun m => GMap (map (fun kv => (fst kv, GStr (snd kv))) m)) hs g /\ holds v (str "header") g;
  ts_cookies : cs <> [] -> exists l, Permutation l (map render cs) /\ holds v (str "cookies") (texts l);
  ts_no_cookies : cs = [] -> lacks v (str "cookies")
}.
