(** * What is claimed about CORS and the security headers *)
From Coq Require Import List NArith ZArith Ascii String Bool.
From Verif Require Import GoBase Http_Model Auth_Model Chain_Model Resp_Model Resp_Spec Cors_Model.
Import ListNotations.
Local Open Scope string_scope.
Local Open Scope list_scope.
Local Open Scope nat_scope.

(** ** Origins *)

(** The request has the header [n] with the (first) value [v]. *)
Definition carries (q : xreq) (n v : bytes) : Prop :=
  exists vs, alookup n (xq_headers q) = Some vs /\ v = match vs with x :: _ => x | [] => [] end.

(** A text that is no origin: empty, with a percent sign, or without the colon that ends
    the scheme and not null. *)
Definition no_origin (o : bytes) : Prop :=
  o = [] \/ In "%"%char o \/ (~ In ":"%char o /\ o <> str "null").

Definition all_digits (p : bytes) : Prop := forall c, In c p -> (48 <= code c <= 57)%N.

(** A host with a port behind its last colon, or without. *)
Inductive host_port : bytes -> bytes -> option bytes -> Prop :=
| with_port : forall n p, all_digits p -> host_port (n ++ str ":" ++ p) n (Some p)
| without_port : forall n, (forall m p, n = m ++ str ":" ++ p -> ~ all_digits p) -> host_port n n None.

(** The schemes of the web and their default ports. *)
Definition default_port (s d : bytes) : Prop :=
  ((s = str "http" \/ s = str "ws") /\ d = str "80") \/ ((s = str "https" \/ s = str "wss") /\ d = str "443").

(** [o] is an origin with scheme [s] at the host [h]: the port may be left out if it is
    the default one. *)
Definition own (s h o : bytes) : Prop :=
  exists n po d, host_port h n po /\ default_port s d /\
    let p := match po with Some p => p | None => d end in
    o = s ++ str "://" ++ n ++ str ":" ++ p \/ (p = d /\ o = s ++ str "://" ++ n).

(** Where a request was sent to: the URL of the request line if it is absolute, else the
    host of the request and the kind of connection. *)
Definition sent_to (q : xreq) (s h : bytes) : Prop :=
  (xq_scheme q <> [] /\ xq_host q <> [] /\ s = to_lower (xq_scheme q) /\ h = xq_host q) \/
  (xq_scheme q = [] /\ xq_host q = [] /\ s = (if xq_tls q then str "https" else str "http") /\ h = xq_rhost q).

(** The scheme of the URL, if there is one, is one of the web. *)
Definition web_url (q : xreq) : Prop := xq_scheme q = [] \/ exists d, default_port (to_lower (xq_scheme q)) d.

(** An ill-formed pair of URL and origin: the host of the URL ends with a colon, or the
    origin is the host with its port and a second port. *)
Definition odd_ports (s h o : bytes) : Prop :=
  exists n p, host_port h n (Some p) /\ (p = [] \/ o = s ++ str "://" ++ h ++ str ":" ++ p).

(** The origins that browsers send: scheme, host and optional port, or null. *)
Definition letter (c : byte) : Prop := (65 <= code c <= 90 \/ 97 <= code c <= 122)%N.
Definition name_byte (c : byte) : Prop := letter c \/ (48 <= code c <= 57)%N \/ c = "-"%char \/ c = "."%char \/ c = "_"%char.
Definition scheme_text (s : bytes) : Prop := s <> [] /\ forall c, In c s -> letter c.
Definition host_text (n : bytes) : Prop :=
  (n <> [] /\ forall c, In c n -> name_byte c) \/
  (exists a, n = str "[" ++ a ++ str "]" /\ forall c, In c a -> name_byte c \/ c = ":"%char).
Definition browser_origin (o : bytes) : Prop :=
  o = str "null" \/
  exists s n, scheme_text s /\ host_text n /\
    (o = s ++ str "://" ++ n \/ exists p, all_digits p /\ o = s ++ str "://" ++ n ++ str ":" ++ p).

(** ** What a configuration allows *)

Definition allows_origin (c : cors_config) (o : bytes) : Prop := cc_any c = true \/ In o (cc_origins c).
Definition listed_fold (l : list bytes) (x : bytes) : Prop := exists y, In y l /\ equal_fold y x = true.
Definition is_preflight (q : xreq) : Prop := xq_method q = str "OPTIONS" /\ exists v, carries q (str "Access-Control-Request-Method") v.

(** The method that counts and the headers that count. *)
Definition asked_headers (q : xreq) (h : bytes) : Prop :=
  exists v, carries q (str "Access-Control-Request-Headers") v /\ In h (map trim_space (split_on ","%char v)) /\ h <> [].
Definition allows (c : cors_config) (q : xreq) : Prop :=
  (is_preflight q -> forall v, carries q (str "Access-Control-Request-Method") v -> listed_fold (cc_methods c) (trim_space v)) /\
  (is_preflight q -> forall h, asked_headers q h -> listed_fold (cc_headers c) h) /\
  (~ is_preflight q -> listed_fold (cc_methods c) (xq_method q)).

(** A POST request must have a media type, a preflight must ask for a method. *)
Definition complete (q : xreq) : Prop :=
  (xq_method q = str "POST" -> media_type (hget (xq_headers q) (str "Content-Type")) <> []) /\
  (is_preflight q -> ~ carries q (str "Access-Control-Request-Method") []).

(** The handler gave a response that can carry headers. *)
Definition answered {World : Type} (h : handler xreq response World) x q w r w' : Prop :=
  h x q w = (HReturn (Some r) None, w') /\ has_headers r.

(** The result is a response. *)
Definition is_answer (o : hout response) : Prop := exists r, o = HReturn (Some r) None.

(** ** Vary *)

(** The fields of a list. *)
Definition vary_fields (v : bytes) : list bytes :=
  filter (fun f => negb (beqb f [])) (map trim_space (split_on ","%char v)).
Definition vary_of (m : headers) : bytes := match alookup (str "Vary") m with Some v => v | None => [] end.
Definition field_name (n : bytes) : Prop := n <> [] /\ ~ In ","%char n /\ trim_space n = n /\ n <> str "*".

(** The field is listed, or all are. *)
Definition varies (m : headers) (f : bytes) : Prop := In f (vary_fields (vary_of m)) \/ In (str "*") (vary_fields (vary_of m)).

(** ** Security headers *)

Definition wanted_sts (c : sec_config) : bytes :=
  join (str ";")
    ([str "max-age=" ++ itoa_z (sh_max_age c)] ++
     (if sh_sub_domains c then [str "includeSubDomains"] else []) ++
     (if sh_preload c then [str "preload"] else [])).
Definition wanted_frame (c : sec_config) (v : bytes) : Prop :=
  (sh_frame c = xfo_allow_from /\ v = sh_frame_value c ++ str " " ++ sh_frame_uri c) \/
  (sh_frame c <> xfo_allow_from /\ v = sh_frame_value c).
Definition secure (q : xreq) : Prop := xq_tls q = true \/ to_lower (xq_scheme q) = str "https".
Definition sts_on (c : sec_config) (q : xreq) : Prop := sh_sts c = true /\ secure q.

(** [m'] is [m] with the enabled headers. *)
Record secured (c : sec_config) (q : xreq) (m m' : headers) : Prop := {
  sec_sts : sts_on c q -> alookup (str "Strict-Transport-Security") m' = Some (wanted_sts c);
  sec_sts_off : ~ sts_on c q -> alookup (str "Strict-Transport-Security") m' = alookup (str "Strict-Transport-Security") m;
  sec_frame : sh_click c = true -> exists v, wanted_frame c v /\ alookup (str "X-Frame-Options") m' = Some v;
  sec_frame_off : sh_click c = false -> alookup (str "X-Frame-Options") m' = alookup (str "X-Frame-Options") m;
  sec_sniff : sh_sniff c = true -> alookup (str "X-Content-Type-Options") m' = Some (str "nosniff");
  sec_sniff_off : sh_sniff c = false -> alookup (str "X-Content-Type-Options") m' = alookup (str "X-Content-Type-Options") m;
  sec_xss : sh_xss c = true -> alookup (str "X-Xss-Protection") m' = Some (str "1; mode=block");
  sec_xss_off : sh_xss c = false -> alookup (str "X-Xss-Protection") m' = alookup (str "X-Xss-Protection") m;
  sec_others : forall n, ~ In n [str "Strict-Transport-Security"; str "X-Frame-Options"; str "X-Content-Type-Options"; str "X-Xss-Protection"] ->
    alookup n m' = alookup n m
}.

(** What one call does: the outcome and the world, given those of the handler. *)
Definition secured_outcome (c : sec_config) (q : xreq) (inner outer : hout response) : Prop :=
  match inner with
  | HPanic v => outer = HPanic v
  | HReturn _ (Some e) => outer = HReturn None (Some e)
  | HReturn (Some r) None => has_headers r ->
      exists r' m m', outer = HReturn (Some r') None /\ get_headers r = Some m /\ get_headers r' = Some m' /\
        kept_kind r' = kept_kind r /\ secured c q m m'
  | HReturn None None => True
  end.
