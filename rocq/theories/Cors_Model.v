(** * Model of the CORS middleware and of the security headers (middleware/cors.go,
    middleware/security.go).

    Letter case and white space outside of ASCII are not modelled. *)
From Coq Require Import List NArith ZArith Ascii String Bool.
From Verif Require Import GoBase Http_Model Auth_Model Chain_Model Resp_Model.
Import ListNotations.
Local Open Scope string_scope.
Local Open Scope list_scope.
Local Open Scope nat_scope.

(** What the middlewares see of a request: method, headers, scheme and host of the URL
    (empty unless the request line has an absolute URL), whether the connection is
    encrypted, and the host of the request. *)
Record xreq := XReq {
  xq_method : bytes;
  xq_headers : hmap;
  xq_scheme : bytes;
  xq_host : bytes;
  xq_tls : bool;
  xq_rhost : bytes
}.

(** ** URLs (net/url, standard library, Go 1.19) *)

Definition is_alpha (c : byte) : bool :=
  let n := code c in (((65 <=? n) && (n <=? 90)) || ((97 <=? n) && (n <=? 122)))%N.
Definition is_num (c : byte) : bool := ((48 <=? code c) && (code c <=? 57))%N.

(** [strings.LastIndexByte]: the text from the last [c] on, which is included. *)
Fixpoint from_last (c : byte) (s : bytes) : option bytes :=
  match s with
  | [] => None
  | x :: s' =>
      match from_last c s' with
      | Some t => Some t
      | None => if Ascii.eqb x c then Some s else None
      end
  end.

(** [validOptionalPort]. *)
Definition valid_optional_port (p : bytes) : bool :=
  match p with
  | [] => true
  | c :: d => Ascii.eqb c ":"%char && forallb is_num d
  end.

(** [URL.Port] of a URL with the host [h]. *)
Definition url_port (h : bytes) : bytes :=
  match from_last ":"%char h with
  | Some p => if valid_optional_port p then skipn 1 p else []
  | None => []
  end.

(** [getScheme]: scheme and rest, [None] is an error; [n] bytes of [acc] (in reverse)
    have been read. *)
Fixpoint get_scheme (acc : bytes) (s raw : bytes) : option (bytes * bytes) :=
  match s with
  | [] => Some ([], raw)
  | c :: s' =>
      if is_alpha c then get_scheme (c :: acc) s' raw
      else if is_num c || existsb (Ascii.eqb c) (str "+-.") then
        match acc with [] => Some ([], raw) | _ => get_scheme (c :: acc) s' raw end
      else if Ascii.eqb c ":"%char then
        match acc with [] => None | _ => Some (rev acc, s') end
      else Some ([], raw)
  end.

(** The bytes that a host and a user may contain ([shouldEscape], [validUserinfo]). *)
Definition host_byte (c : byte) : bool :=
  is_alpha c || is_num c || existsb (Ascii.eqb c) (str "!$&'()*+,;=:[]<>-_.~") || (code c =? 34)%N || (128 <=? code c)%N.
Definition user_byte (c : byte) : bool :=
  is_alpha c || is_num c || existsb (Ascii.eqb c) (str "-._:~!$&'()*+,;=%@").

(** [parseHost] of a text without percent sign: true if there is no error. *)
Definition parse_host (h : bytes) : bool :=
  (match h with
   | "["%char :: _ =>
       match from_last "]"%char h with
       | None => false
       | Some p => valid_optional_port (skipn 1 p)
       end
   | _ =>
       match from_last ":"%char h with
       | None => true
       | Some p => valid_optional_port p
       end
   end) && forallb host_byte h.

(** [parseAuthority], likewise. *)
Definition parse_authority (a : bytes) : bool :=
  match from_last "@"%char a with
  | None => parse_host a
  | Some p => parse_host (skipn 1 p) && forallb user_byte (firstn (List.length a - List.length p) a)
  end.

(** The text before the first [c]. *)
Fixpoint before (c : byte) (s : bytes) : bytes :=
  match s with
  | [] => []
  | x :: s' => if Ascii.eqb x c then [] else x :: before c s'
  end.

(** [ParseRequestURI] of a text without percent sign: the scheme, [None] is an error. *)
Definition parse_request_uri (s : bytes) : option bytes :=
  if existsb (fun c => ((code c <? 32) || (code c =? 127))%N) s then None
  else match s with
  | [] => None
  | ["*"%char] => Some []
  | _ =>
      match get_scheme [] s s with
      | None => None
      | Some (sch, rest0) =>
          let rest := before "?"%char rest0 in
          match rest with
          | "/"%char :: "/"%char :: r =>
              match sch with
              | [] => Some []
              | _ => if parse_authority (before "/"%char r) then Some (to_lower sch) else None
              end
          | "/"%char :: _ => Some (to_lower sch)
          | _ => match sch with [] => None | _ => Some (to_lower sch) end
          end
      end
  end.

(** ** CORS *)

(** [CorsConfig] (cors.go 34-49). *)
Record cors_config := CorsConfig {
  cc_any : bool;
  cc_credentials : bool;
  cc_max_age : Z;
  cc_exposed : list bytes;
  cc_methods : list bytes;
  cc_headers : list bytes;
  cc_origins : list bytes
}.

Definition h_origin : bytes := str "Origin".
Definition h_acrm : bytes := str "Access-Control-Request-Method".
Definition h_acrh : bytes := str "Access-Control-Request-Headers".
Definition h_acao : bytes := str "Access-Control-Allow-Origin".
Definition h_acac : bytes := str "Access-Control-Allow-Credentials".
Definition h_aceh : bytes := str "Access-Control-Expose-Headers".
Definition h_acma : bytes := str "Access-Control-Max-Age".
Definition h_acam : bytes := str "Access-Control-Allow-Methods".
Definition h_acah : bytes := str "Access-Control-Allow-Headers".
Definition h_vary : bytes := str "Vary".

(** [containsAllowedMethod], [containsAllowedHeaderCaseInsensitive] (51-67) and
    [containsAllowedOrigin] (69-76). *)
Definition contains_fold (l : list bytes) (x : bytes) : bool := existsb (fun m => equal_fold m x) l.
Definition contains_exact (l : list bytes) (x : bytes) : bool := existsb (fun o => beqb o x) l.

(** [corsRequestType] (78-86). *)
Inductive cors_type := SimpleCors | ActualCors | PreflightCors | NotCors | InvalidCors.

(** [isValidOrigin] (282-296). *)
Definition valid_origin (o : bytes) : bool :=
  if beqb o [] || existsb (Ascii.eqb "%"%char) o then false
  else if beqb o (str "null") || beqb (firstn 7 o) (str "file://") then true
  else match parse_request_uri o with
       | None => false
       | Some sch => negb (beqb sch [])
       end.

(** [isSameOrigin] (298-330). *)
Definition same_origin (url_scheme host o : bytes) : bool :=
  if beqb url_scheme [] || beqb host [] then false
  else
    let scheme := to_lower url_scheme in
    let sb := scheme ++ str "://" ++ host in
    let port :=
      match url_port host with
      | [] => if beqb scheme (str "https") || beqb scheme (str "wss") then str "443" else str "80"
      | p => p
      end in
    if List.length sb =? List.length o then
      if ((beqb scheme (str "http") || beqb scheme (str "ws")) && negb (beqb port (str "80"))) ||
         ((beqb scheme (str "https") || beqb scheme (str "wss")) && negb (beqb port (str "443")))
      then false
      else beqb sb o
    else beqb (sb ++ str ":" ++ port) o.

(** [getMediaType] (332-343). *)
Definition media_type (v : bytes) : bytes :=
  match v with [] => [] | _ => trim_space (before ";"%char (to_lower v)) end.

(** Looking a name up in the header map without canonicalisation: the keys used are
    canonical. *)
Definition has_header (h : hmap) (k : bytes) : bool := match alookup k h with Some _ => true | None => false end.

(** [getRequestType] (242-280). *)
Definition request_type (q : xreq) : cors_type :=
  if negb (has_header (xq_headers q) h_origin) then NotCors
  else
    let o := hget (xq_headers q) h_origin in
    if negb (valid_origin o) then InvalidCors
    else if same_origin (xq_scheme q) (xq_host q) o then NotCors
    else
      let m := xq_method q in
      if beqb m (str "GET") || beqb m (str "HEAD") then SimpleCors
      else if beqb m (str "OPTIONS") then
        if has_header (xq_headers q) h_acrm then
          if beqb (hget (xq_headers q) h_acrm) [] then InvalidCors else PreflightCors
        else ActualCors
      else if beqb m (str "POST") then
        let t := media_type (hget (xq_headers q) (str "Content-Type")) in
        if negb (beqb t []) then
          if beqb t (str "text/plain") || beqb t (str "multipart/form-data") || beqb t (str "application/x-www-form-urlencoded")
          then SimpleCors
          else ActualCors
        else InvalidCors
      else ActualCors.

(** [isOriginAllowed] (233-240). *)
Definition origin_allowed (o : bytes) (c : cors_config) : bool :=
  if cc_any c then true else contains_exact (cc_origins c) o.

(** [addVaryHeader] (204-231). *)
Definition add_vary (m : headers) (name : bytes) : headers :=
  let vs := match alookup h_vary m with
            | Some (c :: v) => map trim_space (split_on ","%char (c :: v))
            | _ => []
            end in
  if beqb name (str "*") || (List.length vs =? 0) then headers_set m h_vary name
  else if (List.length vs =? 1) && beqb (trim_space (nth 0 vs [])) (str "*") then m
  else if existsb (fun v => beqb (trim_space v) (str "*")) vs then headers_set m h_vary (str "*")
  else headers_set m h_vary (join (str ",") (vs ++ [name])).

(** [addStandardCorsHeaders] (167-202). *)
Definition add_standard (q : xreq) (m : headers) (c : cors_config) : headers :=
  let o := hget (xq_headers q) h_origin in
  let m1 := if cc_any c then headers_set m h_acao (str "*") else add_vary (headers_set m h_acao o) h_origin in
  let m2 := if cc_credentials c then headers_set m1 h_acac (str "true") else m1 in
  let m3 := match cc_exposed c with [] => m2 | l => headers_set m2 h_aceh (join (str ",") l) end in
  if beqb (xq_method q) (str "OPTIONS") then
    let m4 := add_vary (add_vary m3 h_acrm) h_acrh in
    let m5 := if (0 <? cc_max_age c)%Z then headers_set m4 h_acma (itoa_z (cc_max_age c)) else m4 in
    let m6 := match cc_methods c with [] => m5 | l => headers_set m5 h_acam (join (str ",") l) end in
    match cc_headers c with [] => m6 | l => headers_set m6 h_acah (join (str ",") l) end
  else m3.

(** [addSimpleCorsHeaders] (118-133); false is [ErrAccessDenied]. *)
Definition simple_allowed (q : xreq) (c : cors_config) : bool :=
  if negb (origin_allowed (hget (xq_headers q) h_origin) c) then false
  else contains_fold (cc_methods c) (xq_method q).

(** [addPreFlightCorsHeaders] (135-165); false is [ErrAccessDenied]. *)
Definition preflight_allowed (q : xreq) (c : cors_config) : bool :=
  if negb (origin_allowed (hget (xq_headers q) h_origin) c) then false
  else if negb (has_header (xq_headers q) h_acrm) then false
  else if negb (contains_fold (cc_methods c) (trim_space (hget (xq_headers q) h_acrm))) then false
  else
    forallb (fun h0 =>
        let h := trim_space h0 in
        beqb h [] || contains_fold (cc_headers c) (trim_space h))
      (split_on ","%char (trim_space (hget (xq_headers q) h_acrh))).

(** The response with other headers: the map that [Headers] returns is changed in
    place; writing to the nil map of a hijack response is a panic ([None]). *)
Definition hr_put (r : hresp) (m : headers) : hresp := HResp (hr_status r) (hr_ctype r) (Some m) (hr_cookies r).
Fixpoint put_all (r : response) (m : headers) : option response :=
  match r with
  | RHeaders h => Some (RHeaders (hr_put h m))
  | RText h p => Some (RText (hr_put h m) p)
  | RJson h p => Some (RJson (hr_put h m) p)
  | RRaw h p => Some (RRaw (hr_put h m) p)
  | RStream h p => Some (RStream (hr_put h m) p)
  | RTemplate h p => Some (RTemplate (hr_put h m) p)
  | RSse h p n => Some (RSse (hr_put h m) p n)
  | RRedirect h p => Some (RRedirect (hr_put h m) p)
  | RHijack _ => None
  | RAdaptor _ cs a => Some (RAdaptor (Some m) cs a)
  | RCompress l r' => option_map (RCompress l) (put_all r' m)
  | RCompressNil _ => None
  end.

(** A nil pointer or a write to a nil map. *)
Definition runtime_panic : hout response := HPanic (Some 0%nat).

(** [Cors] (88-116).  [Headers] is called before the check, so that a nil response is a
    panic; all changes of the map are made together. *)
Definition cors {World : Type} (c : cors_config) : middleware xreq response World :=
  fun h x q w =>
    match h x q w with
    | (HPanic v, w') => (HPanic v, w')
    | (HReturn _ (Some e), w') => (HReturn None (Some e), w')
    | (HReturn r None, w') =>
        let checked (ok : bool) :=
          match r with
          | None => (runtime_panic, w')
          | Some r0 =>
              match get_headers r0 with
              | None => (runtime_panic, w')
              | Some m =>
                  if ok then
                    match put_all r0 (add_standard q m c) with
                    | None => (runtime_panic, w')
                    | Some r1 => (HReturn (Some r1) None, w')
                    end
                  else (HReturn None (Some EAccessDenied), w')
              end
          end in
        match request_type q with
        | SimpleCors | ActualCors => checked (simple_allowed q c)
        | PreflightCors => checked (preflight_allowed q c)
        | NotCors => checked true
        | InvalidCors => (HReturn None (Some EAccessDenied), w')
        end
    end.

(** ** Security headers (security.go) *)

(** The constants (15-25): [iota] has the value 6 on line 22. *)
Definition xfo_deny : Z := 6.
Definition xfo_same_origin : Z := 7.
Definition xfo_allow_from : Z := 8.

(** [SecurityHeadersConfig] (27-33, 52-58, 74-79) without the two cached texts. *)
Record sec_config := SecConfig {
  sh_sts : bool;
  sh_max_age : Z;
  sh_sub_domains : bool;
  sh_preload : bool;
  sh_click : bool;
  sh_frame : Z;
  sh_frame_value : bytes;
  sh_frame_uri : bytes;
  sh_sniff : bool;
  sh_xss : bool
}.

(** The two cached texts; they are empty in a configuration from outside of the
    package, and kept from request to request. *)
Record sec_cache := SecCache { sc_sts : bytes; sc_click : bytes }.

(** [getHeaderValue] (36-50) and [getAntiClickJackingHeaderValue] (61-72): the text, and
    the cached text afterwards. *)
Definition sts_value (c : sec_config) (k : sec_cache) : bytes * sec_cache :=
  match sc_sts k with
  | [] =>
      let v := str "max-age=" ++ itoa_z (sh_max_age c) ++
               (if sh_sub_domains c then str ";includeSubDomains" else []) ++
               (if sh_preload c then str ";preload" else []) in
      (v, SecCache v (sc_click k))
  | v => (v, k)
  end.
Definition click_value (c : sec_config) (k : sec_cache) : bytes * sec_cache :=
  match sc_click k with
  | [] =>
      let v := sh_frame_value c ++ (if (sh_frame c =? xfo_allow_from)%Z then str " " ++ sh_frame_uri c else []) in
      (v, SecCache (sc_sts k) v)
  | v => (v, k)
  end.

(** Setting a header on a response that may be nil; [None] is a panic. *)
Definition set_on (r : option response) (key v : bytes) : option (option response) :=
  match r with
  | None => None
  | Some r0 => option_map Some (set_header r0 key v)
  end.

(** [SecurityHeaders] (82-115).  The handler inside cannot reach the cached texts.  In
    [httpResponse.Headers().Set(name, value)] the call of [Headers] comes first, so that
    a nil response panics before a text is cached; for a hijack response the text is
    cached before the panic. *)
Definition has_map (r : option response) : bool :=
  match r with Some r0 => match get_headers r0 with Some _ => true | None => false end | None => false end.
Definition security_headers {World : Type} (c : sec_config) (h : handler xreq response World)
  : handler xreq response (World * sec_cache) :=
  fun x q wk =>
    match h x q (fst wk) with
    | (HPanic v, w') => (HPanic v, (w', snd wk))
    | (HReturn _ (Some e), w') => (HReturn None (Some e), (w', snd wk))
    | (HReturn r None, w') =>
        let secure := xq_tls q || beqb (to_lower (xq_scheme q)) (str "https") in
        let step (on : bool) (name : bytes) (value : sec_cache -> bytes * sec_cache)
                 (s : option (option response) * sec_cache) :=
          match s with
          | (None, k) => (None, k)
          | (Some r, k) =>
              if on then
                if has_map r then let (v, k') := value k in (set_on r name v, k') else (None, k)
              else (Some r, k)
          end in
        let s1 := step (sh_sts c && secure) (str "Strict-Transport-Security") (sts_value c) (Some r, snd wk) in
        let s2 := step (sh_click c) (str "X-Frame-Options") (click_value c) s1 in
        let s3 := step (sh_sniff c) (str "X-Content-Type-Options") (fun k => (str "nosniff", k)) s2 in
        let s4 := step (sh_xss c) (str "X-Xss-Protection") (fun k => (str "1; mode=block", k)) s3 in
        match s4 with
        | (Some r', k) => (HReturn r' None, (w', k))
        | (None, k) => (runtime_panic, (w', k))
        end
    end.
