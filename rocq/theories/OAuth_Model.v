(** * Model of the OAuth endpoints (gofre.go 193-268, 354-364,
    auth/oauth/oauth2.go, github.go, google.go). *)
From Coq Require Import List NArith ZArith Ascii String Bool Arith.
From Verif Require Import GoBase Http_Model Cache_Model Auth_Model Mux_Model Csrf_Model Chain_Model.
Import ListNotations.
Local Open Scope string_scope.
Local Open Scope list_scope.
Local Open Scope N_scope.

(** ** Identifiers *)

(** [randLetters] (gofre.go 354). *)
Definition rand_letters : bytes := str "abcdefghijklmnopqrstuvwxyz1234567890".

(** [generateUniqueId] (gofre.go 358-364); the stream holds the results of
    [rand.Int63]. *)
Fixpoint generate_unique_id (len : nat) (rnd : nat -> N) : bytes :=
  match len with
  | O => []
  | S l => nth (N.to_nat (rnd O mod blen rand_letters)) rand_letters "?"%char :: generate_unique_id l (fun i => rnd (S i))
  end.

(** ** Configuration *)

(** The result of a fetch. *)
Inductive fetched (A : Type) := FOk (a : A) | FErr (e : err) | FPanic.
Arguments FOk {A}. Arguments FErr {A}. Arguments FPanic {A}.

Section Flow.
Variable World : Type.

(** [oauth.Provider] (oauth2.go 85-98).  The fetches talk to the provider, which is
    part of the world. *)
Record provider := Provider {
  pv_name : bytes;
  pv_initiate_url : bytes -> bytes -> bool -> bytes;
  pv_token : ctx -> bytes -> bytes -> World -> fetched access_token * World;
  pv_user : ctx -> access_token -> World -> fetched user * World
}.

(** [oauth.Config] (oauth2.go 37-54); [oc_cache] tells whether a cache is
    configured.  No provider in the list is nil. *)
Record oconfig := OConfig {
  oc_website : bytes;
  oc_fetch_user : bool;
  oc_providers : list provider;
  oc_cache : bool;
  oc_expiration : Z
}.

(** [Config.GetProviderByName] (oauth2.go 57-64). *)
Fixpoint provider_by_name (ps : list provider) (name : bytes) : option provider :=
  match ps with
  | [] => None
  | p :: ps' => if beqb name (pv_name p) then Some p else provider_by_name ps' name
  end.

(** What the endpoints see of a request: which of the two it is routed to, the path
    variable, the query parameters, the time of the cache call and the random
    numbers. *)
Record oreq := OReq {
  oq_initiate : bool;
  oq_provider_var : bytes;
  oq_params : list (bytes * list bytes);
  oq_now : Z;
  oq_random : nat -> N
}.
Definition form_value (q : oreq) (k : bytes) : bytes := vget (Some (oq_params q)) k.

(** Responses: the redirect of the first endpoint, or what the application answers. *)
Inductive oresp (Resp : Type) := ORedirect (url : bytes) | OAnswer (r : Resp).

(** Redirect URL (gofre.go 219, 237); [prefix] is the path prefix of the mux. *)
Definition redirect_url (cfg : oconfig) (prefix base : bytes) (p : provider) : bytes :=
  oc_website cfg ++ resolve_path prefix base ++ str "/" ++ pv_name p.

(** The provider for a new flow (gofre.go 206-218). *)
Definition initiate_provider (cfg : oconfig) (q : oreq) : provider + err :=
  match oc_providers cfg with
  | [p] => inl p
  | ps =>
      let name := form_value q (str "provider") in
      if beqb name [] then inr (EBadRequest (str "oauth provider not specified"))
      else match provider_by_name ps name with
           | None => inr (EBadRequest (str "oauth provider not supported"))
           | Some p => inl p
           end
  end.

Section Endpoints.
Variable Resp : Type.
Notation ohandler := (handler oreq (oresp Resp) (cache * World)).

(** The handler that starts the flow (gofre.go 204-228); the cache does not fail. *)
Definition initiate (cfg : oconfig) (prefix base : bytes) : ohandler :=
  fun _ q cw =>
    match initiate_provider cfg q with
    | inr e => (HReturn None (Some e), cw)
    | inl p =>
        let state := generate_unique_id 12 (oq_random q) in
        let k := if oc_cache cfg then cache_add (fst cw) (oq_now q) state (oc_expiration cfg) else fst cw in
        (HReturn (Some (ORedirect Resp (pv_initiate_url p (redirect_url cfg prefix base p) state (oc_fetch_user cfg)))) None,
         (k, snd cw))
    end.

(** The handler of the callback (gofre.go 231-268) around the handler of the
    application. *)
Definition callback (cfg : oconfig) (prefix base : bytes) (h : ohandler) : ohandler :=
  fun c q cw =>
    match provider_by_name (oc_providers cfg) (oq_provider_var q) with
    | None => (HReturn None (Some (EBadRequest (str "oauth provider not supported"))), cw)
    | Some p =>
        if negb (beqb (form_value q (str "error")) []) then (HReturn None (Some EUnauthorized), cw)
        else if oc_cache cfg && negb (cache_contains (fst cw) (oq_now q) (form_value q (str "state")))
        then (HReturn None (Some EUnauthorized), cw)
        else
          let (t, w1) := pv_token p c (redirect_url cfg prefix base p) (form_value q (str "code")) (snd cw) in
          match t with
          | FErr e => (HReturn None (Some e), (fst cw, w1))
          | FPanic => (HPanic (Some 0%nat), (fst cw, w1))
          | FOk tok =>
              let c1 := with_token c tok in
              if oc_fetch_user cfg then
                let (u, w2) := pv_user p c1 tok w1 in
                match u with
                | FErr e => (HReturn None (Some e), (fst cw, w2))
                | FPanic => (HPanic (Some 0%nat), (fst cw, w2))
                | FOk usr => h (with_principal c1 (user_principal usr)) q (fst cw, w2)
                end
              else h c1 q (fst cw, w1)
          end
    end.

(** Both endpoints together: the router decides. *)
Definition oauth_endpoints (cfg : oconfig) (prefix base : bytes) (h : ohandler) : ohandler :=
  fun c q cw => if oq_initiate q then initiate cfg prefix base c q cw else callback cfg prefix base h c q cw.
End Endpoints.
End Flow.
Arguments Provider {World}. Arguments pv_name {World}. Arguments pv_initiate_url {World}.
Arguments pv_token {World}. Arguments pv_user {World}.
Arguments OConfig {World}. Arguments oc_website {World}. Arguments oc_fetch_user {World}.
Arguments oc_providers {World}. Arguments oc_cache {World}. Arguments oc_expiration {World}.
Arguments provider_by_name {World}. Arguments redirect_url {World}. Arguments initiate_provider {World}.
Arguments initiate {World Resp}. Arguments callback {World Resp}. Arguments oauth_endpoints {World Resp}.
Arguments ORedirect {Resp}. Arguments OAnswer {Resp}.

(** The path of the callback as it is registered (gofre.go 231); the registrations of both
    endpoints are in [Login_Model]. *)
Definition authorize_route (prefix base : bytes) : bytes := resolve_path prefix (base ++ str "/{providerName}").

(** ** The providers *)

(** [url.QueryEscape] (standard library). *)
Definition unreserved (c : byte) : bool :=
  let n := code c in
  ((48 <=? n) && (n <=? 57)) || ((65 <=? n) && (n <=? 90)) || ((97 <=? n) && (n <=? 122)) ||
  existsb (Ascii.eqb c) (str "-_.~").
Definition escape_byte (c : byte) : bytes :=
  if unreserved c then [c]
  else if Ascii.eqb c " "%char then str "+"
  else ["%"%char; hex_digit (code c / 16); hex_digit (code c mod 16)].
Definition query_escape (s : bytes) : bytes := flat_map escape_byte s.

(** [url.Values.Encode] (standard library): the keys are sorted. *)
Fixpoint insert_key (kv : bytes * list bytes) (l : list (bytes * list bytes)) : list (bytes * list bytes) :=
  match l with
  | [] => [kv]
  | x :: l' => match bcompare (fst kv) (fst x) with Gt => x :: insert_key kv l' | _ => kv :: l end
  end.
Definition sort_keys (l : list (bytes * list bytes)) : list (bytes * list bytes) := fold_right insert_key [] l.
Definition encode_pair (kv : bytes * bytes) : bytes := query_escape (fst kv) ++ str "=" ++ query_escape (snd kv).
Definition encode_values (m : list (bytes * list bytes)) : bytes :=
  join (str "&") (map encode_pair (flat_map (fun kv => map (pair (fst kv)) (snd kv)) (sort_keys m))).

Definition format_bool (b : bool) : bytes := if b then str "true" else str "false".

(** [GitHubProvider] (github.go 21-36) and its [InitiateUrl] (github.go 42-60). *)
Record github := GitHub {
  gh_client : bytes; gh_secret : bytes; gh_login : bytes; gh_signup : bool; gh_scopes : list bytes
}.
Definition github_endpoint : bytes := str "https://github.com/login/oauth/authorize".
Definition github_user_scopes : list bytes := [str "user"].
Definition github_values (p : github) (redirect state : bytes) (user : bool) : list (bytes * list bytes) :=
  let scopes := if user then gh_scopes p ++ github_user_scopes else gh_scopes p in
  [(str "client_id", [gh_client p]); (str "state", [state]); (str "allow_signup", [format_bool (gh_signup p)]);
   (str "redirect_uri", [redirect])] ++
  (if beqb (gh_login p) [] then [] else [(str "login", [gh_login p])]) ++
  (match gh_scopes p with [] => [] | _ => [(str "scope", [join (str " ") scopes])] end).
Definition github_initiate_url (p : github) (redirect state : bytes) (user : bool) : bytes :=
  github_endpoint ++ str "?" ++ encode_values (github_values p redirect state user).

(** [GoogleProvider] (google.go 21-42) and its [InitiateUrl] (google.go 48-73). *)
Record google := Google {
  gg_client : bytes; gg_secret : bytes; gg_scopes : list bytes; gg_offline : bool; gg_granted : bool;
  gg_hint : bytes; gg_prompts : list bytes
}.
Definition google_endpoint : bytes := str "https://accounts.google.com/o/oauth2/v2/auth".
Definition google_user_scopes : list bytes :=
  [str "openid"; str "https://www.googleapis.com/auth/userinfo.email"; str "https://www.googleapis.com/auth/userinfo.profile"].
Definition google_values (p : google) (redirect state : bytes) (user : bool) : list (bytes * list bytes) :=
  let scopes := if user then gg_scopes p ++ google_user_scopes else gg_scopes p in
  [(str "client_id", [gg_client p]); (str "redirect_uri", [redirect]); (str "response_type", [str "code"]);
   (str "scope", [join (str " ") scopes]); (str "state", [state]);
   (str "include_granted_scopes", [format_bool (gg_granted p)])] ++
  (if gg_offline p then [(str "access_type", [str "offline"])] else []) ++
  (if beqb (gg_hint p) [] then [] else [(str "login_hint", [gg_hint p])]) ++
  (match gg_prompts p with [] => [] | _ => [(str "prompt", [join (str " ") (gg_prompts p)])] end).
Definition google_initiate_url (p : google) (redirect state : bytes) (user : bool) : bytes :=
  google_endpoint ++ str "?" ++ encode_values (google_values p redirect state user).
