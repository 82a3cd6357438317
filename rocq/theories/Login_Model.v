(** * Model of the OAuth endpoints as part of an application
    (gofre.go 193-268): [OAuth_Model] behind the router and the response writer.

    The query parameters are given as a function of the request ([FormValue] of a GET
    request, net/http).  Time and random numbers are read from the world. *)
From Coq Require Import List NArith ZArith Ascii String Bool.
From Verif Require Import GoBase Http_Model Cache_Model Auth_Model Chain_Model Serve_Model Mux_Model Resp_Model Cors_Model App_Model OAuth_Model OAuthWire_Model Json_Model JsonErr_Model Example_Model.
Import ListNotations.
Local Open Scope string_scope.
Local Open Scope list_scope.
Local Open Scope nat_scope.

(** The registrations of [HandleOAUTH2WithCustomPaths] (gofre.go 198-268) on the mux [m];
    [h1] and [h2] are the numbers of the two handlers. *)
Definition handle_oauth_at (m : nat) (initiate_path base : bytes) (own1 own2 : list mref) (h1 h2 : nat) : list acall :=
  [AMux (CHandle m (str "GET") initiate_path own1 h1);
   AMux (CHandle m (str "GET") (base ++ str "/{providerName}") own2 h2)].
(** [HandleOAUTH2] (gofre.go 193-195). *)
Definition handle_oauth (m : nat) (own1 own2 : list mref) (h1 h2 : nat) : list acall :=
  handle_oauth_at m (str "/oauth/initiate") (str "/oauth/authorize") own1 own2 h1 h2.

Section Login.
Variable World : Type.
Variable params : request -> list (bytes * list bytes).
Variable now : World -> Z.
Variable random : World -> nat -> N.

Definition oreq_of (first : bool) (var : bytes) (q : areq) (w : World) : oreq :=
  OReq first var (params (aq_request q)) (now w) (random w).

(** [RedirectHttpResponse] (redirect.go 25-27, 34-41). *)
Definition to_response (r : oresp response) : response :=
  match r with ORedirect url => RRedirect (HResp 302 [] None None) url | OAnswer r => r end.
Definition to_outcome (o : hout (oresp response)) : hout response :=
  match o with HReturn r e => HReturn (option_map to_response r) e | HPanic v => HPanic v end.
Definition of_outcome (o : hout response) : hout (oresp response) :=
  match o with HReturn r e => HReturn (option_map OAnswer r) e | HPanic v => HPanic v end.

(** The handler that starts the flow (gofre.go 207-230). *)
Definition login_start (cfg : oconfig World) (prefix base : bytes) : handler areq response (cache * World) :=
  fun c q cw =>
    let (o, cw') := initiate cfg prefix base c (oreq_of true [] q (snd cw)) cw in (to_outcome o, cw').

(** The handler of the callback (gofre.go 233-268) around the handler of the application.
    A panic of [PathVar] is one of the handler. *)
Definition login_return (cfg : oconfig World) (prefix base : bytes) (h : handler areq response (cache * World))
  : handler areq response (cache * World) :=
  fun c q cw =>
    match mc_var (aq_mc q) (str "providerName") with
    | None => (HPanic (Some 0), cw)
    | Some v =>
        let (o, cw') := callback cfg prefix base (fun c' _ cw1 => let (o1, cw2) := h c' q cw1 in (of_outcome o1, cw2))
                          c (oreq_of false v q (snd cw)) cw in
        (to_outcome o, cw')
    end.

End Login.
Arguments login_start {World}. Arguments login_return {World}.

(** The configuration of the example (examples/cmd.go 37-53) with the providers of
    [OAuthWire_Model]; the four texts are the environment variables. *)
Definition example_oauth {World : Type} (ask : outreq -> World -> answer * World) (gh_id gh_key gg_id gg_key : bytes) : oconfig World :=
  OConfig (str "https://localhost:8080") true
    [github_provider ask (GitHub gh_id gh_key [] false []); google_provider ask (Google gg_id gg_key [str "openid"] false false [] [])]
    true 60000000000.

(** What encoding/json sees of an access token: the fields of the struct (oauth2.go 67-78). *)
Definition token_value (t : access_token) : gval :=
  GStruct [(str "AccessToken", GStr (at_token t)); (str "TokenType", GStr (at_type t));
           (str "Scopes", match at_scopes t with Some l => GSlice (map GStr l) | None => GNil end);
           (str "RefreshToken", GStr (at_refresh t)); (str "ExpiresInSeconds", GInt (at_expires t))].

(** The handler of the example (examples/cmd.go 53-61) with [GetAccessTokenFromContext]
    (oauth2.go 29-34), which gives an empty token for none, and
    [GetSecurityPrincipalFromContext] (auth.go 16-21), which gives nil for none. *)
Definition example_home {World : Type} : handler areq response World :=
  fun c _ w =>
    (HReturn (Some (json_ok (GMap
       [(str "accessToken", token_value (match cx_token c with Some t => t | None => AccessToken [] [] None [] 0 end));
        (str "authenticatedUser", match cx_principal c with Some u => pr_value u | None => GNil end)]))) None, w).
