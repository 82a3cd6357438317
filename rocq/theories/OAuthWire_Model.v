(** * Model of the exchange with the OAuth providers (auth/oauth/github.go 62-142,
    auth/oauth/google.go 75-171): the requests that are sent and what is made of the
    answers. *)
From Coq Require Import List NArith ZArith Ascii String Bool Arith.
From Verif Require Import GoBase Http_Model Auth_Model Chain_Model OAuth_Model Json_Model.
Import ListNotations.
Local Open Scope string_scope.
Local Open Scope list_scope.
Local Open Scope N_scope.

(** A request of the [HttpClient] (oauth2.go 12-21).  Host, length and other headers that
    net/http adds are left out; it adds no Content-Type. *)
Record outreq := OutReq { or_method : bytes; or_url : bytes; or_header : hmap; or_body : bytes }.

(** The endpoints (github.go 14-16, google.go 15-17), with their initial values. *)
Definition github_token_endpoint : bytes := str "https://github.com/login/oauth/access_token".
Definition github_user_endpoint : bytes := str "https://api.github.com/user".
Definition google_token_endpoint : bytes := str "https://oauth2.googleapis.com/token".
Definition google_user_endpoint : bytes := str "https://www.googleapis.com/oauth2/v1/userinfo".

(** The request for the token (github.go 63-72).  The redirect URL is not used. *)
Definition github_token_request (p : github) (code : bytes) : outreq :=
  OutReq (str "POST") github_token_endpoint (hset [] (str "Accept") (str "application/json"))
    (encode_values [(str "client_id", [gh_client p]); (str "client_secret", [gh_secret p]); (str "code", [code])]).

(** The request for the token (google.go 76-94); the encoding of a map of strings does
    not fail. *)
Definition google_token_request (p : google) (redirect code : bytes) : outreq :=
  OutReq (str "POST") google_token_endpoint
    (hset (hset [] (str "Content-Type") (str "application/json")) (str "Accept") (str "application/json"))
    (marshal (GMap [(str "client_id", GStr (gg_client p)); (str "client_secret", GStr (gg_secret p)); (str "code", GStr code);
                    (str "grant_type", GStr (str "authorization_code")); (str "redirect_uri", GStr redirect)])).

(** The request for the user (github.go 105-111, google.go 134-140). *)
Definition user_request (endpoint token : bytes) : outreq :=
  OutReq (str "GET") endpoint (hset (hset [] (str "Authorization") (str "Bearer " ++ token)) (str "Accept") (str "application/json")) [].

(** net/http does not send a request with a header value that has control characters
    other than the tab ([Transport.roundTrip], [httpguts.ValidHeaderFieldValue]). *)
Definition value_ok (v : bytes) : bool := forallb (fun c => (32 <=? code c) && negb (code c =? 127) || (code c =? 9)) v.
Definition sendable (r : outreq) : bool := forallb (fun kv => forallb value_ok (snd kv)) (or_header r).

(** Decoded JSON values; a number is an integer that a float64 holds, others are left out. *)
Inductive jval := JvStr (s : bytes) | JvNum (z : Z) | JvOther.

(** The value of a key if it is a string. *)
Definition jstr (o : list (bytes * jval)) (k : bytes) : option bytes :=
  match alookup k o with Some (JvStr s) => Some s | _ => None end.

(** Answers: the result of the transport, status and decoded object, if the body begins
    with an object. *)
Inductive answer := NoAnswer | NotJson | Answer (status : N) (o : list (bytes * jval)).

(** The token from the answer (github.go 73-102); the texts of errors are shortened. *)
Definition github_token (a : answer) : fetched access_token :=
  match a with
  | NoAnswer => FErr (EOther (str "failed to fetch the OAUTH2 access token"))
  | NotJson => FErr (EOther (str "failed to decode the OAUTH2 access token response"))
  | Answer status o =>
      if status / 100 =? 2 then
        match jstr o (str "access_token"), jstr o (str "token_type") with
        | Some t, Some ty =>
            FOk (AccessToken t ty (option_map (split_on ","%char) (jstr o (str "scope"))) [] 0)
        | _, _ => FPanic
        end
      else FErr (EOther (str "get the OAUTH2 access token response"))
  end.

(** The token from the answer (google.go 95-131). *)
Definition google_token (a : answer) : fetched access_token :=
  match a with
  | NoAnswer => FErr (EOther (str "failed to fetch the OAUTH2 access token"))
  | NotJson => FErr (EOther (str "failed to decode the OAUTH2 access token response"))
  | Answer status o =>
      if status / 100 =? 2 then
        match jstr o (str "access_token"), jstr o (str "token_type") with
        | Some t, Some ty =>
            FOk (AccessToken t ty (option_map (split_on " "%char) (jstr o (str "scope")))
                   (match jstr o (str "refresh_token") with Some r => r | None => [] end)
                   (match alookup (str "expires_in") o with Some (JvNum z) => z | _ => 0%Z end))
        | _, _ => FPanic
        end
      else FErr (EOther (str "get the OAUTH2 access token response"))
  end.

(** The user from the answer (github.go 112-142, google.go 141-171); [idkey] is login or id. *)
Definition provider_user (platform idkey : bytes) (a : answer) : fetched user :=
  match a with
  | NoAnswer => FErr (EOther (str "failed to fetch the user details"))
  | NotJson => FErr (EOther (str "failed to decode the user details response"))
  | Answer status o =>
      if status / 100 =? 2 then
        let name := match jstr o (str "name") with Some n => n | None => [] end in
        match jstr o (str "email") with
        | Some e => FOk (User e name platform [])
        | None => match jstr o idkey with
                  | Some i => FOk (User i name platform [])
                  | None => FPanic
                  end
        end
      else FErr (EOther (str "get the user details response"))
  end.

Section Exchange.
Variable World : Type.
(** The other side: what a request leads to. *)
Variable ask : outreq -> World -> answer * World.

(** [HttpClient.Do] (net/http). *)
Definition send (r : outreq) (w : World) : answer * World := if sendable r then ask r w else (NoAnswer, w).

(** The two providers as the endpoints use them. *)
Definition github_provider (p : github) : provider World :=
  Provider (str "github") (github_initiate_url p)
    (fun _ _ code w => let (a, w') := send (github_token_request p code) w in (github_token a, w'))
    (fun _ token w => let (a, w') := send (user_request github_user_endpoint (at_token token)) w in
                      (provider_user (str "github") (str "login") a, w')).
Definition google_provider (p : google) : provider World :=
  Provider (str "google") (google_initiate_url p)
    (fun _ redirect code w => let (a, w') := send (google_token_request p redirect code) w in (google_token a, w'))
    (fun _ token w => let (a, w') := send (user_request google_user_endpoint (at_token token)) w in
                      (provider_user (str "google") (str "id") a, w')).
End Exchange.
Arguments send {World}.
Arguments github_provider {World}.
Arguments google_provider {World}.
