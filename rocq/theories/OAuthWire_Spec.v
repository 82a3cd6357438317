(** * What the exchange with OAuth providers should be. *)
From Coq Require Import List NArith ZArith Ascii String Bool Arith.
From Verif Require Import GoBase Http_Model Auth_Model Chain_Model OAuth_Model OAuth_Spec Json_Model JsonErr_Spec OAuthWire_Model.
Import ListNotations.
Local Open Scope string_scope.
Local Open Scope list_scope.
Local Open Scope N_scope.

(** The pairs of a form, as a server reads them. *)
Definition form_pairs (body : bytes) : list (option (bytes * bytes)) := map decode_pair (split_on "&"%char body).
Definition form_has (body k v : bytes) : Prop := In (Some (k, v)) (form_pairs body).

(** A request to GitHub for a token: client, secret and code as a form. *)
Definition asks_github (p : github) (code : bytes) (r : outreq) : Prop :=
  or_method r = str "POST" /\ or_url r = str "https://github.com/login/oauth/access_token" /\
  hvalues (or_header r) (str "Accept") = [str "application/json"] /\
  form_pairs (or_body r) = [Some (str "client_id", gh_client p); Some (str "client_secret", gh_secret p); Some (str "code", code)].

(** A request to Google for a token: client, secret, code, grant and redirect URL as an
    announced JSON object. *)
Definition asks_google (p : google) (redirect code : bytes) (r : outreq) : Prop :=
  or_method r = str "POST" /\ or_url r = str "https://oauth2.googleapis.com/token" /\
  hvalues (or_header r) (str "Accept") = [str "application/json"] /\
  hvalues (or_header r) (str "Content-Type") = [str "application/json"] /\
  says (or_body r) (GMap [(str "client_id", GStr (gg_client p)); (str "client_secret", GStr (gg_secret p)); (str "code", GStr code);
                          (str "grant_type", GStr (str "authorization_code")); (str "redirect_uri", GStr redirect)]).

(** A request for the user, with the token. *)
Definition asks_user (url token : bytes) (r : outreq) : Prop :=
  or_method r = str "GET" /\ or_url r = url /\ hvalues (or_header r) (str "Authorization") = [str "Bearer " ++ token] /\
  hvalues (or_header r) (str "Accept") = [str "application/json"] /\ or_body r = [].

(** A text that can stand in a header: tabs and no other control characters. *)
Definition header_text (s : bytes) : Prop := forall c, In c s -> code c = 9 \/ 32 <= code c /\ code c <> 127.

(** An answer of success with an object. *)
Definition success (a : answer) (o : list (bytes * jval)) : Prop := exists st, a = Answer st o /\ 200 <= st < 300.

(** The object has the text under the key, or no text at all. *)
Definition text_at (o : list (bytes * jval)) (k v : bytes) : Prop := alookup k o = Some (JvStr v).
Definition no_text_at (o : list (bytes * jval)) (k : bytes) : Prop := forall v, ~ text_at o k v.

(** The text under the key, or the empty one. *)
Definition text_or (o : list (bytes * jval)) (k v : bytes) : Prop := text_at o k v \/ no_text_at o k /\ v = [].

(** The scopes of an answer, separated by a character; none without a text. *)
Definition scopes_at (sep : byte) (o : list (bytes * jval)) (sc : option (list bytes)) : Prop :=
  match sc with
  | None => no_text_at o (str "scope")
  | Some l => text_at o (str "scope") (join [sep] l) /\ l <> [] /\ forall s, In s l -> ~ In sep s
  end.

(** An answer gives a token: what GitHub and what Google say of it. *)
Definition github_grants (a : answer) (t : access_token) : Prop :=
  exists o, success a o /\ text_at o (str "access_token") (at_token t) /\ text_at o (str "token_type") (at_type t) /\
    scopes_at ","%char o (at_scopes t) /\ at_refresh t = [] /\ at_expires t = 0%Z.
Definition google_grants (a : answer) (t : access_token) : Prop :=
  exists o, success a o /\ text_at o (str "access_token") (at_token t) /\ text_at o (str "token_type") (at_type t) /\
    scopes_at " "%char o (at_scopes t) /\ text_or o (str "refresh_token") (at_refresh t) /\
    (alookup (str "expires_in") o = Some (JvNum (at_expires t)) \/ (forall z, alookup (str "expires_in") o <> Some (JvNum z)) /\ at_expires t = 0%Z).

(** An answer names a user: by email, or else by the other key, with the name and the
    platform. *)
Definition names_user (platform idkey : bytes) (a : answer) (u : user) : Prop :=
  exists o, success a o /\ (text_at o (str "email") (us_id u) \/ no_text_at o (str "email") /\ text_at o idkey (us_id u)) /\
    text_or o (str "name") (us_name u) /\ us_platform u = platform /\ us_groups u = [].

(** The exchange behind a callback: the token for the code, and the user for the token if
    users are fetched; [asks] is the right request for the token and [grants] its answer,
    [url] and [names] belong to the user. *)
Definition exchanged {World : Type} (ask : outreq -> World -> answer * World) (asks : bytes -> outreq -> Prop) (grants : answer -> access_token -> Prop)
  (url : bytes) (names : answer -> user -> Prop)
  (fetch_user : bool) (c : ctx) (q : oreq) (w : World) (c' : ctx) (w' : World) : Prop :=
  exists code r1 a1 w1 tok, query_value q (str "code") code /\ asks code r1 /\ ask r1 w = (a1, w1) /\ grants a1 tok /\
    ((fetch_user = false /\ c' = Ctx (cx_principal c) (cx_nonce c) (Some tok) /\ w' = w1) \/
     (fetch_user = true /\ header_text (at_token tok) /\ exists r2 a2 u, asks_user url (at_token tok) r2 /\ ask r2 w1 = (a2, w') /\ names a2 u /\
        c' = Ctx (Some (user_principal u)) (cx_nonce c) (Some tok))).
