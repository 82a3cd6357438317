(** * What is claimed about logins *)
From Coq Require Import List NArith ZArith Ascii String Bool.
From Verif Require Import GoBase Http_Model Cache_Model Auth_Model Json_Model Chain_Model Mux_Model Resp_Model Cors_Model App_Model OAuth_Model OAuth_Spec OAuthWire_Model OAuthWire_Spec AppWire_Spec.
Import ListNotations.
Local Open Scope string_scope.
Local Open Scope list_scope.
Local Open Scope nat_scope.

(** The provider that a visitor chooses: the only one, or the one that is named in the
    query. *)
Definition chosen {World : Type} (cfg : oconfig World) (ps : list (bytes * list bytes)) (p : provider World) : Prop :=
  oc_providers cfg = [p] \/
  (List.length (oc_providers cfg) <> 1 /\ named (oc_providers cfg) (pv_name p) p /\ exists l, alookup (str "provider") ps = Some (pv_name p :: l)).

(** The provider sends the browser back with this state and code. *)
Definition comes_back (ps : list (bytes * list bytes)) (state code : bytes) : Prop :=
  (exists l, alookup (str "state") ps = Some (state :: l)) /\ (exists l, alookup (str "code") ps = Some (code :: l)) /\
  alookup (str "error") ps = None.

(** A name that is one segment of a path. *)
Definition one_segment (name : bytes) : Prop := name <> [] /\ name <> str ".." /\ ~ In "/"%char name.

(** What the client gets for a redirect. *)
Definition redirected (to body : bytes) : Z * hmap * bytes :=
  (302%Z, [(str "Content-Type", [str "text/html; charset=utf-8"]); (str "Location", [to])], body).

(** What the application is to see of a visitor with this code: the token, the user if
    requested, and the world after the fetches. *)
Definition logged_in {World : Type} (cfg : oconfig World) (p : provider World) (back : bytes) (x : ctx) (code : bytes) (w : World)
    (x' : ctx) (w' : World) : Prop :=
  exists tok w1, pv_token p x back code w = (FOk tok, w1) /\
    ((oc_fetch_user cfg = false /\ x' = Ctx (cx_principal x) (cx_nonce x) (Some tok) /\ w' = w1) \/
     (oc_fetch_user cfg = true /\ exists u, pv_user p (Ctx (cx_principal x) (cx_nonce x) (Some tok)) tok w1 = (FOk u, w') /\ x' = Ctx (Some (user_principal u)) (cx_nonce x) (Some tok))).

(** Nothing is around these two handlers. *)
Definition bare (rs : list wired) (h1 h2 : nat) : Prop :=
  forall w, In w rs -> en_target (wr_entry w) = TUser h1 \/ en_target (wr_entry w) = TUser h2 -> en_common (wr_entry w) = [] /\ en_own (wr_entry w) = [].

(** The first value of a query parameter; empty if there is none. *)
Definition first_value (ps : list (bytes * list bytes)) (k v : bytes) : Prop :=
  (exists vs, alookup k ps = Some (v :: vs)) \/ v = [] /\ (alookup k ps = None \/ alookup k ps = Some []).

(** What the example says of a visitor who has logged in. *)
Definition visitor_page (t : access_token) (u : user) : gval :=
  GMap [(str "accessToken",
         GStruct [(str "AccessToken", GStr (at_token t)); (str "TokenType", GStr (at_type t));
                  (str "Scopes", match at_scopes t with Some l => GSlice (map GStr l) | None => GNil end);
                  (str "RefreshToken", GStr (at_refresh t)); (str "ExpiresInSeconds", GInt (at_expires t))]);
        (str "authenticatedUser",
         GStruct [(str "Id", GStr (us_id u)); (str "Name", GStr (us_name u)); (str "IdentityPlatform", GStr (us_platform u));
                  (str "Groups", GNil); (str "Attachment", GNil)])].

(** The provider, asked for the code of the visitor and then for the user, gives this token
    and names this user; [asks] and [grants] are about the token, [url] and [names] about
    the user. *)
Definition vouches {World : Type} (ask : outreq -> World -> answer * World) (asks : outreq -> Prop) (grants : answer -> access_token -> Prop)
    (url : bytes) (names : answer -> user -> Prop) (w : World) (t : access_token) (u : user) (w' : World) : Prop :=
  exists a1 w1 a2, (forall r, asks r -> ask r w = (a1, w1)) /\ grants a1 t /\
    (forall r, asks_user url (at_token t) r -> ask r w1 = (a2, w')) /\ names a2 u.
