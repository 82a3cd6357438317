(** * Property C145: the bodies of the providers' answers, and C102 with bodies *)
From Coq Require Import List NArith ZArith Ascii String Bool Arith.
From Verif Require Import GoBase Http_Model Cache_Model Auth_Model Mux_Model Csrf_Model Csrf_Spec Chain_Model OAuth_Model OAuth_Spec OAuth_Proofs Json_Model Json_Spec JsonUser_Spec
  OAuthWire_Model OAuthWire_Spec OAuthWire_Proofs JsonDec_Model JsonDec_Spec JsonDec_Proofs JsonDecApp_Proofs.
Import ListNotations.
Local Open Scope string_scope.
Local Open Scope list_scope.
Local Open Scope N_scope.

(** C145 is false: bodies that are no JSON are accepted if they begin with an object. *)
Theorem C145_trailing_refuted : forall other body m, object_text body m -> forall rest st,
  exists o, answer_of other (Reply st (body ++ rest)) = Answer st o /\ answer_of other (Reply st body) = Answer st o.
Proof. exact (@trailing_accepted). Qed.
Print Assumptions C145_trailing_refuted.

(** Case: an object with a token, and a page behind it. *)
Example C145_case_trailing : exists m, object_text (str "{""access_token"":""t0ken"",""token_type"":""bearer""}<html>") m /\
  says_text m (str "access_token") (str "t0ken") /\ says_text m (str "token_type") (str "bearer") /\ header_text (str "t0ken") /\
  forall v, ~ json_text (str "{""access_token"":""t0ken"",""token_type"":""bearer""}<html>") v.
Proof. exact (@object_case). Qed.

(** C145 is false: null is taken for an object, and the call panics. *)
Theorem C145_null_refuted : forall other st w rest, 200 <= st < 300 -> white w -> forall platform idkey,
  github_token (answer_of other (Reply st (w ++ str "null" ++ rest))) = FPanic /\
  google_token (answer_of other (Reply st (w ++ str "null" ++ rest))) = FPanic /\
  provider_user platform idkey (answer_of other (Reply st (w ++ str "null" ++ rest))) = FPanic.
Proof. exact (@null_panics). Qed.
Print Assumptions C145_null_refuted.

(** C145, what holds: a body is read exactly if it begins with an object, or with null, and
    then each key has its last value. *)
Theorem C145_read_partial : forall other body,
  (forall o, decode_object other body = Some o -> exists ms, body_is other body ms /\ last_wins ms o) /\
  (forall ms, body_is other body ms -> exists o, decode_object other body = Some o /\ last_wins ms o).
Proof. exact (@body_read). Qed.
Print Assumptions C145_read_partial.

(** Case: white space, escapes, numbers, nested values, a repeated key, and text behind. *)
Example C145_case : answer_of (fun _ => Some 0%Z)
    (Reply 200 (str " {""access_token"" : ""t0ken"", ""token_type"":""bearer"",""x"":[1.5e3,{""y"":null}], ""scope"":""repo"",""access_token"":""gh\/t""}trailing")) =
  Answer 200 [(str "access_token", JvStr (str "gh/t")); (str "scope", JvStr (str "repo")); (str "x", JvOther); (str "token_type", JvStr (str "bearer"))] /\
  github_token (answer_of (fun _ => Some 0%Z) (Reply 200 token_body)) = FOk (AccessToken (str "gh/t") (str "bearer") (Some [str "repo"]) [] 0).
Proof. exact (@token_body_case). Qed.

(** C145: of a JSON text that says an object the texts and the whole numbers are read. *)
Theorem C145_texts_partial : forall other st body m, object_text body m ->
  exists o, answer_of other (Reply st body) = Answer st o /\
    (forall k s, text_at o k s <-> says_text m k s) /\
    (forall k z, alookup k o = Some (JvNum z) <-> says_value m k (VNum z)).
Proof. exact (@texts_read). Qed.
Print Assumptions C145_texts_partial.

(** C145: other bodies are errors. *)
Theorem C145_errors_partial : forall other st body, (forall ms, ~ body_is other body ms) -> forall platform idkey,
  (exists e, github_token (answer_of other (Reply st body)) = FErr e) /\ (exists e, google_token (answer_of other (Reply st body)) = FErr e) /\
  (exists e, provider_user platform idkey (answer_of other (Reply st body)) = FErr e).
Proof. exact (@no_object). Qed.
Print Assumptions C145_errors_partial.

(** Case: a form, a page, a list, and an object that is cut off. *)
Example C145_case_errors : Forall (fun body => forall ms, ~ body_is (fun _ => Some 0%Z) body ms)
  [str "access_token=t0ken&token_type=bearer"; str "<html>"; str "[{}]"; str "{""access_token"":""t0k"; []].
Proof. exact (@error_bodies). Qed.

(** C145: token, type and identity were in the body, under their keys. *)
Theorem C145_shown_partial : forall other p,
  (forall t, github_token (answer_of other p) = FOk t \/ google_token (answer_of other p) = FOk t -> exists st body ms, p = Reply st body /\ 200 <= st < 300 /\ body_is other body ms /\
     last_member ms (str "access_token") (JvStr (at_token t)) /\ last_member ms (str "token_type") (JvStr (at_type t))) /\
  (forall platform idkey u, provider_user platform idkey (answer_of other p) = FOk u -> exists st body ms, p = Reply st body /\ 200 <= st < 300 /\ body_is other body ms /\
     (last_member ms (str "email") (JvStr (us_id u)) \/ (forall s, ~ last_member ms (str "email") (JvStr s)) /\ last_member ms idkey (JvStr (us_id u)))).
Proof. exact (@shown_texts). Qed.
Print Assumptions C145_shown_partial.

(** C145: an object of texts that gofre has written is read back as it was. *)
Theorem C145_written_partial : forall other (l : list (bytes * bytes)) rest,
  NoDup (map fst l) -> Forall (fun ks => readable (fst ks) /\ readable (snd ks)) l ->
  exists o, decode_object other (marshal (GMap (map (fun ks => (fst ks, GStr (snd ks))) l)) ++ rest) = Some o /\
    forall k v, alookup k o = Some v <-> exists s, In (k, s) l /\ v = JvStr s.
Proof. exact (@written_read). Qed.
Print Assumptions C145_written_partial.

(** Case: texts with quotes, angle brackets and a character beyond ASCII. *)
Example C145_case_written : decode_object (fun _ => None) (marshal (GMap [(str "a<b", GStr (str "say ""hi""\")); (str "k", GStr [ascii_of_N 195; ascii_of_N 169])])) =
  Some [(str "k", JvStr [ascii_of_N 195; ascii_of_N 169]); (str "a<b", JvStr (str "say ""hi""\"))].
Proof. exact (@written_case). Qed.

(** C102 with bodies: if the provider answers with JSON texts the callback completes, with
    the token and the identity that they say. *)
Theorem C102_bytes_partial : forall other (World : Type) (wire : outreq -> World -> reply * World) (cfg : oconfig World) prefix base c q gp qp w code st1 b1 w1 m1 tok ty st2 b2 w2 m2 id,
  query_value q (str "code") code -> oc_fetch_user cfg = true -> 200 <= st1 < 300 -> 200 <= st2 < 300 -> object_text b1 m1 -> object_text b2 m2 ->
  says_text m1 (str "access_token") tok -> says_text m1 (str "token_type") ty -> header_text tok ->
  ((forall r, asks_github gp code r -> wire r w = (Reply st1 b1, w1)) ->
   (forall r, asks_user (str "https://api.github.com/user") tok r -> wire r w1 = (Reply st2 b2, w2)) ->
   says_text m2 (str "email") id \/ (forall s, ~ says_text m2 (str "email") s) /\ says_text m2 (str "login") id ->
   exists t u, at_token t = tok /\ at_type t = ty /\ us_id u = id /\
     completes cfg prefix base c q (github_provider (ask_bytes other wire) gp) w (Ctx (Some (user_principal u)) (cx_nonce c) (Some t)) w2) /\
  ((forall r, asks_google qp (oc_website cfg ++ resolve_path prefix base ++ str "/google") code r -> wire r w = (Reply st1 b1, w1)) ->
   (forall r, asks_user (str "https://www.googleapis.com/oauth2/v1/userinfo") tok r -> wire r w1 = (Reply st2 b2, w2)) ->
   says_text m2 (str "email") id \/ (forall s, ~ says_text m2 (str "email") s) /\ says_text m2 (str "id") id ->
   exists t u, at_token t = tok /\ at_type t = ty /\ us_id u = id /\
     completes cfg prefix base c q (google_provider (ask_bytes other wire) qp) w (Ctx (Some (user_principal u)) (cx_nonce c) (Some t)) w2).
Proof. exact (@callback_bytes). Qed.
Print Assumptions C102_bytes_partial.

(** Case: a login with GitHub in which the other side sends bodies. *)
Example C102_case_bytes :
  let run := serve_in_turn (oauth_endpoints bytes_config [] (str "/oauth/authorize") (beside_cache wire_handler)) (Ctx None None None)
    [wire_start; demo_callback 10 (str "a b")] (new_cache, []) in
  snd (fst run) = [str "client_id=shop&client_secret=s%26c%3Dt&code=a+b"; []; str "Bearer gh/t"] /\
  List.nth 1 (snd run) (HPanic None) = HReturn (Some (OAnswer
    (Some (AccessToken (str "gh/t") (str "bearer") (Some [str "repo"]) [] 0),
     Some (str "ann", GStruct [(str "Id", GStr (str "ann")); (str "Name", GStr (str "Ann")); (str "IdentityPlatform", GStr (str "github"));
                               (str "Groups", GNil); (str "Attachment", GNil)])))) None.
Proof. exact (@bytes_case). Qed.
