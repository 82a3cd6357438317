(** * What the example answers to a visitor who has logged in *)
From Coq Require Import List NArith ZArith Ascii String Bool Lia Arith.
From Verif Require Import GoBase Http_Model Glob_Model Pattern_Model Url_Model Match_Model Router_Model Cache_Model Auth_Model Chain_Model Serve_Model
  Mux_Model Resp_Model Json_Model JsonErr_Model Cors_Model App_Model OAuth_Model OAuthWire_Model Example_Model Login_Model JsonErr_Spec OAuth_Spec Login_Spec Chain_Spec Mux_Spec App_Spec
  Url_Spec Routing_Spec AppWire_Spec OAuthWire_Spec OAuthWire_Proofs Example_Spec Example_Proofs ExampleAns_Proofs Witness_Proofs CorsCases_Proofs AppWhole_Proofs LoginExa_Proofs LoginCase_Proofs.
Import ListNotations.
Local Open Scope string_scope.
Local Open Scope list_scope.
Local Open Scope nat_scope.

Section Home.
Variable World : Type.
Variable ask : outreq -> World -> answer * World.
Variable params : request -> list (bytes * list bytes).
Variable now : World -> Z.
Variable random : World -> nat -> N.
Variables (gh_id gh_key gg_id gg_key : bytes).
Notation cfg := (example_oauth ask gh_id gh_key gg_id gg_key).
Notation gh := (GitHub gh_id gh_key [] false []).
Notation gg := (Google gg_id gg_key [str "openid"] false false [] []).
Variables (o : outside) (p : parts (cache * World)).
Hypothesis Ini : pt_initiate p = login_start params now random cfg [] (str "/oauth/authorize").
Hypothesis Ret : pt_return p = login_return params now random cfg [] (str "/oauth/authorize") example_home.

Lemma user_fetched platform idkey url token w u a w' :
  header_text token -> (forall r, asks_user url token r -> ask r w = (a, w')) -> names_user platform idkey a u ->
  (let (a, w1) := send ask (user_request url token) w in (provider_user platform idkey a, w1)) = (FOk u, w').
Proof.
  intros H A N. apply named_user. split; [exact H|]. exists a. split; [apply A, user_asks|exact N].
Qed.

Lemma vouched_github x code w t u w' : header_text (at_token t) ->
  vouches ask (asks_github gh code) github_grants (str "https://api.github.com/user") (names_user (str "github") (str "login")) w t u w' ->
  logged_in cfg (github_provider ask gh) (str "https://localhost:8080/oauth/authorize/github") x code w (with_principal (with_token x t) (user_principal u)) w'.
Proof.
  intros H (a1 & w1 & a2 & A1 & G & A2 & N). exists t, w1. split.
  - cbn [pv_token github_provider]. unfold send. rewrite github_sendable, (A1 _ (github_asks _ code)). apply github_fields in G. rewrite G. reflexivity.
  - right. split; [reflexivity|]. exists u. split; [|reflexivity]. cbn [pv_user github_provider]. eapply user_fetched; eauto.
Qed.
Lemma vouched_google x code w t u w' : header_text (at_token t) ->
  vouches ask (asks_google gg (str "https://localhost:8080/oauth/authorize/google") code) google_grants
    (str "https://www.googleapis.com/oauth2/v1/userinfo") (names_user (str "google") (str "id")) w t u w' ->
  logged_in cfg (google_provider ask gg) (str "https://localhost:8080/oauth/authorize/google") x code w (with_principal (with_token x t) (user_principal u)) w'.
Proof.
  intros H (a1 & w1 & a2 & A1 & G & A2 & N). exists t, w1. split.
  - cbn [pv_token google_provider]. unfold send. rewrite google_sendable, (A1 _ (google_asks _ _ code)). apply google_fields in G. rewrite G. reflexivity.
  - right. split; [reflexivity|]. exists u. split; [|reflexivity]. cbn [pv_user google_provider]. eapply user_fetched; eauto.
Qed.

Lemma home_says x t u q (w : cache * World) : us_groups u = [] ->
  example_home (with_principal (with_token x t) (user_principal u)) q w = (HReturn (Some (json_ok (visitor_page t u))) None, w).
Proof. destruct u as [i n pl g]. cbn [us_groups]. intros ->. destruct t. reflexivity. Qed.

Lemma example_visitor fuel l q1 buf1 q2 buf2 name : name = str "github" \/ name = str "google" ->
  xq_method (rq_x q1) = str "GET" -> rq_path q1 = str "/oauth/initiate" -> List.length buf1 = 19 -> alookup (str "provider") (params q1) = Some (name :: l) ->
  xq_method (rq_x q2) = str "GET" -> rq_path q2 = str "/oauth/authorize/" ++ name -> List.length buf2 = 19 ->
  exists k0, forall f1 x1 c1 w1 evs1 c1' w1' b1 fin1 f2 x2 c2 w2 evs2 cw2' b2 fin2 code t u w3,
    example_serve o p (60 + fuel) (k0 + f1) q1 buf1 x1 (c1, w1) = (evs1, (c1', w1'), b1, fin1) ->
    example_serve o p (60 + fuel) (k0 + f2) q2 buf2 x2 (c2, w2) = (evs2, cw2', b2, fin2) ->
    comes_back (params q2) (generate_unique_id 12 (random w1)) code -> cache_contains c2 (now w2) (generate_unique_id 12 (random w1)) = true ->
    header_text (at_token t) ->
    (name = str "github" -> vouches ask (asks_github gh code) github_grants (str "https://api.github.com/user") (names_user (str "github") (str "login")) w2 t u w3) ->
    (name = str "google" -> vouches ask (asks_google gg (str "https://localhost:8080/oauth/authorize/google") code) google_grants
       (str "https://www.googleapis.com/oauth2/v1/userinfo") (names_user (str "google") (str "id")) w2 t u w3) ->
    cw2' = (c2, w3) /\ fin2 = SDone /\
    exists body, received b2 = (200%Z, typed "application/json", body) /\ says body (visitor_page t u).
Proof.
  intros Nm M1 P1 L1 A1 M2 P2 L2.
  assert (Pv : exists pv, In pv (oc_providers cfg) /\ pv_name pv = name /\
    forall x code w t u w', header_text (at_token t) ->
    (name = str "github" -> vouches ask (asks_github gh code) github_grants (str "https://api.github.com/user") (names_user (str "github") (str "login")) w t u w') ->
    (name = str "google" -> vouches ask (asks_google gg (str "https://localhost:8080/oauth/authorize/google") code) google_grants
       (str "https://www.googleapis.com/oauth2/v1/userinfo") (names_user (str "google") (str "id")) w t u w') ->
    us_groups u = [] /\ logged_in cfg pv (str "https://localhost:8080" ++ rq_path q2) x code w (with_principal (with_token x t) (user_principal u)) w').
  { rewrite P2. destruct Nm as [-> | ->].
    - exists (github_provider ask gh). split; [left; reflexivity|]. split; [reflexivity|]. intros x code w t u w' H V _. specialize (V eq_refl). split.
      + destruct V as (? & ? & ? & _ & _ & _ & (? & _ & _ & _ & _ & G)). exact G.
      + apply vouched_github; assumption.
    - exists (google_provider ask gg). split; [right; left; reflexivity|]. split; [reflexivity|]. intros x code w t u w' H _ V. specialize (V eq_refl). split.
      + destruct V as (? & ? & ? & _ & _ & _ & (? & _ & _ & _ & _ & G)). exact G.
      + apply vouched_google; assumption. }
  destruct Pv as (pv & I & E & Lg). subst name.
  destruct (example_login World ask params now random gh_id gh_key gg_id gg_key example_home o p Ini Ret fuel pv l q1 buf1 q2 buf2 I M1 P1 L1 A1 M2 P2 L2) as [k0 K].
  exists k0. intros f1 x1 c1 w1 evs1 c1' w1' b1 fin1 f2 x2 c2 w2 evs2 cw2' b2 fin2 code t u w3 S1 S2 Cb Ct H V1 V2.
  destruct (Lg x2 code w2 t u w3 H V1 V2) as [G L].
  destruct (K _ _ _ _ _ _ _ _ _ S1) as (_ & _ & _ & _ & K2).
  destruct (K2 _ _ _ _ _ _ _ _ _ _ _ S2 Cb Ct L) as (i & mc & evs & _ & _ & A).
  rewrite (home_says _ _ _ _ _ G) in A. cbn [fst snd guarded] in A.
  destruct (json_answers o _ _ _ _ _ _ _ A) as (body & R & Sy & -> & -> & _). eauto.
Qed.

End Home.

(** ** A case *)

Definition mona : user := User (str "mona") (str "Mona") (str "github") [].
Definition mona_token : access_token := AccessToken (str "tok") (str "bearer") (Some [str "repo"; str "gist"]) [] 0.
Definition mona_ask (r : outreq) (w : Z) : answer * Z :=
  if beqb (or_url r) github_token_endpoint then
    (Answer 200 [(str "access_token", JvStr (str "tok")); (str "token_type", JvStr (str "bearer")); (str "scope", JvStr (str "repo,gist"))], (w + 1)%Z)
  else (Answer 200 [(str "login", JvStr (str "mona")); (str "email", JvOther); (str "name", JvStr (str "Mona"))], (w + 1)%Z).
Definition mona_parts : parts (cache * Z) := Parts (cache * Z)
  (login_start exa_params (fun w => w) (fun _ _ => 7%N) (example_oauth mona_ask (str "id") (str "key") (str "id2") (str "key2")) [] (str "/oauth/authorize"))
  (login_return exa_params (fun w => w) (fun _ _ => 7%N) (example_oauth mona_ask (str "id") (str "key") (str "id2") (str "key2")) [] (str "/oauth/authorize") example_home)
  (fun _ _ w => (HReturn None None, w)) (fun n => ([], None)) (fun w => (inr (EOther (str "no image")), w))
  (fun _ _ _ => str "stack") (fun v => v).

Lemma mona_case (o : outside) :
  comes_back (exa_params (plain_request GET (str "/oauth/authorize/github"))) shop_state (str "c0") /\ header_text (at_token mona_token) /\
  vouches mona_ask (asks_github (GitHub (str "id") (str "key") [] false []) (str "c0")) github_grants (str "https://api.github.com/user")
    (names_user (str "github") (str "login")) 6%Z mona_token mona 8%Z /\
  exists evs, outcome (example_serve (watched o) mona_parts 60 60 (plain_request GET (str "/oauth/authorize/github")) zeros nobody ([(shop_state, 60000000005%Z)], 6%Z)) =
    (evs, ([(shop_state, 60000000005%Z)], 8%Z), (200%Z, typed "application/json",
       str "{""accessToken"":{""AccessToken"":""tok"",""TokenType"":""bearer"",""Scopes"":[""repo"",""gist""],""RefreshToken"":"""",""ExpiresInSeconds"":0},""authenticatedUser"":{""Id"":""mona"",""Name"":""Mona"",""IdentityPlatform"":""github"",""Groups"":null,""Attachment"":null}}"), SDone).
Proof.
  split; [split; [exists []; vm_compute; reflexivity|split; [exists []; vm_compute; reflexivity|vm_compute; reflexivity]]|].
  split; [apply value_ok_iff; reflexivity|]. split.
  - exists (Answer 200 [(str "access_token", JvStr (str "tok")); (str "token_type", JvStr (str "bearer")); (str "scope", JvStr (str "repo,gist"))]), 7%Z,
      (Answer 200 [(str "login", JvStr (str "mona")); (str "email", JvOther); (str "name", JvStr (str "Mona"))]).
    split; [intros r (_ & E & _); unfold mona_ask; rewrite E; reflexivity|]. split; [apply github_fields; reflexivity|].
    split; [intros r (_ & E & _); unfold mona_ask; rewrite E; reflexivity|]. apply user_named. reflexivity.
  - eexists. run_exa.
Qed.
