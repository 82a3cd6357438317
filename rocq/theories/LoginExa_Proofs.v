(** * A login at the example program *)
From Coq Require Import List NArith ZArith Ascii String Bool Lia Arith.
From Verif Require Import GoBase Http_Model Glob_Model Pattern_Model Url_Model Match_Model Router_Model Cache_Model Auth_Model Chain_Model Serve_Model
  Mux_Model Resp_Model Json_Model JsonErr_Model Cors_Model App_Model OAuth_Model OAuthWire_Model Example_Model Login_Model JsonErr_Spec OAuth_Spec Csrf_Proofs Login_Spec Chain_Spec Mux_Spec App_Spec
  Url_Spec Routing_Spec AppWire_Spec Witness_Proofs Example_Spec Example_Proofs ExampleAns_Proofs LoginAns_Proofs OAuthUrl_Proofs.
Import ListNotations.
Local Open Scope string_scope.
Local Open Scope list_scope.
Local Open Scope nat_scope.

Section Exa.
Variable World : Type.
Variable ask : outreq -> World -> answer * World.
Variable params : request -> list (bytes * list bytes).
Variable now : World -> Z.
Variable random : World -> nat -> N.
Variables (gh_id gh_key gg_id gg_key : bytes) (h : handler areq response (cache * World)).
Notation cfg := (example_oauth ask gh_id gh_key gg_id gg_key).
Variables (o : outside) (p : parts (cache * World)).
Hypothesis Ini : pt_initiate p = login_start params now random cfg [] (str "/oauth/authorize").
Hypothesis Ret : pt_return p = login_return params now random cfg [] (str "/oauth/authorize") h.

Lemma example_providers pv : In pv (oc_providers cfg) ->
  OAuth_Spec.named (oc_providers cfg) (pv_name pv) pv /\ (pv_name pv = str "github" \/ pv_name pv = str "google").
Proof.
  intros [<-|[<-|[]]].
  - split; [|left; reflexivity]. exists [], [google_provider ask (Google gg_id gg_key [str "openid"] false false [] [])].
    split; [reflexivity|]. split; [reflexivity|intros ? []].
  - split; [|right; reflexivity]. exists [github_provider ask (GitHub gh_id gh_key [] false [])], [].
    split; [reflexivity|]. split; [reflexivity|]. intros y [<-|[]]. discriminate.
Qed.

Lemma return_segments name : name = str "github" \/ name = str "google" ->
  segments_of (str "/oauth/authorize/" ++ name) [str "oauth"; str "authorize"; name].
Proof.
  intros [->| ->].
  - apply (segments_spelled (str "oauth") [str "authorize"; str "github"]); [repeat (constructor; [not_in|]); constructor|few].
  - apply (segments_spelled (str "oauth") [str "authorize"; str "google"]); [repeat (constructor; [not_in|]); constructor|few].
Qed.

Lemma example_login fuel pv l q1 buf1 q2 buf2 :
  In pv (oc_providers cfg) ->
  xq_method (rq_x q1) = str "GET" -> rq_path q1 = str "/oauth/initiate" -> List.length buf1 = 19 -> alookup (str "provider") (params q1) = Some (pv_name pv :: l) ->
  xq_method (rq_x q2) = str "GET" -> rq_path q2 = str "/oauth/authorize/" ++ pv_name pv -> List.length buf2 = 19 ->
  exists k0, forall f1 x1 c1 w1 evs1 c1' w1' b1 fin1,
    example_serve o p (60 + fuel) (k0 + f1) q1 buf1 x1 (c1, w1) = (evs1, (c1', w1'), b1, fin1) ->
    let state := generate_unique_id 12 (random w1) in
    let url := pv_initiate_url pv (str "https://localhost:8080" ++ rq_path q2) state true in
    w1' = w1 /\ fin1 = SDone /\
    received b1 = redirected (os_location o (WReq (str "GET") (xq_headers (rq_x q1)) (rq_major q1)) url) (os_body o 302%Z url) /\
    (forall t key, cache_contains c1' t key = true <->
       (key = state /\ (t < now w1 + 60000000000)%Z) \/ (key <> state /\ cache_contains c1 t key = true)) /\
    forall f2 x2 c2 w2 evs2 cw2' b2 fin2 code x3 w3,
      example_serve o p (60 + fuel) (k0 + f2) q2 buf2 x2 (c2, w2) = (evs2, cw2', b2, fin2) ->
      comes_back (params q2) state code -> cache_contains c2 (now w2) state = true ->
      logged_in cfg pv (str "https://localhost:8080" ++ rq_path q2) x2 code w2 x3 w3 ->
      exists i mc evs, sees mc q2 [(str "providerName", pv_name pv)] /\ visible evs2 = EvRun i :: evs /\
        answers (sends (os_k o) (os_oh o) (os_oc o) (os_render o) (os_location o) (os_body o) q2) (snd (h x3 (AReq q2 mc) (c2, w3)))
          (guarded (pt_stack p x2 (AReq q2 mc) (c2, w2)) (fst (h x3 (AReq q2 mc) (c2, w3)))) evs cw2' b2 fin2.
Proof.
  intros I M1 P1 L1 A1 M2 P2 L2. destruct (example_providers pv I) as [Nm Two].
  assert (Q1 : asked q1 [str "oauth"; str "initiate"] buf1).
  { split; [rewrite M1; reflexivity|]. split; [rewrite P1; reflexivity|]. split; [|exact L1]. rewrite P1. apply (segments_spelled (str "oauth") [str "initiate"]); [repeat (constructor; [not_in|]); constructor|few]. }
  assert (Q2 : asked q2 [str "oauth"; str "authorize"; pv_name pv] buf2).
  { split; [rewrite M2; reflexivity|]. split; [rewrite P2; destruct Two as [-> | ->]; reflexivity|]. split; [|exact L2]. rewrite P2. apply return_segments, Two. }
  destruct (example_ask o p fuel q1 _ buf1 _ _ Q1 pg_initiate) as [k1 K1]. destruct (example_ask o p fuel q2 _ buf2 _ _ Q2 (pg_return _)) as [k2 K2].
  exists (k1 + k2). intros f1 x1 c1 w1 evs1 c1' w1' b1 fin1 Sv1 state url.
  replace (k1 + k2 + f1) with (k1 + (k2 + f1)) in Sv1 by lia.
  destruct (K1 _ _ _ _ _ _ _ Sv1) as (i & mc & evs' & Se & V & A). apply behind_plain in A.
  change (parts_user p 1) with (pt_initiate p) in A. rewrite Ini in A.
  rewrite (first_endpoint World params now random cfg _ _ pv x1 (AReq q1 mc) (c1, w1)) in A.
  2:{ right. split; [discriminate|]. split; [exact Nm|]. exists l. exact A1. }
  2:{ destruct Two as [-> | ->]; discriminate. }
  cbn [fst snd guarded] in A.
  assert (Eu : pv_initiate_url pv (oc_website cfg ++ resolve_path [] (str "/oauth/authorize") ++ str "/" ++ pv_name pv) (generate_unique_id 12 (random w1)) (oc_fetch_user cfg) = url).
  { unfold url. rewrite P2. reflexivity. }
  rewrite Eu in A. clearbody url. cbn [oc_cache example_oauth] in A.
  destruct (redirect_sends (os_k o) (os_oh o) (os_oc o) (os_render o) (os_location o) (os_body o) q1 url M1) as (b & Sb & Rb).
  assert (Fi : (c1', w1') = (cache_add c1 (now w1) state (oc_expiration cfg), w1) /\ fin1 = SDone /\ b1 = b).
  { inversion A; subst; try congruence. repeat split; congruence. }
  destruct Fi as (Fi & -> & ->). pose proof (f_equal snd Fi) as Fw. pose proof (f_equal fst Fi) as Fc. cbn [fst snd] in Fw, Fc. clear Fi.
  split; [exact Fw|]. split; [reflexivity|]. split; [exact Rb|]. split.
  { intros t key. rewrite Fc. apply contains_add. }
  intros f2 x2 c2 w2 evs2 cw2' b2 fin2 code x3 w3 Sv2 Cb Ct Lg.
  replace (k1 + k2 + f2) with (k2 + (k1 + f2)) in Sv2 by lia.
  destruct (K2 _ _ _ _ _ _ _ Sv2) as (i2 & mc2 & evs2' & Se2 & V2 & A2). apply behind_plain in A2.
  exists i2, mc2, evs2'. split; [exact Se2|]. split; [exact V2|].
  change (parts_user p 2) with (pt_return p) in A2. rewrite Ret in A2.
  rewrite (second_endpoint World params now random cfg [] (str "/oauth/authorize") pv h x2 (AReq q2 mc2) (c2, w2) code state x3 w3) in A2;
    [exact A2| |exact Nm|exact Cb|intros _; exact Ct|].
  - destruct Se2 as (_ & _ & Sv). cbn [aq_mc]. rewrite (Sv (str "providerName")). reflexivity.
  - rewrite P2 in Lg. exact Lg.
Qed.

Lemma form_first first var q w k0 v : first_value (params (aq_request q)) k0 v -> form_value (oreq_of World params now random first var q w) k0 = v.
Proof.
  unfold form_value, vget. cbn [oreq_of oq_params]. intros [[vs ->]|[-> [-> | ->]]]; reflexivity.
Qed.

Lemma no_provider v : v <> str "github" -> v <> str "google" -> provider_by_name (oc_providers cfg) v = None.
Proof.
  intros A B. cbn [oc_providers example_oauth provider_by_name pv_name github_provider google_provider].
  destruct (beqb _ _) eqn:E; [apply Auth_Proofs.beqb_iff in E; congruence|]. clear E.
  destruct (beqb _ _) eqn:E; [apply Auth_Proofs.beqb_iff in E; congruence|]. reflexivity.
Qed.

Lemma example_unstarted fuel q buf v : asked q [str "oauth"; str "initiate"] buf -> first_value (params q) (str "provider") v ->
  v <> str "github" -> v <> str "google" ->
  exists k0, forall f x w evs w' b fin, example_serve o p (60 + fuel) (k0 + f) q buf x w = (evs, w', b, fin) ->
    w' = w /\ fin = SDone /\
    exists body, received b = (400%Z, typed "application/json", body) /\
      says_error body (if beqb v [] then str "oauth provider not specified" else str "oauth provider not supported").
Proof.
  intros Q F A B. destruct (example_ask o p fuel q _ buf _ _ Q pg_initiate) as [k1 K1]. exists k1. intros f x w evs w' b fin Sv.
  destruct (K1 _ _ _ _ _ _ _ Sv) as (i & mc & evs' & Se & V & An). apply behind_plain in An.
  change (parts_user p 1) with (pt_initiate p) in An. rewrite Ini in An. unfold login_start, initiate, initiate_provider in An.
  assert (Fo : form_value (oreq_of World params now random true [] (AReq q mc) (snd w)) (str "provider") = v) by (apply form_first; exact F).
  set (r := oreq_of _ _ _ _ _ _ _ _) in An, Fo. clearbody r. pose proof (no_provider v A B) as NP. cbn [oc_providers example_oauth] in An, NP. rewrite Fo, NP in An.
  destruct (beqb v []).
  - cbn [to_outcome option_map fst snd guarded error_status err_message] in An.
    destruct (error_answers o q 400 _ _ _ _ _ _ ltac:(cbn; tauto) An) as (body & R & Sy & -> & ->). eauto.
  - cbn [to_outcome option_map fst snd guarded error_status err_message] in An.
    destruct (error_answers o q 400 _ _ _ _ _ _ ltac:(cbn; tauto) An) as (body & R & Sy & -> & ->). eauto.
Qed.

Lemma example_unreturned fuel q buf v : asked q [str "oauth"; str "authorize"; v] buf ->
  exists k0, forall f x c w evs cw' b fin, example_serve o p (60 + fuel) (k0 + f) q buf x (c, w) = (evs, cw', b, fin) ->
    (v <> str "github" -> v <> str "google" -> cw' = (c, w) /\ fin = SDone /\
       exists body, received b = (400%Z, typed "application/json", body) /\ says_error body (str "oauth provider not supported")) /\
    forall e st, v = str "github" \/ v = str "google" -> first_value (params q) (str "error") e -> first_value (params q) (str "state") st ->
      e <> [] \/ cache_contains c (now w) st = false -> cw' = (c, w) /\ fin = SDone /\
       exists body, received b = (401%Z, typed "application/json", body) /\ says_error body (str "unauthorized request").
Proof.
  intros Q. destruct (example_ask o p fuel q _ buf _ _ Q (pg_return _)) as [k1 K1]. exists k1. intros f x c w evs w' b fin Sv.
  destruct (K1 _ _ _ _ _ _ _ Sv) as (i & mc & evs' & Se & V & An). apply behind_plain in An.
  change (parts_user p 2) with (pt_return p) in An. rewrite Ret in An. unfold login_return in An.
  assert (Mv : mc_var (aq_mc (AReq q mc)) (str "providerName") = Some v).
  { destruct Se as (_ & _ & Sv'). cbn [aq_mc]. rewrite (Sv' (str "providerName")). reflexivity. }
  rewrite Mv in An. unfold callback in An. cbn [snd] in An.
  pose proof (form_first false v (AReq q mc) w) as Fo.
  set (r := oreq_of World params now random false v (AReq q mc) w) in An, Fo.
  assert (Rv : oq_provider_var r = v) by reflexivity. assert (Rn : oq_now r = now w) by reflexivity. clearbody r. rewrite Rv, Rn in An.
  split.
  - intros A B. rewrite (no_provider v A B) in An.
    cbn [to_outcome option_map fst snd guarded error_status err_message] in An.
    destruct (error_answers o q 400 _ _ _ _ _ _ ltac:(cbn; tauto) An) as (body & R & Sy & -> & ->). eauto.
  - intros e st G Fe Fs D.
    assert (N : exists pv, provider_by_name (oc_providers cfg) v = Some pv).
    { destruct G as [-> | ->]; eexists; reflexivity. }
    destruct N as [pv N]. rewrite N, (Fo _ _ Fe), (Fo _ _ Fs) in An. cbn [oc_cache example_oauth] in An.
    assert (An' : answers (fun r => sends (os_k o) (os_oh o) (os_oc o) (os_render o) (os_location o) (os_body o) q r) (c, w)
      (HReturn (Some (json_response 401 (Some (error_payload (str "unauthorized request"))) None None)) None) evs' w' b fin).
    { destruct (beqb e []) eqn:Eq; [|exact An]. apply Auth_Proofs.beqb_iff in Eq. destruct D as [D|D]; [congruence|].
      cbn [fst negb andb] in An. rewrite D in An. exact An. }
    destruct (error_answers o q 401 _ _ _ _ _ _ ltac:(cbn; tauto) An') as (body & R & Sy & -> & ->). eauto.
Qed.
End Exa.

Lemma example_scopeless (World : Type) (ask : outreq -> World -> answer * World) gh_id gh_key gg_id gg_key :
  oc_fetch_user (example_oauth ask gh_id gh_key gg_id gg_key) = true /\
  exists pv, In pv (oc_providers (example_oauth ask gh_id gh_key gg_id gg_key)) /\ pv_name pv = str "github" /\
    forall redirect state v, ~ url_query_has (pv_initiate_url pv redirect state true) (str "scope") v.
Proof.
  split; [reflexivity|]. eexists. split; [left; reflexivity|]. split; [reflexivity|]. intros redirect state v H.
  destruct (github_options (GitHub gh_id gh_key [] false []) redirect state true v) as (_ & _ & _ & S). apply S in H. destruct H as [H _]. apply H. reflexivity.
Qed.
