(** * Programs on which the theorems about logins are tried *)
From Coq Require Import List NArith ZArith Ascii String Bool Lia Arith.
From Verif Require Import GoBase Http_Model Glob_Model Pattern_Model Url_Model Match_Model Router_Model Cache_Model Auth_Model Chain_Model Serve_Model
  Mux_Model Resp_Model Cors_Model App_Model OAuth_Model OAuthWire_Model Example_Model Login_Model OAuth_Spec Login_Spec Chain_Spec Mux_Spec Mux_Proofs App_Spec
  Pattern_Spec Url_Spec Routing_Spec Priority_Spec Choice_Spec Covers_Proofs Witness_Proofs CorsCases_Proofs AppWire_Spec AppWire_Proofs AppExact_Proofs AppWhole_Proofs
  Example_Spec ExampleAns_Proofs LoginAns_Proofs LoginExa_Proofs.
Import ListNotations.
Local Open Scope string_scope.
Local Open Scope list_scope.
Local Open Scope nat_scope.

(** ** A shop below a prefix *)

(** The world is the time; the token is the code, the user has its name. *)
Definition door : provider Z :=
  Provider (str "door") (fun redirect state _ => str "https://door/?to=" ++ redirect ++ str "&state=" ++ state)
    (fun _ _ code w => (FOk (AccessToken (str "t-" ++ code) (str "bearer") None [] 0), (w + 1)%Z)) (fun _ token w => (FOk (User (at_token token) [] (str "door") []), (w + 1)%Z)).
Definition window : provider Z :=
  Provider (str "window") (fun redirect state _ => str "https://window/") (fun _ _ _ w => (FPanic, w)) (fun _ _ w => (FPanic, w)).
Definition shop_config : oconfig Z := OConfig (str "https://shop") true [window; door] true 60.
Definition shop_state : bytes := generate_unique_id 12 (fun _ => 7%N).
Definition shop_params (q : request) : list (bytes * list bytes) :=
  if beqb (rq_path q) (str "/shop/oauth/initiate") then [(str "provider", [str "door"])]
  else [(str "state", [shop_state]); (str "code", [str "c0"])].
Definition shop_home : handler areq response (cache * Z) :=
  fun x q w => (HReturn (Some (RText (HResp 200 [] None None)
    (match cx_token x with Some t => at_token t | None => [] end ++ str " " ++ match mc_var (aq_mc q) (str "providerName") with Some v => v | None => [] end))) None, w).
Definition shop_user (h : nat) : handler areq response (cache * Z) :=
  match h with
  | 1 => login_start shop_params (fun w => w) (fun _ _ => 7%N) shop_config (str "/shop") (str "/oauth/authorize")
  | 2 => login_return shop_params (fun w => w) (fun _ _ => 7%N) shop_config (str "/shop") (str "/oauth/authorize") shop_home
  | _ => fun _ _ w => (HReturn (Some (RText (HResp 200 [] None None) (str "other"))) None, w)
  end.

Definition shop_before : list acall := [AMux (CRoute 0 (str "/shop")); AMux (CHandle 1 GET (str "/oauth/{step}") [] 3); AMux (CHandle 0 GET (str "/{a}/oauth/authorize/{who}") [] 5)].
Definition shop_after : list acall := [AMux (CHandle 0 GET (str "/**") [] 4)].
Definition shop_calls : list acall := shop_before ++ handle_oauth_at 1 (str "/oauth/initiate") (str "/oauth/authorize") [] [] 1 2 ++ shop_after.
Definition shop_wiring : list wired :=
  [Wired GET (str "/shop/oauth/{step}") (Entry [] [] (TUser 3)); Wired GET (str "/{a}/oauth/authorize/{who}") (Entry [] [] (TUser 5));
   Wired (str "GET") (str "/shop/oauth/initiate") (Entry [] [] (TUser 1));
   Wired (str "GET") (str "/shop/oauth/authorize/{providerName}") (Entry [] [] (TUser 2));
   Wired GET (str "/**") (Entry [] [] (TUser 4))].
Definition shop_pieces : list (list piece) :=
  [[Lit (str "shop"); Lit (str "oauth"); Var (str "step")]; [Var (str "a"); Lit (str "oauth"); Lit (str "authorize"); Var (str "who")];
   lits [str "shop"; str "oauth"; str "initiate"];
   [Lit (str "shop"); Lit (str "oauth"); Lit (str "authorize"); Var (str "providerName")]; [Any]].

Lemma shop_wires : wires [VMux [] []] shop_calls shop_wiring.
Proof.
  assert (J : forall a b, joined a b (resolve_path a b)) by (intros; apply resolve_joined).
  unfold shop_calls, shop_before, shop_after, handle_oauth_at, shop_wiring. cbn [List.app].
  eapply (ws_more _ _ _ []); [eapply wi_mux; [apply (vs_route _ 0 (VMux [] []) (str "/shop")); [reflexivity|apply J]|]|].
  { intros [H|(x & H & P)]; [discriminate H|]. injection H as <-. discriminate P. }
  cbn [List.app resolve_path vm_common].
  eapply (ws_more _ _ _ [_]); [eapply wi_handle; apply (vs_handle _ 1 (VMux (str "/shop") [])); [reflexivity|apply J]|].
  eapply (ws_more _ _ _ [_]); [eapply wi_handle; apply (vs_handle _ 0 (VMux [] [])); [reflexivity|apply J]|].
  eapply (ws_more _ _ _ [_]); [eapply wi_handle; apply (vs_handle _ 1 (VMux (str "/shop") [])); [reflexivity|apply J]|].
  eapply (ws_more _ _ _ [_]); [eapply wi_handle; apply (vs_handle _ 1 (VMux (str "/shop") [])); [reflexivity|apply J]|].
  eapply (ws_more _ _ _ [_]); [eapply wi_handle; apply (vs_handle _ 0 (VMux [] [])); [reflexivity|apply J]|].
  apply ws_end.
Qed.

Lemma shop_means : Forall2 (fun w ks => pieces_of (re_ok lit_engine) false (wr_path w) ks) shop_wiring shop_pieces.
Proof.
  repeat constructor; cbn [wr_path fst].
  - exists [str "shop"; str "oauth"; str "{step}"]. show_means.
  - exists [str "{a}"; str "oauth"; str "authorize"; str "{who}"]. show_means.
  - exists [str "shop"; str "oauth"; str "initiate"]. show_means.
  - exists [str "shop"; str "oauth"; str "authorize"; str "{providerName}"]. show_means.
  - exists [str "**"]. show_means.
Qed.

Lemma means_ordinary rs kss : Forall2 (fun w ks => pieces_of (re_ok lit_engine) false (wr_path w) ks) rs kss ->
  (N.of_nat (List.length rs) < 65536)%N ->
  forallb (fun ks => Nat.leb (List.length ks) 255 && forallb (fun p => negb (is_constrained p)) ks) kss = true ->
  ordinary lit_engine false rs.
Proof.
  intros F L B. split; [exact L|]. apply Forall_forall. intros w I.
  assert (G : exists ks, In ks kss /\ pieces_of (re_ok lit_engine) false (wr_path w) ks).
  { clear L B. induction F as [|w0 ks0 rs kss P F IH]; [destruct I|]. destruct I as [<-|I]; [exists ks0; split; [now left|exact P]|].
    destruct (IH I) as (ks & A & C). exists ks. split; [now right|exact C]. }
  destruct G as (ks & Ik & [ps P]).
  rewrite forallb_forall in B. specialize (B _ Ik). apply andb_true_iff in B. destruct B as [B1 B2]. apply Nat.leb_le in B1. rewrite forallb_forall in B2.
  split; [intros ks' Q|intros _ ks' Q]; rewrite (pieces_unique _ _ _ _ _ _ P Q); [exact B1|]. intros n r J. specialize (B2 _ J). discriminate B2.
Qed.

Lemma means_leads rs kss mth i r ks : Forall2 (fun w ks => pieces_of (re_ok lit_engine) false (wr_path w) ks) rs kss ->
  leads lit_engine false rs mth i r ks -> In ks kss.
Proof.
  intros F (N & _ & [ps P]). revert i N. induction F as [|w0 ks0 rs kss P0 F IH]; intros i N; [destruct i; discriminate N|].
  destruct i as [|i]; [|right; exact (IH i N)]. cbn in N. injection N as ->. left. exact (pieces_unique _ _ _ _ _ _ P P0).
Qed.

Definition shop_app : app := fst (acalls doubling 60 lit_engine (fst (new_app 60 lit_engine false [] None)) shop_calls).
Lemma shop_started : exists a0 x0 xs, new_app 60 lit_engine false [] None = (a0, x0) /\ smooth x0 /\
  acalls doubling 60 lit_engine a0 shop_calls = (shop_app, xs) /\ Forall smooth xs.
Proof.
  exists (fst (new_app 60 lit_engine false [] None)), (snd (new_app 60 lit_engine false [] None)), [None; Some Registered; Some Registered; Some Registered; Some Registered; Some Registered].
  split; [reflexivity|]. split; [(left; reflexivity) || (right; reflexivity)|]. split.
  - unfold shop_app.
    assert (E : snd (acalls doubling 60 lit_engine (fst (new_app 60 lit_engine false [] None)) shop_calls) =
      [None; Some Registered; Some Registered; Some Registered; Some Registered; Some Registered]) by (vm_compute; reflexivity).
    destruct (acalls doubling 60 lit_engine (fst (new_app 60 lit_engine false [] None)) shop_calls) as [a xs]. cbn [fst snd] in *. subst xs. reflexivity.
  - repeat constructor; (left; reflexivity) || (right; reflexivity).
Qed.

Lemma shop_bare : bare shop_wiring 1 2.
Proof.
  intros w I _. unfold shop_wiring in I. cbn [In] in I.
  repeat (destruct I as [<-|I]; [split; reflexivity|]). destruct I.
Qed.

Ltac no_more M := revert M; clear; intros M; repeat match goal with H : more_specific _ _ |- _ => inversion H; clear H; subst end; cbn in *; lia.
Lemma shop_best i r ks bs : leads lit_engine false shop_wiring GET i r ks ->
  reads_as false (re_match lit_engine) ks [str "shop"; str "oauth"; str "authorize"; str "door"] bs ->
  ~ more_specific ks [Lit (str "shop"); Lit (str "oauth"); Lit (str "authorize"); Var (str "providerName")].
Proof.
  intros L R M. apply (means_leads _ _ _ _ _ _ shop_means) in L. unfold shop_pieces in L. cbn [In] in L.
  destruct L as [<-|[<-|[<-|[<-|[<-|[]]]]]]; try no_more M; apply fits_if in R. vm_compute in R. discriminate R.
Qed.

Definition as_is (_ : wreq) (u : bytes) : bytes := u.
Definition see (_ : Z) (u : bytes) : bytes := str "see " ++ u.
Definition shop_get k oc render p x (w : cache * Z) :=
  outcome (app_serve shop_user (fun _ h => h) (fun _ _ => []) (fun _ _ => []) k (fun m => m) oc render as_is see 60 lit_engine shop_app
    (plain_request GET p) zeros x w).
Lemma shop_case k oc render :
  let get p w := shop_get k oc render p nobody w in
  let url := str "https://door/?to=https://shop/shop/oauth/authorize/door&state=" ++ shop_state in
  resources [] None [] /\ wires [VMux [] []] shop_calls shop_wiring /\
  (exists a0 x0 xs, new_app 60 lit_engine false [] None = (a0, x0) /\ smooth x0 /\
     acalls doubling 60 lit_engine a0 shop_calls = (shop_app, xs) /\ Forall smooth xs) /\
  ordinary lit_engine false shop_wiring /\
  option_map mx_prefix (nth_error (ms_muxes (ap_mux shop_app)) 1) = Some (str "/shop") /\ bare shop_wiring 1 2 /\
  chosen shop_config (shop_params (plain_request GET (str "/shop/oauth/initiate"))) door /\ one_segment (str "door") /\
  segments_of (str "/shop/oauth/initiate") [str "shop"; str "oauth"; str "initiate"] /\
  pieces_of (re_ok lit_engine) false (str "/shop/oauth/authorize/{providerName}") (map Lit [str "shop"; str "oauth"; str "authorize"] ++ [Var (str "providerName")]) /\
  clear_choice lit_engine false shop_wiring GET [str "shop"; str "oauth"; str "initiate"] /\
  clear_choice lit_engine false shop_wiring GET [str "shop"; str "oauth"; str "authorize"; str "door"] /\
  (forall i r ks bs, leads lit_engine false shop_wiring GET i r ks ->
     reads_as false (re_match lit_engine) ks [str "shop"; str "oauth"; str "authorize"; str "door"] bs ->
     ~ more_specific ks (map Lit [str "shop"; str "oauth"; str "authorize"] ++ [Var (str "providerName")])) /\
  (exists evs, get (str "/shop/oauth/initiate") ([], 5%Z) = (evs, ([(shop_state, 65%Z)], 5%Z),
     redirected url (str "see " ++ url), SDone)) /\
  comes_back (shop_params (plain_request GET (str "/shop/oauth/authorize/door"))) shop_state (str "c0") /\
  (exists evs, get (str "/shop/oauth/authorize/door") ([(shop_state, 65%Z)], 64%Z) = (evs, ([(shop_state, 65%Z)], 66%Z),
     (200%Z, [(str "X-Content-Type-Options", [str "nosniff"])], str "t-c0 door"), SDone)) /\
  (exists evs, get (str "/shop/oauth/authorize/door") ([(shop_state, 65%Z)], 65%Z) = (evs, ([(shop_state, 65%Z)], 65%Z), (500%Z, [], []), SDone)).
Proof.
  cbv zeta. split; [constructor|]. split; [exact shop_wires|]. split; [exact shop_started|].
  split; [apply (means_ordinary _ _ shop_means); vm_compute; reflexivity|]. split; [vm_compute; reflexivity|]. split; [exact shop_bare|].
  split; [right; split; [discriminate|]; split; [exists [window], []; split; [reflexivity|]; split; [reflexivity|]; intros y [<-|[]]; discriminate|exists []; vm_compute; reflexivity]|].
  split; [split; [discriminate|split; [discriminate|not_in]]|].
  split; [apply (segments_spelled (str "shop") [str "oauth"; str "initiate"]); [repeat (constructor; [not_in|]); constructor|few]|].
  split; [exists [str "shop"; str "oauth"; str "authorize"; str "{providerName}"]; show_means|].
  split; [eapply neat_clear; [exact shop_means|vm_compute; reflexivity]|]. split; [eapply neat_clear; [exact shop_means|vm_compute; reflexivity]|].
  split; [exact shop_best|].
  split; [eexists; unfold shop_get; vm_compute; reflexivity|].
  split; [split; [exists []; vm_compute; reflexivity|split; [exists []; vm_compute; reflexivity|vm_compute; reflexivity]]|].
  split; eexists; vm_compute; reflexivity.
Qed.

(** ** One login for many tenants *)

Definition tenant_params (q : request) : list (bytes * list bytes) := [(str "state", [shop_state]); (str "code", [str "c0"])].
Definition tenant_config : oconfig Z := OConfig (str "https://shop") false [door] true 60.
Definition tenant_home : handler areq response (cache * Z) :=
  fun x q w => (HReturn (Some (RText (HResp 200 [] None None) (str "tenant " ++ match mc_var (aq_mc q) (str "t") with Some v => v | None => [] end))) None, w).
Definition tenant_user (h : nat) : handler areq response (cache * Z) :=
  match h with
  | 1 => login_start tenant_params (fun w => w) (fun _ _ => 7%N) tenant_config (str "/{t}") (str "/oauth/authorize")
  | 2 => login_return tenant_params (fun w => w) (fun _ _ => 7%N) tenant_config (str "/{t}") (str "/oauth/authorize") tenant_home
  | _ => tenant_home
  end.
Definition tenant_calls : list acall := [AMux (CRoute 0 (str "/{t}")); AMux (CHandle 1 GET (str "/home") [] 3)] ++ handle_oauth 1 [] [] 1 2.
Definition tenant_app : app := fst (acalls doubling 60 lit_engine (fst (new_app 60 lit_engine false [] None)) tenant_calls).
Definition tenant_get k oc render p (w : cache * Z) :=
  outcome (app_serve tenant_user (fun _ h => h) (fun _ _ => []) (fun _ _ => []) k (fun m => m) oc render as_is see 60 lit_engine tenant_app
    (plain_request GET p) zeros nobody w).

Lemma tenant_lost (k : compressor) (oc : cookies -> cookies) (render : cookie -> bytes) :
  option_map mx_prefix (nth_error (ms_muxes (ap_mux tenant_app)) 1) = Some (str "/{t}") /\
  (exists evs, tenant_get k oc render (str "/acme/home") ([], 5%Z) = (evs, ([], 5%Z), (200%Z, [(str "X-Content-Type-Options", [str "nosniff"])], str "tenant acme"), SDone)) /\
  (let url := str "https://door/?to=https://shop/{t}/oauth/authorize/door&state=" ++ shop_state in
   exists evs c, tenant_get k oc render (str "/acme/oauth/initiate") ([], 5%Z) = (evs, (c, 5%Z), redirected url (str "see " ++ url), SDone) /\
   exists evs' w', tenant_get k oc render (str "/{t}/oauth/authorize/door") (c, 6%Z) =
     (evs', w', (200%Z, [(str "X-Content-Type-Options", [str "nosniff"])], str "tenant {t}"), SDone)).
Proof.
  split; [vm_compute; reflexivity|]. split; [eexists; vm_compute; reflexivity|].
  cbv zeta. eexists _, _. split; [vm_compute; reflexivity|]. eexists _, _. vm_compute. reflexivity.
Qed.

(** ** The example *)

Definition exa_ask (r : outreq) (w : Z) : answer * Z :=
  if beqb (or_url r) github_token_endpoint then (Answer 200 [(str "access_token", JvStr (str "tok")); (str "token_type", JvStr (str "bearer"))], (w + 1)%Z)
  else (Answer 200 [(str "login", JvStr (str "mona")); (str "email", JvOther)], (w + 1)%Z).
Definition exa_params (q : request) : list (bytes * list bytes) :=
  if beqb (rq_path q) (str "/oauth/initiate") then [(str "provider", [str "github"])]
  else if beqb (rq_path q) (str "/oauth/authorize/google") then [(str "state", [str "guess"])]
  else [(str "state", [shop_state]); (str "code", [str "c0"])].
Definition exa_home : handler areq response (cache * Z) :=
  fun x q w => (HReturn (Some (RText (HResp 200 (str "text/plain; charset=utf-8") None None)
    (match cx_token x with Some t => at_token t | None => [] end ++ str " " ++ match cx_principal x with Some u => str "user" | None => [] end))) None, w).
Definition exa_config : oconfig Z := example_oauth exa_ask (str "id") (str "key") (str "id2") (str "key2").
Definition exa_parts : parts (cache * Z) := Parts (cache * Z)
  (login_start exa_params (fun w => w) (fun _ _ => 7%N) exa_config [] (str "/oauth/authorize"))
  (login_return exa_params (fun w => w) (fun _ _ => 7%N) exa_config [] (str "/oauth/authorize") exa_home)
  (fun _ _ w => (HReturn None None, w)) (fun n => ([], None)) (fun w => (inr (EOther (str "no image")), w))
  (fun _ _ _ => str "stack") (fun v => v).
Definition watched (o : outside) : outside :=
  Outside (os_grow o) (os_re o) (os_files o) (os_pages o) (os_k o) (os_oh o) (os_oc o) (os_render o) as_is see.
Definition exa_get (o : outside) (path : string) w := outcome (example_serve (watched o) exa_parts 60 60 (plain_request GET (str path)) zeros nobody w).
Ltac run_exa := match goal with o : outside |- _ => destruct o as [grow re files pages k oh oc render loc bd] end; vm_compute; reflexivity.

Lemma example_login_case (o : outside) :
  let url := str "https://github.com/login/oauth/authorize?allow_signup=false&client_id=id&redirect_uri=https%3A%2F%2Flocalhost%3A8080%2Foauth%2Fauthorize%2Fgithub&state=" ++ shop_state in
  alookup (str "provider") (exa_params (plain_request GET (str "/oauth/initiate"))) = Some [str "github"] /\
  comes_back (exa_params (plain_request GET (str "/oauth/authorize/github"))) shop_state (str "c0") /\
  first_value (exa_params (plain_request GET (str "/oauth/authorize/google"))) (str "state") (str "guess") /\
  first_value (exa_params (plain_request GET (str "/oauth/authorize/google"))) (str "error") [] /\
  (exists evs, exa_get o "/oauth/initiate" ([], 5%Z) = (evs, ([(shop_state, 60000000005%Z)], 5%Z), redirected url (str "see " ++ url), SDone)) /\
  (exists evs, exa_get o "/oauth/authorize/github" ([(shop_state, 60000000005%Z)], 60000000004%Z) =
     (evs, ([(shop_state, 60000000005%Z)], 60000000006%Z), (200%Z, typed "text/plain; charset=utf-8", str "tok user"), SDone)) /\
  (exists evs body, exa_get o "/oauth/authorize/github" ([(shop_state, 60000000005%Z)], 60000000005%Z) =
     (evs, ([(shop_state, 60000000005%Z)], 60000000005%Z), (401%Z, typed "application/json", body), SDone)) /\
  (exists evs body, exa_get o "/oauth/authorize/google" ([(shop_state, 60000000005%Z)], 6%Z) =
     (evs, ([(shop_state, 60000000005%Z)], 6%Z), (401%Z, typed "application/json", body), SDone)) /\
  (exists evs body, exa_get o "/oauth/authorize/other" ([], 6%Z) = (evs, ([], 6%Z), (400%Z, typed "application/json", body), SDone)).
Proof.
  cbv zeta. split; [vm_compute; reflexivity|]. split; [split; [exists []; vm_compute; reflexivity|split; [exists []; vm_compute; reflexivity|vm_compute; reflexivity]]|].
  split; [left; exists []; vm_compute; reflexivity|]. split; [right; split; [reflexivity|left; vm_compute; reflexivity]|].
  split; [eexists; run_exa|]. split; [eexists; run_exa|]. split; [eexists _, _; run_exa|]. split; [eexists _, _; run_exa|]. eexists _, _; run_exa.
Qed.
