(** * Cases and counterexamples for whole applications *)
From Coq Require Import List NArith ZArith Ascii String Bool Lia Arith Permutation.
From Verif Require Import GoBase Http_Model Glob_Model Pattern_Model Url_Model Match_Model Router_Model Auth_Model Chain_Model Serve_Model
  Mux_Model Resp_Model Cors_Model App_Model Chain_Spec Mux_Spec App_Spec Resp_Spec Cors_Spec Witness_Proofs CorsCases_Proofs.
Import ListNotations.
Local Open Scope string_scope.
Local Open Scope list_scope.
Local Open Scope nat_scope.

Definition guarded_calls : list acall := [AMux (CCommon 0 [Some 0]); AMux (CHandle 0 GET (str "/home") [] 1); ADebug 0].

(** A guard that refuses everything does not guard static resources and debug pages. *)
Lemma guard_bypassed (W : Type) (user : nat -> handler areq response W) mid k oh oc render location redirect_body grow x w :
  (forall h x0 q w0, mid 0 h x0 q w0 = (HReturn None (Some EUnauthorized), w0)) ->
  let a := fst (acalls grow 60 lit_engine (fst (new_app 60 lit_engine false [] (Some []))) guarded_calls) in
  let get p := outcome (app_serve user mid (fun name _ => [AWrite name]) (fun page _ => [AWrite (match page with PNamed n => n | _ => [] end)])
                 k oh oc render location redirect_body 60 lit_engine a (plain_request GET p) zeros x w) in
  (exists i, get (str "/home") = (refusal i EUnauthorized, w, (500%Z, [], []), SDone)) /\
  (exists evs, get (str "/assets/keys.txt") = (evs, w, (200%Z, [], str "keys.txt"), SDone)) /\
  (exists evs, get (str "/debug/pprof/heap") = (evs, w, (200%Z, [], str "heap"), SDone)).
Proof.
  intros H a get. split; [|split].
  - exists 1. unfold get, app_serve, serve.
    match goal with |- context [dispatch_request ?f ?e ?r ?m ?p ?b] => 
      let d := eval vm_compute in (dispatch_request f e r m p b) in
      assert (D : dispatch_request f e r m p b = d) by (vm_compute; reflexivity); rewrite D; clear D end.
    unfold app_code. match goal with |- context [nth_error ?l 1] => let d := eval vm_compute in (nth_error l 1) in
      assert (D : nth_error l 1 = d) by (vm_compute; reflexivity); rewrite D; clear D end.
    cbn. rewrite H. reflexivity.
  - exists [EvRun 0; EvWrite (RAdaptor None None [AWrite (str "keys.txt")])]. vm_compute. reflexivity.
  - exists [EvRun 6; EvWrite (RAdaptor None None [AWrite (str "heap")])]. vm_compute. reflexivity.
Qed.

Ltac run_request :=
  unfold app_serve, serve;
  match goal with |- context [dispatch_request ?f0 ?e0 ?r0 ?m0 ?p0 ?b0] =>
    let d := eval vm_compute in (dispatch_request f0 e0 r0 m0 p0 b0) in
    let D := fresh in assert (D : dispatch_request f0 e0 r0 m0 p0 b0 = d) by (vm_compute; reflexivity); rewrite D; clear D end;
  try (unfold app_code; match goal with |- context [nth_error (ap_entries ?a0) ?n0] =>
    let d := eval vm_compute in (nth_error (ap_entries a0) n0) in
    let D := fresh in assert (D : nth_error (ap_entries a0) n0 = d) by (vm_compute; reflexivity); rewrite D; clear D end).

(** A refused request to a handler below a prefix. *)
Definition explained (code : N) (e : err) : option response :=
  Some (RText (HResp (Z.of_N code) [] None None) (str "refused")).
Definition guards (i : nat) : middleware areq response nat :=
  match i with
  | 0 => err_response explained
  | _ => authorize_all [Perm (str "pay") 1%N]
  end.
Definition pay_calls : list acall :=
  [AMux (CCommon 0 [Some 0; None; Some 1]); AMux (CRoute 0 (str "/v1")); AMux (CHandle 1 (str "POST") (str "/pay") [] 0)].
Definition paying : nat -> handler areq response nat := fun _ _ _ w => (HReturn (Some page) None, S w).
Lemma shut_case k oh oc render location redirect_body grow w :
  let q := plain_request (str "POST") (str "/v1/pay") in
  let out := fun (_ : mctx) (w0 : nat) => (HReturn (explained 401 EUnauthorized) None, w0) in
  shuts (present (map (option_map guards) [Some 0; None; Some 1])) nobody q out /\ no_debug (tl pay_calls) /\
  let a := fst (acalls grow 60 lit_engine (fst (new_app 60 lit_engine false [] None)) pay_calls) in
  outcome (app_serve paying guards (fun _ _ => []) (fun _ _ => []) k oh oc render location redirect_body 60 lit_engine a q zeros nobody w) =
    ([EvRun 0; EvWrite (RText (HResp 401 [] None None) (str "refused"))], w,
     (401%Z, [(str "X-Content-Type-Options", [str "nosniff"])], str "refused"), SDone).
Proof.
  cbv zeta. split; [|split].
  - intros h outer mc w0 N. cbn [map option_map present guards] in N.
    inversion N as [|? ? ? N1]; subst. inversion N1 as [|? ? ? N2]; subst. inversion N2; subst. reflexivity.
  - intros m [H|[H|[]]]; discriminate H.
  - vm_compute. reflexivity.
Qed.

(** Security headers are missing from answers that no middleware sees, and from errors. *)
Definition secured_calls : list acall := [AMux (CCommon 0 [Some 0]); AMux (CHandle 0 GET (str "/fail") [] 1)].
Lemma security_missing (V : Type) (c : sec_config) (user : nat -> handler areq response (V * sec_cache)) mid k oh oc render location redirect_body grow x w :
  mid 0 = app_security c -> (forall x0 q w0, user 1 x0 q w0 = (HReturn None (Some EAccessDenied), w0)) ->
  let a := fst (acalls grow 60 lit_engine (fst (new_app 60 lit_engine false [] (Some []))) secured_calls) in
  let get p := outcome (app_serve user mid (fun name _ => [AWrite name]) (fun _ _ => [])
                 k oh oc render location redirect_body 60 lit_engine a (plain_request GET p) zeros x w) in
  get (str "/none") = ([EvStatus 404], w, (404%Z, [], []), SDone) /\
  get (str "/fail") = (refusal 1 EAccessDenied, w, (500%Z, [], []), SDone) /\
  exists evs, get (str "/assets/a.txt") = (evs, w, (200%Z, [], str "a.txt"), SDone).
Proof.
  intros H1 H2 a get. split; [|split].
  - unfold get. run_request. reflexivity.
  - unfold get. run_request. cbn. rewrite H1. unfold app_security. cbn. rewrite H2. cbn. destruct w. reflexivity.
  - exists [EvRun 0; EvWrite (RAdaptor None None [AWrite (str "a.txt")])]. unfold get. run_request. reflexivity.
Qed.

(** A regular answer with all of them. *)
Definition greeting : nat -> handler areq response (unit * sec_cache) := fun _ _ _ w => (HReturn (Some page) None, w).
Definition securing (i : nat) : middleware areq response (unit * sec_cache) := match i with 0 => app_security strict | _ => fun h => h end.
Definition over_tls (method path : bytes) : request := Request (XReq method [] [] [] true (str "a.example")) path [] 1%N.
Definition hello_calls : list acall := [AMux (CCommon 0 [Some 0; Some 1]); AMux (CHandle 0 GET (str "/hello") [Some 2] 0)].
Lemma security_served_case k oc render location redirect_body grow :
  let q := over_tls GET (str "/hello") in
  let a := fst (acalls grow 60 lit_engine (fst (new_app 60 lit_engine false [] None)) hello_calls) in
  let r := RText (HResp 200 [] (Some [(str "X-Xss-Protection", str "1; mode=block"); (str "X-Content-Type-Options", str "nosniff");
      (str "X-Frame-Options", str "ALLOW-FROM https://a.example");
      (str "Strict-Transport-Security", str "max-age=31536000;includeSubDomains;preload"); (str "Vary", str "Accept")]) None) (str "hi") in
  securing 0 = app_security strict /\ (forall h, keeps_texts strict (greeting h)) /\
  (forall j inner, j <> 0 -> keeps_texts strict inner -> keeps_texts strict (securing j inner)) /\
  texts_right strict (SecCache [] []) /\ regular r q /\ sts_on strict (rq_x q) /\
  exists evs w' hs,
    outcome (app_serve greeting securing (fun _ _ => []) (fun _ _ => []) k (fun m => m) oc render location redirect_body 60 lit_engine a q zeros nobody (tt, SecCache [] [])) =
      (evs, w', (200%Z, hs, str "hi"), SDone) /\ In (EvWrite r) evs /\
    hvalues hs (str "Strict-Transport-Security") = [str "max-age=31536000;includeSubDomains;preload"].
Proof.
  cbv zeta. split; [reflexivity|]. split; [intros h x q w T; exact T|]. split; [intros [|j] inner NE T; [congruence|exact T]|].
  split; [split; left; reflexivity|]. split; [|split; [split; [reflexivity|left; reflexivity]|]].
  - eexists _, 200%Z. split; [reflexivity|]. split; [exact Logic.I|]. split; [right; split; [discriminate|reflexivity]|]. split; [split; discriminate|].
    split.
    + repeat (constructor; [intro I; cbn in I; repeat (destruct I as [I|I]; [discriminate I|]); exact I|]). constructor.
    + intros k1 v1 k2 v2 I1 I2 S. cbn in I1, I2.
      repeat (destruct I1 as [I1|I1]; [injection I1 as <- <-|]); try contradiction;
        repeat (destruct I2 as [I2|I2]; [injection I2 as <- <-|]); try contradiction; try reflexivity; vm_compute in S; discriminate S.
  - eexists _, _, _. split; [vm_compute; reflexivity|]. split; [right; left; vm_compute; reflexivity|vm_compute; reflexivity].
Qed.

(** A preflight for a route that has only its own method: no CORS headers at all. *)
Definition preflight (path : bytes) : request :=
  Request (XReq (str "OPTIONS") [(h_origin, [str "https://shop.example"]); (h_acrm, [str "POST"])] [] [] true (str "api.example")) path [] 1%N.
Definition shop_calls : list acall := [AMux (CCommon 0 [Some 0]); AMux (CHandle 0 (str "POST") (str "/pay") [] 0)].
Lemma preflight_not_found (W : Type) (user : nat -> handler areq response W) mid files pages k oh oc render location redirect_body grow x w :
  let a := fst (acalls grow 60 lit_engine (fst (new_app 60 lit_engine false [] None)) shop_calls) in
  is_preflight (rq_x (preflight (str "/pay"))) /\ complete (rq_x (preflight (str "/pay"))) /\
  allows_origin shop (str "https://shop.example") /\ allows shop (rq_x (preflight (str "/pay"))) /\
  outcome (app_serve user mid files pages k oh oc render location redirect_body 60 lit_engine a (preflight (str "/pay")) zeros x w) =
    ([EvStatus 404], w, (404%Z, [], []), SDone).
Proof.
  intro a. assert (P : is_preflight (rq_x (preflight (str "/pay")))).
  { split; [reflexivity|]. exists (str "POST"). exists [str "POST"]. split; reflexivity. }
  split; [exact P|]. split; [|split; [right; left; reflexivity|split]].
  - split; [intro E; discriminate E|]. intros _ (vs & E & V). injection E as <-. discriminate V.
  - split; [|split; [|intro N; destruct (N P)]].
    + intros _ v (vs & E & V). injection E as <-. subst v. exists (str "POST"). split; [right; now left|reflexivity].
    + intros _ h (v & (vs & E & _) & _). discriminate E.
  - run_request. reflexivity.
Qed.

(** Requests of two other sites. *)
Definition selling (i : nat) : middleware areq response nat := match i with 0 => app_cors shop | _ => fun h => h end.
Definition order (origin : bytes) : request :=
  Request (XReq (str "POST") [(h_origin, [origin]); (str "Content-Type", [str "text/plain"])] [] [] true (str "api.example")) (str "/pay") [] 1%N.
Lemma cors_served_case k oc render location redirect_body grow :
  let o := str "https://shop.example" in
  let a := fst (acalls grow 60 lit_engine (fst (new_app 60 lit_engine false [] None)) shop_calls) in
  let get q := outcome (app_serve paying selling (fun _ _ => []) (fun _ _ => []) k (fun m => m) oc render location redirect_body 60 lit_engine a q zeros nobody 7) in
  no_debug (tl shop_calls) /\ selling 0 = app_cors shop /\ carries (rq_x (order o)) h_origin o /\ web_url (rq_x (order o)) /\
  ~ odd_ports (to_lower (xq_scheme (rq_x (order o)))) (xq_host (rq_x (order o))) o /\ ~ own (to_lower (xq_scheme (rq_x (order o)))) (xq_host (rq_x (order o))) o /\
  (exists r hs, get (order o) = ([EvRun 0; EvWrite r], 8, (200%Z, hs, str "hi"), SDone) /\ regular r (order o) /\ hvalues hs h_acao = [o]) /\
  get (order (str "https://evil.example")) = (refusal 0 EAccessDenied, 8, (500%Z, [], []), SDone).
Proof.
  cbv zeta. split; [intros m [H|[]]; discriminate H|]. split; [reflexivity|]. split; [exists [str "https://shop.example"]; split; reflexivity|].
  split; [left; reflexivity|]. split; [|split; [|split]].
  - intros (n & p & HP & _). inversion HP as [n0 p0 DG E|]. apply (f_equal (@List.length byte)) in E. rewrite !app_length in E. cbn in E. lia.
  - intros (n & po & d & HP & D & _). destruct D as [[[E|E] _]|[[E|E] _]]; discriminate E.
  - eexists _, _.
    split; [vm_compute; reflexivity|]. split; [|vm_compute; reflexivity].
    eexists _, 200%Z. split; [reflexivity|]. split; [exact Logic.I|]. split; [right; split; [discriminate|reflexivity]|]. split; [split; discriminate|].
    split.
    + repeat (constructor; [intro I; cbn in I; repeat (destruct I as [I|I]; [discriminate I|]); exact I|]). constructor.
    + intros k1 v1 k2 v2 I1 I2 S. cbn in I1, I2.
      repeat (destruct I1 as [I1|I1]; [injection I1 as <- <-|]); try contradiction;
        repeat (destruct I2 as [I2|I2]; [injection I2 as <- <-|]); try contradiction; try reflexivity; vm_compute in S; discriminate S.
  - vm_compute. reflexivity.
Qed.

(** Static files that the router finds and the file server is not asked for. *)
Lemma static_not_served (W : Type) (user : nat -> handler areq response W) mid files pages k oh oc render location redirect_body x w :
  let get ci p := received (snd (fst (app_serve user mid files pages k oh oc render location redirect_body 60 lit_engine
                    (fst (new_app 60 lit_engine ci [] (Some []))) (plain_request GET p) zeros x w))) in
  get true (str "/ASSETS/a.txt") = get false (str "//assets/a.txt") /\ get true (str "/ASSETS/a.txt") = get false (str "/x/../assets/a.txt") /\
  fst (fst (get true (str "/ASSETS/a.txt"))) = 404%Z /\ get false (str "/assets/") = (404%Z, [], []).
Proof. vm_compute. repeat split. Qed.

(** Below a prefix the pages of the profiles show the list, and they cannot be enabled
    twice. *)
Lemma debug_below_prefix (W : Type) (user : nat -> handler areq response W) mid files k oh oc render location redirect_body grow x w :
  let pages p (_ : request) := [AWrite (match p with PList => str "list" | PNamed n => n | POther _ => [] end)] in
  let get cs p := received (snd (fst (app_serve user mid files pages k oh oc render location redirect_body 60 lit_engine
      (fst (acalls grow 60 lit_engine (fst (new_app 60 lit_engine false [] None)) cs)) (plain_request GET p) zeros x w))) in
  get [ADebug 0] (str "/debug/pprof/heap") = (200%Z, [], str "heap") /\
  get [AMux (CRoute 0 (str "/admin")); ADebug 1] (str "/admin/debug/pprof/heap") = (200%Z, [], str "list") /\
  snd (acalls grow 60 lit_engine (fst (new_app 60 lit_engine false [] None)) [ADebug 0; ADebug 0]) = [Some Registered; Some Duplicate].
Proof. vm_compute. repeat split. Qed.
