(** * The theorems about logins with the joined paths of the specification *)
From Coq Require Import List NArith ZArith Ascii String Bool Lia Arith.
From Verif Require Import GoBase Http_Model Glob_Model Pattern_Model Url_Model Match_Model Router_Model Cache_Model Auth_Model Chain_Model Serve_Model
  Mux_Model Resp_Model Cors_Model App_Model OAuth_Model OAuth_Spec Login_Model Login_Spec Chain_Spec Mux_Spec Mux_Proofs App_Spec
  Pattern_Spec Url_Spec Routing_Spec Priority_Spec Choice_Spec AppWire_Spec LoginAns_Proofs.
Import ListNotations.
Local Open Scope string_scope.
Local Open Scope list_scope.
Local Open Scope nat_scope.

Lemma start_joined : forall (World : Type) (user : nat -> handler areq response (cache * World)) mid files pages k oh oc render location redirect_body
  grow fuel re ci context mapping rs0 rs cs1 cs2 m ip base own1 own2 h1 h2 a0 a x0 xs mx q ts buf ls path1,
  resources context mapping rs0 -> wires [VMux [] []] (cs1 ++ handle_oauth_at m ip base own1 own2 h1 h2 ++ cs2) rs ->
  new_app fuel re ci context mapping = (a0, x0) -> smooth x0 ->
  acalls grow fuel re a0 (cs1 ++ handle_oauth_at m ip base own1 own2 h1 h2 ++ cs2) = (a, xs) -> Forall smooth xs ->
  ordinary re ci (rs0 ++ rs) -> nth_error (ms_muxes (ap_mux a)) m = Some mx ->
  same_method (str "GET") (xq_method (rq_x q)) -> (blen (rq_path q) < 65536)%N -> segments_of (rq_path q) ts -> List.length buf = 19 ->
  clear_choice re ci (rs0 ++ rs) (xq_method (rq_x q)) ts ->
  joined (mx_prefix mx) ip path1 -> pieces_of (re_ok re) ci path1 (map Lit ls) -> Forall2 (same_text ci) ls ts ->
  exists i e k0, nth_error (rs0 ++ rs) i = Some e /\ en_own (wr_entry e) = own1 /\ en_target (wr_entry e) = TUser h1 /\
  forall f x w evs w' b fin, app_serve user mid files pages k oh oc render location redirect_body (k0 + f) re a q buf x w = (evs, w', b, fin) ->
    exists mc evs', sees mc q [] /\ visible evs = EvRun i :: evs' /\
      answered_by user mid files pages (sends k oh oc render location redirect_body q) (wr_entry e) x q mc w evs' w' b fin.
Proof.
  intros. match goal with H : joined _ _ _ |- _ => apply joined_resolve in H; subst end. eapply start_answered; eauto.
Qed.

Lemma return_joined : forall (World : Type) (user : nat -> handler areq response (cache * World)) mid files pages k oh oc render location redirect_body
  grow fuel re ci context mapping rs0 rs cs1 cs2 m ip base own1 own2 h1 h2 a0 a x0 xs mx q buf ls name root,
  resources context mapping rs0 -> wires [VMux [] []] (cs1 ++ handle_oauth_at m ip base own1 own2 h1 h2 ++ cs2) rs ->
  new_app fuel re ci context mapping = (a0, x0) -> smooth x0 ->
  acalls grow fuel re a0 (cs1 ++ handle_oauth_at m ip base own1 own2 h1 h2 ++ cs2) = (a, xs) -> Forall smooth xs ->
  ordinary re ci (rs0 ++ rs) -> nth_error (ms_muxes (ap_mux a)) m = Some mx ->
  same_method (str "GET") (xq_method (rq_x q)) -> (blen (rq_path q) < 65536)%N -> List.length buf = 19 ->
  base <> [] -> joined (mx_prefix mx) base root -> pieces_of (re_ok re) ci (root ++ str "/{providerName}") (map Lit ls ++ [Var (str "providerName")]) ->
  ~ In (str "..") ls -> List.length ls <= 18 -> one_segment name ->
  rq_path q = root ++ str "/" ++ name ->
  clear_choice re ci (rs0 ++ rs) (xq_method (rq_x q)) (ls ++ [name]) ->
  (forall i r ks bs, leads re ci (rs0 ++ rs) (xq_method (rq_x q)) i r ks -> reads_as ci (re_match re) ks (ls ++ [name]) bs ->
     ~ more_specific ks (map Lit ls ++ [Var (str "providerName")])) ->
  exists i e k0, nth_error (rs0 ++ rs) i = Some e /\ en_own (wr_entry e) = own2 /\ en_target (wr_entry e) = TUser h2 /\
  forall f x w evs w' b fin, app_serve user mid files pages k oh oc render location redirect_body (k0 + f) re a q buf x w = (evs, w', b, fin) ->
    exists mc evs', sees mc q [(str "providerName", name)] /\ visible evs = EvRun i :: evs' /\
      answered_by user mid files pages (sends k oh oc render location redirect_body q) (wr_entry e) x q mc w evs' w' b fin.
Proof.
  intros. match goal with H : joined _ _ _ |- _ => apply joined_resolve in H; subst end. eapply return_answered; eauto.
Qed.

Lemma flow_joined : forall (World : Type) params now random (user : nat -> handler areq response (cache * World)) mid files pages k oh oc render location redirect_body
  grow fuel re ci context mapping rs0 rs cs1 cs2 m ip base own1 own2 h1 h2 a0 a x0 xs mx cfg p h q1 ts1 buf1 ls1 q2 buf2 ls2 path1 root,
  resources context mapping rs0 -> wires [VMux [] []] (cs1 ++ handle_oauth_at m ip base own1 own2 h1 h2 ++ cs2) rs ->
  new_app fuel re ci context mapping = (a0, x0) -> smooth x0 ->
  acalls grow fuel re a0 (cs1 ++ handle_oauth_at m ip base own1 own2 h1 h2 ++ cs2) = (a, xs) -> Forall smooth xs ->
  ordinary re ci (rs0 ++ rs) -> nth_error (ms_muxes (ap_mux a)) m = Some mx ->
  user h1 = login_start params now random cfg (mx_prefix mx) base -> user h2 = login_return params now random cfg (mx_prefix mx) base h ->
  bare (rs0 ++ rs) h1 h2 ->
  base <> [] -> chosen cfg (params q1) p -> one_segment (pv_name p) ->
  xq_method (rq_x q1) = str "GET" -> (blen (rq_path q1) < 65536)%N -> segments_of (rq_path q1) ts1 -> List.length buf1 = 19 ->
  joined (mx_prefix mx) ip path1 -> pieces_of (re_ok re) ci path1 (map Lit ls1) -> Forall2 (same_text ci) ls1 ts1 ->
  clear_choice re ci (rs0 ++ rs) (str "GET") ts1 ->
  xq_method (rq_x q2) = str "GET" -> (blen (rq_path q2) < 65536)%N -> List.length buf2 = 19 ->
  joined (mx_prefix mx) base root -> pieces_of (re_ok re) ci (root ++ str "/{providerName}") (map Lit ls2 ++ [Var (str "providerName")]) ->
  ~ In (str "..") ls2 -> List.length ls2 <= 18 ->
  clear_choice re ci (rs0 ++ rs) (str "GET") (ls2 ++ [pv_name p]) ->
  (forall i r ks bs, leads re ci (rs0 ++ rs) (str "GET") i r ks -> reads_as ci (re_match re) ks (ls2 ++ [pv_name p]) bs ->
     ~ more_specific ks (map Lit ls2 ++ [Var (str "providerName")])) ->
  rq_path q2 = root ++ str "/" ++ pv_name p ->
  exists k0, forall f1 x1 c1 w1 evs1 c1' w1' b1 fin1,
    app_serve user mid files pages k oh oc render location redirect_body (k0 + f1) re a q1 buf1 x1 (c1, w1) = (evs1, (c1', w1'), b1, fin1) ->
    let state := generate_unique_id 12 (random w1) in
    let url := pv_initiate_url p (oc_website cfg ++ rq_path q2) state (oc_fetch_user cfg) in
    w1' = w1 /\ fin1 = SDone /\
    received b1 = redirected (location (WReq (str "GET") (xq_headers (rq_x q1)) (rq_major q1)) url) (redirect_body 302%Z url) /\
    (oc_cache cfg = true -> forall t key, cache_contains c1' t key = true <->
       (key = state /\ (t < now w1 + oc_expiration cfg)%Z) \/ (key <> state /\ cache_contains c1 t key = true)) /\
    forall f2 x2 c2 w2 evs2 cw2' b2 fin2 code x3 w3,
      app_serve user mid files pages k oh oc render location redirect_body (k0 + f2) re a q2 buf2 x2 (c2, w2) = (evs2, cw2', b2, fin2) ->
      comes_back (params q2) state code -> (oc_cache cfg = true -> cache_contains c2 (now w2) state = true) ->
      logged_in cfg p (oc_website cfg ++ rq_path q2) x2 code w2 x3 w3 ->
      exists i mc evs, sees mc q2 [(str "providerName", pv_name p)] /\ visible evs2 = EvRun i :: evs /\
        answers (sends k oh oc render location redirect_body q2) (snd (h x3 (AReq q2 mc) (c2, w3))) (fst (h x3 (AReq q2 mc) (c2, w3))) evs cw2' b2 fin2.
Proof.
  intros. repeat match goal with H : joined _ _ _ |- _ => apply joined_resolve in H; subst end.
  eapply (login_flow World params now random user) with (ls1 := ls1) (ls2 := ls2); eauto.
Qed.
