(** * What a login through the router answers *)
From Coq Require Import List NArith ZArith Ascii String Bool Lia Arith.
From Verif Require Import GoBase Http_Model Glob_Model Pattern_Model Url_Model Match_Model Router_Model Cache_Model Auth_Model Chain_Model Serve_Model
  Mux_Model Resp_Model Cors_Model App_Model OAuth_Model OAuth_Spec OAuth_Proofs Csrf_Proofs Login_Model Login_Spec Chain_Spec Mux_Spec Mux_Proofs App_Spec
  Pattern_Spec Url_Spec Routing_Spec Priority_Spec Choice_Spec AppWire_Spec Witness_Proofs
  AppWire_Proofs AppExact_Proofs Login_Proofs.
Import ListNotations.
Local Open Scope string_scope.
Local Open Scope list_scope.
Local Open Scope nat_scope.

Lemma in_out (o : hout response) : to_outcome (of_outcome o) = o.
Proof. destruct o as [[r|] e|v]; reflexivity. Qed.

Section Handlers.
Variable World : Type.
Variable params : request -> list (bytes * list bytes).
Variable now : World -> Z.
Variable random : World -> nat -> N.

Lemma first_endpoint (cfg : oconfig World) prefix base p x q cw : chosen cfg (params (aq_request q)) p -> pv_name p <> [] ->
  login_start params now random cfg prefix base x q cw =
  (HReturn (Some (RRedirect (HResp 302 [] None None)
     (pv_initiate_url p (oc_website cfg ++ resolve_path prefix base ++ str "/" ++ pv_name p) (generate_unique_id 12 (random (snd cw))) (oc_fetch_user cfg)))) None,
   (if oc_cache cfg then cache_add (fst cw) (now (snd cw)) (generate_unique_id 12 (random (snd cw))) (oc_expiration cfg) else fst cw, snd cw)).
Proof.
  intros C Ne. unfold login_start, initiate.
  assert (E : initiate_provider cfg (oreq_of World params now random true [] q (snd cw)) = inl p).
  { unfold initiate_provider. destruct C as [->|(L & N & l & A)]; [reflexivity|].
    assert (F : form_value (oreq_of World params now random true [] q (snd cw)) (str "provider") = pv_name p)
      by (unfold form_value, vget; cbn [oq_params oreq_of]; rewrite A; reflexivity).
    apply by_name_iff in N.
    destruct (oc_providers cfg) as [|p1 [|p2 ps]]; [discriminate N|destruct L; reflexivity|].
    rewrite F, N. apply Auth_Proofs.beqb_no in Ne. rewrite Ne. reflexivity. }
  rewrite E. reflexivity.
Qed.

Lemma second_endpoint (cfg : oconfig World) prefix base p h x q cw code state x' w' :
  mc_var (aq_mc q) (str "providerName") = Some (pv_name p) -> OAuth_Spec.named (oc_providers cfg) (pv_name p) p ->
  comes_back (params (aq_request q)) state code -> (oc_cache cfg = true -> cache_contains (fst cw) (now (snd cw)) state = true) ->
  logged_in cfg p (oc_website cfg ++ resolve_path prefix base ++ str "/" ++ pv_name p) x code (snd cw) x' w' ->
  login_return params now random cfg prefix base h x q cw = h x' q (fst cw, w').
Proof.
  intros V N ((l1 & A1) & (l2 & A2) & A3) C (tok & w1 & T & D). unfold login_return. rewrite V. unfold callback. cbn [oreq_of oq_provider_var].
  apply by_name_iff in N. rewrite N.
  set (oq := oreq_of World params now random false (pv_name p) q (snd cw)).
  assert (F1 : form_value oq (str "state") = state) by (unfold form_value, vget; cbn [oq_params oreq_of oq]; rewrite A1; reflexivity).
  assert (F2 : form_value oq (str "code") = code) by (unfold form_value, vget; cbn [oq_params oreq_of oq]; rewrite A2; reflexivity).
  assert (F3 : form_value oq (str "error") = []) by (unfold form_value, vget; cbn [oq_params oreq_of oq]; rewrite A3; reflexivity).
  change (OReq false (pv_name p) (params (aq_request q)) (now (snd cw)) (random (snd cw))) with oq. rewrite F1, F2, F3. change (negb (beqb [] [])) with false. cbv iota.
  change (oq_now oq) with (now (snd cw)).
  assert (St : oc_cache cfg && negb (cache_contains (fst cw) (now (snd cw)) state) = false).
  { destruct (oc_cache cfg); [|reflexivity]. rewrite (C eq_refl). reflexivity. }
  rewrite St. unfold redirect_url. rewrite T. cbv zeta.
  unfold with_token, with_principal. cbn [cx_principal cx_nonce cx_token].
  destruct D as [(-> & -> & ->)|(-> & u & U & ->)].
  - destruct (h _ q (fst cw, w1)) as [o1 cw2]. rewrite in_out. reflexivity.
  - rewrite U. destruct (h _ q (fst cw, w')) as [o1 cw2]. rewrite in_out. reflexivity.
Qed.
End Handlers.

Lemma redirect_sends k oh oc render location redirect_body q url : xq_method (rq_x q) = str "GET" ->
  exists b, sends k oh oc render location redirect_body q (RRedirect (HResp 302 [] None None) url) = (Wrote None, b) /\
    received b = redirected (location (WReq (str "GET") (xq_headers (rq_x q)) (rq_major q)) url) (redirect_body 302%Z url).
Proof.
  intros E. unfold sends. rewrite E. eexists. split; [reflexivity|]. cbn. unfold base_write. cbn.
  destruct (redirect_body 302%Z url); reflexivity.
Qed.

Lemma bare_answer {W : Type} (user : nat -> handler areq response W) mid files pages send1 e h x q mc w evs w' b fin :
  en_target e = TUser h -> en_common e = [] -> en_own e = [] ->
  answered_by user mid files pages send1 e x q mc w evs w' b fin ->
  answers send1 (snd (user h x (AReq q mc) w)) (fst (user h x (AReq q mc) w)) evs w' b fin.
Proof.
  intros T C O (inner & outer & D & N & A). rewrite T in D. cbn [does] in D. subst inner. rewrite C, O in N. cbn in N. inversion N; subst. exact A.
Qed.

Lemma resolve_longer prefix base rest : base <> [] -> resolve_path prefix (base ++ rest) = resolve_path prefix base ++ rest.
Proof.
  intros N. destruct prefix as [|c p]; [reflexivity|]. destruct base as [|d b]; [congruence|].
  cbn [List.app resolve_path]. destruct (_ && _); [cbn [List.app]; rewrite <- ?app_assoc; reflexivity|].
  destruct (_ && _); cbn [List.app]; rewrite <- ?app_assoc; reflexivity.
Qed.

Section Flow.
Variable World : Type.
Variable params : request -> list (bytes * list bytes).
Variable now : World -> Z.
Variable random : World -> nat -> N.
Variable user : nat -> handler areq response (cache * World).
Variable mid : nat -> middleware areq response (cache * World).
Variable files : bytes -> request -> list act.
Variable pages : debug_page -> request -> list act.
Variable k : compressor.
Variable oh : headers -> headers.
Variable oc : cookies -> cookies.
Variable render : cookie -> bytes.
Variable location : wreq -> bytes -> bytes.
Variable redirect_body : Z -> bytes -> bytes.
Notation serve f re a q buf x w := (app_serve user mid files pages k oh oc render location redirect_body f re a q buf x w).

Section Program.
Variables (grow : nat -> nat -> nat) (fuel : nat) (re : engine) (ci : bool) (context : bytes) (mapping : option bytes) (rs0 rs : list wired)
  (cs1 cs2 : list acall) (m : nat) (ip base : bytes) (own1 own2 : list mref) (h1 h2 : nat) (a0 a : app) (x0 : option handle_end)
  (xs : list (option handle_end)) (mx : mux).
Hypothesis Rs : resources context mapping rs0.
Hypothesis Wi : wires [VMux [] []] (cs1 ++ handle_oauth_at m ip base own1 own2 h1 h2 ++ cs2) rs.
Hypothesis E0 : new_app fuel re ci context mapping = (a0, x0).
Hypothesis S0 : smooth x0.
Hypothesis E : acalls grow fuel re a0 (cs1 ++ handle_oauth_at m ip base own1 own2 h1 h2 ++ cs2) = (a, xs).
Hypothesis Sm : Forall smooth xs.
Hypothesis Or : ordinary re ci (rs0 ++ rs).
Hypothesis Mx : nth_error (ms_muxes (ap_mux a)) m = Some mx.

Lemma both_wired : exists i common,
  nth_error (rs0 ++ rs) i = Some (Wired (str "GET") (resolve_path (mx_prefix mx) ip) (Entry common own1 (TUser h1))) /\
  nth_error (rs0 ++ rs) (S i) = Some (Wired (str "GET") (resolve_path (mx_prefix mx) (base ++ str "/{providerName}")) (Entry common own2 (TUser h2))).
Proof.
  destruct (new_wired _ _ _ _ _ _ _ _ Rs E0 S0) as [H M].
  destruct (login_wired grow fuel re (new_router ci) m ip base own1 own2 h1 h2 cs2 cs1 [VMux [] []] rs rs0 a0 a xs mx Wi H) as (i & common & A & B);
    [rewrite M; apply refines_init|exact E|exact Sm|exact Mx|].
  exists (List.length rs0 + i), common. rewrite !nth_error_app2 by lia.
  replace (List.length rs0 + i - List.length rs0) with i by lia. replace (S (List.length rs0 + i) - List.length rs0) with (S i) by lia. auto.
Qed.

(** The first endpoint answers its path. *)
Lemma start_answered q ts buf ls :
  same_method (str "GET") (xq_method (rq_x q)) -> (blen (rq_path q) < 65536)%N -> segments_of (rq_path q) ts -> List.length buf = 19 ->
  clear_choice re ci (rs0 ++ rs) (xq_method (rq_x q)) ts ->
  pieces_of (re_ok re) ci (resolve_path (mx_prefix mx) ip) (map Lit ls) -> Forall2 (same_text ci) ls ts ->
  exists i e k0, nth_error (rs0 ++ rs) i = Some e /\ en_own (wr_entry e) = own1 /\ en_target (wr_entry e) = TUser h1 /\
  forall f x w evs w' b fin, serve (k0 + f) re a q buf x w = (evs, w', b, fin) ->
    exists mc evs', sees mc q [] /\ visible evs = EvRun i :: evs' /\
      answered_by user mid files pages (sends k oh oc render location redirect_body q) (wr_entry e) x q mc w evs' w' b fin.
Proof.
  intros M Bl Sg Bu Cl P F. destruct both_wired as (i & common & A & _).
  destruct (exact_wins _ user mid files pages k oh oc render location redirect_body grow fuel re ci context mapping rs0 _ rs a0 x0 a xs q ts buf i (Wired (str "GET") (resolve_path (mx_prefix mx) ip) (Entry common own1 (TUser h1))) ls
    Rs Wi E0 S0 E Sm Or Bl Sg Bu Cl) as (k0 & K).
  { split; [exact A|]. split; [exact M|exact P]. }
  { exact F. }
  exists i, (Wired (str "GET") (resolve_path (mx_prefix mx) ip) (Entry common own1 (TUser h1))), k0.
  split; [exact A|]. split; [reflexivity|]. split; [reflexivity|exact K].
Qed.

(** The second endpoint answers the path of the redirect URL. *)
Lemma return_answered q buf ls name :
  same_method (str "GET") (xq_method (rq_x q)) -> (blen (rq_path q) < 65536)%N -> List.length buf = 19 ->
  base <> [] -> pieces_of (re_ok re) ci (resolve_path (mx_prefix mx) base ++ str "/{providerName}") (map Lit ls ++ [Var (str "providerName")]) ->
  ~ In (str "..") ls -> List.length ls <= 18 -> one_segment name ->
  rq_path q = resolve_path (mx_prefix mx) base ++ str "/" ++ name ->
  clear_choice re ci (rs0 ++ rs) (xq_method (rq_x q)) (ls ++ [name]) ->
  (forall i r ks bs, leads re ci (rs0 ++ rs) (xq_method (rq_x q)) i r ks -> reads_as ci (re_match re) ks (ls ++ [name]) bs ->
     ~ more_specific ks (map Lit ls ++ [Var (str "providerName")])) ->
  exists i e k0, nth_error (rs0 ++ rs) i = Some e /\ en_own (wr_entry e) = own2 /\ en_target (wr_entry e) = TUser h2 /\
  forall f x w evs w' b fin, serve (k0 + f) re a q buf x w = (evs, w', b, fin) ->
    exists mc evs', sees mc q [(str "providerName", name)] /\ visible evs = EvRun i :: evs' /\
      answered_by user mid files pages (sends k oh oc render location redirect_body q) (wr_entry e) x q mc w evs' w' b fin.
Proof.
  intros M Bl Bu NB P Nd Len (N1 & N2 & N3) Pa Cl Best. destruct both_wired as (i & common & _ & A).
  rewrite (resolve_longer _ _ _ NB) in A.
  pose proof (callback_pieces _ _ _ _ _ P Nd Len N1 N2 N3) as Sg. rewrite <- Pa in Sg.
  assert (Rd : reads_as ci (re_match re) (map Lit ls ++ [Var (str "providerName")]) (ls ++ [name]) [(str "providerName", name)]).
  { clear. induction ls as [|l ls IH]; cbn [map List.app]; [apply ra_var, ra_end|]. apply ra_lit; [|exact IH]. unfold same_text. destruct ci; reflexivity. }
  destruct (best_wins _ user mid files pages k oh oc render location redirect_body grow fuel re ci context mapping rs0 _ rs a0 x0 a xs q (ls ++ [name]) buf (S i)
    (Wired (str "GET") (resolve_path (mx_prefix mx) base ++ str "/{providerName}") (Entry common own2 (TUser h2)))
    (map Lit ls ++ [Var (str "providerName")]) [(str "providerName", name)]
    Rs Wi E0 S0 E Sm Or Bl Sg Bu Cl) as (k0 & K).
  { apply Forall_app. split; [|repeat constructor]. apply Forall_forall. intros y I. apply in_map_iff in I. destruct I as (l & <- & _). exact I. }
  { split; [exact A|]. split; [exact M|exact P]. }
  { exact Rd. }
  { exact Best. }
  exists (S i), (Wired (str "GET") (resolve_path (mx_prefix mx) base ++ str "/{providerName}") (Entry common own2 (TUser h2))), k0.
  split; [exact A|]. split; [reflexivity|]. split; [reflexivity|exact K].
Qed.

(** The two requests of a login, one after the other. *)
Lemma login_flow cfg p h q1 ts1 buf1 ls1 q2 buf2 ls2 :
  user h1 = login_start params now random cfg (mx_prefix mx) base -> user h2 = login_return params now random cfg (mx_prefix mx) base h ->
  bare (rs0 ++ rs) h1 h2 ->
  base <> [] -> chosen cfg (params q1) p -> one_segment (pv_name p) ->
  xq_method (rq_x q1) = str "GET" -> (blen (rq_path q1) < 65536)%N -> segments_of (rq_path q1) ts1 -> List.length buf1 = 19 ->
  pieces_of (re_ok re) ci (resolve_path (mx_prefix mx) ip) (map Lit ls1) -> Forall2 (same_text ci) ls1 ts1 ->
  clear_choice re ci (rs0 ++ rs) (str "GET") ts1 ->
  xq_method (rq_x q2) = str "GET" -> (blen (rq_path q2) < 65536)%N -> List.length buf2 = 19 ->
  pieces_of (re_ok re) ci (resolve_path (mx_prefix mx) base ++ str "/{providerName}") (map Lit ls2 ++ [Var (str "providerName")]) ->
  ~ In (str "..") ls2 -> List.length ls2 <= 18 ->
  clear_choice re ci (rs0 ++ rs) (str "GET") (ls2 ++ [pv_name p]) ->
  (forall i r ks bs, leads re ci (rs0 ++ rs) (str "GET") i r ks -> reads_as ci (re_match re) ks (ls2 ++ [pv_name p]) bs ->
     ~ more_specific ks (map Lit ls2 ++ [Var (str "providerName")])) ->
  rq_path q2 = resolve_path (mx_prefix mx) base ++ str "/" ++ pv_name p ->
  exists k0, forall f1 x1 c1 w1 evs1 c1' w1' b1 fin1,
    serve (k0 + f1) re a q1 buf1 x1 (c1, w1) = (evs1, (c1', w1'), b1, fin1) ->
    let state := generate_unique_id 12 (random w1) in
    let url := pv_initiate_url p (oc_website cfg ++ rq_path q2) state (oc_fetch_user cfg) in
    w1' = w1 /\ fin1 = SDone /\
    received b1 = redirected (location (WReq (str "GET") (xq_headers (rq_x q1)) (rq_major q1)) url) (redirect_body 302%Z url) /\
    (oc_cache cfg = true -> forall t key, cache_contains c1' t key = true <->
       (key = state /\ (t < now w1 + oc_expiration cfg)%Z) \/ (key <> state /\ cache_contains c1 t key = true)) /\
    forall f2 x2 c2 w2 evs2 cw2' b2 fin2 code x3 w3,
      serve (k0 + f2) re a q2 buf2 x2 (c2, w2) = (evs2, cw2', b2, fin2) ->
      comes_back (params q2) state code -> (oc_cache cfg = true -> cache_contains c2 (now w2) state = true) ->
      logged_in cfg p (oc_website cfg ++ rq_path q2) x2 code w2 x3 w3 ->
      exists i mc evs, sees mc q2 [(str "providerName", pv_name p)] /\ visible evs2 = EvRun i :: evs /\
        answers (sends k oh oc render location redirect_body q2) (snd (h x3 (AReq q2 mc) (c2, w3))) (fst (h x3 (AReq q2 mc) (c2, w3))) evs cw2' b2 fin2.
Proof.
  intros U1 U2 Ba NB Ch One M1 B1 S1 L1 P1 F1 C1 M2 B2 L2 P2 Nd Len C2 Best Pa.
  assert (Nm : OAuth_Spec.named (oc_providers cfg) (pv_name p) p).
  { destruct Ch as [->|(_ & N & _)]; [|exact N]. exists [], []. split; [reflexivity|]. split; [reflexivity|intros ? []]. }
  destruct (start_answered q1 ts1 buf1 ls1) as (i1 & e1 & k1 & N1 & O1 & T1 & K1); try assumption; [rewrite M1; reflexivity|rewrite M1; assumption|].
  destruct (return_answered q2 buf2 ls2 (pv_name p)) as (i2 & e2 & k2 & N2 & O2 & T2 & K2); try assumption;
    [rewrite M2; reflexivity|rewrite M2; assumption|rewrite M2; assumption|].
  destruct (Ba e1 (nth_error_In _ _ N1) (or_introl T1)) as [Q1 R1]. destruct (Ba e2 (nth_error_In _ _ N2) (or_intror T2)) as [Q2 R2].
  exists (k1 + k2). intros f1 x1 c1 w1 evs1 c1' w1' b1 fin1 Sv1 state url.
  replace (k1 + k2 + f1) with (k1 + (k2 + f1)) in Sv1 by lia.
  destruct (K1 _ _ _ _ _ _ _ Sv1) as (mc & evs' & Se & V & A). apply (bare_answer _ _ _ _ _ _ _ _ _ _ _ _ _ _ _ T1 Q1 R1) in A.
  rewrite U1, (first_endpoint World params now random cfg _ _ p x1 (AReq q1 mc) (c1, w1) Ch (proj1 One)) in A. cbn [fst snd] in A.
  rewrite <- Pa in A. change (generate_unique_id 12 (random w1)) with state in A. change (pv_initiate_url p (oc_website cfg ++ rq_path q2) state (oc_fetch_user cfg)) with url in A.
  destruct (redirect_sends k oh oc render location redirect_body q1 url M1) as (b & Sb & Rb).
  assert (Fi : (c1', w1') = (if oc_cache cfg then cache_add c1 (now w1) state (oc_expiration cfg) else c1, w1) /\ fin1 = SDone /\ b1 = b).
  { inversion A; subst; try congruence. repeat split; congruence. }
  destruct Fi as (Fi & -> & ->). pose proof (f_equal snd Fi) as Fw. pose proof (f_equal fst Fi) as Fc. cbn [fst snd] in Fw, Fc. clear Fi.
  split; [exact Fw|]. split; [reflexivity|]. split; [exact Rb|]. split.
  { intros Y t key. rewrite Y in Fc. rewrite Fc. apply contains_add. }
  intros f2 x2 c2 w2 evs2 cw2' b2 fin2 code x3 w3 Sv2 Cb Ct Lg.
  replace (k1 + k2 + f2) with (k2 + (k1 + f2)) in Sv2 by lia.
  destruct (K2 _ _ _ _ _ _ _ Sv2) as (mc2 & evs2' & Se2 & V2 & A2). apply (bare_answer _ _ _ _ _ _ _ _ _ _ _ _ _ _ _ T2 Q2 R2) in A2.
  exists i2, mc2, evs2'. split; [exact Se2|]. split; [exact V2|].
  rewrite U2, (second_endpoint World params now random cfg (mx_prefix mx) base p h x2 (AReq q2 mc2) (c2, w2) code state x3 w3) in A2; [exact A2| |exact Nm|exact Cb|exact Ct|].
  - destruct Se2 as (_ & _ & Sv). cbn [aq_mc]. rewrite (Sv (str "providerName")). reflexivity.
  - rewrite <- Pa. exact Lg.
Qed.
End Program.
End Flow.
