(** * Proofs about whole applications: security headers and CORS as common middlewares *)
From Coq Require Import List NArith ZArith Ascii String Bool Lia Arith Permutation.
From Verif Require Import GoBase Http_Model Glob_Model Pattern_Model Url_Model Match_Model Router_Model Auth_Model Chain_Model Serve_Model
  Mux_Model Resp_Model Cors_Model App_Model Chain_Spec Chain_Proofs Mux_Spec Mux_Proofs Resp_Spec Resp_Proofs RespMisc_Proofs
  Cors_Spec Cors_Proofs CorsMisc_Proofs CorsCases_Proofs Auth_Proofs App_Spec AppRoute_Proofs App_Proofs.
Import ListNotations.
Local Open Scope string_scope.
Local Open Scope list_scope.
Local Open Scope nat_scope.

Section Mid.
Variable W : Type.
Variables (user : nat -> handler areq response W) (mid : nat -> middleware areq response W).
Variable files : bytes -> request -> list act.
Variable pages : debug_page -> request -> list act.
Variable k : compressor.
Variable oh : headers -> headers.
Variable oc : cookies -> cookies.
Variable render : cookie -> bytes.
Variable location : wreq -> bytes -> bytes.
Variable redirect_body : Z -> bytes -> bytes.

(** Where a written response comes from. *)
Lemma written_by fuel re a q buf x w evs w' b fin r :
  router_all (below (List.length (ap_entries a))) (ap_router a) ->
  app_serve user mid files pages k oh oc render location redirect_body fuel re a q buf x w = (evs, w', b, fin) ->
  In (EvWrite r) evs ->
  exists e mc, In e (ap_entries a) /\ mc_method mc = xq_method (rq_x q) /\ mc_path mc = rq_path q /\
    entry_handler user mid files pages e x (AReq q mc) w = (HReturn (Some r) None, w') /\
    b = snd (sends k oh oc render location redirect_body q r).
Proof.
  intros R E I.
  assert (IV : In (EvWrite r) (visible evs)) by (apply filter_In; split; [exact I|reflexivity]).
  pose proof (app_serve_cases W user mid files pages k oh oc render location redirect_body fuel re a q buf x w R) as C. rewrite E in C.
  destruct (dispatch_request fuel re (ap_router a) (xq_method (rq_x q)) (rq_path q) buf) as [|i rec segs| |].
  - destruct C as (V & _). rewrite V in IV. destruct IV as [IV|[]]. discriminate.
  - destruct C as (e & evs' & N & V & An). exists e, (MCtx (xq_method (rq_x q)) (rq_path q) rec segs).
    split; [eapply nth_error_In; exact N|]. split; [reflexivity|]. split; [reflexivity|].
    rewrite V in IV. destruct IV as [IV|IV]; [discriminate|].
    destruct (entry_handler user mid files pages e x (AReq q (MCtx (xq_method (rq_x q)) (rq_path q) rec segs)) w) as [o w1].
    inversion An; subst; cbn in IV; repeat (destruct IV as [IV|IV]; try discriminate); try contradiction;
      injection IV as <-; (split; [reflexivity|]);
      match goal with H : sends _ _ _ _ _ _ _ _ = _ |- _ => rewrite H; reflexivity end.
  - destruct C as (V & _). rewrite V in IV. destruct IV.
  - destruct C as (V & _). rewrite V in IV. destruct IV.
Qed.

(** The outermost middleware of the handlers of the program. *)
Lemma outer_entry i xs e h : en_target e = TUser h -> entry_starts (Some i :: xs) e ->
  exists ys inner, nested (user h) ys inner /\ (forall m, In m ys -> exists j, m = mid j) /\
    entry_handler user mid files pages e = mid i inner.
Proof.
  intros T St. unfold entry_starts in St. rewrite T in St. destruct St as [ys C]. unfold entry_handler.
  pose proof (registered_nested (map (option_map mid) (en_common e)) (map (option_map mid) (en_own e))
    (target_handler user files pages (en_target e))) as N.
  rewrite T, C in *. cbn [List.app map option_map present target_handler] in N. inversion N as [|? ? inner N' E1 E2].
  eexists. exists inner. split; [exact N'|]. split; [|symmetry; exact E2].
  assert (P : forall l (m : middleware areq response W), In m (present (map (option_map mid) l)) -> exists j, m = mid j).
  { induction l as [|[j|] l IH]; cbn; [intros m9 []|intros m9 [<-|I]; [exists j; reflexivity|auto]|exact IH]. }
  intros m9 I. apply in_app_or in I. destruct I as [I|I]; eapply P; exact I.
Qed.

(** What is sent for a regular response. *)
Lemma sends_regular q r : (forall m, Permutation (oh m) m) -> (forall m, Permutation (oc m) m) -> regular r q ->
  exists st hs h, fields r = Some h /\ b_final (snd (sends k oh oc render location redirect_body q r)) = Some (st, hs) /\
    forall n v, In (n, v) (custom_headers h) -> ~ same_name n ct -> ~ same_name n xcto \/ v <> [] -> hvalues hs n = [v].
Proof.
  intros PH PC (h & st & F & RP & MS & B & OS).
  destruct (response_sent k oh oc render location redirect_body r _ h st (@Plain k base_new) PH PC F RP MS B eq_refl OS) as (hs & ts & E & _ & S).
  exists st, hs, h. split; [exact F|]. split.
  - unfold sends. destruct (write oh oc render location redirect_body r _ (Plain base_new)) as [o w2]. exact E.
  - intros n v I N1 N2. destruct v as [|z v].
    + apply (sent_custom_empty _ _ _ _ _ S n I N1). destruct N2 as [N2|N2]; [exact N2|congruence].
    + apply (sent_custom _ _ _ _ _ S n (z :: v) I). discriminate.
Qed.
End Mid.

Lemma fields_headers r h : fields r = Some h -> get_headers r = Some (custom_headers h).
Proof. destruct r; cbn; intro E; try discriminate; injection E as <-; reflexivity. Qed.

(** ** Security headers *)

Lemma no_headers_fields r : ~ has_headers r -> fields r = None /\ forall n v, set_header r n v = None.
Proof.
  unfold has_headers. induction r as [h|h p|h p|h p|h p|h p|h p n|h p| |hs cs a|l r IH|l]; cbn; intro N; try tauto; try (destruct N; exact I);
    try (split; [reflexivity|reflexivity]).
  split; [reflexivity|]. intros n v. rewrite (proj2 (IH N)). reflexivity.
Qed.

Lemma has_headers_dec r : has_headers r \/ ~ has_headers r.
Proof. unfold has_headers. destruct (core r); tauto. Qed.

Lemma sec_fields (World : Type) (h : handler xreq response World) c x q w k r r' w' :
  fst (h x q w) = HReturn (Some r) None -> security_headers c h x q (w, k) = (HReturn (Some r') None, w') ->
  fields r' <> None -> has_headers r.
Proof.
  intros E S F. destruct (has_headers_dec r) as [H|N]; [exact H|]. exfalso. apply F. clear F.
  destruct (no_headers_fields r N) as [F SN]. unfold security_headers in S. cbn [fst snd] in S.
  destruct (h x q w) as [o w1]. cbn [fst] in E. subst o.
  assert (SO : forall n v, set_on (Some r) n v = None) by (intros; cbn; rewrite SN; reflexivity).
  destruct (sts_value c k) as [v1 k1].
  destruct (sh_sts c && (xq_tls q || beqb (to_lower (xq_scheme q)) (str "https"))).
  { destruct (has_map (Some r)); [rewrite SO in S|]; discriminate S. }
  destruct (click_value c k) as [v2 k2]. destruct (sh_click c).
  { destruct (has_map (Some r)); [rewrite SO in S|]; discriminate S. }
  destruct (sh_sniff c).
  { destruct (has_map (Some r)); [rewrite SO in S|]; discriminate S. }
  destruct (sh_xss c).
  { destruct (has_map (Some r)); [rewrite SO in S|]; discriminate S. }
  injection S as <- _. exact F.
Qed.

Section Security.
Variable V : Type.
Variables (user : nat -> handler areq response (V * sec_cache)) (mid : nat -> middleware areq response (V * sec_cache)).
Variable files : bytes -> request -> list act.
Variable pages : debug_page -> request -> list act.
Variable k : compressor.
Variable oh : headers -> headers.
Variable oc : cookies -> cookies.
Variable render : cookie -> bytes.
Variable location : wreq -> bytes -> bytes.
Variable redirect_body : Z -> bytes -> bytes.
Variable c : sec_config.

Lemma app_security_call inner x q wk : texts_right c (snd (snd (inner x q wk))) ->
  let o := app_security (V := V) c inner x q wk in
  secured_outcome c (rq_x (aq_request q)) (fst (inner x q wk)) (fst o) /\ texts_right c (snd (snd o)).
Proof.
  intro T. cbv zeta. unfold app_security. destruct (inner x q wk) as [o [v kk]] eqn:E. cbn [fst snd] in *.
  destruct (security_call V (fun _ _ _ => (o, v)) c x (rq_x (aq_request q)) v kk T) as (A & _ & B). split; [exact A|exact B].
Qed.

Lemma keeps_nested (h : handler areq response (V * sec_cache)) ms o : keeps_texts c h -> (forall m, In m ms -> forall i, keeps_texts c i -> keeps_texts c (m i)) ->
  nested h ms o -> keeps_texts c o.
Proof.
  intros K M N. induction N as [|m ms inner N IH]; [exact K|]. apply M; [left; reflexivity|]. apply IH. intros m' I. apply M. right. exact I.
Qed.

Lemma security_served grow fuel re ci context mapping i xs cs f q buf x w evs w' b fin r :
  mid i = app_security c -> (forall h, keeps_texts c (user h)) ->
  (forall j inner, j <> i -> keeps_texts c inner -> keeps_texts c (mid j inner)) -> texts_right c (snd w) ->
  (forall m, Permutation (oh m) m) -> (forall m, Permutation (oc m) m) ->
  app_serve user mid files pages k oh oc render location redirect_body f re
    (fst (acalls grow fuel re (fst (new_app fuel re ci context mapping)) (AMux (CCommon 0 (Some i :: xs)) :: cs))) q buf x w = (evs, w', b, fin) ->
  In (EvWrite r) evs -> regular r q ->
  exists st hs, b_final b = Some (st, hs) /\
    (sts_on c (rq_x q) -> hvalues hs (str "Strict-Transport-Security") = [wanted_sts c]) /\
    (sh_click c = true -> exists v, wanted_frame c v /\ hvalues hs (str "X-Frame-Options") = [v]) /\
    (sh_sniff c = true -> hvalues hs (str "X-Content-Type-Options") = [str "nosniff"]) /\
    (sh_xss c = true -> hvalues hs (str "X-Xss-Protection") = [str "1; mode=block"]).
Proof.
  intros M0 KU KM TW PH PC. fold (set_up grow fuel re ci context mapping (Some i :: xs) cs).
  set (a := set_up grow fuel re ci context mapping (Some i :: xs) cs). intros S I Rg.
  assert (Inv : app_inv (entry_starts (Some i :: xs)) a).
  { apply set_up_inv; [intros common own h H; exact H|intros _ d; split; reflexivity|intros p _; split; reflexivity]. }
  destruct Inv as [R E].
  destruct (written_by _ _ _ _ _ _ _ _ _ _ _ _ _ _ _ _ _ _ _ _ _ _ _ R S I) as (e & mc & Ie & _ & _ & H & ->).
  rewrite Forall_forall in E. specialize (E e Ie).
  destruct (sends_regular k oh oc render location redirect_body q r PH PC Rg) as (st & hs & h & F & Fin & Sent).
  exists st, hs. split; [exact Fin|].
  destruct (en_target e) as [u|p|d] eqn:T.
  2,3: exfalso; unfold entry_starts in E; rewrite T in E; destruct E as [E1 E2]; unfold entry_handler in H; rewrite E1, E2, T in H; cbn in H;
    injection H as <- _; discriminate F.
  destruct (outer_entry _ user mid files pages i xs e u T E) as (ys & inner & N & Ys & Eq).
  assert (KI : keeps_texts c inner).
  { apply (keeps_nested (user u) ys inner (KU u)); [|exact N]. intros m Im o Ko. destruct (Ys m Im) as [j ->].
    destruct (Nat.eq_dec j i) as [->|Nj]; [|apply KM; assumption].
    rewrite M0. intros x0 q0 w0 T0. apply app_security_call. apply Ko. exact T0. }
  rewrite Eq, M0 in H. destruct (app_security_call inner x (AReq q mc) w (KI _ _ _ TW)) as [SO _]. rewrite H in SO. cbn [fst aq_request] in SO.
  destruct (fst (inner x (AReq q mc) w)) as [[r0|] [er|]|v] eqn:Ei; cbn [secured_outcome] in SO; try discriminate.
  2:{ exfalso. unfold app_security in H. destruct (inner x (AReq q mc) w) as [o wk]. cbn [fst] in Ei. subst o.
      unfold security_headers in H. cbn [fst snd has_map] in H. destruct wk as [v0 k0]. cbn [fst snd] in H.
      destruct (sh_sts c && (xq_tls (rq_x (aq_request (AReq q mc))) || beqb (to_lower (xq_scheme (rq_x (aq_request (AReq q mc))))) (str "https"))); [discriminate|].
      destruct (sh_click c); [discriminate|]. destruct (sh_sniff c); [discriminate|]. destruct (sh_xss c); discriminate. }
  assert (HH : has_headers r0).
  { unfold app_security in H. destruct (inner x (AReq q mc) w) as [o [v0 k0]]. cbn [fst] in Ei. subst o.
    eapply (sec_fields V (fun _ _ _ => (HReturn (Some r0) None, v0)) c x _ v0 k0 r0 r w'); [reflexivity|exact H|congruence]. }
  destruct (SO HH) as (r' & m & m' & Er & _ & G & _ & Sec). injection Er as <-.
  rewrite (fields_headers r h F) in G. injection G as <-.
  assert (LI : forall n v, alookup n (custom_headers h) = Some v -> In (n, v) (custom_headers h)).
  { intros n v. generalize (custom_headers h). induction h0 as [|[n' v'] l IH]; [discriminate|]. cbn. destruct (beqb n n') eqn:B.
    - intro Q. injection Q as ->. apply beqb_iff in B. subst. left. reflexivity.
    - intro Q. right. auto. }
  split; [|split; [|split]].
  - intro O. apply Sent; [apply LI, (sec_sts _ _ _ _ Sec O)|discriminate|left; discriminate].
  - intro O. destruct (sec_frame _ _ _ _ Sec O) as (v & Wv & L). exists v. split; [exact Wv|]. apply Sent; [apply LI, L|discriminate|left; discriminate].
  - intro O. apply Sent; [apply LI, (sec_sniff _ _ _ _ Sec O)|discriminate|right; discriminate].
  - intro O. apply Sent; [apply LI, (sec_xss _ _ _ _ Sec O)|discriminate|left; discriminate].
Qed.
End Security.

(** ** CORS *)

Section CorsApp.
Variable W : Type.
Variables (user : nat -> handler areq response W) (mid : nat -> middleware areq response W).
Variable files : bytes -> request -> list act.
Variable pages : debug_page -> request -> list act.
Variable k : compressor.
Variable oh : headers -> headers.
Variable oc : cookies -> cookies.
Variable render : cookie -> bytes.
Variable location : wreq -> bytes -> bytes.
Variable redirect_body : Z -> bytes -> bytes.
Variable c : cors_config.

Lemma cors_served grow fuel re ci context i xs cs f q buf x w evs w' b fin r o :
  no_debug cs -> mid i = app_cors c ->
  app_serve user mid files pages k oh oc render location redirect_body f re
    (fst (acalls grow fuel re (fst (new_app fuel re ci context None)) (AMux (CCommon 0 (Some i :: xs)) :: cs))) q buf x w = (evs, w', b, fin) ->
  carries (rq_x q) h_origin o -> web_url (rq_x q) ->
  ~ odd_ports (to_lower (xq_scheme (rq_x q))) (xq_host (rq_x q)) o -> ~ own (to_lower (xq_scheme (rq_x q))) (xq_host (rq_x q)) o ->
  In (EvWrite r) evs ->
  allows_origin c o /\ allows c (rq_x q) /\
  ((forall m, Permutation (oh m) m) -> (forall m, Permutation (oc m) m) -> regular r q ->
   exists st hs, b_final b = Some (st, hs) /\ hvalues hs h_acao = [if cc_any c then str "*" else o]).
Proof.
  intros ND M0. fold (set_up grow fuel re ci context None (Some i :: xs) cs).
  set (a := set_up grow fuel re ci context None (Some i :: xs) cs). intros S Ca We Od Ow I.
  assert (Inv : app_inv (fun e => user_entry e /\ entry_starts (Some i :: xs) e) a).
  { apply set_up_inv.
    - intros common own h H. split; [exact Logic.I|exact H].
    - intros (m & H). destruct (ND m H).
    - intros p H. congruence. }
  destruct Inv as [R E].
  destruct (written_by _ _ _ _ _ _ _ _ _ _ _ _ _ _ _ _ _ _ _ _ _ _ _ R S I) as (e & mc & Ie & _ & _ & H & ->).
  rewrite Forall_forall in E. destruct (E e Ie) as [U St]. unfold user_entry in U.
  destruct (en_target e) as [u|p|d] eqn:T; try contradiction.
  destruct (outer_entry _ user mid files pages i xs e u T St) as (ys & inner & N & Ys & Eq).
  rewrite Eq, M0 in H. unfold app_cors in H. destruct (inner x (AReq q mc) w) as [o1 w1]. cbn [aq_request] in H.
  destruct (cross_origin_checked W (fun _ _ _ => (o1, w1)) c x (rq_x q) w r w' o H Ca We Od Ow) as (A & B & m & G & L).
  split; [exact A|]. split; [exact B|]. intros PH PC Rg.
  destruct (sends_regular k oh oc render location redirect_body q r PH PC Rg) as (st & hs & h & F & Fin & Sent).
  exists st, hs. split; [exact Fin|]. rewrite (fields_headers r h F) in G. injection G as <-.
  assert (LI : forall n v, alookup n (custom_headers h) = Some v -> In (n, v) (custom_headers h)).
  { intros n v. generalize (custom_headers h). induction h0 as [|[n' v'] l IH]; [discriminate|]. cbn. destruct (beqb n n') eqn:Bq.
    - intro Q. injection Q as ->. apply beqb_iff in Bq. subst. left. reflexivity.
    - intro Q. right. auto. }
  apply Sent; [apply LI, L|discriminate|left; discriminate].
Qed.
End CorsApp.
