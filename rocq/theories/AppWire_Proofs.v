(** * Proofs about whole programs: from the calls to the answer *)
From Coq Require Import List NArith ZArith Ascii String Bool Lia Arith.
From Verif Require Import GoBase Http_Model Glob_Model Pattern_Model Url_Model Match_Model Router_Model Auth_Model Chain_Model Serve_Model
  Mux_Model Resp_Model Cors_Model App_Model Chain_Spec Chain_Proofs Mux_Spec Mux_Proofs App_Spec AppRoute_Proofs App_Proofs
  Pattern_Spec Url_Spec Routing_Spec Priority_Spec Choice_Spec Routing_Proofs Choice_Proofs AppWire_Spec.
Import ListNotations.
Local Open Scope string_scope.
Local Open Scope list_scope.
Local Open Scope nat_scope.

Fixpoint regs_from (n : nat) (rs : list wired) : list reg :=
  match rs with
  | [] => []
  | w :: rs' => (wr_method w, wr_path w, n) :: regs_from (S n) rs'
  end.

Lemma regs_from_app rs1 : forall n rs2, regs_from n (rs1 ++ rs2) = regs_from n rs1 ++ regs_from (n + List.length rs1) rs2.
Proof.
  induction rs1 as [|w rs1 IH]; intros n rs2; cbn [List.app regs_from List.length].
  - rewrite Nat.add_0_r. reflexivity.
  - rewrite IH. replace (S n + List.length rs1) with (n + S (List.length rs1)) by lia. reflexivity.
Qed.

Lemma regs_from_length rs : forall n, List.length (regs_from n rs) = List.length rs.
Proof. induction rs as [|w rs IH]; intro n; cbn; [reflexivity|rewrite IH; reflexivity]. Qed.

Lemma in_regs_from rs : forall n rg, In rg (regs_from n rs) <-> exists i w, nth_error rs i = Some w /\ rg = (wr_method w, wr_path w, n + i).
Proof.
  induction rs as [|w rs IH]; intros n rg; cbn [regs_from In].
  - split; [intros []|]. intros ([|i] & w & E & _); discriminate E.
  - split.
    + intros [<-|I]; [exists 0, w; rewrite Nat.add_0_r; split; reflexivity|].
      apply IH in I. destruct I as (i & w1 & E & ->). exists (S i), w1. split; [exact E|]. f_equal. lia.
    + intros ([|i] & w1 & E & ->); [left; cbn in E; injection E as ->; rewrite Nat.add_0_r; reflexivity|].
      right. apply IH. exists i, w1. split; [exact E|]. f_equal. lia.
Qed.

Lemma handle_all_app fuel re rs1 : forall r rs2,
  handle_all fuel re r (rs1 ++ rs2) =
  (fst (handle_all fuel re (fst (handle_all fuel re r rs1)) rs2),
   snd (handle_all fuel re r rs1) ++ snd (handle_all fuel re (fst (handle_all fuel re r rs1)) rs2)).
Proof.
  induction rs1 as [|[[m p] h] rs1 IH]; intros r rs2; cbn [List.app handle_all].
  - cbn. destruct (handle_all fuel re r rs2). reflexivity.
  - destruct (handle fuel re r m p h) as [r1 e]. rewrite IH. destruct (handle_all fuel re r1 rs1) as [r2 es]. cbn. reflexivity.
Qed.

(** The registrations of [rs], made on [r0], give the router and the entries of [a]. *)
Definition has_wired (fuel : nat) (re : engine) (r0 : router) (rs : list wired) (a : app) : Prop :=
  handle_all fuel re r0 (regs_from 0 rs) = (ap_router a, repeat Registered (List.length rs)) /\ ap_entries a = map wr_entry rs.

Lemma register_wired fuel re r0 rs a method path e a' :
  has_wired fuel re r0 rs a -> register fuel re a method path e = (a', Registered) ->
  has_wired fuel re r0 (rs ++ [Wired method path e]) a' /\ ap_mux a' = ap_mux a.
Proof.
  intros [H E] R. unfold register in R.
  destruct (handle fuel re (ap_router a) method path (List.length (ap_entries a))) as [r x] eqn:Q. injection R as <- ->.
  split; [|reflexivity]. split; cbn [ap_router ap_entries].
  - rewrite regs_from_app, handle_all_app, H. cbn [fst snd regs_from handle_all wr_method wr_path]. rewrite E, map_length in Q. cbn [Nat.add].
    rewrite Q. cbn [fst snd]. rewrite app_length, repeat_app. reflexivity.
  - rewrite E, map_app. reflexivity.
Qed.

Lemma has_wired_mux fuel re r0 rs a st : has_wired fuel re r0 rs a -> has_wired fuel re r0 rs (App st (ap_router a) (ap_entries a)).
Proof. intros [H E]. split; assumption. Qed.

Lemma debug_wired fuel re r0 x l ws :
  Forall2 (fun pd w => wr_method w = str "GET" /\ joined x (fst pd) (wr_path w) /\ wr_entry w = Entry [] [] (TDebug (snd pd))) l ws ->
  forall rs a a', has_wired fuel re r0 rs a -> register_debug fuel re a x l = (a', Registered) ->
  has_wired fuel re r0 (rs ++ ws) a' /\ ap_mux a' = ap_mux a.
Proof.
  induction 1 as [|[p d] [wm wp we] l ws (M & J & T) F IH]; intros rs a a' H R; cbn [register_debug] in R.
  - injection R as <-. rewrite app_nil_r. auto.
  - cbn [wr_method wr_path wr_entry fst snd] in M, J, T. subst wm we.
    pose proof (joined_unique _ _ _ _ J (resolve_joined x p)) as Ep. rewrite <- Ep in R.
    destruct (register fuel re a (str "GET") wp (Entry [] [] (TDebug d))) as [a1 y] eqn:Q.
    destruct y; try discriminate R. destruct (register_wired _ _ _ _ _ _ _ _ _ H Q) as [H1 M1].
    destruct (IH _ _ _ H1 R) as [H2 M2]. rewrite <- app_assoc in H2. cbn [List.app] in H2. split; [exact H2|congruence].
Qed.

Definition shown_by (page : debug_page) : debug_handler := match page with POther d => d | _ => DIndex end.
Lemma endpoints_are : debug_endpoints = map (fun pd => (fst pd, shown_by (snd pd))) endpoints.
Proof. reflexivity. Qed.

Lemma forall2_map {A B C} (P : B -> C -> Prop) (g : A -> B) l l' : Forall2 (fun a c => P (g a) c) l l' -> Forall2 P (map g l) l'.
Proof. induction 1; cbn; constructor; assumption. Qed.

Lemma wire_wired grow fuel re r0 vs c vs' ws : wire vs c vs' ws ->
  forall rs a a' x, has_wired fuel re r0 rs a -> refines (ap_mux a) vs -> acall_step grow fuel re a c = (a', x) -> smooth x ->
  has_wired fuel re r0 (rs ++ ws) a' /\ refines (ap_mux a') vs'.
Proof.
  intros [vs0 c0 vs1 m V NI|vs0 c0 vs1 V|vs0 c0 vs1 method path common own h V|vs0 m y ws0 Y F] rs a a' x H R E Sm; cbn [acall_step] in E.
  - destruct (step_refines grow _ _ _ _ _ R V NI) as (st & Q & R'). rewrite Q in E. injection E as <- <-.
    rewrite app_nil_r. split; [apply has_wired_mux; exact H|exact R'].
  - destruct (step_refines grow _ _ _ _ _ R V) as (st & Q & R'); [inversion V; intros []|]. rewrite Q in E. injection E as <- <-.
    rewrite app_nil_r. split; [apply has_wired_mux; exact H|exact R'].
  - destruct (step_refines grow _ _ _ _ _ R V) as (st & Q & R'); [inversion V; intros []|]. rewrite Q in E.
    destruct (register fuel re (App st (ap_router a) (ap_entries a)) method path (Entry common own (TUser h))) as [a2 z] eqn:G.
    injection E as <- <-. destruct Sm as [Sm|Sm]; [discriminate Sm|]. injection Sm as ->.
    destruct (register_wired _ _ _ _ _ _ _ _ _ (has_wired_mux _ _ _ _ _ st H) G) as [H1 M1]. split; [exact H1|]. rewrite M1. exact R'.
  - destruct (refines_nth _ _ _ _ R Y) as (mx & Nx & Ok). rewrite Nx in E.
    destruct (register_debug fuel re a (mx_prefix mx) debug_endpoints) as [a2 z] eqn:G. injection E as <- <-.
    destruct Sm as [Sm|Sm]; [discriminate Sm|]. injection Sm as ->. destruct Ok as (P & _). rewrite P in G.
    rewrite endpoints_are in G. pose proof (forall2_map (fun (pd : bytes * debug_handler) w => wr_method w = str "GET" /\ joined (vm_prefix y) (fst pd) (wr_path w) /\
      wr_entry w = Entry [] [] (TDebug (snd pd))) (fun pd => (fst pd, shown_by (snd pd))) _ _ F) as F'.
    destruct (debug_wired _ _ _ _ _ _ F' _ _ _ H G) as [H1 M1]. split; [exact H1|]. rewrite M1. exact R.
Qed.

Lemma wires_wired grow fuel re r0 vs cs ws : wires vs cs ws ->
  forall rs a a' xs, has_wired fuel re r0 rs a -> refines (ap_mux a) vs -> acalls grow fuel re a cs = (a', xs) -> Forall smooth xs ->
  has_wired fuel re r0 (rs ++ ws) a'.
Proof.
  induction 1 as [vs|vs c vs' ws1 cs ws2 W1 W2 IH]; intros rs a a' xs H R E Sm; cbn [acalls] in E.
  - injection E as <- <-. rewrite app_nil_r. exact H.
  - destruct (acall_step grow fuel re a c) as [a1 x] eqn:E1. destruct (acalls grow fuel re a1 cs) as [a2 ys] eqn:E2. injection E as <- <-.
    inversion Sm as [|? ? S1 S2]; subst. destruct (wire_wired _ _ _ _ _ _ _ _ W1 _ _ _ _ H R E1 S1) as [H1 R1].
    rewrite app_assoc. exact (IH _ _ _ _ H1 R1 E2 S2).
Qed.

Lemma new_wired fuel re ci context mapping rs0 a x : resources context mapping rs0 ->
  new_app fuel re ci context mapping = (a, x) -> smooth x ->
  has_wired fuel re (new_router ci) rs0 a /\ ap_mux a = new_mux.
Proof.
  intros Rs E Sm. unfold new_app, new_mux_handler in E. destruct Rs as [context|context mapping dir D].
  - injection E as <- <-. split; [|reflexivity]. split; reflexivity.
  - inversion D as [c1 m1 c a1 Hc Ha]; subst.
    assert (Ec : (if beqb (if Nat.eqb (List.length context) 0 then str "/" else context) (str "/") then []
                  else (if Nat.eqb (List.length context) 0 then str "/" else context)) = c).
    { destruct Hc as [[[->| ->] ->]|(N1 & N2 & ->)]; [reflexivity|reflexivity|].
      destruct context as [|z context]; [congruence|]. cbn [List.length Nat.eqb].
      destruct (beqb (z :: context) (str "/")) eqn:B; [apply Auth_Proofs.beqb_iff in B; congruence|reflexivity]. }
    assert (Ea : (if Nat.eqb (List.length mapping) 0 then str "assets" else mapping) = a1).
    { destruct Ha as [[-> ->]|[N ->]]; [reflexivity|]. destruct mapping; [congruence|reflexivity]. }
    unfold static_prefix in E. rewrite Ec, Ea in E.
    match type of E with context [register ?f0 ?e0 ?a0 ?g0 ?p0 ?n0] => destruct (register f0 e0 a0 g0 p0 n0) as [a' y] eqn:Q end.
    injection E as <- <-. destruct Sm as [Sm|Sm]; [discriminate Sm|]. injection Sm as ->.
    assert (H0 : has_wired fuel re (new_router ci) [] (App new_mux (new_router ci) [])) by (split; reflexivity).
    destruct (register_wired _ _ _ _ _ _ _ _ _ H0 Q) as [H1 M1]. cbn [List.app] in H1.
    replace ((c ++ "/"%char :: a1 ++ str "/") ++ str "**") with (c ++ str "/" ++ a1 ++ str "/**").
    + split; [exact H1|exact M1].
    + rewrite <- app_assoc. cbn [List.app]. rewrite <- app_assoc. reflexivity.
Qed.

Lemma program_wired grow fuel re ci context mapping rs0 cs rs a0 x0 a xs :
  resources context mapping rs0 -> wires [VMux [] []] cs rs ->
  new_app fuel re ci context mapping = (a0, x0) -> smooth x0 -> acalls grow fuel re a0 cs = (a, xs) -> Forall smooth xs ->
  has_wired fuel re (new_router ci) (rs0 ++ rs) a.
Proof.
  intros R W E0 S0 E Sm. destruct (new_wired _ _ _ _ _ _ _ _ R E0 S0) as [H M].
  eapply wires_wired; try eassumption. rewrite M. apply refines_init.
Qed.

(** ** The routes *)

Lemma repeat_combine rs : forall n rg x, In (rg, x) (combine (regs_from n rs) (repeat Registered (List.length rs))) <-> In rg (regs_from n rs) /\ x = Registered.
Proof.
  induction rs as [|w rs IH]; intros n rg x; cbn [regs_from List.length repeat combine In]; [tauto|].
  rewrite IH. split.
  - intros [E|[I ->]]; [injection E as <- <-; auto|auto].
  - intros [[<-|I] ->]; auto.
Qed.

Lemma routes_are re ci rs mth rg ks :
  route_of (re_ok re) ci (combine (regs_from 0 rs) (repeat Registered (List.length rs))) mth rg ks <-> as_routes re ci rs mth rg ks.
Proof.
  unfold route_of, as_routes, leads. rewrite repeat_combine, in_regs_from. split.
  - intros (((i & w & N & ->) & _) & M & P). exists i, w. split; [reflexivity|]. auto.
  - intros (i & w & -> & N & M & P). split; [|auto]. split; [|reflexivity]. exists i, w. auto.
Qed.

Lemma ordinary_regs re ci rs : ordinary re ci rs ->
  (N.of_nat (List.length (regs_from 0 rs)) < 65536)%N /\
  Forall (fun rg => countable (re_ok re) ci (reg_text rg) /\ plain (re_ok re) ci (reg_text rg)) (regs_from 0 rs).
Proof.
  intros [L F]. rewrite regs_from_length. split; [exact L|]. rewrite Forall_forall in *. intros rg I.
  apply in_regs_from in I. destruct I as (i & w & N & ->). apply (F w). eapply nth_error_In. exact N.
Qed.

Lemma wired_router ci fuel re rs a : has_wired fuel re (new_router ci) rs a -> router_all (below (List.length (ap_entries a))) (ap_router a).
Proof.
  intros [H E]. rewrite E, map_length. clear E.
  assert (G : forall ws n r r' outs, handle_all fuel re r (regs_from n ws) = (r', outs) -> router_all (below n) r -> router_all (below (n + List.length ws)) r').
  { induction ws as [|w ws IH]; intros n r r' outs Q B; cbn [regs_from handle_all] in Q.
    - injection Q as <- <-. rewrite Nat.add_0_r. exact B.
    - destruct (handle fuel re r (wr_method w) (wr_path w) n) as [r1 e] eqn:H1.
      destruct (handle_all fuel re r1 (regs_from (S n) ws)) as [r2 es] eqn:H2. injection Q as <- <-.
      cbn [List.length]. replace (n + S (List.length ws)) with (S n + List.length ws) by lia. eapply IH; [exact H2|].
      replace r1 with (fst (handle fuel re r (wr_method w) (wr_path w) n)) by (rewrite H1; reflexivity).
      apply handle_below; [|lia]. eapply router_all_imp; [|exact B]. intros p (i & A & L). exists i. split; [exact A|lia]. }
  apply (G rs 0 (new_router ci) _ _ H). apply new_router_below.
Qed.

Section Whole.
Variable W : Type.
Variable user : nat -> handler areq response W.
Variable mid : nat -> middleware areq response W.
Variable files : bytes -> request -> list act.
Variable pages : debug_page -> request -> list act.
Variable k : compressor.
Variable oh : headers -> headers.
Variable oc : cookies -> cookies.
Variable render : cookie -> bytes.
Variable location : wreq -> bytes -> bytes.
Variable redirect_body : Z -> bytes -> bytes.

Lemma has_prefix_iff p s : has_prefix p s = true <-> exists r, s = p ++ r.
Proof.
  unfold has_prefix. rewrite Auth_Proofs.beqb_iff. split.
  - intro E. exists (skipn (List.length p) s). rewrite <- E at 1. symmetry. apply firstn_skipn.
  - intros (r & ->). rewrite firstn_app, Nat.sub_diag, firstn_all. cbn. apply app_nil_r.
Qed.

Lemma target_does t : does user files pages t (target_handler user files pages t).
Proof.
  destruct t as [n|dir|d]; cbn [does target_handler].
  - reflexivity.
  - intros x q w. exists (static_acts files dir (aq_request q)). split; [reflexivity|]. unfold static_acts. split.
    + intros rest E R. rewrite R. rewrite (proj2 (has_prefix_iff dir (rq_path (aq_request q)))) by (exists rest; exact E).
      cbn [beqb orb andb]. rewrite E, skipn_app, Nat.sub_diag, skipn_all. reflexivity.
    + intro N. destruct (has_prefix dir (rq_path (aq_request q))) eqn:H.
      * apply has_prefix_iff in H. destruct H as (r & H). destruct (N r H).
      * cbn [andb]. unfold not_found. cbn [In]. auto.
  - intros x q w. exists (pages (page_of d (aq_request q)) (aq_request q)). split; [reflexivity|].
    intros page I D. f_equal. remember (rq_path (aq_request q)) as p0 eqn:E. unfold page_of.
    cbn [endpoints List.app map In] in I.
    repeat (destruct I as [I|I]; [injection I as I1 I2; rewrite <- E, <- I1, <- I2 in *; destruct D as [[-> [D|(n & D)]]|[D1 D2]];
      first [discriminate|injection D2 as <-; reflexivity|reflexivity]|]). destruct I.
Qed.

Lemma entry_answers e x q mc w evs w' b fin :
  (let (o, w1) := entry_handler user mid files pages e x (AReq q mc) w in answers (sends k oh oc render location redirect_body q) w1 o evs w' b fin) ->
  answered_by user mid files pages (sends k oh oc render location redirect_body q) e x q mc w evs w' b fin.
Proof.
  intro A. exists (target_handler user files pages (en_target e)), (entry_handler user mid files pages e). split; [apply target_does|]. split.
  - unfold entry_handler. pose proof (registered_nested (map (option_map mid) (en_common e)) (map (option_map mid) (en_own e))
      (target_handler user files pages (en_target e))) as N. rewrite <- present_app, <- map_app in N. exact N.
  - destruct (entry_handler user mid files pages e x (AReq q mc) w) as [o w1]. exact A.
Qed.

(** What is called is one of the registrations, and its pattern reads the request. *)
Lemma whole_sound grow fuel re ci context mapping rs0 cs rs a0 x0 a xs f q ts buf x w evs w' b fin :
  resources context mapping rs0 -> wires [VMux [] []] cs rs ->
  new_app fuel re ci context mapping = (a0, x0) -> smooth x0 -> acalls grow fuel re a0 cs = (a, xs) -> Forall smooth xs ->
  ordinary re ci (rs0 ++ rs) -> (blen (rq_path q) < 65536)%N -> segments_of (rq_path q) ts -> List.length buf = 19 ->
  app_serve user mid files pages k oh oc render location redirect_body f re a q buf x w = (evs, w', b, fin) ->
  (visible evs = [EvStatus 404] /\ w' = w /\ received b = (404%Z, [], []) /\ fin = SDone) \/
  (visible evs = [] /\ w' = w /\ received b = (200%Z, [], []) /\ fin <> SDone) \/
  (exists i r ks bs mc evs', leads re ci (rs0 ++ rs) (xq_method (rq_x q)) i r ks /\ reads_as ci (re_match re) ks ts bs /\
     sees mc q bs /\ visible evs = EvRun i :: evs' /\
     answered_by user mid files pages (sends k oh oc render location redirect_body q) (wr_entry r) x q mc w evs' w' b fin).
Proof.
  intros R Wi E0 S0 E Sm Or Bl Sg Bu Sv. pose proof (program_wired _ _ _ _ _ _ _ _ _ _ _ _ _ R Wi E0 S0 E Sm) as H.
  pose proof (app_serve_cases W user mid files pages k oh oc render location redirect_body f re a q buf x w (wired_router _ _ _ _ _ H)) as C.
  rewrite Sv in C. destruct H as [H En].
  destruct (dispatch_request f re (ap_router a) (xq_method (rq_x q)) (rq_path q) buf) as [|i rec segs| |] eqn:D.
  - left. destruct C as (C1 & -> & -> & ->). auto.
  - right. right. destruct C as (e & evs' & Ne & V & A). destruct (ordinary_regs _ _ _ Or) as [O1 O2].
    destruct (routed_sound _ _ _ _ _ _ _ _ _ _ _ _ _ _ H O2 Bl Sg Bu D) as (mth' & text & ks & bs & I & M & P & Rd & Vs).
    apply repeat_combine in I. destruct I as [I _]. apply in_regs_from in I. destruct I as (j & r & Nr & Q). injection Q as -> -> ->. cbn [Nat.add] in *.
    rewrite En, nth_error_map, Nr in Ne. cbn in Ne. injection Ne as <-.
    exists j, r, ks, bs, (MCtx (xq_method (rq_x q)) (rq_path q) rec segs), evs'. split; [split; auto|]. split; [exact Rd|].
    split; [split; [reflexivity|]; split; [reflexivity|]; exact Vs|]. split; [exact V|]. apply entry_answers. exact A.
  - right. left. destruct C as (C1 & -> & -> & ->). repeat split; auto; discriminate.
  - right. left. destruct C as (C1 & -> & -> & ->). repeat split; auto; discriminate.
Qed.

(** The most specific of the registrations that read the request answers it; if there is
    none, the client gets 404. *)
Lemma whole_answers grow fuel re ci context mapping rs0 cs rs a0 x0 a xs q ts buf :
  resources context mapping rs0 -> wires [VMux [] []] cs rs ->
  new_app fuel re ci context mapping = (a0, x0) -> smooth x0 -> acalls grow fuel re a0 cs = (a, xs) -> Forall smooth xs ->
  ordinary re ci (rs0 ++ rs) -> (blen (rq_path q) < 65536)%N -> segments_of (rq_path q) ts -> List.length buf = 19 ->
  clear_choice re ci (rs0 ++ rs) (xq_method (rq_x q)) ts ->
  exists k0, forall f x w evs w' b fin,
    app_serve user mid files pages k oh oc render location redirect_body (k0 + f) re a q buf x w = (evs, w', b, fin) ->
    ((forall i r ks bs, leads re ci (rs0 ++ rs) (xq_method (rq_x q)) i r ks -> ~ reads_as ci (re_match re) ks ts bs) ->
     visible evs = [EvStatus 404] /\ w' = w /\ received b = (404%Z, [], []) /\ fin = SDone) /\
    ((exists i r ks bs, leads re ci (rs0 ++ rs) (xq_method (rq_x q)) i r ks /\ reads_as ci (re_match re) ks ts bs) ->
     exists i r ks bs mc evs', leads re ci (rs0 ++ rs) (xq_method (rq_x q)) i r ks /\ reads_as ci (re_match re) ks ts bs /\
       (forall i2 r2 ks2 bs2, leads re ci (rs0 ++ rs) (xq_method (rq_x q)) i2 r2 ks2 -> reads_as ci (re_match re) ks2 ts bs2 -> ~ more_specific ks2 ks) /\
       sees mc q bs /\ visible evs = EvRun i :: evs' /\
       answered_by user mid files pages (sends k oh oc render location redirect_body q) (wr_entry r) x q mc w evs' w' b fin).
Proof.
  intros R Wi E0 S0 E Sm Or Bl Sg Bu [C1 C2]. pose proof (program_wired _ _ _ _ _ _ _ _ _ _ _ _ _ R Wi E0 S0 E Sm) as H.
  pose proof (wired_router _ _ _ _ _ H) as RA. destruct H as [H En]. destruct (ordinary_regs _ _ _ Or) as [O1 O2].
  set (all := rs0 ++ rs) in *. set (mth := xq_method (rq_x q)) in *.
  assert (NC : forall ks, not_cut ci (re_match re) (as_routes re ci all mth) ts ks ->
    not_cut ci (re_match re) (route_of (re_ok re) ci (combine (regs_from 0 all) (repeat Registered (List.length all))) mth) ts ks).
  { intros ks N p0 p p2 bs Q Q2 Rd. destruct (N p0 p p2 bs Q Q2 Rd) as [A|[A|(A & rg & p0' & p' & bs' & A2 & A3)]]; [left; exact A|right; left|right; right].
    - intros rg p0' p' bs' Ro. apply (A rg). apply routes_are. exact Ro.
    - split; [intros rg1 ks1 Ro; apply (A rg1); apply routes_are; exact Ro|]. exists rg, p0', p', bs'. split; [apply routes_are; exact A2|exact A3]. }
  assert (Ro : forall rg ks, route_of (re_ok re) ci (combine (regs_from 0 all) (repeat Registered (List.length all))) mth rg ks ->
     List.length ks <= 19 /\ any_only_last ks /\ calm_on ci ts ks /\
     not_cut ci (re_match re) (route_of (re_ok re) ci (combine (regs_from 0 all) (repeat Registered (List.length all))) mth) ts ks).
  { intros rg ks Q. apply routes_are in Q. destruct Q as (i & r & _ & L). destruct (C1 _ _ _ L) as (A1 & A2 & A3 & A4).
    split; [exact A1|]. split; [exact A2|]. split; [exact A3|]. apply NC. exact A4. }
  destruct (complete_routing _ _ _ _ _ _ mth _ _ _ H O1 O2 Bl Sg Bu (fun rg ks Q => proj2 (Ro rg ks Q))) as (k0 & K1 & K2).
  exists k0. intros f x w evs w' b fin Sv.
  pose proof (app_serve_cases W user mid files pages k oh oc render location redirect_body (k0 + f) re a q buf x w RA) as C.
  rewrite Sv in C. fold mth in C. split.
  - intro N. rewrite K2 in C; [destruct C as (A1 & -> & -> & ->); auto|].
    intros rg ks bs Q. apply routes_are in Q. destruct Q as (i & r & _ & L). exact (N _ _ _ _ L).
  - intros (i & r & ks & bs & L & Rd). destruct K1 as (h & rec & segs & D).
    { exists (wr_method r, wr_path r, i), ks, bs. split; [apply routes_are; exists i, r; split; [reflexivity|exact L]|exact Rd]. }
    rewrite D in C. destruct C as (e & evs' & Ne & V & A).
    assert (Gl : forall rg1 ks1 bs1 rg2 ks2 bs2, route_of (re_ok re) ci (combine (regs_from 0 all) (repeat Registered (List.length all))) mth rg1 ks1 ->
      route_of (re_ok re) ci (combine (regs_from 0 all) (repeat Registered (List.length all))) mth rg2 ks2 ->
      reads_as ci (re_match re) ks1 ts bs1 -> reads_as ci (re_match re) ks2 ts bs2 -> same_globs ci ks1 ks2).
    { intros rg1 ks1 bs1 rg2 ks2 bs2 Q1 Q2. apply routes_are in Q1, Q2. destruct Q1 as (i1 & r1 & _ & L1). destruct Q2 as (i2 & r2 & _ & L2).
      exact (C2 _ _ _ _ _ _ _ _ L1 L2). }
    destruct (specific_routing _ _ _ _ _ _ mth _ _ _ _ _ _ _ H O1 O2 Bl Sg Bu Ro Gl (D f)) as (rg & ks1 & bs1 & B1 & B2 & B3 & B4 & B5).
    apply routes_are in B1. destruct B1 as (j & r1 & -> & L1). cbn in B2. subst h.
    rewrite En, nth_error_map in Ne. destruct L1 as (N1 & M1 & P1). rewrite N1 in Ne. cbn in Ne. injection Ne as <-.
    exists j, r1, ks1, bs1, (MCtx mth (rq_path q) rec segs), evs'. split; [split; auto|]. split; [exact B3|]. split.
    + intros i2 r2 ks2 bs2 L2 Rd2. apply (B5 (wr_method r2, wr_path r2, i2) ks2 bs2); [|exact Rd2]. apply routes_are. exists i2, r2. split; [reflexivity|exact L2].
    + split; [split; [reflexivity|]; split; [reflexivity|]; exact B4|]. split; [exact V|]. apply entry_answers. exact A.
Qed.

End Whole.
