(** * Proofs about whole applications: common middlewares *)
From Coq Require Import List NArith ZArith Ascii String Bool Lia Arith Permutation.
From Verif Require Import GoBase Http_Model Glob_Model Pattern_Model Url_Model Match_Model Router_Model Auth_Model Chain_Model Serve_Model
  Mux_Model Resp_Model Cors_Model App_Model Chain_Spec Chain_Proofs Mux_Spec Mux_Proofs App_Spec AppRoute_Proofs.
Import ListNotations.
Local Open Scope string_scope.
Local Open Scope list_scope.
Local Open Scope nat_scope.

Definition starts (xs : list mref) (v : vmux) : Prop := exists ys, vm_common v = xs ++ ys.
Definition mux_inv (xs : list mref) (st : mstate) : Prop := exists vs, refines st vs /\ Forall (starts xs) vs.

Lemma mux_start grow xs : mux_inv xs (fst (mcall_step grow new_mux (CCommon 0 xs))).
Proof.
  destruct (step_refines grow new_mux [VMux [] []] (CCommon 0 xs) [VMux [] xs] GNothing refines_init) as (st & E & R).
  - exact (vs_common [] (VMux [] []) [] xs).
  - intros [].
  - rewrite E. exists [VMux [] xs]. split; [exact R|]. constructor; [|constructor]. exists []. cbn. rewrite app_nil_r. reflexivity.
Qed.

Lemma mux_step grow xs st c st' g : mux_inv xs st -> mcall_step grow st c = (st', g) ->
  mux_inv xs st' /\ forall method path common own h, g = GReg method path common own h -> exists ys, common = xs ++ ys.
Proof.
  intros (vs & R & F) E.
  assert (Same : forall g0, mcall_step grow st c = (st, g0) -> (forall method path common own h, g0 <> GReg method path common own h) ->
     mux_inv xs st' /\ forall method path common own h, g = GReg method path common own h -> exists ys, common = xs ++ ys).
  { intros g0 E0 N. rewrite E in E0. injection E0 as -> ->. split; [exists vs; auto|]. intros. edestruct N; eassumption. }
  assert (Find : forall m x, nth_error (ms_muxes st) m = Some x -> exists v, nth_error vs m = Some v /\ mux_ok (ms_heap st) x v /\ starts xs v).
  { intros m x X. destruct (nth_error vs m) as [v|] eqn:V.
    - exists v. split; [reflexivity|]. split; [exact (rf_ok _ _ R _ _ _ X V)|]. rewrite Forall_forall in F. apply F. eapply nth_error_In. exact V.
    - apply nth_error_None in V. rewrite <- (rf_len _ _ R) in V. apply nth_error_None in V. congruence. }
  assert (Step : forall vs' g0, value_step vs c vs' g0 -> ~ idle_prefix vs c -> Forall (starts xs) vs' -> mux_inv xs st' /\ g = g0).
  { intros vs' g0 V N F'. destruct (step_refines grow st vs c vs' g0 R V N) as (st2 & E2 & R2).
    rewrite E in E2. injection E2 as -> ->. split; [exists vs'; auto|reflexivity]. }
  destruct c as [m|m p|m ys|m method path own h].
  - destruct (nth_error (ms_muxes st) m) as [x|] eqn:X.
    + destruct (Find m x X) as (v & V & _ & St). destruct (Step _ _ (vs_clone vs m v V)) as [A ->]; [intros []|apply Forall_app; auto|].
      split; [exact A|]. discriminate.
    + apply (Same GNoMux); [cbn [mcall_step]; rewrite X; reflexivity|discriminate].
  - destruct (nth_error (ms_muxes st) m) as [x|] eqn:X.
    + destruct (Find m x X) as (v & V & (P & _) & St).
      destruct (Nat.eqb (List.length p) 0 || beqb p (mx_prefix x)) eqn:Q.
      * apply (Same (GMux m)); [cbn [mcall_step]; rewrite X, Q; reflexivity|discriminate].
      * apply orb_false_iff in Q. destruct Q as [Q1 Q2].
        destruct (Step _ _ (vs_route vs m v p _ V (resolve_joined (vm_prefix v) p))) as [A ->].
        -- intros [->|(y & Y & Py)]; [discriminate|]. apply beqb_false in Q2. congruence.
        -- apply Forall_app. split; [exact F|]. constructor; [exact St|constructor].
        -- split; [exact A|]. discriminate.
    + apply (Same GNoMux); [cbn [mcall_step]; rewrite X; reflexivity|discriminate].
  - destruct (nth_error (ms_muxes st) m) as [x|] eqn:X.
    + destruct (Find m x X) as (v & V & _ & St). apply nth_error_split in V. destruct V as (before & after & -> & <-).
      destruct (Step _ _ (vs_common before v after ys)) as [A ->].
      * intros [].
      * apply Forall_app in F. destruct F as [F1 F2]. inversion F2; subst. apply Forall_app. split; [assumption|]. constructor; [|assumption].
        destruct St as [zs Z]. exists (zs ++ ys). cbn. rewrite Z, app_assoc. reflexivity.
      * split; [exact A|]. discriminate.
    + apply (Same GNoMux); [cbn [mcall_step]; rewrite X; reflexivity|discriminate].
  - destruct (nth_error (ms_muxes st) m) as [x|] eqn:X.
    + destruct (Find m x X) as (v & V & _ & St).
      destruct (Step _ _ (vs_handle vs m v method path _ own h V (resolve_joined (vm_prefix v) path))) as [A ->]; [intros []|exact F|].
      split; [exact A|]. intros ? ? ? ? ? G. injection G as <- <- <- <- <-. exact St.
    + apply (Same GNoMux); [cbn [mcall_step]; rewrite X; reflexivity|discriminate].
Qed.

(** ** The entries *)

Definition entry_starts (xs : list mref) (e : entry) : Prop :=
  match en_target e with TUser _ => exists ys, en_common e = xs ++ ys | _ => en_common e = [] /\ en_own e = [] end.
Definition user_entry (e : entry) : Prop := match en_target e with TUser _ => True | _ => False end.

Record app_inv (ok : entry -> Prop) (a : app) : Prop := {
  ai_router : router_all (below (List.length (ap_entries a))) (ap_router a);
  ai_entries : Forall ok (ap_entries a)
}.

Lemma register_inv ok fuel re a method path e a' x : app_inv ok a -> ok e ->
  register fuel re a method path e = (a', x) -> app_inv ok a' /\ ap_mux a' = ap_mux a.
Proof.
  intros [R E] K. unfold register.
  destruct (handle fuel re (ap_router a) method path (List.length (ap_entries a))) as [r y] eqn:H. intro Q. injection Q as <- <-.
  split; [|reflexivity]. constructor; cbn [ap_router ap_entries].
  - rewrite app_length. cbn [List.length]. replace r with (fst (handle fuel re (ap_router a) method path (List.length (ap_entries a)))) by (rewrite H; reflexivity).
    apply handle_below; [|lia]. eapply router_all_imp; [|exact R]. intros p (i & A & L). exists i. split; [exact A|lia].
  - apply Forall_app. split; [exact E|]. constructor; [exact K|constructor].
Qed.

Lemma debug_inv (ok : entry -> Prop) fuel re prefix (K : forall d, ok (Entry [] [] (TDebug d))) l : forall a a' x, app_inv ok a ->
  register_debug fuel re a prefix l = (a', x) -> app_inv ok a' /\ ap_mux a' = ap_mux a.
Proof.
  induction l as [|[p d] l IH]; intros a a' x I E; cbn [register_debug] in E.
  - injection E as <- <-. auto.
  - destruct (register fuel re a (str "GET") (resolve_path prefix p) (Entry [] [] (TDebug d))) as [a1 y] eqn:G.
    destruct (register_inv ok _ _ _ _ _ _ _ _ I (K d) G) as [I1 M1].
    destruct y; try (injection E as <- <-; auto). destruct (IH _ _ _ I1 E) as [I2 M2]. split; [exact I2|congruence].
Qed.

Lemma acall_inv (ok : entry -> Prop) xs grow fuel re a c a' x :
  (forall common own h, (exists ys, common = xs ++ ys) -> ok (Entry common own (TUser h))) ->
  ((exists m, c = ADebug m) -> forall d, ok (Entry [] [] (TDebug d))) ->
  app_inv ok a -> mux_inv xs (ap_mux a) -> acall_step grow fuel re a c = (a', x) -> app_inv ok a' /\ mux_inv xs (ap_mux a').
Proof.
  intros KU KD I M E. destruct c as [c|m]; cbn [acall_step] in E.
  - destruct (mcall_step grow (ap_mux a) c) as [st g] eqn:G. destruct (mux_step grow xs _ _ _ _ M G) as [M' GR].
    assert (I1 : app_inv ok (App st (ap_router a) (ap_entries a))) by (destruct I; constructor; assumption).
    destruct g as [n| |method path common own h|]; try (injection E as <- <-; split; assumption).
    destruct (register fuel re (App st (ap_router a) (ap_entries a)) method path (Entry common own (TUser h))) as [a2 y] eqn:Q.
    injection E as <- <-. destruct (register_inv ok _ _ _ _ _ _ _ _ I1 (KU common own h (GR _ _ _ _ _ eq_refl)) Q) as [I2 M2].
    split; [exact I2|]. rewrite M2. exact M'.
  - destruct (nth_error (ms_muxes (ap_mux a)) m) as [mx|]; [|injection E as <- <-; auto].
    destruct (register_debug fuel re a (mx_prefix mx) debug_endpoints) as [a2 y] eqn:Q. injection E as <- <-.
    destruct (debug_inv ok fuel re _ (KD (ex_intro _ m eq_refl)) _ _ _ _ I Q) as [I2 M2]. split; [exact I2|]. rewrite M2. exact M.
Qed.

Lemma acalls_inv (ok : entry -> Prop) xs grow fuel re cs :
  (forall common own h, (exists ys, common = xs ++ ys) -> ok (Entry common own (TUser h))) ->
  ((exists m, In (ADebug m) cs) -> forall d, ok (Entry [] [] (TDebug d))) ->
  forall a, app_inv ok a -> mux_inv xs (ap_mux a) -> app_inv ok (fst (acalls grow fuel re a cs)).
Proof.
  induction cs as [|c cs IH]; intros KU KD a I M; cbn [acalls]; [exact I|].
  destruct (acall_step grow fuel re a c) as [a1 x] eqn:E.
  destruct (acall_inv ok xs grow fuel re a c a1 x KU) as [I1 M1]; auto.
  { intros (m & ->). apply KD. exists m. left. reflexivity. }
  assert (KD' : (exists m, In (ADebug m) cs) -> forall d, ok (Entry [] [] (TDebug d))).
  { intros (m & In'). apply KD. exists m. right. exact In'. }
  specialize (IH KU KD' a1 I1 M1).
  destruct (acalls grow fuel re a1 cs) as [a2 ys]. exact IH.
Qed.

Lemma new_inv (ok : entry -> Prop) fuel re ci context mapping : (forall p, mapping <> None -> ok (Entry [] [] (TStatic p))) ->
  app_inv ok (fst (new_app fuel re ci context mapping)) /\ ap_mux (fst (new_app fuel re ci context mapping)) = new_mux.
Proof.
  intro K. unfold new_app, new_mux_handler.
  assert (I0 : app_inv ok (App new_mux (new_router ci) [])) by (constructor; [apply new_router_below|constructor]).
  destruct mapping as [m|]; [|split; [exact I0|reflexivity]].
  match goal with |- context [register ?a ?b ?c ?d ?p ?e] => destruct (register a b c d p e) as [a' x] eqn:G end. cbn [fst].
  destruct (register_inv ok _ _ _ _ _ _ _ _ I0 (K _ ltac:(discriminate)) G) as [A B]. split; [exact A|exact B].
Qed.

(** The application after a program that begins by giving common middlewares. *)
Definition set_up grow fuel re ci context mapping xs cs : app :=
  fst (acalls grow fuel re (fst (new_app fuel re ci context mapping)) (AMux (CCommon 0 xs) :: cs)).

Lemma set_up_inv (ok : entry -> Prop) grow fuel re ci context mapping xs cs :
  (forall common own h, (exists ys, common = xs ++ ys) -> ok (Entry common own (TUser h))) ->
  ((exists m, In (ADebug m) cs) -> forall d, ok (Entry [] [] (TDebug d))) ->
  (forall p, mapping <> None -> ok (Entry [] [] (TStatic p))) ->
  app_inv ok (set_up grow fuel re ci context mapping xs cs).
Proof.
  intros KU KD KS. unfold set_up. destruct (new_inv ok fuel re ci context mapping KS) as [I0 M0].
  set (a0 := fst (new_app fuel re ci context mapping)) in *. cbn [acalls acall_step].
  pose proof (mux_start grow xs) as M1. rewrite <- M0 in M1.
  destruct (mcall_step grow (ap_mux a0) (CCommon 0 xs)) as [st g] eqn:G. cbn [fst] in M1.
  assert (NG : forall method path common own h, g <> GReg method path common own h).
  { intros method path common own h Eg. subst g. rewrite M0 in G. unfold mcall_step in G. cbn [new_mux ms_muxes nth_error] in G.
    destruct (Nat.ltb 0 (List.length xs)); [|discriminate].
    match type of G with (let (_, _) := ?t in _) = _ => destruct t end. discriminate. }
  assert (I1 : app_inv ok (App st (ap_router a0) (ap_entries a0))) by (destruct I0; constructor; assumption).
  pose proof (acalls_inv ok xs grow fuel re cs KU KD (App st (ap_router a0) (ap_entries a0)) I1 M1) as R.
  destruct g as [n| |method path common own h|]; try (edestruct NG; reflexivity);
  destruct (acalls grow fuel re (App st (ap_router a0) (ap_entries a0)) cs) as [a2 zs]; exact R.
Qed.

(** ** Serving *)

Lemma present_app {A} (l1 l2 : list (option A)) : present (l1 ++ l2) = present l1 ++ present l2.
Proof. induction l1 as [|[a|] l1 IH]; cbn; [reflexivity|rewrite IH; reflexivity|exact IH]. Qed.

Lemma nested_split {H : Type} (h : H) l1 : forall l2 o, nested h (l1 ++ l2) o -> exists i, nested h l2 i /\ nested i l1 o.
Proof.
  induction l1 as [|m l1 IH]; intros l2 o N; cbn [List.app] in N.
  - exists o. split; [exact N|constructor].
  - inversion N as [|? ? inner N' E]; subst. destruct (IH _ _ N') as (i & A & B). exists i. split; [exact A|]. constructor. exact B.
Qed.

Section Serve.
Variable W : Type.
Variables (user : nat -> handler areq response W) (mid : nat -> middleware areq response W).
Variable files : bytes -> request -> list act.
Variable pages : debug_page -> request -> list act.

(** An entry that starts with middlewares that shut a request. *)
Lemma entry_shut xs x q out e : shuts (present (map (option_map mid) xs)) x q out -> user_entry e -> entry_starts xs e ->
  forall mc w, entry_handler user mid files pages e x (AReq q mc) w = out mc w.
Proof.
  intros Sh U St mc w. unfold user_entry, entry_starts in *. destruct (en_target e) as [h|p|d] eqn:T; try contradiction.
  destruct St as [ys C]. unfold entry_handler.
  pose proof (registered_nested (map (option_map mid) (en_common e)) (map (option_map mid) (en_own e))
    (target_handler user files pages (en_target e))) as N.
  rewrite C, map_app, present_app, <- app_assoc in N. rewrite C, map_app.
  apply nested_split in N. destruct N as (i & _ & N). exact (Sh _ _ mc w N).
Qed.

Section Answer.
Variable k : compressor.
Variable oh : headers -> headers.
Variable oc : cookies -> cookies.
Variable render : cookie -> bytes.
Variable location : wreq -> bytes -> bytes.
Variable redirect_body : Z -> bytes -> bytes.

(** What happens, by cases. *)
Lemma app_serve_cases fuel re a q buf x w :
  router_all (below (List.length (ap_entries a))) (ap_router a) ->
  let '(evs, w', b, fin) := app_serve user mid files pages k oh oc render location redirect_body fuel re a q buf x w in
  match dispatch_request fuel re (ap_router a) (xq_method (rq_x q)) (rq_path q) buf with
  | NotFound => visible evs = [EvStatus 404] /\ w' = w /\ b = base_write_header base_new 404 /\ fin = SDone
  | ServeCrash => visible evs = [] /\ w' = w /\ b = base_new /\ fin = SCrash
  | ServeRuns => visible evs = [] /\ w' = w /\ b = base_new /\ fin = SRuns
  | Calls i rec segs => exists e evs', nth_error (ap_entries a) i = Some e /\ visible evs = EvRun i :: evs' /\
      let (o, w1) := entry_handler user mid files pages e x (AReq q (MCtx (xq_method (rq_x q)) (rq_path q) rec segs)) w in
      answers (sends k oh oc render location redirect_body q) w1 o evs' w' b fin
  end.
Proof.
  intro R. unfold app_serve, serve.
  destruct (dispatch_request fuel re (ap_router a) (xq_method (rq_x q)) (rq_path q) buf) as [|i rec segs| |] eqn:D; cbn [fst snd];
    try (repeat split; reflexivity).
  pose proof (dispatch_below _ _ _ _ _ _ _ _ _ _ R D) as L.
  destruct (nth_error (ap_entries a) i) as [e|] eqn:E.
  2:{ apply nth_error_None in E. lia. }
  unfold app_code. rewrite E. cbn [fst snd].
  destruct (entry_handler user mid files pages e x (AReq q (MCtx (xq_method (rq_x q)) (rq_path q) rec segs)) w) as [o w1] eqn:H.
  destruct o as [r [er|]|v]; cbn [answer].
  - destruct r; exists e; eexists; (split; [reflexivity|]); (split; [reflexivity|]); rewrite H; constructor.
  - destruct r as [r|].
    + destruct (app_write k oh oc render location redirect_body q r (MCtx (xq_method (rq_x q)) (rq_path q) rec segs) (w1, base_new)) as [wo wb] eqn:Q.
      unfold app_write in Q. cbn [fst snd] in Q.
      assert (S1 : sends k oh oc render location redirect_body q r = (wo, snd wb) /\ fst wb = w1).
      { unfold sends. destruct (write oh oc render location redirect_body r _ (@Plain k base_new)) as [o2 w2]. injection Q as <- <-. split; reflexivity. }
      destruct S1 as [S1 S2]. destruct wo as [[er|]|]; exists e; eexists; (split; [reflexivity|]); (split; [reflexivity|]);
      rewrite H, S2; constructor; exact S1.
    + exists e. eexists. split; [reflexivity|]. split; [reflexivity|]. rewrite H. constructor.
  - exists e. eexists. split; [reflexivity|]. split; [reflexivity|]. rewrite H. constructor.
Qed.
End Answer.
End Serve.

(** ** The theorems *)

(** A request that the common middlewares shut out. *)
Lemma shut_out (W : Type) (user : nat -> handler areq response W) mid files pages k oh oc render location redirect_body
    grow fuel re ci context xs cs f q buf x w out :
  no_debug cs -> shuts (present (map (option_map mid) xs)) x q out ->
  let '(evs, w', b, fin) := app_serve user mid files pages k oh oc render location redirect_body f re
      (fst (acalls grow fuel re (fst (new_app fuel re ci context None)) (AMux (CCommon 0 xs) :: cs))) q buf x w in
  (visible evs = [EvStatus 404] /\ w' = w /\ received b = (404%Z, [], []) /\ fin = SDone) \/
  (visible evs = [] /\ w' = w /\ received b = (200%Z, [], []) /\ fin <> SDone) \/
  (exists i mc evs', mc_method mc = xq_method (rq_x q) /\ mc_path mc = rq_path q /\ visible evs = EvRun i :: evs' /\
     answers (sends k oh oc render location redirect_body q) (snd (out mc w)) (fst (out mc w)) evs' w' b fin).
Proof.
  intros ND Sh. fold (set_up grow fuel re ci context None xs cs). set (a := set_up grow fuel re ci context None xs cs).
  assert (I : app_inv (fun e => user_entry e /\ entry_starts xs e) a).
  { apply set_up_inv.
    - intros common own h H. split; [exact I|exact H].
    - intros (m & H). destruct (ND m H).
    - intros p H. congruence. }
  destruct I as [R E].
  pose proof (app_serve_cases W user mid files pages k oh oc render location redirect_body f re a q buf x w R) as C.
  destruct (app_serve user mid files pages k oh oc render location redirect_body f re a q buf x w) as [[[evs w'] b] fin].
  destruct (dispatch_request f re (ap_router a) (xq_method (rq_x q)) (rq_path q) buf) as [|i rec segs| |].
  - destruct C as (A & B & -> & D). left. repeat split; assumption.
  - destruct C as (e & evs' & N & V & An). right. right. exists i, (MCtx (xq_method (rq_x q)) (rq_path q) rec segs), evs'.
    split; [reflexivity|]. split; [reflexivity|]. split; [exact V|].
    rewrite Forall_forall in E. destruct (E e (nth_error_In _ _ N)) as [U St].
    rewrite (entry_shut W user mid files pages xs x q out e Sh U St) in An. destruct (out _ w). exact An.
  - destruct C as (A & B & -> & ->). right. left. repeat split; try assumption. discriminate.
  - destruct C as (A & B & -> & ->). right. left. repeat split; try assumption. discriminate.
Qed.

Lemma app_serve_same (W : Type) (u1 u2 : nat -> handler areq response W) m1 m2 files pages k oh oc render location redirect_body f re a q buf x w :
  (forall e, In e (ap_entries a) -> forall mc w0, entry_handler u1 m1 files pages e x (AReq q mc) w0 = entry_handler u2 m2 files pages e x (AReq q mc) w0) ->
  app_serve u1 m1 files pages k oh oc render location redirect_body f re a q buf x w =
  app_serve u2 m2 files pages k oh oc render location redirect_body f re a q buf x w.
Proof.
  intro H. unfold app_serve, serve. destruct (dispatch_request f re (ap_router a) (xq_method (rq_x q)) (rq_path q) buf) as [|i rec segs| |]; try reflexivity.
  unfold app_code. destruct (nth_error (ap_entries a) i) as [e|] eqn:E; [|reflexivity].
  rewrite (H e (nth_error_In _ _ E)). reflexivity.
Qed.

(** Nothing of the code behind them is seen. *)
Lemma shut_same (W : Type) (u1 u2 : nat -> handler areq response W) m1 m2 files pages k oh oc render location redirect_body
    grow fuel re ci context mapping xs cs f q buf x w out :
  shuts (present (map (option_map m1) xs)) x q out -> shuts (present (map (option_map m2) xs)) x q out ->
  let a := fst (acalls grow fuel re (fst (new_app fuel re ci context mapping)) (AMux (CCommon 0 xs) :: cs)) in
  app_serve u1 m1 files pages k oh oc render location redirect_body f re a q buf x w =
  app_serve u2 m2 files pages k oh oc render location redirect_body f re a q buf x w.
Proof.
  intros S1 S2. cbv zeta. fold (set_up grow fuel re ci context mapping xs cs). set (a := set_up grow fuel re ci context mapping xs cs).
  assert (I : app_inv (entry_starts xs) a).
  { apply set_up_inv.
    - intros common own h H. exact H.
    - intros _ d. split; reflexivity.
    - intros p _. split; reflexivity. }
  destruct I as [_ E]. apply app_serve_same. intros e He mc w0. rewrite Forall_forall in E. specialize (E e He).
  destruct e as [common own t]. destruct t as [h|p|d].
  - rewrite (entry_shut W u1 m1 files pages xs x q out (Entry common own (TUser h)) S1 I E), (entry_shut W u2 m2 files pages xs x q out (Entry common own (TUser h)) S2 I E). reflexivity.
  - destruct E as [E1 E2]. cbn in E1, E2. subst. reflexivity.
  - destruct E as [E1 E2]. cbn in E1, E2. subst. reflexivity.
Qed.
