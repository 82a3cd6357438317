(** * Proofs about panics while a response is written *)
From Coq Require Import List NArith ZArith Ascii String Bool Lia Arith.
From Verif Require Import GoBase Http_Model Glob_Model Pattern_Model Url_Model Match_Model Router_Model Auth_Model Auth_Proofs Chain_Model Serve_Model
  Mux_Model Resp_Model Cors_Model App_Model Chain_Spec Mux_Spec Resp_Spec App_Spec Recover_Spec Resp_Proofs RespBody_Proofs RespFail_Proofs
  Witness_Proofs CorsCases_Proofs App_Proofs AppMid_Proofs AppCases_Proofs.
Import ListNotations.
Local Open Scope string_scope.
Local Open Scope list_scope.
Local Open Scope nat_scope.

Section Breaking.
Variable k : compressor.
Variable oh : headers -> headers.
Variable oc : cookies -> cookies.
Variable render : cookie -> bytes.
Variable location : wreq -> bytes -> bytes.
Variable redirect_body : Z -> bytes -> bytes.

Notation write := (@Resp_Model.write k oh oc render location redirect_body).
Notation write_cut := (@Resp_Model.write_cut k oh oc render location redirect_body).

(** Writers that have not failed, under any number of compressors. *)
Fixpoint unfailed (w : rw k) : Prop :=
  match w with Plain _ => True | Comp _ e w' => e = false /\ unfailed w' end.
Definition open_takes (w : rw k) (_ : bytes) : Prop := unfailed w /\ sends_body (rw_base w).

Lemma unfailed_map f (w : rw k) : unfailed w -> unfailed (rw_map f w).
Proof. induction w as [b|s e w IH]; cbn; [auto|]. intros [-> H]. auto. Qed.
Lemma final_map f (w : rw k) : rw_base (rw_map f w) = f (rw_base w).
Proof. induction w as [b|s e w IH]; cbn; auto. Qed.

Lemma open_write (w : rw k) : forall bs, open_takes w [] -> exists w', rw_write w bs = (w', true) /\ open_takes w' [].
Proof.
  induction w as [b|s e w IH]; intros bs [U S].
  - destruct (base_taken b bs S) as (b' & E & S' & _). exists (Plain b'). cbn [rw_write]. rewrite E. split; [reflexivity|]. split; [exact I|exact S'].
  - destruct U as [-> U]. cbn [rw_write]. destruct (zwrite k s bs) as [s' o]. destruct o as [|x o].
    + eexists. split; [reflexivity|]. split; [split; [reflexivity|exact U]|exact S].
    + destruct (IH (x :: o) (conj U S)) as (w' & E & U' & S'). rewrite E. eexists. split; [reflexivity|]. split; [split; [reflexivity|exact U']|exact S'].
Qed.

Lemma open_takes_ok : takes k open_takes.
Proof.
  split.
  - intros w c bs H. destruct (open_write w bs H) as (w' & E & H'). exists w'. split; [exact E|exact H'].
  - intros w c [U S]. destruct w as [b|s e w].
    + split; [exact I|]. destruct S as (st & h & F & A). cbn [rw_base] in F. cbn [rw_flush rw_base]. unfold base_flush.
      rewrite (base_header_stays b 200 _ F). exists st, h. auto.
    + destruct U as [-> U]. cbn [rw_flush]. destruct (zflush k s) as [s' o]. destruct o as [|x o].
      * split; [split; [reflexivity|exact U]|exact S].
      * destruct (open_write w (x :: o) (conj U S)) as (w' & E & U' & S'). rewrite E. split; [split; [reflexivity|exact U']|exact S'].
  - intros w c key v [U (st & h & F & A)]. unfold rw_set. split; [now apply unfailed_map|]. rewrite final_map. exists st, h. auto.
Qed.

(** Adapted handlers panic whatever they write to. *)
Lemma fault_panics l : forall w : rw k, b_final (rw_base w) = None -> acts_fault l -> exists w', run_acts l w = (false, w').
Proof.
  intros w F [I|N]; [exact (acts_panic k l w I)|]. revert w F N.
  induction l as [|a l IH]; intros w F N; [exfalso; apply N; cbn; lia|].
  destruct a as [key v|key v|key|s|bs| |]; cbn [acts_status] in N; cbn [run_acts];
    try (exfalso; apply N; lia); try (apply IH; [unfold rw_set, rw_add, rw_del; rewrite final_map; exact F|exact N]).
  - unfold rw_write_header. rewrite F. destruct ((100 <=? s) && (s <=? 199))%Z eqn:I1.
    + replace ((s <? 100) || (999 <? s))%Z with false by lia. apply IH; [|exact N].
      rewrite final_map. unfold base_write_header. rewrite F, I1. reflexivity.
    + destruct ((s <? 100) || (999 <? s))%Z eqn:O; [eexists; reflexivity|]. exfalso. apply N. lia.
  - eexists; reflexivity.
Qed.

Lemma breaks_writing q r : breaks q r -> forall cut w, unfailed w -> b_final (rw_base w) = None -> fst (write_cut cut r q w) = WPanic.
Proof.
  induction 1 as [hs cs acts H|r h st F P M B E|h url H|cb H|level|level r H IH]; intros cut w U N.
  - cbn [Resp_Model.write_cut]. set (w1 := put_headers _ _ _).
    assert (F1 : b_final (rw_base w1) = None).
    { unfold w1. rewrite put_cookies_eq, put_headers_eq. unfold with_headers. rewrite !final_map. exact N. }
    destruct (fault_panics acts w1 F1 H) as (w' & ->). reflexivity.
  - apply meant_code in M. destruct (body_code st B) as (S1 & S2 & S3).
    destruct (body_taken k oh oc render location redirect_body open_takes open_takes_ok cut r q h w F P) as (w' & A & _).
    + rewrite M. exact S1.
    + split; [apply unfailed_map, U|]. rewrite final_map. unfold base_write_header, base_set. cbn. rewrite N, M, S3.
      eexists. eexists. split; [reflexivity|exact S2].
    + rewrite A. exact E.
  - cbn [Resp_Model.write_cut]. unfold http_redirect.
    match goal with |- context [rw_write_header ?x ?s] => set (w2 := x); assert (F2 : b_final (rw_base w2) = None) end.
    { unfold w2. match goal with |- context [if ?c then _ else _] => destruct c end; unfold rw_set; rewrite !final_map; exact N. }
    unfold rw_write_header. rewrite F2. replace ((hr_status h <? 100) || (999 <? hr_status h))%Z with true by lia. reflexivity.
  - cbn [Resp_Model.write_cut]. cbv zeta. rewrite !H. destruct w; [destruct (wq_major q =? 2)%N|]; reflexivity.
  - reflexivity.
  - cbn [Resp_Model.write_cut]. destruct (compression_algorithm (hget (wq_headers q) (str "Accept-Encoding"))) as [a|] eqn:A; [|now apply IH].
    destruct (get_headers r) as [m|] eqn:G; [|reflexivity]. cbv zeta.
    match goal with |- context [Resp_Model.write_cut ?a1 ?a2 ?a3 ?a4 ?a5 true r q ?x] => set (w1 := x) end.
    assert (X : fst (write_cut true r q w1) = WPanic).
    { apply IH; unfold w1; cbn [unfailed rw_base]; unfold rw_set; [split; [reflexivity|now apply unfailed_map]|rewrite final_map; exact N]. }
    destruct (write_cut true r q w1) as [o w2]. exact X.
Qed.

Lemma breaks_sends q r : breaks (WReq (xq_method (rq_x q)) (xq_headers (rq_x q)) (rq_major q)) r ->
  fst (sends k oh oc render location redirect_body q r) = WPanic.
Proof.
  intro H. pose proof (breaks_writing _ r H false (Plain base_new) I eq_refl) as X. unfold sends, Resp_Model.write in *.
  destruct (write_cut false r _ (Plain base_new)) as [o w']. exact X.
Qed.
End Breaking.

(** Whatever the middlewares are, the request ends by a panic; nobody logs or answers it. *)
Lemma written_crash (W : Type) (user : nat -> handler areq response W) mid files pages k oh oc render location redirect_body
    grow fuel re ci context mapping xs cs f q buf x w r :
  breaks (WReq (xq_method (rq_x q)) (xq_headers (rq_x q)) (rq_major q)) r ->
  let '(evs, w', b, fin) := app_serve user mid files pages k oh oc render location redirect_body f re
      (fst (acalls grow fuel re (fst (new_app fuel re ci context mapping)) (AMux (CCommon 0 xs) :: cs))) q buf x w in
  In (EvWrite r) evs -> fin = SCrash /\ exists i, visible evs = [EvRun i; EvWrite r].
Proof.
  intro B. fold (set_up grow fuel re ci context mapping xs cs). set (a := set_up grow fuel re ci context mapping xs cs).
  assert (Iv : app_inv (fun _ => True) a) by (apply set_up_inv; auto). destruct Iv as [R _].
  pose proof (app_serve_cases W user mid files pages k oh oc render location redirect_body f re a q buf x w R) as C.
  destruct (app_serve user mid files pages k oh oc render location redirect_body f re a q buf x w) as [[[evs w'] b] fin].
  intro I0. assert (IV : In (EvWrite r) (visible evs)) by (apply filter_In; split; [exact I0|reflexivity]).
  pose proof (breaks_sends k oh oc render location redirect_body q r B) as X.
  destruct (dispatch_request f re (ap_router a) (xq_method (rq_x q)) (rq_path q) buf) as [|i rec segs| |].
  - destruct C as (V & _). rewrite V in IV. destruct IV as [IV|[]]. discriminate.
  - destruct C as (e & evs' & N & V & An). rewrite V in IV. destruct IV as [IV|IV]; [discriminate|].
    destruct (entry_handler user mid files pages e x (AReq q (MCtx (xq_method (rq_x q)) (rq_path q) rec segs)) w) as [o w1].
    inversion An; subst; cbn in IV; repeat (destruct IV as [IV|IV]; try discriminate); try contradiction; injection IV as <-;
      match goal with H : sends _ _ _ _ _ _ _ _ = _ |- _ => rewrite H in X; cbn in X; try discriminate X end.
    split; [reflexivity|]. exists i. exact V.
  - destruct C as (V & _). rewrite V in IV. destruct IV.
  - destruct C as (V & _). rewrite V in IV. destruct IV.
Qed.

(** Handlers inside of [PanicRecover]. *)
Lemma recovering (W : Type) (user : nat -> handler areq response W) mid files pages k oh oc render location redirect_body
    grow fuel re ci context j xs cs f q buf x w :
  no_debug cs -> mid j = panic_recover ->
  let '(evs, w', b, fin) := app_serve user mid files pages k oh oc render location redirect_body f re
      (fst (acalls grow fuel re (fst (new_app fuel re ci context None)) (AMux (CCommon 0 (Some j :: xs)) :: cs))) q buf x w in
  (visible evs = [EvStatus 404] /\ w' = w /\ received b = (404%Z, [], []) /\ fin = SDone) \/
  (visible evs = [] /\ w' = w /\ fin <> SDone) \/
  (exists i h ms inner mc, nested (user h) ms inner /\ (forall m, In m ms -> exists n, m = mid n) /\
     mc_method mc = xq_method (rq_x q) /\ mc_path mc = rq_path q /\ w' = snd (inner x (AReq q mc) w) /\
     match fst (inner x (AReq q mc) w) with
     | HPanic (Some v) => exists e, visible evs = [EvRun i; EvLog (Uncaught e); EvStatus 500] /\ received b = (500%Z, [], []) /\ fin = SDone
     | HReturn _ (Some e) => visible evs = [EvRun i; EvLog (Uncaught e); EvStatus 500] /\ received b = (500%Z, [], []) /\ fin = SDone
     | HReturn (Some r) None => b = snd (sends k oh oc render location redirect_body q r) /\
         match fst (sends k oh oc render location redirect_body q r) with
         | Wrote None => visible evs = [EvRun i; EvWrite r] /\ fin = SDone
         | Wrote (Some e) => visible evs = [EvRun i; EvWrite r; EvLog (WriteFailed e)] /\ fin = SDone
         | WPanic => visible evs = [EvRun i; EvWrite r] /\ fin = SCrash
         end
     | HReturn None None | HPanic None => visible evs = [EvRun i] /\ fin = SCrash
     end).
Proof.
  intros ND M. fold (set_up grow fuel re ci context None (Some j :: xs) cs). set (a := set_up grow fuel re ci context None (Some j :: xs) cs).
  assert (Iv : app_inv (fun e => user_entry e /\ entry_starts (Some j :: xs) e) a).
  { apply set_up_inv.
    - intros common own h H. split; [exact I|exact H].
    - intros (m & H). destruct (ND m H).
    - intros p H. congruence. }
  destruct Iv as [R E].
  pose proof (app_serve_cases W user mid files pages k oh oc render location redirect_body f re a q buf x w R) as C.
  destruct (app_serve user mid files pages k oh oc render location redirect_body f re a q buf x w) as [[[evs w'] b] fin].
  destruct (dispatch_request f re (ap_router a) (xq_method (rq_x q)) (rq_path q) buf) as [|i rec segs| |].
  - destruct C as (A & B & -> & D). left. repeat split; assumption.
  - destruct C as (e & evs' & N & V & An). right. right. rewrite Forall_forall in E. destruct (E e (nth_error_In _ _ N)) as [U St].
    unfold user_entry in U. destruct (en_target e) as [h|p|d] eqn:T; try contradiction.
    destruct (outer_entry W user mid files pages j xs e h T St) as (ms & inner & Ne & Ms & Eh).
    exists i, h, ms, inner, (MCtx (xq_method (rq_x q)) (rq_path q) rec segs).
    split; [exact Ne|]. split; [exact Ms|]. split; [reflexivity|]. split; [reflexivity|].
    rewrite Eh, M in An. unfold panic_recover in An. rewrite V.
    destruct (inner x (AReq q (MCtx (xq_method (rq_x q)) (rq_path q) rec segs)) w) as [o w1]. cbn [fst snd] in *.
    destruct o as [[r|] [er|]|[v|]]; inversion An; subst; (split; [reflexivity|]); repeat split; try reflexivity; try (eexists; repeat split; reflexivity);
      match goal with H : sends _ _ _ _ _ _ _ _ = _ |- _ => rewrite H; cbn [fst snd]; auto end.
  - destruct C as (A & B & -> & ->). right. left. repeat split; try assumption. discriminate.
  - destruct C as (A & B & -> & ->). right. left. repeat split; try assumption. discriminate.
Qed.

(** An application with both middlewares against failures, and handlers that panic:
    at once, while an adapted handler runs, and while a template is executed. *)
Definition apology (code : N) (e : err) : option response := Some (RText (HResp (Z.of_N code) [] None None) (str "sorry")).
Definition careful (i : nat) : middleware areq response nat := match i with 0 => err_response apology | _ => panic_recover end.
Definition careful_calls : list acall :=
  [AMux (CCommon 0 [Some 0; Some 1]); AMux (CHandle 0 GET (str "/now") [] 0); AMux (CHandle 0 GET (str "/adapted") [] 1);
   AMux (CHandle 0 GET (str "/page") [] 2)].
Definition failing (acts : list act) (h : hresp) (pieces : list bytes) (i : nat) : handler areq response nat := fun _ _ w =>
  match i with
  | 0 => (HPanic (Some 7), S w)
  | 1 => (HReturn (Some (RAdaptor None None acts)) None, S w)
  | _ => (HReturn (Some (RTemplate h (pieces, WPanic))) None, S w)
  end.

Ltac crash_by H :=
  pose proof H as X; unfold sends in X; cbn [answer]; unfold app_write; cbn [fst snd];
  match type of X with context [write ?a1 ?a2 ?a3 ?a4 ?a5 ?a6 ?a7 ?a8] => destruct (write a1 a2 a3 a4 a5 a6 a7 a8) as [o1 w1] end;
  cbn [fst] in X; rewrite X; cbn; eexists; reflexivity.
Lemma careful_crash files pages k oh oc render location redirect_body grow acts h st pieces x w :
  acts_fault acts -> meant_status h st -> with_body st ->
  let a := fst (acalls grow 60 lit_engine (fst (new_app 60 lit_engine false [] None)) careful_calls) in
  let get p := app_serve (failing acts h pieces) careful files pages k oh oc render location redirect_body 60 lit_engine a (plain_request GET p) zeros x w in
  outcome (get (str "/now")) = ([EvRun 0; EvWrite (RText (HResp 500 [] None None) (str "sorry"))], S w,
    (500%Z, [(str "X-Content-Type-Options", [str "nosniff"])], str "sorry"), SDone) /\
  (exists b, outcome (get (str "/adapted")) = ([EvRun 1; EvWrite (RAdaptor None None acts)], S w, b, SCrash)) /\
  (exists b, outcome (get (str "/page")) = ([EvRun 2; EvWrite (RTemplate h (pieces, WPanic))], S w, b, SCrash)).
Proof.
  intros Fa Me Bo a get. split; [|split].
  - unfold get. run_request. cbn. reflexivity.
  - unfold get. run_request.
    match goal with |- context [entry_handler ?u ?m ?f1 ?p1 ?e ?x0 ?q0 ?w0] =>
      change (entry_handler u m f1 p1 e x0 q0 w0) with (HReturn (Some (RAdaptor None None acts)) None, S w) end.
    crash_by (breaks_sends k oh oc render location redirect_body (plain_request GET (str "/adapted")) _ (bk_handler _ None None acts Fa)).
  - unfold get. run_request.
    match goal with |- context [entry_handler ?u ?m ?f1 ?p1 ?e ?x0 ?q0 ?w0] =>
      change (entry_handler u m f1 p1 e x0 q0 w0) with (HReturn (Some (RTemplate h (pieces, WPanic))) None, S w) end.
    crash_by (breaks_sends k oh oc render location redirect_body (plain_request GET (str "/page")) _
      (bk_body _ (RTemplate h (pieces, WPanic)) h st eq_refl I Me Bo eq_refl)).
Qed.

Lemma breaks_case :
  let q := WReq GET [(str "Accept-Encoding", [str "gzip"])] 1%N in
  breaks q (RCompress 5 (RCompress 1 (RRaw (HResp 200 [] None None) (Some ([str "part"], WPanic))))) /\
  breaks q (RAdaptor None None [AWrite (str "part"); APanic]) /\ breaks q (RRedirect (HResp 0 [] None None) (str "/a")) /\
  breaks (WReq GET [] 2%N) (RSse (HResp 200 [] None None) None 3) /\ breaks q (RCompress 5 (RHijack (fun _ => false))) /\
  ~ breaks q (RCompress 5 (RText (HResp 200 [] None None) (str "all"))).
Proof.
  cbv zeta. split; [|split; [|split; [|split; [|split]]]].
  - apply bk_compressed, bk_compressed. eapply bk_body with (h := HResp 200 [] None None) (st := 200%Z); try reflexivity.
    + right. split; [discriminate|reflexivity].
    + unfold with_body. lia.
  - apply bk_handler. left. right. now left.
  - apply bk_redirect. cbn. lia.
  - eapply bk_body with (h := HResp 200 [] None None) (st := 200%Z); try reflexivity.
    + right. split; [discriminate|reflexivity].
    + unfold with_body. lia.
  - apply bk_compressed, bk_callback. reflexivity.
  - intro H. pose proof (breaks_writing (Compressor unit (fun _ _ => tt) (fun _ bs => (tt, bs)) (fun _ => (tt, [])) (fun _ => [])) (fun m => m) (fun m => m) (fun _ => [])
      (fun _ u => u) (fun _ _ => []) _ _ H false (Plain base_new) I eq_refl) as X.
    vm_compute in X. discriminate X.
Qed.

Lemma recovering_case : no_debug (tl careful_calls) /\ careful 1 = panic_recover /\
  exists acts, acts_fault acts /\ fst (failing acts (HResp 200 [] None None) [] 0 nobody (AReq (plain_request GET (str "/now")) (MCtx GET (str "/now") None [])) 0) = HPanic (Some 7).
Proof.
  split; [|split].
  - intros m I0. cbn in I0. repeat (destruct I0 as [I0|I0]; [discriminate|]). exact I0.
  - reflexivity.
  - exists [APanic]. split; [left; now left|reflexivity].
Qed.
