(** * Proofs about bodies that cannot be sent and adapted handlers *)
From Coq Require Import List NArith ZArith Ascii String Bool Lia Arith Permutation.
From Verif Require Import GoBase Http_Model Auth_Model Auth_Proofs Csrf_Spec Csrf_Proofs Chain_Model Serve_Model Resp_Model Resp_Spec Resp_Proofs RespBody_Proofs RespMisc_Proofs.
Import ListNotations.
Local Open Scope string_scope.
Local Open Scope list_scope.
Local Open Scope nat_scope.

Section Fails.
Variable k : compressor.
Variable oh : headers -> headers.
Variable oc : cookies -> cookies.
Variable render : cookie -> bytes.
Variable location : wreq -> bytes -> bytes.
Variable redirect_body : Z -> bytes -> bytes.

Notation write := (@Resp_Model.write k oh oc render location redirect_body).

(** The writer after a status without body. *)
Definition bare (b : base) : Prop := exists st h, b_final b = Some (st, h) /\ body_allowed st = false.

Lemma bare_write b bs : bare b -> base_write b bs = (b, match bs with [] => true | _ => false end).
Proof.
  intros (st & h & F & A). unfold base_write. rewrite (base_header_stays b 200 _ F), F. destruct bs; [reflexivity|]. now rewrite A.
Qed.

Lemma bare_pieces l : forall e b, bare b ->
  write_pieces l e (@Plain k b) = (match flat_map (fun x => x) l with [] => e | _ => Wrote (Some body_error) end, Plain b).
Proof.
  induction l as [|p l IH]; intros e b B; [reflexivity|]. cbn [write_pieces rw_write flat_map]. rewrite bare_write by exact B.
  destruct p as [|c p]; [cbn [app]; apply IH, B|reflexivity].
Qed.

Lemma bare_text p b : bare b -> write_text (@Plain k b) p = (Plain b, match p with [] => true | _ => false end).
Proof. intro B. destruct p; [reflexivity|]. cbn [write_text rw_write]. rewrite bare_write by exact B. reflexivity. Qed.

Lemma bare_start b st h : b_final b = None -> without_body st -> bare (base_write_header (base_set b h) st).
Proof.
  intros N S. unfold base_write_header, base_set. cbn. rewrite N.
  replace ((100 <=? st) && (st <=? 199))%Z with false by (destruct S; subst; reflexivity).
  exists st, h. cbn. split; [reflexivity|]. destruct S; subst; reflexivity.
Qed.

Lemma bare_code st : without_body st -> (100 <= st <= 999)%Z.
Proof. intros [->| ->]; lia. Qed.

Lemma start_body b st h : b_body (base_write_header (base_set b h) st) = b_body b.
Proof. unfold base_write_header, base_set. cbn. destruct (b_final b); [reflexivity|]. now destruct ((100 <=? st) && (st <=? 199))%Z. Qed.

Lemma lost_body r q h st b : fields r = Some h -> meant_status h st -> without_body st -> b_final b = None ->
  (forall evs live, r <> RSse h evs live) -> body_of r <> [] ->
  exists e b', write r q (Plain b) = (Wrote (Some e), Plain b') /\ b_body b' = b_body b.
Proof.
  intros F M S N NS NB. apply meant_code in M. unfold Resp_Model.write.
  set (b1 := base_write_header (base_set b (sent_map oh oc render h (b_header b))) st).
  assert (B : bare b1) by (apply bare_start; assumption).
  assert (BB : b_body b1 = b_body b) by apply start_body.
  assert (A : forall body, after_headers oh oc render h (Plain b) body = body (@Plain k b1)).
  { intro body. unfold after_headers. rewrite write_headers_ok by (rewrite M; apply bare_code, S). cbn [rw_map rw_headers rw_base]. rewrite M. reflexivity. }
  destruct r as [r|r p|r p|r f|r f|r f|r evs live|r u| |hs cs acts|l r|l]; cbn in F; try discriminate F;
    injection F as ->; cbn [Resp_Model.write_cut]; cbn [hr_cut]; cbn [body_of] in NB.
  - now destruct NB.
  - rewrite A, bare_text by exact B. destruct p; [now destruct NB|]. eexists. exists b1. split; [reflexivity|exact BB].
  - rewrite A. destruct p as [[bs|]|].
    + rewrite bare_pieces by exact B. cbn [flat_map]. rewrite app_nil_r. destruct bs; [now destruct NB|].
      eexists. exists b1. split; [reflexivity|exact BB].
    + eexists. exists b1. split; [reflexivity|exact BB].
    + rewrite bare_pieces by exact B. eexists. exists b1. split; [reflexivity|exact BB].
  - destruct f as [[l e]|]; [|now destruct NB]. rewrite A, bare_pieces by exact B. destruct (flat_map _ l); [now destruct NB|].
    eexists. exists b1. split; [reflexivity|exact BB].
  - destruct f as [[l e]|]; [|now destruct NB]. rewrite A, bare_pieces by exact B. destruct (flat_map _ l); [now destruct NB|].
    eexists. exists b1. split; [reflexivity|exact BB].
  - destruct f as [l e]. rewrite A, bare_pieces by exact B. destruct (flat_map _ l); [now destruct NB|].
    eexists. exists b1. split; [reflexivity|exact BB].
  - now destruct (NS evs live).
Qed.

(** An event stream with such a status. *)
Lemma bare_events l : forall b, bare b -> exists b', write_events l (@Plain k b) = Plain b' /\ bare b' /\ b_body b' = b_body b.
Proof.
  induction l as [|e l IH]; intros b B; [exists b; auto|]. cbn [write_events]. rewrite bare_text by exact B.
  destruct (event_string e); [|exists b; auto].
  cbn [rw_flush]. assert (B1 : bare (base_flush b) /\ b_body (base_flush b) = b_body b).
  { destruct B as (st & h & F & A). unfold base_flush. rewrite (base_header_stays b 200 _ F). split; [exists st, h; auto|reflexivity]. }
  destruct B1 as [B1 BB]. destruct (IH _ B1) as (b' & E & B' & BB'). exists b'. split; [exact E|]. split; [exact B'|]. congruence.
Qed.

Lemma lost_events h evs live q st b : meant_status h st -> without_body st -> wq_major q = 2%N -> b_final b = None ->
  exists b', write (RSse h (Some evs) live) q (Plain b) = (Wrote None, Plain b') /\ b_body b' = b_body b.
Proof.
  intros M S P N. apply meant_code in M. unfold Resp_Model.write. cbn [Resp_Model.write_cut]. rewrite P. change (2 =? 2)%N with true. cbv iota.
  unfold after_headers. cbn [hr_cut]. rewrite write_headers_ok by (rewrite M; apply bare_code, S). cbn [rw_map rw_headers rw_base]. rewrite M.
  unfold rw_set. cbn [rw_map].
  set (b1 := base_write_header (base_set b (sent_map oh oc render h (b_header b))) st).
  assert (B : bare b1) by (apply bare_start; assumption).
  assert (BB : b_body b1 = b_body b) by apply start_body.
  cbn [generated generator_end].
  match goal with |- context [write_events _ (Plain ?x)] => set (b2 := x) end.
  assert (B2 : bare b2). { destruct B as (st' & h' & F & A). exists st', h'. auto. }
  assert (BB2 : b_body b2 = b_body b) by exact BB.
  destruct (bare_events (firstn live evs) b2 B2) as (b' & E & B' & BB'). rewrite E. cbn [rw_flush].
  exists (base_flush b'). split; [reflexivity|].
  destruct B' as (st' & h' & F & A). unfold base_flush. rewrite (base_header_stays b' 200 _ F). cbn. congruence.
Qed.

(** ** Adapted handlers *)

(** The writer in the middle of an adapted handler that still has to do [l]. *)
Lemma acts_panic l : forall w : rw k, In APanic l -> exists w', run_acts l w = (false, w').
Proof.
  induction l as [|a l IH]; intros w I; [destruct I|]. destruct I as [->|I]; [eexists; reflexivity|].
  destruct a as [key v|key v|key|s|bs| |]; cbn [run_acts]; try exact (IH _ I); [|eexists; reflexivity].
  destruct (rw_write_header w s); [exact (IH _ I)|eexists; reflexivity].
Qed.

Lemma acts_done l st h : ~ In APanic l -> forall b, b_final b = Some (st, h) ->
  exists b', run_acts l (@Plain k b) = (true, Plain b') /\ b_final b' = Some (st, h) /\
    b_body b' = b_body b ++ (if body_allowed st then acts_body l else []).
Proof.
  intro NP. induction l as [|a l IH]; intros b F.
  - exists b. split; [reflexivity|]. split; [exact F|]. cbn. destruct (body_allowed st); now rewrite app_nil_r.
  - specialize (IH (fun I => NP (or_intror I))).
    destruct a as [key v|key v|key|s|bs| |]; cbn [run_acts]; try exact (IH (base_set b _) F); [| | |exfalso; apply NP; now left].
    + unfold rw_write_header. cbn [rw_base]. rewrite F. apply IH, F.
    + cbn [rw_write]. unfold base_write. rewrite (base_header_stays b 200 _ F), F. destruct bs as [|c bs].
      * apply IH, F.
      * destruct (body_allowed st) eqn:A.
        -- destruct (IH (Base_ (b_header b) (b_info b) (b_final b) (b_body b ++ c :: bs) (b_visible b) (b_hijacked b)) F) as (b' & E & F' & B').
           exists b'. cbn [fst]. rewrite F in E. split; [exact E|]. split; [exact F'|]. rewrite B'. cbn [b_body]. cbn [acts_body flat_map]. now rewrite <- app_assoc.
        -- apply IH, F.
    + cbn [rw_flush]. unfold base_flush. rewrite (base_header_stays b 200 _ F).
      destruct (IH (Base_ (b_header b) (b_info b) (b_final b) (b_body b) (List.length (b_body b)) (b_hijacked b)) F) as (b' & E & F' & B').
      exists b'. split; [exact E|]. split; [exact F'|]. exact B'.
Qed.

Lemma base_first b st : b_final b = None -> ~ (100 <= st <= 199)%Z ->
  exists h, b_final (base_write_header b st) = Some (st, h) /\ b_body (base_write_header b st) = b_body b.
Proof.
  intros F N. unfold base_write_header. rewrite F. replace ((100 <=? st) && (st <=? 199))%Z with false by lia. eexists. cbn. auto.
Qed.

Lemma acts_run_valid l : ~ In APanic l -> forall b, b_final b = None ->
  (~ (100 <= acts_status l <= 999)%Z -> exists w, run_acts l (@Plain k b) = (false, w)) /\
  (~ ~ (100 <= acts_status l <= 999)%Z -> exists b', run_acts l (@Plain k b) = (true, Plain b') /\ fst (fst (received b')) = acts_status l /\
     b_body b' = b_body b ++ (if body_allowed (acts_status l) then acts_body l else [])).
Proof.
  intro NP. induction l as [|a l IH]; intros b F.
  - split; [cbn; intro H; exfalso; apply H; lia|]. intros _. exists b. split; [reflexivity|]. unfold received. rewrite F. cbn. now rewrite app_nil_r.
  - assert (NP' : ~ In APanic l) by (intro I; apply NP; now right). specialize (IH NP').
    destruct a as [key v|key v|key|s|bs| |]; cbn [run_acts]; try exact (IH (base_set b _) F); [| | |exfalso; apply NP; now left].
    + unfold rw_write_header. cbn [rw_base]. rewrite F. cbn [acts_status].
      destruct ((100 <=? s) && (s <=? 199))%Z eqn:I1.
      * replace ((s <? 100) || (999 <? s))%Z with false by lia. cbn [rw_map].
        unfold base_write_header. rewrite F, I1.
        destruct (IH (Base_ (b_header b) (b_info b ++ [(s, b_header b)]) None (b_body b) (b_visible b) (b_hijacked b)) eq_refl) as [IH1 IH2].
        split; [exact IH1|exact IH2].
      * destruct ((s <? 100) || (999 <? s))%Z eqn:I2.
        -- split; [intros _; eexists; reflexivity|]. intro H. exfalso. apply H. lia.
        -- split; [intro H; exfalso; apply H; lia|]. intros _. cbn [rw_map].
           assert (I3 : ~ (100 <= s <= 199)%Z) by lia.
           destruct (base_first b s F I3) as (h & F1 & B1).
           destruct (acts_done l s h NP' _ F1) as (b' & E & F' & B'). exists b'. split; [exact E|]. unfold received. rewrite F'. split; [reflexivity|].
           rewrite B', B1. reflexivity.
    + cbn [acts_status]. split; [intro H; exfalso; apply H; lia|]. intros _.
      assert (I3 : ~ (100 <= 200 <= 199)%Z) by lia.
      destruct (base_first b 200 F I3) as (h & F1 & B1).
      cbn [rw_write]. unfold base_write. rewrite F1. set (b1 := base_write_header b 200) in *. clearbody b1.
      destruct bs as [|c bs].
      * cbn [fst]. destruct (acts_done l 200 h NP' b1 F1) as (b' & E & F' & B'). exists b'. split; [exact E|]. unfold received. rewrite F'.
        split; [reflexivity|]. rewrite B', B1. reflexivity.
      * cbn [body_allowed Z.eqb orb negb Pos.eqb]. set (b2 := Base_ _ _ _ _ _ _).
        destruct (acts_done l 200 h NP' b2) as (b' & E & F' & B'); [reflexivity|]. exists b'. cbn [fst]. split; [exact E|]. unfold received. rewrite F'.
        split; [reflexivity|]. rewrite B'. unfold b2. cbn [b_body]. rewrite B1. cbn [acts_body flat_map]. change (body_allowed 200) with true. cbv iota. now rewrite <- app_assoc.
    + cbn [acts_status]. split; [intro H; exfalso; apply H; lia|]. intros _.
      assert (I3 : ~ (100 <= 200 <= 199)%Z) by lia.
      destruct (base_first b 200 F I3) as (h & F1 & B1).
      cbn [rw_flush]. unfold base_flush. set (b1 := base_write_header b 200) in *. clearbody b1.
      set (b2 := Base_ _ _ _ _ _ _).
      destruct (acts_done l 200 h NP' b2) as (b' & E & F' & B'); [exact F1|]. exists b'. split; [exact E|]. unfold received. rewrite F'.
      split; [reflexivity|]. rewrite B'. unfold b2. cbn [b_body]. rewrite B1. reflexivity.
Qed.

Lemma act_eq_panic (a : act) : {a = APanic} + {a <> APanic}.
Proof. destruct a; (now left) || (right; discriminate). Qed.

Lemma acts_run l b : b_final b = None ->
  (acts_fault l -> exists w, run_acts l (@Plain k b) = (false, w)) /\
  (~ acts_fault l -> exists b', run_acts l (@Plain k b) = (true, Plain b') /\ fst (fst (received b')) = acts_status l /\
     b_body b' = b_body b ++ (if body_allowed (acts_status l) then acts_body l else [])).
Proof.
  intro F. unfold acts_fault.
  assert (D : In APanic l \/ ~ In APanic l).
  { induction l as [|a l IH]; [now right|]. destruct (act_eq_panic a) as [->|N]; [now left; left|].
    destruct IH as [I|I]; [now left; right|]. right. intros [->|J]; [now apply N|exact (I J)]. }
  destruct D as [I|NP].
  - split; [intros _; exact (acts_panic l _ I)|]. intro N. exfalso. apply N. now left.
  - destruct (acts_run_valid l NP b F) as [V1 V2]. split.
    + intros [I|H]; [now destruct (NP I)|exact (V1 H)].
    + intro N. apply V2. intro H. apply N. now right.
Qed.

Lemma adapted_answer hs cs acts q b : b_final b = None -> b_body b = [] ->
  (acts_fault acts -> exists w, write (RAdaptor hs cs acts) q (Plain b) = (WPanic, w)) /\
  (~ acts_fault acts -> exists b', write (RAdaptor hs cs acts) q (Plain b) = (Wrote None, Plain b') /\
     fst (fst (received b')) = acts_status acts /\
     (~ without_body (acts_status acts) -> snd (received b') = acts_body acts) /\
     (without_body (acts_status acts) -> snd (received b') = [])).
Proof.
  intros F B. unfold Resp_Model.write. cbn [Resp_Model.write_cut].
  assert (W : exists b1, put_headers oh (put_cookies oc render (@Plain k b) cs) hs = Plain b1 /\ b_final b1 = None /\ b_body b1 = []).
  { rewrite put_cookies_eq, put_headers_eq. unfold with_headers. cbn [rw_map]. eexists. split; [reflexivity|]. cbn. auto. }
  destruct W as (b1 & -> & F1 & B1). destruct (acts_run acts b1 F1) as [R1 R2]. split.
  - intro H. destruct (R1 H) as (w & ->). exists w. reflexivity.
  - intro H. destruct (R2 H) as (b' & -> & S & BB). exists b'. split; [reflexivity|]. split; [exact S|].
    assert (RB : snd (received b') = b_body b') by (unfold received; destruct (b_final b') as [[? ?]|]; reflexivity).
    rewrite RB, BB, B1. cbn [app]. unfold without_body, body_allowed. split; intro D.
    + replace (negb ((acts_status acts =? 204) || (acts_status acts =? 304)))%Z with true; [reflexivity|]. symmetry. lia.
    + replace (negb ((acts_status acts =? 204) || (acts_status acts =? 304)))%Z with false; [reflexivity|]. symmetry. lia.
Qed.

End Fails.

(** A compressor that keeps what it gets to the end. *)
Lemma lost_compressed :
  let r := RText (HResp 204 [] None None) (str "hi") in
  exists b', write (fun m => m) (fun m => m) (fun _ => []) (fun _ u => u) (fun _ _ => []) (RCompress 5 r) gzip_req (@Plain toy base_new) =
    (Wrote None, Plain b') /\ received b' = (204%Z, [(str "X-Content-Type-Options", [str "nosniff"]); (str "Content-Encoding", [str "gzip"])], []).
Proof. cbv zeta. eexists. split; vm_compute; reflexivity. Qed.

Lemma lost_case :
  let h := HResp 304 [] None None in
  let r := RRaw h (Some ([[]; str "a"; str "b"], Wrote None)) in
  fields r = Some h /\ meant_status h 304 /\ without_body 304 /\ (forall evs live, r <> RSse h evs live) /\ body_of r = str "ab".
Proof.
  cbv zeta. split; [reflexivity|]. split; [right; cbn; split; [lia|reflexivity]|]. split; [now right|]. split; [discriminate|reflexivity].
Qed.

Lemma adapted_answer_case :
  let good := [ASet (str "X-B") (str "2"); AStatus 103; AStatus 201; AWrite (str "ma"); AStatus 5; AFlush; AWrite (str "de")] in
  let bad := [AStatus 103; AStatus 1000; AWrite (str "made")] in
  let broken := [AStatus 201; AWrite (str "ma"); APanic; AWrite (str "de")] in
  ~ acts_fault good /\ acts_status good = 201%Z /\ acts_body good = str "made" /\ acts_fault bad /\ acts_fault broken.
Proof.
  cbv zeta. unfold acts_fault. cbn. repeat split.
  - intros [I|I]; [|lia]. repeat (destruct I as [I|I]; [discriminate|]). exact I.
  - right. lia.
  - left. auto.
Qed.
