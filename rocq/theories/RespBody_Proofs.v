(** * Proofs about bodies, compression and flushing *)
From Coq Require Import List NArith ZArith Ascii String Bool Lia Arith Permutation.
From Verif Require Import GoBase Http_Model Auth_Model Auth_Proofs Csrf_Spec Csrf_Proofs Chain_Model Serve_Model Resp_Model Resp_Spec Resp_Proofs.
Import ListNotations.
Local Open Scope string_scope.
Local Open Scope list_scope.
Local Open Scope nat_scope.

Section Bodies.
Variable k : compressor.
Variable oh : headers -> headers.
Variable oc : cookies -> cookies.
Variable render : cookie -> bytes.
Variable location : wreq -> bytes -> bytes.
Variable redirect_body : Z -> bytes -> bytes.

Notation write := (@Resp_Model.write k oh oc render location redirect_body).
Notation write_cut := (@Resp_Model.write_cut k oh oc render location redirect_body).

(** A writer that takes everything: [content] is what has been written so far. *)
Record takes (Q : rw k -> bytes -> Prop) : Prop := {
  tk_write : forall w c bs, Q w c -> exists w', rw_write w bs = (w', true) /\ Q w' (c ++ bs);
  tk_flush : forall w c, Q w c -> Q (rw_flush w) c;
  tk_set : forall w c key v, Q w c -> Q (rw_set w key v) c
}.

Section Q.
Variable Q : rw k -> bytes -> Prop.
Hypothesis T : takes Q.

Lemma pieces_taken l : forall w c e, Q w c ->
  exists w', write_pieces l e w = (e, w') /\ Q w' (c ++ flat_map (fun x => x) l).
Proof.
  induction l as [|p l IH]; intros w c e H.
  - exists w. cbn. now rewrite app_nil_r.
  - cbn [write_pieces]. destruct (tk_write Q T w c p H) as (w1 & E & H1). rewrite E.
    destruct (IH w1 (c ++ p) e H1) as (w2 & E2 & H2). exists w2. split; [exact E2|]. cbn [flat_map]. now rewrite app_assoc.
Qed.

Lemma text_taken w c p : Q w c -> exists w', write_text w p = (w', true) /\ Q w' (c ++ p).
Proof.
  intro H. destruct p as [|x p].
  - exists w. cbn. now rewrite app_nil_r.
  - apply (tk_write Q T), H.
Qed.

Lemma events_taken l : forall w c, Q w c -> Q (write_events l w) (c ++ flat_map event_string l).
Proof.
  induction l as [|e l IH]; intros w c H.
  - cbn. now rewrite app_nil_r.
  - cbn [write_events flat_map]. destruct (text_taken w c (event_string e) H) as (w1 & E & H1). rewrite E.
    rewrite app_assoc. apply IH. apply (tk_flush Q T), H1.
Qed.

Lemma body_taken cut r q h (w : rw k) :
  fields r = Some h -> right_protocol r q -> (100 <= hr_code h <= 999)%Z ->
  Q (rw_map (fun b => base_write_header (base_set b (sent_map oh oc render (hr_cut cut h) (rw_headers w))) (hr_code h)) w) [] ->
  exists w', write_cut cut r q w = (end_of r, w') /\ Q w' (body_of r).
Proof.
  intros F P S B.
  assert (C : hr_code (hr_cut cut h) = hr_code h) by (destruct cut; reflexivity).
  rewrite <- C in S, B.
  destruct r as [r|r p|r p|r f|r f|r f|r evs live|r u| |hs cs acts|l r|l]; cbn in F; try discriminate F;
    injection F as ->; cbn [Resp_Model.write_cut].
  - unfold after_headers. rewrite write_headers_ok by exact S. eexists. split; [reflexivity|exact B].
  - unfold after_headers. rewrite write_headers_ok by exact S.
    destruct (text_taken _ _ p B) as (w1 & E & H1). rewrite E. eexists. split; [reflexivity|exact H1].
  - unfold after_headers. rewrite write_headers_ok by exact S. destruct p as [[bs|]|].
    + destruct (pieces_taken [bs] _ _ (Wrote None) B) as (w1 & E & H1). rewrite E. eexists. split; [reflexivity|].
      cbn in H1. rewrite app_nil_r in H1. exact H1.
    + eexists. split; [reflexivity|exact B].
    + destruct (pieces_taken [str "{}"] _ _ (Wrote None) B) as (w1 & E & H1). rewrite E. eexists. split; [reflexivity|exact H1].
  - destruct f as [[l e]|]; unfold after_headers; rewrite write_headers_ok by exact S.
    + destruct (pieces_taken l _ _ e B) as (w1 & E & H1). rewrite E. eexists. split; [reflexivity|exact H1].
    + eexists. split; [reflexivity|exact B].
  - destruct f as [[l e]|]; unfold after_headers; rewrite write_headers_ok by exact S.
    + destruct (pieces_taken l _ _ e B) as (w1 & E & H1). rewrite E. eexists. split; [reflexivity|exact H1].
    + eexists. split; [reflexivity|exact B].
  - destruct f as [l e]; unfold after_headers; rewrite write_headers_ok by exact S.
    destruct (pieces_taken l _ _ e B) as (w1 & E & H1). rewrite E. eexists. split; [reflexivity|exact H1].
  - cbn in P. rewrite P. change (2 =? 2)%N with true. cbv iota. unfold after_headers. rewrite write_headers_ok by exact S.
    eexists. split; [reflexivity|]. apply (tk_flush Q T).
    replace (body_of (RSse h evs live)) with ([] ++ flat_map event_string (firstn live (generated evs))) by (destruct evs; [reflexivity|cbn [generated body_of]; now rewrite firstn_nil]).
    apply events_taken. apply (tk_set Q T), (tk_set Q T), B.
Qed.

End Q.

(** The writer of net/http after a status with a body. *)
Definition sends_body (b : base) : Prop := exists st h, b_final b = Some (st, h) /\ body_allowed st = true.
Definition plain_takes (w : rw k) (c : bytes) : Prop :=
  exists b, w = Plain b /\ sends_body b /\ b_body b = c.

Lemma base_taken b bs : sends_body b ->
  exists b', base_write b bs = (b', true) /\ sends_body b' /\ b_body b' = b_body b ++ bs /\ b_final b' = b_final b /\
    b_header b' = b_header b /\ b_visible b' = b_visible b.
Proof.
  intros (st & h & F & A). unfold base_write. rewrite (base_header_stays b 200 _ F). rewrite F.
  destruct bs as [|x bs].
  - exists b. split; [reflexivity|]. split; [now exists st, h|]. rewrite app_nil_r. auto.
  - rewrite A. eexists. split; [reflexivity|]. split; [exists st, h; auto|]. cbn. auto.
Qed.

Lemma plain_takes_ok : takes plain_takes.
Proof.
  split.
  - intros w c bs (b & -> & S & B). destruct (base_taken b bs S) as (b' & E & S' & B' & _). exists (Plain b'). cbn. rewrite E.
    split; [reflexivity|]. exists b'. rewrite B', B. auto.
  - intros w c (b & -> & S & B). exists (base_flush b). split; [reflexivity|]. destruct S as (st & h & F & A).
    unfold base_flush. rewrite (base_header_stays b 200 _ F). split; [exists st, h; auto|exact B].
  - intros w c key v (b & -> & S & B). exists (base_set b (hset (b_header b) key v)). split; [reflexivity|].
    destruct S as (st & h & F & A). split; [exists st, h; auto|exact B].
Qed.

Lemma body_code st : with_body st -> (100 <= st <= 999)%Z /\ body_allowed st = true /\ ((100 <=? st) && (st <=? 199))%Z = false.
Proof. unfold with_body, body_allowed. intros (A & B & C). split; [lia|]. split; lia. Qed.

Lemma written_body r q h st b : fields r = Some h -> right_protocol r q -> meant_status h st -> with_body st ->
  b_final b = None -> b_body b = [] ->
  exists b', write r q (Plain b) = (end_of r, Plain b') /\ b_body b' = body_of r.
Proof.
  intros F P M S N E. apply meant_code in M. destruct (body_code st S) as (S1 & S2 & S3).
  destruct (body_taken plain_takes plain_takes_ok false r q h (Plain b) F P) as (w' & A & (b' & -> & _ & B)).
  - rewrite M. exact S1.
  - cbn [rw_map]. eexists. split; [reflexivity|]. unfold base_write_header, base_set. cbn. rewrite N, M, S3. cbn.
    split; [|exact E]. eexists. eexists. split; [reflexivity|exact S2].
  - exists b'. split; [exact A|exact B].
Qed.

(** A compressor on top of it. *)
Definition comp_takes (s0 : zstate k) (w : rw k) (c : bytes) : Prop :=
  exists ops b, sends_body b /\ zinput ops = c /\
    let (s, out) := zrun k s0 ops in w = Comp s false (Plain b) /\ b_body b = out.

Lemma zrun_snoc ops : forall s op,
  zrun k s (ops ++ [op]) =
  let (s1, o1) := zrun k s ops in
  let (s2, o2) := match op with ZWrite bs => zwrite k s1 bs | ZFlush => zflush k s1 end in (s2, o1 ++ o2).
Proof.
  induction ops as [|x ops IH]; intros s op.
  - cbn [app zrun]. destruct op as [bs|].
    + destruct (zwrite k s bs) as [s1 o1]. now rewrite app_nil_r.
    + destruct (zflush k s) as [s1 o1]. now rewrite app_nil_r.
  - cbn [app zrun]. destruct x as [bs|].
    + destruct (zwrite k s bs) as [s1 o1]. rewrite IH. destruct (zrun k s1 ops) as [s2 o2].
      destruct (match op with ZWrite bs => zwrite k s2 bs | ZFlush => zflush k s2 end) as [s3 o3]. now rewrite app_assoc.
    + destruct (zflush k s) as [s1 o1]. rewrite IH. destruct (zrun k s1 ops) as [s2 o2].
      destruct (match op with ZWrite bs => zwrite k s2 bs | ZFlush => zflush k s2 end) as [s3 o3]. now rewrite app_assoc.
Qed.

Lemma zinput_app a b : zinput (a ++ b) = zinput a ++ zinput b.
Proof. induction a as [|[bs|] a IH]; cbn; [reflexivity| |exact IH]. now rewrite IH, app_assoc. Qed.

Lemma comp_takes_ok s0 : takes (comp_takes s0).
Proof.
  split.
  - intros w c bs (ops & b & S & I1 & R). destruct (zrun k s0 ops) as [s out] eqn:Z. destruct R as [-> B].
    cbn [rw_write]. destruct (zwrite k s bs) as [s' o] eqn:Y.
    pose proof (zrun_snoc ops s0 (ZWrite bs)) as SN. rewrite Z, Y in SN.
    assert (IN : zinput (ops ++ [ZWrite bs]) = c ++ bs) by (rewrite zinput_app, I1; cbn; now rewrite app_nil_r).
    destruct o as [|x o].
    + eexists. split; [reflexivity|]. exists (ops ++ [ZWrite bs]), b. split; [exact S|]. split; [exact IN|].
      rewrite SN. split; [reflexivity|]. now rewrite app_nil_r.
    + destruct (base_taken b (x :: o) S) as (b' & E & S' & B' & _). rewrite E. cbn [negb].
      eexists. split; [reflexivity|]. exists (ops ++ [ZWrite bs]), b'. split; [exact S'|]. split; [exact IN|].
      rewrite SN. split; [reflexivity|]. now rewrite B', B.
  - intros w c (ops & b & S & I1 & R). destruct (zrun k s0 ops) as [s out] eqn:Z. destruct R as [-> B].
    cbn [rw_flush]. destruct (zflush k s) as [s' o] eqn:Y.
    pose proof (zrun_snoc ops s0 ZFlush) as SN. rewrite Z, Y in SN.
    assert (IN : zinput (ops ++ [ZFlush]) = c) by (rewrite zinput_app, I1; cbn; now rewrite app_nil_r).
    destruct o as [|x o].
    + exists (ops ++ [ZFlush]), b. split; [exact S|]. split; [exact IN|]. rewrite SN. split; [reflexivity|]. now rewrite app_nil_r.
    + cbn [rw_write]. destruct (base_taken b (x :: o) S) as (b' & E & S' & B' & _). rewrite E. cbn [negb].
      exists (ops ++ [ZFlush]), b'. split; [exact S'|]. split; [exact IN|]. rewrite SN. split; [reflexivity|]. now rewrite B', B.
  - intros w c key v (ops & b & S & I1 & R). exists ops, (base_set b (hset (b_header b) key v)).
    destruct (zrun k s0 ops) as [s out]. destruct R as [-> B]. destruct S as (st & h & F & A).
    split; [exists st, h; auto|]. auto.
Qed.

Lemma compressed_run a level r q h st b :
  compression_algorithm (hget (wq_headers q) (str "Accept-Encoding")) = Some a ->
  fields r = Some h -> right_protocol r q -> meant_status h st -> with_body st -> b_final b = None -> b_body b = [] ->
  exists b' ops, write (RCompress level r) q (Plain b) = (end_of r, Plain b') /\ zinput ops = body_of r /\
    let (s, out) := zrun k (znew k a level) ops in b_body b' = out ++ zclose k s.
Proof.
  intros C F P M S N E. apply meant_code in M. destruct (body_code st S) as (S1 & S2 & S3).
  unfold Resp_Model.write. cbn [Resp_Model.write_cut]. rewrite C.
  assert (G : exists m, get_headers r = Some m) by (destruct r; cbn in F; try discriminate F; eexists; reflexivity).
  destruct G as (m & G). rewrite G. cbv zeta.
  set (w1 := rw_set (Plain b) (str "Content-Encoding") (alg_name a)).
  destruct (body_taken (comp_takes (znew k a level)) (comp_takes_ok _) true r q h (Comp (znew k a level) false w1) F P) as (w' & A & B).
  - rewrite M. exact S1.
  - cbn [rw_map w1]. unfold w1, rw_set. cbn [rw_map]. eexists [], _. split; [|split].
    3: { cbn [zrun]. split; [reflexivity|]. unfold base_write_header, base_set. cbn. rewrite N, M, S3. cbn. exact E. }
    + unfold base_write_header, base_set. cbn. rewrite N, M, S3. eexists. eexists. split; [reflexivity|exact S2].
    + reflexivity.
  - rewrite A. destruct B as (ops & b2 & SB & IN & R).
    destruct (zrun k (znew k a level) ops) as [s out] eqn:Zr. destruct R as [-> B]. cbn [rw_close].
    destruct (zclose k s) as [|x o] eqn:Z.
    + exists b2, ops. split; [reflexivity|]. split; [exact IN|]. rewrite Zr, Z, app_nil_r. exact B.
    + cbn [rw_write]. destruct (base_taken b2 (x :: o) SB) as (b' & E' & S' & B' & _). rewrite E'. cbn [fst].
      exists b', ops. split; [reflexivity|]. split; [exact IN|]. rewrite Zr, Z, B', B. reflexivity.
Qed.

(** ** Headers of compressed responses *)

Hypothesis OH : forall m, Permutation (oh m) m.
Hypothesis OC : forall m, Permutation (oc m) m.

Definition cut_headers (h : hresp) : headers := aremove (str "Accept-Encoding") (custom_headers h).

Lemma aremove_in {V : Type} key (m : list (bytes * V)) x : In x (aremove key m) -> In x m /\ fst x <> key.
Proof.
  induction m as [|[k' v] m IH]; [easy|]. cbn. destruct (beqb key k') eqn:E.
  - intro H. apply IH in H. tauto.
  - cbn. intros [<-|H]; [|apply IH in H; tauto]. split; [auto|]. cbn. intros ->. rewrite beqb_same in E. discriminate.
Qed.

Lemma aremove_nodup {V : Type} key (m : list (bytes * V)) : NoDup (map fst m) -> NoDup (map fst (aremove key m)).
Proof.
  induction m as [|[k' v] m IH]; [easy|]. cbn. intro H. inversion H as [|? ? N1 N2]; subst. destruct (beqb key k'); [auto|].
  cbn. constructor; [|auto]. intro J. apply N1. apply in_map_iff in J. destruct J as ([a b] & <- & J).
  apply aremove_in in J. apply in_map_iff. exists (a, b). tauto.
Qed.

Lemma cut_spelling h : one_spelling (custom_headers h) -> one_spelling (cut_headers h).
Proof.
  unfold cut_headers. intros [N U]. split; [now apply aremove_nodup|].
  intros k1 v1 k2 v2 A B. apply aremove_in in A, B. eapply U; [apply A|apply B].
Qed.

Lemma compressed_final a level r q h st b :
  compression_algorithm (hget (wq_headers q) (str "Accept-Encoding")) = Some a ->
  fields r = Some h -> right_protocol r q -> meant_status h st -> (200 <= st <= 999)%Z -> b_final b = None ->
  one_spelling (custom_headers h) ->
  exists hs ts, b_final (rw_base (snd (write (RCompress level r) q (Plain b)))) = Some (st, hs) /\
    Permutation ts (texts_of render (custom_cookies h)) /\
    sent_as (hset (b_header b) ce (alg_name a)) hs (cut_headers h) ts (hr_ctype h).
Proof.
  intros C F P M S N OS. apply meant_code in M.
  unfold Resp_Model.write. cbn [Resp_Model.write_cut]. rewrite C.
  assert (G : exists m, get_headers r = Some m) by (destruct r; cbn in F; try discriminate F; eexists; reflexivity).
  destruct G as (m & G). rewrite G. cbv zeta. fold ce.
  set (w1 := Comp (znew k a level) false (rw_set (Plain b) ce (alg_name a))).
  pose proof (fields_final k oh oc render location redirect_body true r q h w1) as FF.
  exists (sent_map oh oc render (hr_cut true h) (rw_headers w1)), (texts_of render (match hr_cookies h with Some m => map snd (oc m) | None => [] end)).
  split; [|split].
  - destruct (Resp_Model.write_cut oh oc render location redirect_body true r q w1) as [o w2] eqn:W. cbn [snd].
    apply close_stays. apply FF; auto; [rewrite M; lia|].
    unfold base_write_header, base_set. cbn. rewrite N, M.
    replace ((100 <=? st) && (st <=? 199))%Z with false by lia. reflexivity.
  - apply texts_perm. unfold custom_cookies. destruct (hr_cookies h) as [mm|]; [|apply Permutation_refl].
    apply Permutation_map, OC.
  - change (rw_headers w1) with (hset (b_header b) ce (alg_name a)).
    unfold sent_map. cbn [hr_cut hr_headers hr_cookies hr_ctype].
    change (some_headers (hr_headers h)) with (custom_headers h). fold (cut_headers h).
    eapply sent_as_perm; [apply OH|]. apply sent_map_as. eapply spelling_perm; [apply Permutation_sym, OH|].
    now apply cut_spelling.
Qed.

(** What the client gets from a compressed response: the body, or what a compressor made
    of it with its name. *)
Lemma compressed_labelled level r q h st b :
  fields r = Some h -> right_protocol r q -> meant_status h st -> with_body st ->
  one_spelling (custom_headers h) -> ~ given (custom_headers h) ce ->
  b_final b = None -> b_body b = [] -> hvalues (b_header b) ce = [] ->
  exists b' hs, write (RCompress level r) q (Plain b) = (end_of r, Plain b') /\ b_final b' = Some (st, hs) /\
    (hvalues hs ce = [] /\ b_body b' = body_of r \/
     exists a ops, hvalues hs ce = [alg_name a] /\ zinput ops = body_of r /\
       let (s, out) := zrun k (znew k a level) ops in b_body b' = out ++ zclose k s).
Proof.
  intros F P M S OS G N E HC.
  assert (S' : (200 <= st <= 999)%Z) by (unfold with_body in S; lia).
  destruct (compression_algorithm (hget (wq_headers q) (str "Accept-Encoding"))) as [a|] eqn:C.
  - destruct (compressed_run a level r q h st b C F P M S N E) as (b' & ops & W & I & B).
    destruct (compressed_final a level r q h st b C F P M S' N OS) as (hs & ts & FI & _ & SA).
    rewrite W in FI. cbn in FI. exists b', hs. split; [exact W|]. split; [exact FI|].
    right. exists a, ops. split; [|split; [exact I|exact B]].
    rewrite (sent_others _ _ _ _ _ SA ce).
    + rewrite hvalues_set. rewrite beqb_same. reflexivity.
    + intros (k' & v & I1 & I2). apply aremove_in in I1. apply G. exists k', v. tauto.
    + unfold same_name. vm_compute. discriminate.
    + unfold same_name. vm_compute. discriminate.
    + unfold same_name. vm_compute. discriminate.
  - assert (W0 : write (RCompress level r) q (Plain b) = write r q (Plain b)).
    { unfold Resp_Model.write. cbn [Resp_Model.write_cut]. rewrite C. reflexivity. }
    destruct (written_body r q h st b F P M S N E) as (b' & W & B).
    destruct (written_final k oh oc render location redirect_body OH OC r q h st (Plain b) F P M S' N OS) as (hs & ts & FI & _ & SA).
    rewrite W in FI. cbn in FI. exists b', hs. split; [now rewrite W0|]. split; [exact FI|].
    left. split; [|exact B]. rewrite (sent_others _ _ _ _ _ SA ce).
    + change (rw_headers (@Plain k b)) with (b_header b). exact HC.
    + exact G.
    + unfold same_name. vm_compute. discriminate.
    + unfold same_name. vm_compute. discriminate.
    + unfold same_name. vm_compute. discriminate.
Qed.

Lemma compressed_read dec level r q h st b :
  decodes k dec -> fields r = Some h -> right_protocol r q -> meant_status h st -> with_body st ->
  one_spelling (custom_headers h) -> ~ given (custom_headers h) ce ->
  b_final b = None -> b_body b = [] -> hvalues (b_header b) ce = [] ->
  exists b' hs, write (RCompress level r) q (Plain b) = (end_of r, Plain b') /\
    b_final b' = Some (st, hs) /\ client_body dec hs (b_body b') = Some (body_of r).
Proof.
  intros D F P M S OS G N E HC. destruct (compressed_labelled level r q h st b F P M S OS G N E HC) as (b' & hs & W & FI & B).
  exists b', hs. split; [exact W|]. split; [exact FI|]. unfold client_body. destruct B as [[V B]|(a & ops & V & I & B)]; rewrite V; [rewrite B; reflexivity|].
  specialize (D a level ops). destruct (zrun k (znew k a level) ops) as [s out]. rewrite <- I, <- D, <- B. destruct a; reflexivity.
Qed.

End Bodies.

(** ** Flushing *)

Lemma flush_all b : sends_body b -> sends_body (base_flush b) /\ b_visible (base_flush b) = List.length (b_body (base_flush b)).
Proof.
  intros (st & h & F & A). unfold base_flush. rewrite (base_header_stays b 200 _ F). cbn. split; [exists st, h; auto|reflexivity].
Qed.

Lemma events_visible (k : compressor) l : forall b, sends_body b -> b_visible b = List.length (b_body b) ->
  exists b', write_events l (@Plain k b) = Plain b' /\ b_body b' = b_body b ++ flat_map event_string l /\
    b_visible b' = List.length (b_body b').
Proof.
  induction l as [|e l IH]; intros b S V.
  - exists b. cbn. rewrite app_nil_r. auto.
  - cbn [write_events flat_map].
    assert (X : exists b1, write_text (@Plain k b) (event_string e) = (Plain b1, true) /\ sends_body b1 /\ b_body b1 = b_body b ++ event_string e).
    { unfold write_text. destruct (event_string e) as [|x t].
      - exists b. rewrite app_nil_r. auto.
      - destruct (base_taken b (x :: t) S) as (b1 & E & S1 & B1 & _). exists b1. cbn [rw_write]. rewrite E. auto. }
    destruct X as (b1 & E & S1 & B1). rewrite E. cbn [rw_flush]. destruct (flush_all b1 S1) as [S2 V2].
    destruct (IH (base_flush b1) S2 V2) as (b' & E' & B' & V'). exists b'. split; [exact E'|]. split; [|exact V'].
    rewrite B'. assert (Q : b_body (base_flush b1) = b_body b1).
    { destruct S1 as (st & h & F & A). unfold base_flush. rewrite (base_header_stays b1 200 _ F). reflexivity. }
    rewrite Q, B1. now rewrite app_assoc.
Qed.

Lemma base_write_visible b bs : b_visible (fst (base_write b bs)) = b_visible b.
Proof.
  unfold base_write, base_write_header. destruct b as [hd inf [[st h]|] bo vi hj]; cbn; destruct bs; cbn; try reflexivity.
  destruct (body_allowed st); reflexivity.
Qed.

Lemma write_visible (k : compressor) (w : rw k) : forall bs, b_visible (rw_base (fst (rw_write w bs))) = b_visible (rw_base w).
Proof.
  induction w as [b|s e w IH]; intros bs; cbn.
  - pose proof (base_write_visible b bs) as A. destruct (base_write b bs). exact A.
  - destruct e; [reflexivity|]. destruct (zwrite k s bs) as [s' out]. destruct out as [|c out]; [reflexivity|].
    specialize (IH (c :: out)). destruct (rw_write w (c :: out)). exact IH.
Qed.

(** Behind a compressor nothing is flushed, whatever is written. *)
Lemma events_hidden (k : compressor) l : forall s e (w : rw k), exists s' e' w',
  write_events l (Comp s e w) = Comp s' e' w' /\ b_visible (rw_base w') = b_visible (rw_base w).
Proof.
  induction l as [|ev l IH]; intros s e w.
  - exists s, e, w. auto.
  - cbn [write_events].
    assert (X : forall p s e (w : rw k), exists s' e' w' ok, write_text (Comp s e w) p = (Comp s' e' w', ok) /\
              b_visible (rw_base w') = b_visible (rw_base w)).
    { intros p s0 e0 w0. unfold write_text. destruct p as [|x p]; [exists s0, e0, w0, true; auto|].
      cbn [rw_write]. destruct e0; [exists s0, true, w0, false; auto|].
      destruct (zwrite k s0 (x :: p)) as [s' out]. destruct out as [|c out]; [exists s', false, w0, true; auto|].
      pose proof (write_visible k w0 (c :: out)) as A. destruct (rw_write w0 (c :: out)) as [w2 ok].
      exists s', (negb ok), w2, ok. auto. }
    destruct (X (event_string ev) s e w) as (s1 & e1 & w1 & ok & E & V). rewrite E. destruct ok.
    2: { exists s1, e1, w1. auto. }
    assert (Y : exists s2 e2 w2, rw_flush (Comp s1 e1 w1) = Comp s2 e2 w2 /\ b_visible (rw_base w2) = b_visible (rw_base w1)).
    { cbn [rw_flush]. destruct e1; [exists s1, true, w1; auto|].
      destruct (zflush k s1) as [s' out]. destruct out as [|c out]; [exists s', false, w1; auto|].
      pose proof (write_visible k w1 (c :: out)) as A. destruct (rw_write w1 (c :: out)) as [w2 ok].
      exists s', (negb ok), w2. auto. }
    destruct Y as (s2 & e2 & w2 & E2 & V2). rewrite E2. destruct (IH s2 e2 w2) as (s3 & e3 & w3 & E3 & V3).
    exists s3, e3, w3. split; [exact E3|]. congruence.
Qed.
