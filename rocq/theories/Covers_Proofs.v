(** * From the search to the specification of routing. *)
From Coq Require Import List NArith ZArith Ascii String Bool Lia Arith Permutation.
From Verif Require Import GoBase Glob_Model Glob_Spec Glob_Proofs Pattern_Model Pattern_Spec Pattern_Proofs
  Priority_Spec Priority_Proofs Url_Model Url_Spec Url_Proofs Match_Model Search_Proofs Trie_Proofs Routing_Spec.
Import ListNotations.
Local Open Scope string_scope.
Local Open Scope list_scope.
Local Open Scope nat_scope.

(** ** Letter case *)

Lemma lower_latin : forall a b, lower a = lower b -> latin_upper a = latin_upper b.
Proof.
  assert (H : forallb (fun x => forallb (fun y =>
     implb (Ascii.eqb (lower (ascii_of_nat x)) (lower (ascii_of_nat y)))
           (latin_upper (ascii_of_nat x) =? latin_upper (ascii_of_nat y))%N) (seq 0 256)) (seq 0 256) = true)
    by (vm_compute; reflexivity).
  intros a b E. rewrite forallb_forall in H.
  assert (Ha : In (nat_of_ascii a) (seq 0 256)) by (apply in_seq; pose proof (nat_ascii_bounded a); lia).
  assert (Hb : In (nat_of_ascii b) (seq 0 256)) by (apply in_seq; pose proof (nat_ascii_bounded b); lia).
  specialize (H _ Ha). rewrite forallb_forall in H. specialize (H _ Hb).
  rewrite !ascii_nat_embedding in H. rewrite E, Ascii.eqb_refl in H. cbn in H.
  apply N.eqb_eq. assumption.
Qed.

Lemma lower_star : forall a, lower a = star -> a = star.
Proof. intros [[] [] [] [] [] [] [] []] H; vm_compute in H; first [discriminate|reflexivity]. Qed.
Lemma lower_qmark : forall a, lower a = qmark -> a = qmark.
Proof. intros [[] [] [] [] [] [] [] []] H; vm_compute in H; first [discriminate|reflexivity]. Qed.

Lemma equal_fold_eq : forall a b, equal_fold a b = true <-> map lower a = map lower b.
Proof. intros a b. unfold equal_fold, to_lower. apply beqb_eq. Qed.

Lemma accepts_fold : forall w t, accepts true w t -> forall w', map lower w = map lower w' -> accepts true w' t.
Proof.
  intros w t H. induction H as [|w x t H IH|c w x t H1 H2 H3 H IH|x t|w run t Hw H IH]; intros w' E.
  - destruct w'; [constructor|discriminate].
  - destruct w' as [|d w']; [discriminate|]. injection E as E1 E2.
    assert (d = "?"%char) by (apply lower_qmark; rewrite <- E1; reflexivity). subst d.
    constructor. auto.
  - destruct w' as [|d w']; [discriminate|]. injection E as E1 E2. apply acc_char; [| | |apply IH; assumption].
    + intros ->. apply H1. apply lower_star. rewrite E1. reflexivity.
    + intros ->. apply H2. apply lower_qmark. rewrite E1. reflexivity.
    + unfold same_letter in *. rewrite H3. apply lower_latin. assumption.
  - destruct w' as [|d [|e w']]; try discriminate. injection E as E1.
    assert (d = "*"%char) by (apply lower_star; rewrite <- E1; reflexivity). subst d. apply acc_last_star.
  - destruct w' as [|d w']; [discriminate|]. injection E as E1 E2.
    assert (d = "*"%char) by (apply lower_star; rewrite <- E1; reflexivity). subst d.
    apply acc_inner_star; auto. intros ->. destruct w; [congruence|discriminate].
Qed.

(** ** One piece against one segment *)

(** [fits ic rm k t]: the piece [k], which stands for one segment, accepts [t]. *)
Definition fits (ic : bool) (rm : bytes -> bytes -> bool) (k : piece) (t : bytes) : Prop :=
  match k with
  | Lit w => same_text ic w t
  | Constrained _ r => rm (constraint_source ic r) t = true
  | Var _ => True
  | Glob w => accepts ic w t
  | One => True
  | Any => False
  end.

Definition rec1 (path : bytes) (u : useg) (t : bytes) : Prop :=
  useg_text path u = Some t /\ sub16 (u_end u) (u_start u) = blen t.

Lemma seg_match_fits : forall re ci path sg s k u t,
  shows ci sg s k -> reads s k -> rec1 path u t -> k <> Any ->
  match seg_match re ci path sg u with
  | SPanic => exists w, k = Glob w /\ regex_segment_match t w ci = GPanic
  | SMt m => (m = MTUnknown /\ ~ fits ci (re_match re) k t) \/ (m = mt_of k /\ fits ci (re_match re) k t)
  end.
Proof.
  intros re ci path sg s k u t Hsh Hr [Hu1 Hu2] Hk. destruct Hsh as [Hv Hsh]. unfold seg_match.
  inversion Hr; subst k; cbn [fits mt_of] in *.
  - destruct Hsh as [-> _]. right; auto.
  - congruence.
  - destruct Hsh as [-> _]. right; auto.
  - destruct Hsh as [-> [_ Hre]]. rewrite Hu1, Hre. destruct (re_match re (constraint_source ci re0) t) eqn:E;
      [right; auto|left; split; [reflexivity|congruence]].
  - destruct Hsh as [-> _]. subst. rewrite Hu1.
    match goal with |- context [regex_segment_match t ?w ci] => set (t0 := w) in * end.
    pose proof (glob_answers ci t t0 ltac:(assumption)) as [_ G].
    pose proof (glob_terminates ci t t0 ltac:(assumption)) as T.
    destruct (regex_segment_match t t0 ci) as [b| |] eqn:E.
    + destruct (G b eq_refl) as [G1 G2]. destruct b.
      * right. split; [reflexivity|]. apply G1. reflexivity.
      * left. split; [reflexivity|]. intros A. specialize (G2 A). discriminate.
    + exists t0. auto.
    + congruence.
  - destruct Hsh as [-> _]. rewrite Hu2. subst. unfold same_text. generalize (s_val sg). intros t0.
    destruct (blen t =? blen t0)%N eqn:El.
    + rewrite Hu1. destruct ci.
      * destruct (equal_fold t t0) eqn:E.
        -- right. split; [reflexivity|]. apply equal_fold_eq in E. congruence.
        -- left. split; [reflexivity|]. intros A. symmetry in A. apply equal_fold_eq in A. congruence.
      * destruct (beqb t t0) eqn:E.
        -- right. split; [reflexivity|]. apply beqb_eq in E. congruence.
        -- left. split; [reflexivity|]. intros A. apply beqb_neq in E. congruence.
    + left. split; [reflexivity|]. apply N.eqb_neq in El. intros A. apply El. unfold blen. f_equal.
      destruct ci; [|congruence]. apply (f_equal (@List.length ascii)) in A. rewrite !map_length in A. lia.
Qed.

(** ** Shared nodes *)

(** A segment that some parsed pattern shows. *)
Definition shown (ci : bool) (sg : segment) : Prop := exists s k, shows ci sg s k /\ reads s k.

Definition plain_piece (ic : bool) (k : piece) : Prop :=
  match k with Constrained _ r => ic = false -> hd "a"%char r <> "{"%char | _ => True end.

(** Two pieces that stand for the same requests and sit on the same node. *)
Definition alike (ic : bool) (k1 k2 : piece) : Prop :=
  match k1, k2 with
  | Lit a, Lit b => same_text ic a b
  | Glob a, Glob b => same_text ic a b
  | Var _, Var _ => True
  | One, One => True
  | Any, Any => True
  | _, _ => False
  end.

Lemma same_text_refl : forall ic a, same_text ic a a.
Proof. intros [] a; reflexivity. Qed.
Lemma same_text_sym : forall ic a b, same_text ic a b -> same_text ic b a.
Proof. intros [] a b; unfold same_text; congruence. Qed.
Lemma same_text_trans : forall ic a b c, same_text ic a b -> same_text ic b c -> same_text ic a c.
Proof. intros [] a b c; unfold same_text; congruence. Qed.

Lemma alike_sym : forall ic a b, alike ic a b -> alike ic b a.
Proof. intros ic [] []; cbn; auto using same_text_sym. Qed.
Lemma alike_trans : forall ic a b c, alike ic a b -> alike ic b c -> alike ic a c.
Proof. intros ic [] [] []; cbn; try tauto; eauto using same_text_trans. Qed.

Lemma alike_fits : forall ic rm k1 k2 t, alike ic k1 k2 -> fits ic rm k1 t -> fits ic rm k2 t.
Proof.
  intros ic rm k1 k2 t. destruct k1 as [a|n r|n|a| |], k2 as [b|n' r'|n'|b| |]; cbn; try tauto.
  - intros H1 H2. apply same_text_trans with a; [apply same_text_sym; assumption|assumption].
  - intros H1 H2. unfold same_text in H1. destruct ic; [|congruence].
    apply accepts_fold with a; assumption.
Qed.

Lemma reads_val : forall s k, reads s k -> match k with Lit t | Glob t => t = s | _ => True end.
Proof. intros s k H; destruct H; auto. Qed.

Lemma reads_constrained_hd : forall s n r, reads s (Constrained n r) -> hd "a"%char s = "{"%char.
Proof. intros s n r H. inversion H; subst. reflexivity. Qed.

Lemma constraint_source_hd : forall ic r, r <> [] -> (ic = false -> hd "a"%char r <> "{"%char) ->
  hd "a"%char (constraint_source ic r) <> "{"%char.
Proof. intros [] r Hr H; cbn; [discriminate|apply H; reflexivity]. Qed.

Lemma same_val_alike : forall ci a b s k s' k',
  shows ci a s k -> reads s k -> shows ci b s' k' -> reads s' k' -> plain_piece ci k' ->
  (has_same_val ci a b = true <-> alike ci k k').
Proof.
  intros ci a b s k s' k' [Va Sa] Ra [Vb Sb] Rb Hp.
  pose proof (reads_val _ _ Ra) as Xa. pose proof (reads_val _ _ Rb) as Xb.
  unfold has_same_val.
  assert (Hc : forall v w, (if ci then equal_fold w v else beqb w v) = true <-> same_text ci v w).
  { intros v w. unfold same_text. destruct ci; [rewrite equal_fold_eq|rewrite beqb_eq]; split; congruence. }
  destruct k, k'; cbn [alike] in *;
    try (destruct Sa as [Ma Sa]; destruct Sb as [Mb Sb]; rewrite Ma, Mb; cbn [mt_eqb mt_code N.eqb andb Pos.eqb];
         try (split; [discriminate|tauto]); try (split; auto; fail)).
  - rewrite Va, Vb. subst. apply Hc.
  - destruct Sa as [_ Sa]. destruct Sb as [_ Sb]. rewrite Sb. split; [|tauto]. intros E. apply beqb_eq in E.
    exfalso. assert (Hre : re0 <> []) by (inversion Rb; assumption).
    apply (constraint_source_hd ci re0); [assumption|exact Hp|]. rewrite E, Va.
    eapply reads_constrained_hd; eassumption.
  - rewrite Va, Vb. subst. apply Hc.
Qed.

Lemma shares_fits : forall ci a b s' k', shown ci a -> shows ci b s' k' -> reads s' k' -> plain_piece ci k' ->
  shares ci a b ->
  exists s k, shows ci a s k /\ reads s k /\ (k = k' \/ alike ci k k').
Proof.
  intros ci a b s' k' [s [k [Ha Ra]]] Hb Rb Hp [->|H].
  - exists s', k'. auto.
  - exists s, k. split; [assumption|]. split; [assumption|]. right.
    eapply same_val_alike; eassumption.
Qed.

Lemma or_alike_fits : forall ic rm k1 k2 t, k1 = k2 \/ alike ic k1 k2 -> fits ic rm k1 t -> fits ic rm k2 t.
Proof. intros ic rm k1 k2 t [->|H]; [auto|apply alike_fits; assumption]. Qed.

Lemma alike_mt : forall ic k1 k2, alike ic k1 k2 -> mt_of k1 = mt_of k2.
Proof. intros ic [] []; cbn; tauto. Qed.

(** ** A route that covers a request reads it *)

Fixpoint names (ks : list piece) : list bytes :=
  match ks with
  | [] => []
  | k :: ks' => match binds_name k with Some n => n :: names ks' | None => names ks' end
  end.

(** The texts standing at captures. *)
Fixpoint captured (ms : list mtype) (ts : list bytes) : list bytes :=
  match ms, ts with
  | m :: ms', t :: ts' => if is_capture m then t :: captured ms' ts' else captured ms' ts'
  | _, _ => []
  end.

Lemma captured_multi : forall (A : Type) (vs : list A) ts1 ms ts, List.length vs = List.length ts1 ->
  captured (map (fun _ => MTMulti) vs ++ ms) (ts1 ++ ts) = captured ms ts.
Proof.
  intros A. induction vs as [|v vs IH]; intros [|t ts1] ms ts H; try discriminate; [reflexivity|].
  cbn [map app captured]. apply IH. injection H as H. assumption.
Qed.

Lemma reads_as_one : forall ic rm k ks t ts bs, k <> Any -> fits ic rm k t -> reads_as ic rm ks ts bs ->
  reads_as ic rm (k :: ks) (t :: ts) (match binds_name k with Some n => (n, t) :: bs | None => bs end).
Proof.
  intros ic rm k ks t0 ts bs Hk Hf H; destruct k; cbn [fits binds_name] in *; try congruence.
  - apply ra_lit; assumption.
  - apply ra_constrained; assumption.
  - apply ra_var; assumption.
  - apply ra_glob; assumption.
  - apply ra_one; assumption.
Qed.

Lemma mt_of_capture : forall k, is_capture (mt_of k) = named k.
Proof. intros []; reflexivity. Qed.

Lemma covers_reads : forall re ci path l us ms, covers re ci path l us ms ->
  forall segs ps ks ts, Forall (shown ci) l -> Forall2 (shares ci) l segs ->
  shows_all ci segs ps ks -> Forall2 reads ps ks -> Forall (plain_piece ci) ks ->
  Forall2 (rec1 path) us ts ->
  exists bs, reads_as ci (re_match re) ks ts bs /\ map fst bs = names ks /\ map snd bs = captured ms ts.
Proof.
  intros re ci path l us ms H.
  induction H as [|s l u us m ms Hm Hm1 Hm2 H IH|s us Hs Hne|s l vs us ms Hs Hl H IH];
    intros segs ps ks ts Hsh Hsa Hall Hrd Hpl Hrec.
  - inversion Hsa; subst. inversion Hall; subst. inversion Hrec; subst.
    exists []. split; [constructor|auto].
  - inversion Hsa as [|? b ? segs' Hab Hsa']; subst. inversion Hall as [|? s' k ? ps' ks' Hk Hall']; subst.
    inversion Hrec as [|? t ? ts' Ht Hrec']; subst. inversion Hsh; subst. inversion Hrd; subst. inversion Hpl; subst.
    destruct (IH segs' ps' ks' ts') as [bs [B1 [B2 B3]]]; auto.
    destruct (shares_fits ci s b s' k) as [s0 [k0 [S1 [S2 S3]]]]; auto.
    assert (Hmt : mt_of k0 = mt_of k) by (destruct S3 as [->|S3]; [reflexivity|eapply alike_mt; eassumption]).
    assert (Hk0 : k0 <> Any).
    { intros ->. destruct S1 as [_ [S1 _]]. unfold seg_match in Hm. rewrite S1 in Hm. congruence. }
    assert (Hk1 : k <> Any).
    { intros ->. apply Hk0. apply mt_of_any. rewrite Hmt. reflexivity. }
    pose proof (seg_match_fits re ci path s s0 k0 u t S1 S2 Ht Hk0) as F. rewrite Hm in F.
    destruct F as [[F _]|[F1 F2]]; [congruence|].
    exists (match binds_name k with Some n => (n, t) :: bs | None => bs end).
    split; [|split].
    + apply reads_as_one; auto. eapply or_alike_fits; eassumption.
    + cbn [names]. destruct (binds_name k); cbn [map fst]; congruence.
    + cbn [captured]. rewrite F1, Hmt, mt_of_capture. unfold named.
      destruct (binds_name k); cbn [map snd]; congruence.
  - inversion Hsa as [|? b ? segs' Hab Hsa']; subst. inversion Hsa'; subst.
    inversion Hall as [|? s' k ? ps' ks' Hk Hall']; subst. inversion Hall'; subst.
    assert (k = Any).
    { apply mt_of_any. rewrite <- (shows_mt _ _ _ _ Hk). destruct Hab as [->|Hab]; [assumption|].
      apply has_same_mt in Hab. congruence. }
    subst k. destruct ts as [|t ts]; [inversion Hrec; subst; congruence|].
    exists []. split; [constructor|]. split; [reflexivity|].
    pose proof (captured_multi _ us (t :: ts) [] [] (forall2_len _ _ _ _ _ Hrec)) as C.
    rewrite !app_nil_r in C. rewrite C. reflexivity.
  - inversion Hsa as [|? b ? segs' Hab Hsa']; subst.
    inversion Hall as [|? s' k ? ps' ks' Hk Hall']; subst. inversion Hsh; subst. inversion Hrd; subst. inversion Hpl; subst.
    assert (k = Any).
    { apply mt_of_any. rewrite <- (shows_mt _ _ _ _ Hk). destruct Hab as [->|Hab]; [assumption|].
      apply has_same_mt in Hab. congruence. }
    subst k. apply Forall2_app_inv_l in Hrec. destruct Hrec as [ts1 [ts2 [R1 [R2 ->]]]].
    destruct (IH segs' ps' ks' ts2) as [bs [B1 [B2 B3]]]; auto.
    exists bs. split; [|split].
    + apply ra_any; auto. intros ->. inversion Hall'; subst. inversion Hsa'; subst. congruence.
    + assumption.
    + rewrite captured_multi by (eapply forall2_len; eassumption). assumption.
Qed.

(** ** Path variables *)

Lemma named_count_names : forall ks, named_count ks = List.length (names ks).
Proof.
  unfold named_count. induction ks as [|k ks IH]; [reflexivity|]. cbn [filter names]. unfold named at 1.
  destruct (binds_name k); cbn [List.length]; congruence.
Qed.

Lemma find_capture_index : forall ci name segs ps ks, shows_all ci segs ps ks -> forall idx,
  match find_capture name segs idx with
  | Some i => exists a b, names ks = a ++ name :: b /\ ~ In name a /\ i = idx + List.length a
  | None => ~ In name (names ks)
  end.
Proof.
  intros ci name segs ps ks H. induction H as [|sg s k segs ps ks Hk H IH]; intros idx.
  - cbn. tauto.
  - cbn [find_capture names]. rewrite (shows_mt _ _ _ _ Hk), mt_of_capture. unfold named.
    destruct (binds_name k) as [n|] eqn:E.
    + assert (Hn : s_name sg = n).
      { destruct Hk as [_ Hk]. destruct k; cbn in E; try discriminate; injection E as <-; tauto. }
      destruct (beqb (s_name sg) name) eqn:En.
      * apply beqb_eq in En. exists [], (names ks). split; [cbn; congruence|]. split; [tauto|cbn; lia].
      * apply beqb_neq in En. specialize (IH (S idx)). destruct (find_capture name segs (S idx)) as [i|].
        -- destruct IH as [a [b [I1 [I2 I3]]]]. exists (n :: a), b. split; [rewrite I1; reflexivity|].
           split; [intros [A|A]; [congruence|contradiction]|cbn [List.length]; lia].
        -- intros [A|A]; [congruence|contradiction].
    + apply IH.
Qed.

Lemma nth_capture_text : forall path ms us ts, Forall2 (rec1 path) us ts -> types us = ms -> forall i,
  match nth_capture i us with
  | Some u => exists t, nth_error (captured ms ts) i = Some t /\ useg_text path u = Some t
  | None => nth_error (captured ms ts) i = None
  end.
Proof.
  intros path ms us ts H. revert ms. induction H as [|u t us ts Hu H IH]; intros ms Hm i.
  - cbn in *. subst. destruct i; reflexivity.
  - cbn in Hm. subst ms. cbn [nth_capture captured]. destruct (is_capture (u_mt u)).
    + destruct i as [|i]; [exists t; split; [reflexivity|apply Hu]|]. apply (IH _ eq_refl i).
    + apply (IH _ eq_refl i).
Qed.

Lemma value_of_split : forall name a b bs, map fst bs = a ++ name :: b -> ~ In name a ->
  value_of name bs = nth_error (map snd bs) (List.length a).
Proof.
  intros name. induction a as [|x a IH]; intros b bs E Hn; destruct bs as [|[n v] bs]; try discriminate; cbn in E.
  - injection E as -> _. cbn. destruct (list_eq_dec ascii_dec name name); congruence.
  - injection E as -> E. cbn. destruct (list_eq_dec ascii_dec x name) as [->|]; [exfalso; apply Hn; left; reflexivity|].
    eapply IH; [eassumption|]. intros A. apply Hn. right. assumption.
Qed.
Lemma value_of_none : forall name bs, ~ In name (map fst bs) -> value_of name bs = None.
Proof.
  intros name. induction bs as [|[n v] bs IH]; intros H; [reflexivity|]. cbn in *.
  destruct (list_eq_dec ascii_dec n name) as [->|]; [exfalso; tauto|]. apply IH. tauto.
Qed.

Lemma path_var_value : forall ci p path us ts ps ks bs name,
  shows_all ci (p_segs p) ps ks -> p_caps p = N.of_nat (named_count ks) ->
  Forall2 (rec1 path) us ts -> map fst bs = names ks -> map snd bs = captured (types us) ts ->
  path_var (Some p) path us name = Some (match value_of name bs with Some v => v | None => [] end).
Proof.
  intros ci p path us ts ps ks bs name Hs Hc Hr Hn Hv. unfold path_var. rewrite Hc, named_count_names.
  destruct (N.of_nat (List.length (names ks)) =? 0)%N eqn:E0.
  - apply N.eqb_eq in E0. assert (E : names ks = []) by (destruct (names ks); [reflexivity|cbn in E0; lia]).
    rewrite E in Hn. rewrite value_of_none by (rewrite Hn; intros []). reflexivity.
  - pose proof (find_capture_index ci name _ _ _ Hs 0) as F. destruct (find_capture name (p_segs p) 0) as [i|].
    + destruct F as [a [b [F1 [F2 F3]]]]. rewrite F1 in Hn. cbn in F3. subst i.
      rewrite (value_of_split name a b bs Hn F2), Hv.
      pose proof (nth_capture_text path _ us ts Hr eq_refl (List.length a)) as T.
      destruct (nth_capture (List.length a) us) as [u|].
      * destruct T as [t [T1 T2]]. rewrite T1. assumption.
      * rewrite T. reflexivity.
    + rewrite <- Hn in F. rewrite value_of_none by assumption. reflexivity.
Qed.
