(** * Proofs about request path parsing. *)
From Coq Require Import List NArith ZArith Ascii String Bool Lia Arith.
From Verif Require Import GoBase Glob_Model Pattern_Model Pattern_Proofs Url_Model Url_Spec Glob_Proofs.
Import ListNotations.
Local Open Scope string_scope.
Local Open Scope list_scope.
Local Open Scope nat_scope.

Lemma slice_mid : forall a p b,
  slice (a ++ p ++ b) (blen a) (blen a + blen p) = Some p.
Proof.
  intros a p b. unfold slice, blen. rewrite !app_length.
  replace ((N.of_nat (List.length a) <=? N.of_nat (List.length a) + N.of_nat (List.length p))%N) with true
    by (symmetry; apply N.leb_le; lia).
  replace ((N.of_nat (List.length a) + N.of_nat (List.length p) <=?
            N.of_nat (List.length a + (List.length p + List.length b)))%N) with true
    by (symmetry; apply N.leb_le; lia).
  simpl. f_equal.
  replace (N.to_nat (N.of_nat (List.length a) + N.of_nat (List.length p) - N.of_nat (List.length a)))
    with (List.length p) by lia.
  rewrite Nat2N.id. rewrite skipn_app, skipn_all, Nat.sub_diag. simpl.
  rewrite firstn_app, firstn_all, Nat.sub_diag. simpl. apply app_nil_r.
Qed.

(** The recorded offsets of a list of segments spell the texts. *)
Definition records (path : bytes) (us : list useg) (texts : list bytes) : Prop :=
  Forall2 (fun u t => useg_text path u = Some t /\ u_mt u = MTUnknown /\
                      (u_start u <= u_end u)%N /\ (u_end u <= blen path)%N /\
                      (u_end u - u_start u = blen t)%N) us texts.

Lemma records_len : forall path us ts, records path us ts -> List.length us = List.length ts.
Proof. intros path us ts H. unfold records in H. eapply forall2_len; eauto. Qed.

Lemma forall2_firstn : forall (A B : Type) (R : A -> B -> Prop) l l' n,
  Forall2 R l l' -> Forall2 R (firstn n l) (firstn n l').
Proof.
  intros A B R l l' n H. revert n. induction H; intros [|n]; simpl; constructor; auto.
Qed.

Lemma removelast_firstn_len : forall (A : Type) (l : list A),
  removelast l = firstn (List.length l - 1) l.
Proof.
  intros A l. destruct (snoc_cases _ l) as [->|[l' [x ->]]]; [reflexivity|].
  rewrite removelast_last, app_length. simpl.
  replace (List.length l' + 1 - 1) with (List.length l') by lia.
  rewrite firstn_app, firstn_all, Nat.sub_diag. simpl. symmetry. apply app_nil_r.
Qed.

Lemma url_loop_skip : forall path p rest pos st, ~ In slash p ->
  url_loop path (p ++ rest) pos st = url_loop path rest (pos + blen p)%N st.
Proof.
  intros path. induction p as [|c p IH]; intros rest pos st Hn.
  - simpl. rewrite N.add_0_r. reflexivity.
  - cbn [app url_loop]. destruct (Ascii.eqb c slash) eqn:E.
    { apply Ascii.eqb_eq in E. exfalso. apply Hn. left. auto. }
    rewrite IH by (intros Hi; apply Hn; right; assumption).
    f_equal. unfold blen. cbn [List.length]. lia.
Qed.

Section Parse.
Variable path : bytes.
Hypothesis Hshort : (blen path < 65536)%N.

(** State after reading a prefix: the segments held are [seen]. *)
Definition holds (st : ustate) (seen : list bytes) : Prop :=
  us_idx st = List.length seen /\ List.length seen <= 19 /\ List.length (us_segs st) = 19 /\
  records path (firstn (us_idx st) (us_segs st)) seen.

Lemma add_segment_spec : forall st seen pre p post,
  path = pre ++ p ++ post -> us_start st = Z.of_N (blen pre) -> holds st seen ->
  match add_segment path st (blen pre + blen p) with
  | UAdded st' => List.length (walk seen p) <= 19 /\ holds st' (walk seen p) /\ us_start st' = Z.of_N (blen pre)
  | UTooMany => 19 < List.length (walk seen p)
  | UPanic => False
  end.
Proof.
  intros st seen pre p post Hp Hst Hh. destruct Hh as [Hi [Hl [Hs Hr]]].
  assert (Hsl : slice path (blen pre) (blen pre + blen p) = Some p) by (rewrite Hp; apply slice_mid).
  unfold add_segment. rewrite Hst, N2Z.id. rewrite Hsl.
  destruct p as [|c p0].
  { cbn [List.length Nat.eqb]. cbv iota. split; [assumption|]. split; [|assumption].
    unfold holds. auto. }
  remember (c :: p0) as p eqn:Ep.
  assert (Hw : walk seen p = if list_eq_dec ascii_dec p (str "..") then removelast seen else seen ++ [p]).
  { subst p. reflexivity. }
  replace (Nat.eqb (List.length p) 0) with false by (subst p; reflexivity).
  destruct (list_eq_dec ascii_dec p (str "..")) as [E|E].
  - rewrite E. rewrite beqb_refl. rewrite E in Hw. rewrite Hw.
    rewrite removelast_firstn_len, firstn_length. split; [lia|]. split; [|cbn [us_start]; auto].
    unfold holds. cbn [us_idx us_segs]. rewrite firstn_length. repeat split; try lia.
    replace (us_idx st - 1) with (Nat.min (List.length seen - 1) (us_idx st)) by lia.
    rewrite <- firstn_firstn. apply forall2_firstn. assumption.
  - apply beqb_neq in E. rewrite E. rewrite Hw. rewrite app_length. cbn [List.length].
    unfold max_path_segments. destruct (Nat.leb 19 (us_idx st)) eqn:El.
    + apply Nat.leb_le in El. lia.
    + apply Nat.leb_gt in El.
      destruct (update_spec _ (us_segs st) (us_idx st)
         (USeg (u16 (blen pre)) (u16 (blen pre + blen p)) MTUnknown))
        as [segs' [Eu [Hlen [_ [_ [_ Hf]]]]]]; [lia|].
      rewrite Eu. split; [lia|]. split; [|cbn [us_start]; auto].
      unfold holds. cbn [us_idx us_segs]. rewrite app_length. cbn [List.length].
      repeat split; try lia. rewrite Hf. apply Forall2_app; [assumption|].
      assert (Hlp : (blen pre + blen p <= blen path)%N).
      { rewrite Hp. unfold blen. rewrite !app_length. lia. }
      assert (E1 : u16 (blen pre) = blen pre) by (unfold u16; apply N.mod_small; lia).
      assert (E2 : u16 (blen pre + blen p) = (blen pre + blen p)%N) by (unfold u16; apply N.mod_small; lia).
      constructor; [|constructor]. rewrite E1, E2. unfold useg_text. cbn [u_start u_end u_mt].
      repeat split; try lia. assumption.
Qed.

Lemma add_segment_start : forall st e st', add_segment path st e = UAdded st' -> us_start st' = us_start st.
Proof.
  intros st e st' H. unfold add_segment in H.
  destruct (slice _ _ _); [|discriminate].
  destruct (Nat.eqb _ 0); [injection H as <-; reflexivity|].
  destruct (beqb _ _); [injection H as <-; reflexivity|].
  destruct (Nat.leb _ _); [discriminate|].
  destruct (update _ _ _); [|discriminate]. injection H as <-. reflexivity.
Qed.

(** Reading the rest of the path after a slash at the end of [pre]. *)
Lemma url_loop_spec : forall ps rest, cut rest ps -> forall pre st seen,
  path = pre ++ rest -> us_start st = Z.of_N (blen pre) -> holds st seen ->
  match url_loop path rest (blen pre) st with
  | UPanic => False
  | UTooMany => too_many seen ps
  | UAdded st' =>
      match (if negb (us_start st' =? -1)%Z && (us_start st' <? Z.of_N (blen path))%Z
             then add_segment path st' (blen path) else UAdded st') with
      | UPanic => False
      | UTooMany => too_many seen ps
      | UAdded st'' => ~ too_many seen ps /\ holds st'' (walked seen ps)
      end
  end.
Proof.
  intros ps rest H. induction H as [p Hn|p t ps Hn Hc IH]; intros pre st seen Hp Hst Hh.
  - assert (Hl : url_loop path p (blen pre) st = UAdded st).
    { replace p with (p ++ []) by apply app_nil_r. rewrite url_loop_skip by assumption. reflexivity. }
    rewrite Hl.
    rewrite Hst.
    replace ((Z.of_N (blen pre) =? -1)%Z) with false by (symmetry; apply Z.eqb_neq; lia).
    cbn [negb andb].
    pose proof (add_segment_spec st seen pre p [] ) as A. rewrite app_nil_r in A.
    specialize (A Hp Hst Hh).
    assert (Hbl : blen path = (blen pre + blen p)%N) by (rewrite Hp; unfold blen; rewrite app_length; lia).
    rewrite <- Hbl in A.
    destruct (Z.of_N (blen pre) <? Z.of_N (blen path))%Z eqn:El.
    + cbn [too_many walked]. destruct (add_segment path st (blen path)).
      * destruct A as [A1 [A2 _]]. split; [intros [A|[]]; lia|assumption].
      * left. assumption.
      * contradiction.
    + apply Z.ltb_ge in El. assert (p = []) by (destruct p; [reflexivity|unfold blen in *; simpl in *; lia]).
      subst p. cbn [too_many walked walk]. split; [|assumption].
      destruct Hh as [_ [Hh _]]. intros [A0|[]]. lia.
  - rewrite url_loop_skip by assumption. cbn [url_loop]. change (Ascii.eqb "/"%char slash) with true. cbv iota.
    rewrite Hst.
    replace ((Z.of_N (blen pre) =? -1)%Z) with false by (symmetry; apply Z.eqb_neq; lia).
    pose proof (add_segment_spec st seen pre p ("/"%char :: t) Hp Hst Hh) as A.
    destruct (add_segment path st (blen pre + blen p)) as [st1| |] eqn:Ea.
    + destruct A as [A1 [A2 _]].
      specialize (IH (pre ++ p ++ ["/"%char])
                     (UState (us_idx st1) (Z.of_N (blen pre + blen p + 1)) (us_segs st1)) (walk seen p)).
      assert (Hbl : blen (pre ++ p ++ ["/"%char]) = (blen pre + blen p + 1)%N)
        by (unfold blen; rewrite !app_length; simpl; lia).
      rewrite Hbl in IH.
      assert (Hp' : path = (pre ++ p ++ ["/"%char]) ++ t) by (rewrite Hp, <- !app_assoc; reflexivity).
      specialize (IH Hp' eq_refl). 
      assert (Hh' : holds (UState (us_idx st1) (Z.of_N (blen pre + blen p + 1)) (us_segs st1)) (walk seen p))
        by (unfold holds in *; cbn [us_idx us_segs]; assumption).
      specialize (IH Hh'). cbn [too_many walked].
      destruct (url_loop path t (blen pre + blen p + 1)
                  (UState (us_idx st1) (Z.of_N (blen pre + blen p + 1)) (us_segs st1))) as [st2| |].
      * destruct (if negb (us_start st2 =? -1)%Z && (us_start st2 <? Z.of_N (blen path))%Z
                  then add_segment path st2 (blen path) else UAdded st2).
        -- destruct IH as [I1 I2]. split; [|assumption]. intros [A0|A0]; [lia|contradiction].
        -- right. assumption.
        -- contradiction.
      * right. assumption.
      * contradiction.
    + cbn [too_many]. left. assumption.
    + contradiction.
Qed.

Lemma parse_url_spec_gen : forall junk t ps buf, ~ In "/"%char junk -> path = junk ++ "/"%char :: t ->
  cut t ps -> List.length buf = 19 ->
  exists us, parse_url_path path buf = Some us /\
    ((too_many [] ps /\ us = []) \/ (~ too_many [] ps /\ records path us (walked [] ps))).
Proof.
  intros junk t ps buf Hj Hp Hc Hb. unfold parse_url_path.
  destruct (beqb path [] || beqb path (str "/")) eqn:E.
  - apply orb_true_iff in E. rewrite !beqb_eq in E. destruct E as [E|E]; [rewrite E in Hp; destruct junk; discriminate|].
    rewrite E in Hp. destruct junk as [|c junk]; [|destruct junk; discriminate].
    injection Hp as <-. inversion Hc; subst.
    + exists []. split; [reflexivity|]. right. simpl. split; [intros [A|[]]; lia|constructor].
    + destruct p; discriminate.
  - replace (url_loop path path 0 (UState 0 (-1)%Z buf))
      with (url_loop path (junk ++ "/"%char :: t) 0 (UState 0 (-1)%Z buf)) by (rewrite <- Hp; reflexivity).
    rewrite url_loop_skip by assumption.
    cbn [url_loop]. change (Ascii.eqb "/"%char slash) with true. cbv iota.
    cbn [us_start]. change ((-1 =? -1)%Z) with true. cbv iota. cbn [us_idx us_segs].
    replace (0 + blen junk)%N with (blen junk) by lia.
    pose proof (url_loop_spec ps t Hc (junk ++ ["/"%char]) (UState 0 (Z.of_N (blen junk + 1)) buf) []) as H.
    assert (Hbl : blen (junk ++ ["/"%char]) = (blen junk + 1)%N)
      by (unfold blen; rewrite app_length; simpl; lia).
    rewrite Hbl in H.
    specialize (H ltac:(rewrite <- app_assoc; exact Hp) eq_refl).
    assert (Hh : holds (UState 0 (Z.of_N (blen junk + 1)) buf) []).
    { unfold holds; cbn [us_idx us_segs]. repeat split; auto; simpl; try lia. constructor. }
    specialize (H Hh).
    destruct (url_loop path t (blen junk + 1) (UState 0 (Z.of_N (blen junk + 1)) buf)) as [st'| |].
    + destruct (if negb (us_start st' =? -1)%Z && (us_start st' <? Z.of_N (blen path))%Z
                then add_segment path st' (blen path) else UAdded st') as [st''| |].
      * destruct H as [H1 [Hi [_ [_ Hr]]]]. destruct (Nat.eqb (us_idx st'') 0) eqn:E0.
        -- apply Nat.eqb_eq in E0. exists []. split; [reflexivity|]. right. split; [assumption|].
           rewrite E0 in Hi. destruct (walked [] ps); [constructor|discriminate].
        -- eexists. split; [reflexivity|]. right. split; assumption.
      * exists []. split; [reflexivity|]. left. split; [assumption|reflexivity].
      * contradiction.
    + exists []. split; [reflexivity|]. left. split; [assumption|reflexivity].
    + contradiction.
Qed.

Lemma parse_url_no_slash : forall buf, ~ In "/"%char path -> parse_url_path path buf = Some [].
Proof.
  intros buf Hn. unfold parse_url_path.
  destruct (beqb path [] || beqb path (str "/")); [reflexivity|].
  assert (Hl : url_loop path path 0 (UState 0 (-1)%Z buf) = UAdded (UState 0 (-1)%Z buf)).
  { assert (H : url_loop path (path ++ []) 0 (UState 0 (-1)%Z buf) = UAdded (UState 0 (-1)%Z buf))
      by (rewrite url_loop_skip by assumption; reflexivity).
    rewrite app_nil_r in H. exact H. }
  rewrite Hl. reflexivity.
Qed.

End Parse.

(** ** No panic, whatever the path *)

Section NoPanic.
Variable path : bytes.

Definition safe (st : ustate) (pos : N) : Prop :=
  List.length (us_segs st) = 19 /\ us_idx st <= 19 /\
  (us_start st = -1 \/ 0 <= us_start st <= Z.of_N pos)%Z.

Lemma add_segment_safe : forall st e, safe st e -> (us_start st <> -1)%Z -> (e <= blen path)%N ->
  match add_segment path st e with
  | UAdded st' => safe st' e
  | UTooMany => True
  | UPanic => False
  end.
Proof.
  intros st e [H1 [H2 H3]] H4 H5. unfold add_segment.
  unfold slice. replace ((Z.to_N (us_start st) <=? e)%N) with true by (symmetry; apply N.leb_le; lia).
  apply N.leb_le in H5. rewrite H5. cbn [andb].
  set (seg := firstn _ _). clearbody seg.
  destruct (Nat.eqb (List.length seg) 0); [repeat split; assumption|].
  destruct (beqb seg (str "..")).
  { repeat split; cbn [us_idx us_segs us_start]; auto. lia. }
  unfold max_path_segments. destruct (Nat.leb 19 (us_idx st)) eqn:E; [exact I|]. apply Nat.leb_gt in E.
  destruct (update_spec _ (us_segs st) (us_idx st) (USeg (u16 (Z.to_N (us_start st))) (u16 e) MTUnknown))
    as [segs' [Eu [Hlen _]]]; [lia|].
  rewrite Eu. repeat split; cbn [us_idx us_segs us_start]; auto; lia.
Qed.

Lemma safe_later : forall st a b, safe st a -> (a <= b)%N -> safe st b.
Proof. intros st a b [H1 [H2 H3]] H. repeat split; auto. lia. Qed.

Lemma url_loop_safe : forall rest pos st, (pos + blen rest = blen path)%N -> safe st pos ->
  match url_loop path rest pos st with
  | UAdded st' => safe st' (blen path)
  | UTooMany => True
  | UPanic => False
  end.
Proof.
  induction rest as [|c rest IH]; intros pos st Hl Hs.
  - cbn [url_loop]. eapply safe_later; [eassumption|]. unfold blen in *. simpl in Hl. lia.
  - cbn [url_loop].
    assert (Hl' : (pos + 1 + blen rest = blen path)%N) by (unfold blen in *; cbn [List.length] in Hl; lia).
    destruct (Ascii.eqb c slash).
    + destruct (us_start st =? -1)%Z eqn:E.
      * apply IH; auto. destruct Hs as [H1 [H2 H3]]. repeat split; auto. cbn [us_start]. right. lia.
      * apply Z.eqb_neq in E. pose proof (add_segment_safe st pos Hs E) as A.
        destruct (add_segment path st pos) as [st1| |].
        -- apply IH; auto. destruct A as [A1 [A2 A3]]; [lia|]. repeat split; auto. cbn [us_start]. right. lia.
        -- exact I.
        -- apply A. lia.
    + apply IH; auto. eapply safe_later; [eassumption|lia].
Qed.

Lemma parse_url_no_panic : forall buf, List.length buf = 19 ->
  exists us, parse_url_path path buf = Some us /\ List.length us <= 19.
Proof.
  intros buf Hb. unfold parse_url_path.
  destruct (beqb path [] || beqb path (str "/")); [exists []; split; [reflexivity|simpl; lia]|].
  pose proof (url_loop_safe path 0%N (UState 0 (-1)%Z buf)) as H.
  specialize (H ltac:(lia)).
  assert (Hs : safe (UState 0 (-1)%Z buf) 0) by (repeat split; cbn [us_idx us_segs us_start]; auto; lia).
  specialize (H Hs). destruct (url_loop path path 0 (UState 0 (-1)%Z buf)) as [st'| |].
  - destruct (negb (us_start st' =? -1)%Z && (us_start st' <? Z.of_N (blen path))%Z) eqn:E.
    + apply andb_true_iff in E. destruct E as [E _]. apply negb_true_iff, Z.eqb_neq in E.
      pose proof (add_segment_safe st' (blen path) H E ltac:(lia)) as A.
      destruct (add_segment path st' (blen path)) as [st''| |].
      * destruct (Nat.eqb (us_idx st'') 0); eexists; (split; [reflexivity|]); [simpl; lia|].
        rewrite firstn_length. destruct A as [A1 [A2 _]]. lia.
      * exists []. split; [reflexivity|simpl; lia].
      * contradiction.
    + destruct (Nat.eqb (us_idx st') 0); eexists; (split; [reflexivity|]); [simpl; lia|].
      rewrite firstn_length. destruct H as [A1 [A2 _]]. lia.
  - exists []. split; [reflexivity|simpl; lia].
  - contradiction.
Qed.
End NoPanic.

(** The text after the first slash can always be cut. *)
Lemma cut_exists : forall t, exists ps, cut t ps.
Proof.
  induction t as [|c t [ps IH]].
  - exists [[]]. apply cut_last. intros [].
  - destruct (Ascii.eqb c slash) eqn:E.
    + apply Ascii.eqb_eq in E. subst c. exists ([] :: ps). apply (cut_more [] t ps); auto.
    + apply Ascii.eqb_neq in E. inversion IH as [p Hp|p t' ps' Hp Hc]; subst.
      * exists [c :: t]. apply cut_last. intros [H|H]; [apply E; exact H|contradiction].
      * exists ((c :: p) :: ps'). apply (cut_more (c :: p) t' ps'); auto.
        intros [H|H]; [apply E; exact H|contradiction].
Qed.

Lemma cut_unique : forall t ps1, cut t ps1 -> forall ps2, cut t ps2 -> ps1 = ps2.
Proof.
  assert (Hsplit : forall p1 p2 t1 t2, ~ In "/"%char p1 -> ~ In "/"%char p2 ->
     p1 ++ "/"%char :: t1 = p2 ++ "/"%char :: t2 -> p1 = p2 /\ t1 = t2).
  { induction p1 as [|c p1 IH]; intros [|d p2] t1 t2 H1 H2 E; cbn [app] in E.
    - injection E as E. auto.
    - injection E as E1 E2. exfalso. apply H2. left. congruence.
    - injection E as E1 E2. exfalso. apply H1. left. congruence.
    - injection E as E1 E2. destruct (IH p2 t1 t2) as [A B]; auto; try (intros Hi; cbn in *; tauto).
      subst. auto. }
  intros t ps1 H. induction H as [p Hn|p t ps Hn Hc IH]; intros ps2 H2.
  - inversion H2 as [q Hq|q t' ps' Hq Hc']; subst; [reflexivity|].
    exfalso. apply Hn. apply in_or_app. right. left. reflexivity.
  - inversion H2 as [q Hq E|q t' ps' Hq Hc' E]; subst.
    + exfalso. apply Hq. apply in_or_app. right. left. reflexivity.
    + apply Hsplit in E; auto. destruct E as [-> ->]. f_equal. apply IH. assumption.
Qed.

(** ** Any path *)

Lemma first_slash : forall path, In "/"%char path ->
  exists junk t, ~ In "/"%char junk /\ path = junk ++ "/"%char :: t.
Proof.
  induction path as [|c path IH]; intros H; [destruct H|].
  destruct (ascii_dec c "/"%char) as [->|Hc]; [exists [], path; split; [intros []|reflexivity]|].
  destruct H as [H|H]; [congruence|]. destruct (IH H) as [junk [t [H1 ->]]].
  exists (c :: junk), t. split; [|reflexivity]. intros [A|A]; [congruence|contradiction].
Qed.

Lemma first_slash_unique : forall junk1 junk2 t1 t2, ~ In "/"%char junk1 -> ~ In "/"%char junk2 ->
  junk1 ++ "/"%char :: t1 = junk2 ++ "/"%char :: t2 -> junk1 = junk2 /\ t1 = t2.
Proof.
  induction junk1 as [|c p1 IH]; intros [|d p2] t1 t2 H1 H2 E; cbn [app] in E.
  - injection E as E. auto.
  - injection E as E1 E2. exfalso. apply H2. left. congruence.
  - injection E as E1 E2. exfalso. apply H1. left. congruence.
  - injection E as E1 E2. destruct (IH p2 t1 t2) as [A B]; auto; try (intros Hi; cbn in *; tauto).
    subst. auto.
Qed.

Lemma parse_url_segments : forall path ts buf, (blen path < 65536)%N -> segments_of path ts ->
  List.length buf = 19 ->
  exists us, parse_url_path path buf = Some us /\ records path us ts.
Proof.
  intros path ts buf Hs H Hb. destruct H as [path Hn|junk t ps Hj Hc Ht].
  - exists []. split; [apply parse_url_no_slash; assumption|constructor].
  - destruct (parse_url_spec_gen (junk ++ "/"%char :: t) Hs junk t ps buf Hj eq_refl Hc Hb)
      as [us [H1 [[H2 _]|[_ H2]]]]; [contradiction|]. exists us. auto.
Qed.

Lemma parse_url_overlong : forall path buf, (blen path < 65536)%N -> overlong path ->
  List.length buf = 19 -> parse_url_path path buf = Some [].
Proof.
  intros path buf Hs H Hb. destruct H as [junk t ps Hj Hc Ht].
  destruct (parse_url_spec_gen (junk ++ "/"%char :: t) Hs junk t ps buf Hj eq_refl Hc Hb)
    as [us [H1 [[_ ->]|[H2 _]]]]; [assumption|contradiction].
Qed.

Lemma too_many_dec : forall ps seen, too_many seen ps \/ ~ too_many seen ps.
Proof.
  induction ps as [|p ps IH]; intros seen; cbn [too_many]; [right; tauto|].
  destruct (IH (walk seen p)) as [H|H]; [left; right; assumption|].
  destruct (le_lt_dec (List.length (walk seen p)) 19) as [A|A]; [right; intros [B|B]; [lia|contradiction]|].
  left. left. lia.
Qed.

Lemma path_cases : forall path, overlong path \/ exists ts, segments_of path ts.
Proof.
  intros path. destruct (in_dec ascii_dec "/"%char path) as [H|H].
  - destruct (first_slash path H) as [junk [t [Hj ->]]]. destruct (cut_exists t) as [ps Hc].
    destruct (too_many_dec ps []) as [A|A].
    + left. econstructor; eauto.
    + right. eexists. apply so_some; eassumption.
  - right. exists []. constructor. assumption.
Qed.

Lemma segments_of_unique : forall path ts1 ts2, segments_of path ts1 -> segments_of path ts2 -> ts1 = ts2.
Proof.
  intros path ts1 ts2 H1 H2. inversion H1 as [p1 N1 E1 E1'|j1 t1 ps1 J1 C1 T1 E1 E1']; subst;
    inversion H2 as [p2 N2 E2 E2'|j2 t2 ps2 J2 C2 T2 E2 E2']; subst; auto.
  - exfalso. apply N1. apply in_or_app. right. left. reflexivity.
  - exfalso. apply N2. apply in_or_app. right. left. reflexivity.
  - apply first_slash_unique in E2; auto. destruct E2 as [-> ->].
    rewrite (cut_unique _ _ C2 _ C1). reflexivity.
Qed.

Lemma overlong_not_segments : forall path ts, overlong path -> segments_of path ts -> False.
Proof.
  intros path ts H1 H2. destruct H1 as [j1 t1 ps1 J1 C1 T1].
  inversion H2 as [p2 N2 E2 E2'|j2 t2 ps2 J2 C2 T2 E2 E2']; subst.
  - apply N2. apply in_or_app. right. left. reflexivity.
  - apply first_slash_unique in E2; auto. destruct E2 as [-> ->].
    rewrite (cut_unique _ _ C2 _ C1) in T2. contradiction.
Qed.

(** The texts of the segments hold no slash and are not empty. *)
Lemma walked_len : forall path ts, segments_of path ts -> List.length ts <= 19.
Proof.
  intros path ts H. destruct H as [path Hn|junk t ps Hj Hc Ht]; [simpl; lia|].
  clear Hj Hc. assert (G : forall ps seen, List.length seen <= 19 -> ~ too_many seen ps ->
     List.length (walked seen ps) <= 19).
  { clear. induction ps as [|p ps IH]; intros seen Hs Ht; cbn [walked too_many] in *; [assumption|].
    apply IH; [|tauto]. destruct (le_lt_dec (List.length (walk seen p)) 19); [assumption|]. exfalso. tauto. }
  apply G; [simpl; lia|assumption].
Qed.

Lemma walked_good : forall path ts, segments_of path ts -> Forall (fun t => t <> [] /\ ~ In "/"%char t) ts.
Proof.
  intros path ts H. destruct H as [path Hn|junk t ps Hj Hc Ht]; [constructor|].
  assert (Hall : Forall (fun p => ~ In "/"%char p) ps).
  { clear - Hc. induction Hc; repeat constructor; assumption. }
  clear Hj Hc Ht. assert (G : forall ps seen, Forall (fun p => ~ In "/"%char p) ps ->
     Forall (fun t => t <> [] /\ ~ In "/"%char t) seen ->
     Forall (fun t => t <> [] /\ ~ In "/"%char t) (walked seen ps)).
  { clear. induction ps as [|p ps IH]; intros seen Hp Hs; cbn [walked]; [assumption|].
    inversion Hp; subst. apply IH; [assumption|]. unfold walk. destruct p as [|c p]; [assumption|].
    destruct (list_eq_dec _ _ _).
    - rewrite removelast_firstn_len. apply Forall_forall. intros x Hx.
      rewrite Forall_forall in Hs. apply Hs. rewrite <- (firstn_skipn (List.length seen - 1) seen).
      apply in_or_app. left. assumption.
    - apply Forall_app. split; [assumption|]. constructor; [split; [discriminate|assumption]|constructor]. }
  apply G; [assumption|constructor].
Qed.

Lemma parse_url_texts : forall path ts buf, (blen path < 65536)%N -> segments_of path ts ->
  List.length buf = 19 ->
  exists us, parse_url_path path buf = Some us /\
    Forall2 (fun u t => useg_text path u = Some t /\ u_mt u = MTUnknown) us ts.
Proof.
  intros path ts buf Hs H Hb. destruct (parse_url_segments path ts buf Hs H Hb) as [us [H1 H2]].
  exists us. split; [assumption|]. unfold records in H2. clear - H2.
  induction H2 as [|u t us ts [A [B _]] _ IH]; constructor; auto.
Qed.

Lemma parse_url_total : forall path buf, List.length buf = 19 -> parse_url_path path buf <> None.
Proof.
  intros path buf Hb. destruct (parse_url_no_panic path buf Hb) as [us [H _]]. rewrite H. discriminate.
Qed.

(** A path in which one segment was read and then removed again. *)
Lemma case_path : segments_of (str "/users//x/../7/") [str "users"; str "7"].
Proof.
  assert (H : segments_of ([] ++ "/"%char :: str "users//x/../7/")
     (walked [] [str "users"; str ""; str "x"; str ".."; str "7"; str ""])).
  { apply so_some; [intros []| |vm_compute; intuition lia].
    assert (N : forall s, existsb (Ascii.eqb "/"%char) s = false -> ~ In "/"%char s).
    { intros s Hs Hi. apply (proj2 (not_true_iff_false _) Hs). apply existsb_exists. exists "/"%char.
      split; [assumption|reflexivity]. }
    apply (cut_more (str "users")); [apply N; reflexivity|].
    apply (cut_more (str "")); [apply N; reflexivity|].
    apply (cut_more (str "x")); [apply N; reflexivity|].
    apply (cut_more (str "..")); [apply N; reflexivity|].
    apply (cut_more (str "7") []); [apply N; reflexivity|].
    apply cut_last. apply N. reflexivity. }
  exact H.
Qed.
