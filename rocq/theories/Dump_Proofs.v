(** * Proofs about [RequestDumper] *)
From Coq Require Import List NArith ZArith Ascii String Bool Lia Arith Permutation FinFun.
From Verif Require Import GoBase Http_Model Chain_Model Serve_Model Resp_Model Resp_Spec.
From Verif Require Import Json_Model Json_Spec JsonUtf8_Proofs JsonEnc_Proofs JsonRead_Proofs JsonErr_Spec JsonErr_Proofs Dump_Model Dump_Spec.
Import ListNotations.
Local Open Scope string_scope.
Local Open Scope list_scope.
Local Open Scope N_scope.

(** ** Members *)
Definition plainb (s : bytes) : bool := forallb (fun b => code b <? 128) s.
Lemma plain_well : forall s, plainb s = true -> well_encoded s (map code s).
Proof.
  intros s H. apply ascii_all in H. split.
  - induction H as [|b s L H IH]; constructor; [left; lia|assumption].
  - induction H as [|b s L H IH]; [reflexivity|]. cbn. rewrite utf8_ascii by assumption. cbn. rewrite <- IH. reflexivity.
Qed.
Lemma well_fun : forall s cs ds, well_encoded s cs -> well_encoded s ds -> cs = ds.
Proof. intros s cs ds A B. eapply text_of_fun; apply text_of_well; eassumption. Qed.
Lemma map_code_inj : Injective (map code).
Proof.
  intros a. induction a as [|x a IH]; intros [|y b] E; try discriminate; [reflexivity|]. cbn in E. injection E as E1 E2.
  apply code_inj in E1. subst. rewrite (IH b E2). reflexivity.
Qed.

Lemma stands_keys : forall m vs, Forall2 (fun kv cv => text_of (fst kv) (fst cv) /\ stands_for (snd kv) (snd cv)) m vs ->
  forallb (fun kv => plainb (fst kv)) m = true -> map fst vs = map (map code) (map fst m).
Proof.
  intros m vs H. induction H as [|[k g] [c x] m vs [T S] H IH]; intros P; [reflexivity|]. cbn in P, T |- *.
  apply andb_true_iff in P. destruct P as [P1 P2]. rewrite (IH P2). f_equal. eapply text_of_fun; [eassumption|]. apply text_of_well, plain_well. assumption.
Qed.
Lemma forallb_perm : forall (A : Type) (f : A -> bool) l l', Permutation l l' -> forallb f l = true -> forallb f l' = true.
Proof.
  intros A f l l' P H. rewrite forallb_forall in H |- *. intros x I0. apply H. eapply Permutation_in; [apply Permutation_sym|]; eassumption.
Qed.

Lemma object : forall m w, stands_for (GMap m) w -> forallb (fun kv => plainb (fst kv)) m = true -> NoDup (map fst m) ->
  (forall k g, In (k, g) m -> holds w k g) /\ (forall k, ~ In k (map fst m) -> plainb k = true -> lacks w k).
Proof.
  intros m w S P N. inversion S as [| | | | |m0 m' vs Pm F|]; subst.
  pose proof (forallb_perm _ _ _ _ Pm P) as P'. pose proof (stands_keys _ _ F P') as K.
  assert (N' : NoDup (map fst vs)).
  { rewrite K. apply Injective_map_NoDup; [apply map_code_inj|]. eapply Permutation_NoDup; [apply Permutation_map; eassumption|assumption]. }
  split.
  - intros k g I0. apply (Permutation_in _ Pm) in I0.
    assert (X : exists c x, In (c, x) vs /\ text_of k c /\ stands_for g x).
    { clear - F I0. induction F as [|[k1 g1] [c x] m vs [T S] F IH]; [destruct I0|]. destruct I0 as [E|I0].
      - injection E as -> ->. exists c, x. cbn in *. auto.
      - destruct (IH I0) as [c' [x' [A B]]]. exists c', x'. cbn. auto. }
    destruct X as [c [x [I1 [T S1]]]]. exists x. split; [|assumption]. exists vs, c. split; [reflexivity|]. split; [assumption|]. split; [|assumption].
    assert (PK : plainb k = true).
    { rewrite forallb_forall in P'. apply (P' _ I0). }
    rewrite (text_of_fun _ _ T _ (text_of_well _ _ (plain_well _ PK))). apply plain_well. assumption.
  - intros k NI PK. exists vs. split; [reflexivity|]. intros key x W I0. rewrite (well_fun _ _ _ W (plain_well _ PK)) in I0.
    apply (in_map fst) in I0. cbn in I0. rewrite K in I0. apply in_map_iff in I0. destruct I0 as [k' [E I0]]. apply map_code_inj in E. subst k'.
    apply NI. eapply Permutation_in; [apply Permutation_sym, Permutation_map; eassumption|assumption].
Qed.

Ltac nodup := repeat (constructor; [cbn; intuition discriminate|]); constructor.

Lemma request_told : forall d header form w, stands_for (request_map d header form) w -> tells_request w d header form.
Proof.
  intros d header form w S. unfold request_map, with_cookies in S. destruct (dq_cookies d) as [|x l] eqn:E.
  - destruct (object _ _ S) as [H L]; [reflexivity|nodup|].
    constructor; try (apply H; cbn; tauto); rewrite ?E.
    + eexists. split; [|apply H; do 5 right; left; reflexivity]. unfold if_any, or_nil. destruct (dq_encoding d); reflexivity.
    + eexists. split; [|apply H; do 9 right; left; reflexivity]. unfold if_any, or_nil. destruct header; reflexivity.
    + eexists. split; [|apply H; do 10 right; left; reflexivity]. unfold if_any, or_nil. destruct form; reflexivity.
    + intros X. contradiction.
    + intros _. apply L; [cbn; intuition discriminate|reflexivity].
  - destruct (object _ _ S) as [H L]; [reflexivity|nodup|].
    constructor; try (apply H; cbn; tauto); rewrite ?E.
    + eexists. split; [|apply H; do 5 right; left; reflexivity]. unfold if_any, or_nil. destruct (dq_encoding d); reflexivity.
    + eexists. split; [|apply H; do 9 right; left; reflexivity]. unfold if_any, or_nil. destruct header; reflexivity.
    + eexists. split; [|apply H; do 10 right; left; reflexivity]. unfold if_any, or_nil. destruct form; reflexivity.
    + intros _. apply H. do 11 right. left. reflexivity.
    + intros X. discriminate.
Qed.

Lemma response_told : forall (oc : cookies -> cookies) render st hs cs w, (forall m, Permutation (oc m) m) ->
  stands_for (response_map oc render st hs cs) w -> tells_response render w st hs (map snd cs).
Proof.
  intros oc render st hs cs w OC S. unfold response_map, with_cookies in S.
  assert (P : Permutation (map (fun kc => render (snd kc)) (oc cs)) (map render (map snd cs))).
  { rewrite map_map. apply Permutation_map. apply OC. }
  remember (map (fun kc => render (snd kc)) (oc cs)) as l eqn:El. clear El. destruct l as [|x l].
  - apply Permutation_nil in P. destruct (object _ _ S) as [H L]; [reflexivity|nodup|].
    constructor.
    + apply H. cbn. tauto.
    + eexists. split; [|apply H; right; left; reflexivity]. destruct hs; reflexivity.
    + intros X. destruct (map snd cs); [contradiction|discriminate].
    + intros _. apply L; [cbn; intuition discriminate|reflexivity].
  - destruct (object _ _ S) as [H L]; [reflexivity|nodup|].
    constructor.
    + apply H. cbn. tauto.
    + eexists. split; [|apply H; right; left; reflexivity]. destruct hs; reflexivity.
    + intros _. exists (x :: l). split; [assumption|]. apply H. right. right. left. reflexivity.
    + intros X. rewrite X in P. apply Permutation_sym, Permutation_nil in P. discriminate.
Qed.

Lemma meant_hr : forall h st, meant_status h st -> hr_code h = st.
Proof. intros h st [[A B]|[A B]]; unfold hr_code; destruct (Z.eqb_spec (hr_status h) 0); congruence. Qed.

Lemma shown_seen : forall r st hs cs, shown r st hs cs ->
  status_code r = Some st /\ seen_headers r = Some hs /\ map snd (seen_cookies r) = cs.
Proof.
  assert (C : forall h, map snd (some_cookies (hr_cookies h)) = custom_cookies h).
  { intros h. unfold custom_cookies, some_cookies. destruct (hr_cookies h); reflexivity. }
  intros r st hs cs H. induction H as [r h st F M|h url st M| |hs cs acts h E|level r st hs cs H IH].
  - rewrite <- (meant_hr _ _ M). destruct r; try discriminate; injection F as ->; cbn; auto.
  - rewrite <- (meant_hr _ _ M). cbn. auto.
  - cbn. auto.
  - subst h. cbn. rewrite <- (C (HResp 0 [] hs cs)). auto.
  - exact IH.
Qed.

(** ** What is written afterwards *)
Section Writing.
Variable k : compressor.
Variable oh : headers -> headers.
Variable oc : cookies -> cookies.
Variable render : cookie -> bytes.
Variable location : wreq -> bytes -> bytes.
Variable redirect_body : Z -> bytes -> bytes.
Hypothesis OH : forall m, Permutation (oh m) m.
Hypothesis OC : forall m, Permutation (oc m) m.

Lemma put_no_headers : forall hs (w : rw k), put_headers oh w (Some (some_headers hs)) = put_headers oh w hs.
Proof. intros [m|] w; [reflexivity|]. cbn. rewrite (Permutation_nil (Permutation_sym (OH []))). reflexivity. Qed.
Lemma put_no_cookies : forall cs (w : rw k), put_cookies oc render w (Some (some_cookies cs)) = put_cookies oc render w cs.
Proof. intros [m|] w; [reflexivity|]. cbn. rewrite (Permutation_nil (Permutation_sym (OC []))). reflexivity. Qed.
Lemma write_touched_headers : forall cut h (w : rw k),
  write_headers oh oc render (hr_cut cut (hr_touch h)) w = write_headers oh oc render (hr_cut cut h) w.
Proof.
  intros cut h w. unfold write_headers, hr_cut, hr_touch, hr_code. destruct cut; cbn [hr_status hr_ctype hr_headers hr_cookies some_headers].
  - rewrite put_no_cookies. reflexivity.
  - rewrite put_no_cookies, put_no_headers. reflexivity.
Qed.
Lemma get_touched : forall r, get_headers (touch r) = get_headers r.
Proof. induction r; cbn; auto. Qed.

Lemma write_touched : forall r cut q (w : rw k),
  write_cut oh oc render location redirect_body cut (touch r) q w = write_cut oh oc render location redirect_body cut r q w.
Proof.
  induction r; intros cut q w; cbn [touch write_cut]; unfold after_headers; rewrite ?write_touched_headers; try reflexivity.
  - rewrite put_no_cookies. destruct cut; [reflexivity|]. rewrite put_no_headers. reflexivity.
  - rewrite get_touched. destruct (compression_algorithm _); [|apply IHr]. destruct (get_headers r); [|reflexivity].
    rewrite IHr. reflexivity.
Qed.
End Writing.

(** ** The middleware *)
Section Dump.
Variables Req World : Type.
Variable view : Req -> dreq.
Variable header form : World -> option hmap.
Variable now : World -> Z.
Variable log : bytes -> World -> World.
Variable oc : cookies -> cookies.
Variable render : cookie -> bytes.
Hypothesis OC : forall m, Permutation (oc m) m.
Local Notation dumper := (request_dumper view header form now log oc render).

(** What a map that is taken before and read after the handler shows. *)
Definition read_late (f : World -> option hmap) (w w' : World) : option hmap := match f w with Some _ => f w' | None => None end.

Lemma dumped : forall (h : handler Req response World) c rq w r w' st hs cs,
  h c rq w = (HReturn (Some r) None, w') -> shown r st hs cs ->
  exists t v rv sv, dumper h c rq w = (HReturn (Some (touch r)) None, log t w') /\
    Forall harmless t /\ (forall v', json_text t v' <-> v' = v) /\
    holds v (str "startTimeMs") (GInt (now w)) /\ holds v (str "endTimeMs") (GInt (now w')) /\
    member v (str "request") rv /\ tells_request rv (view rq) (read_late header w w') (read_late form w w') /\
    member v (str "response") sv /\ tells_response render sv st hs cs.
Proof.
  intros h c rq w r w' st hs cs H S. apply shown_seen in S. destruct S as [S1 [S2 S3]].
  unfold request_dumper. rewrite H, S1, S2. cbv zeta.
  match goal with |- exists t v rv sv, (_, log (marshal ?g) w') = _ /\ _ => set (G := g) end.
  destruct (marshal_says G) as [v [SF U]]. destruct (object _ _ SF) as [M _]; [reflexivity|nodup|].
  destruct (M (str "request") _ ltac:(right; right; left; reflexivity)) as [rv [M1 T1]].
  destruct (M (str "response") _ ltac:(right; right; right; left; reflexivity)) as [sv [M2 T2]].
  exists (marshal G), v, rv, sv. split; [reflexivity|]. split; [apply marshal_harmless|]. split; [assumption|].
  split; [apply M; left; reflexivity|]. split; [apply M; right; left; reflexivity|].
  split; [assumption|]. split; [apply request_told; exact T1|]. split; [assumption|]. rewrite <- S3. apply response_told with (oc := oc); assumption.
Qed.

Lemma dumped_unchanged : forall (h : handler Req response World) c rq w r w' st hs cs,
  h c rq w = (HReturn (Some r) None, w') -> shown r st hs cs -> header w' = header w -> form w' = form w ->
  exists r' t v rv sv, dumper h c rq w = (HReturn (Some r') None, log t w') /\
    (forall v', json_text t v' <-> v' = v) /\
    holds v (str "startTimeMs") (GInt (now w)) /\ holds v (str "endTimeMs") (GInt (now w')) /\
    member v (str "request") rv /\ tells_request rv (view rq) (header w) (form w) /\
    member v (str "response") sv /\ tells_response render sv st hs cs.
Proof.
  intros h c rq w r w' st hs cs H S EH EF. destruct (dumped h c rq w r w' st hs cs H S) as [t [v [rv [sv [D [_ [U [A [B [C [T X]]]]]]]]]]].
  assert (L : forall f : World -> option hmap, f w' = f w -> read_late f w w' = f w).
  { intros f E. unfold read_late. rewrite E. destruct (f w); reflexivity. }
  rewrite (L _ EH), (L _ EF) in T. exists (touch r), t, v, rv, sv. tauto.
Qed.

Lemma dumped_late : forall (h : handler Req response World) c rq w r w' st hs cs m0 m1,
  h c rq w = (HReturn (Some r) None, w') -> shown r st hs cs -> header w = Some m0 -> header w' = Some m1 ->
  exists r' t v rv, dumper h c rq w = (HReturn (Some r') None, log t w') /\
    (forall v', json_text t v' <-> v' = v) /\ member v (str "request") rv /\ holds rv (str "header") (named_texts m1).
Proof.
  intros h c rq w r w' st hs cs m0 m1 H S E0 E1. destruct (dumped h c rq w r w' st hs cs H S) as [t [v [rv [sv [D [_ [U [_ [_ [C [T _]]]]]]]]]]].
  exists (touch r), t, v, rv. split; [assumption|]. split; [assumption|]. split; [assumption|].
  destruct (tr_header _ _ _ _ T) as [g [G HG]]. unfold read_late in G. rewrite E0, E1 in G. cbn in G. subst g. assumption.
Qed.

Lemma not_dumped : forall (h : handler Req response World) c rq w r e w',
  h c rq w = (HReturn r (Some e), w') -> dumper h c rq w = (HReturn None (Some e), w').
Proof. intros h c rq w r e w' H. unfold request_dumper. rewrite H. destruct r; reflexivity. Qed.

(** Everything that is logged is one line. *)
Lemma one_line : forall (h : handler Req response World) c rq w o w', h c rq w = (o, w') ->
  exists o1 w1, dumper h c rq w = (o1, w1) /\ (w1 = w' \/ exists t, w1 = log t w' /\ Forall harmless t).
Proof.
  intros h c rq w o w' H. unfold request_dumper. rewrite H. destruct o as [[r|] [e|]|v]; try (eexists; eexists; split; [reflexivity|left; reflexivity]).
  destruct (status_code r); [|eexists; eexists; split; [reflexivity|left; reflexivity]].
  destruct (seen_headers r); [|eexists; eexists; split; [reflexivity|left; reflexivity]].
  eexists; eexists. split; [reflexivity|]. right. eexists. split; [reflexivity|]. apply marshal_harmless.
Qed.

(** What goes on to the caller. *)
Lemma transparent : forall (h : handler Req response World) c rq w,
  (forall r e w', h c rq w = (HReturn r (Some e), w') -> dumper h c rq w = (HReturn None (Some e), w')) /\
  (forall v w', h c rq w = (HPanic v, w') -> dumper h c rq w = (HPanic v, w')) /\
  (forall r w' st hs cs, h c rq w = (HReturn (Some r) None, w') -> shown r st hs cs ->
     exists r' w1, dumper h c rq w = (HReturn (Some r') None, w1) /\
       forall (k : compressor) oh location redirect_body q (x : rw k), (forall m, Permutation (oh m) m) ->
         write oh oc render location redirect_body r' q x = write oh oc render location redirect_body r q x).
Proof.
  intros h c rq w. split; [|split].
  - intros r e w' H. eapply not_dumped. eassumption.
  - intros v w' H. unfold request_dumper. rewrite H. reflexivity.
  - intros r w' st hs cs H S. destruct (dumped h c rq w r w' st hs cs H S) as [t [v [rv [sv [D _]]]]].
    exists (touch r), (log t w'). split; [assumption|]. intros k oh location redirect_body q x OH. apply write_touched; assumption.
Qed.

(** Without a response there is a panic. *)
Lemma nil_panics : forall (h : handler Req response World) c rq w w' level,
  h c rq w = (HReturn None None, w') \/ h c rq w = (HReturn (Some (RCompressNil level)) None, w') ->
  dumper h c rq w = (HPanic (Some 0%nat), w').
Proof. intros h c rq w w' level [H|H]; unfold request_dumper; rewrite H; reflexivity. Qed.

End Dump.
