(** * Proofs about goroutines that share a cache. *)
From Coq Require Import List NArith ZArith Ascii String Bool Lia Arith.
From Verif Require Import GoBase Http_Model Cache_Model Csrf_Model Csrf_Spec CsrfConc_Proofs CacheRace_Model CacheRace_Spec.
Import ListNotations.
Local Open Scope string_scope.
Local Open Scope list_scope.
Local Open Scope nat_scope.

Lemma set_same {A : Type} : forall (l : list A) i x y, nth_error l i = Some y -> nth_error (set_nth i x l) i = Some x.
Proof.
  unfold set_nth. induction l as [|a l IH]; intros [|i] x y H; cbn in *; try discriminate; [reflexivity|].
  exact (IH i x y H).
Qed.

Lemma set_other {A : Type} : forall (l : list A) i j x y, nth_error l i = Some y -> j <> i ->
  nth_error (set_nth i x l) j = nth_error l j.
Proof.
  unfold set_nth. induction l as [|a l IH]; intros [|i] [|j] x y H N; cbn in *; try discriminate; try congruence.
  apply (IH i j x y H). congruence.
Qed.

Lemma map_set {A B : Type} (f : A -> B) : forall l i x, map f (set_nth i x l) = set_nth i (f x) (map f l).
Proof. intros. unfold set_nth. rewrite map_app, firstn_map. cbn [map]. rewrite skipn_map. reflexivity. Qed.

Lemma set_idle {A : Type} : forall (l : list A) i x, nth_error l i = Some x -> set_nth i x l = l.
Proof.
  unfold set_nth. induction l as [|a l IH]; intros [|i] x H; cbn in *; try discriminate.
  - injection H as ->. reflexivity.
  - f_equal. exact (IH i x H).
Qed.

Lemma changes_iff : forall op, changes op <-> call_writes op = true.
Proof.
  intros op; split.
  - intros [[now [key [d ->]]] | [key ->]]; reflexivity.
  - destruct op; cbn; intros H; [left|right|discriminate]; eauto.
Qed.

Section Race.
Variable T : Type.
Variable next : T -> option ccall.
Variable resume : T -> bool -> T.
Notation step := (race_step next resume).
Notation run := (race_run next resume).

(** The flag says that somebody writes; never two at a time. *)
Definition sound (s : rstate T) : Prop :=
  (rs_writing s = true <-> exists j, writing_now next s j) /\
  (forall i j, writing_now next s i -> writing_now next s j -> i = j).

Lemma writing_set : forall s i t b op m w x j, nth_error (rs_routines s) i = Some (t, b) -> next t = Some op ->
  j <> i -> (writing_now next (RState m w (set_nth i x (rs_routines s))) j <-> writing_now next s j).
Proof.
  intros s i t b op m w x j E _ N. unfold writing_now. cbn. rewrite (set_other _ i j x _ E N). tauto.
Qed.

Lemma sound_idle : forall s i m t b x, sound s -> nth_error (rs_routines s) i = Some (t, b) ->
  ~ writing_now next s i -> ~ (exists op, snd x = true /\ next (fst x) = Some op /\ changes op) ->
  sound (RState m (rs_writing s) (set_nth i x (rs_routines s))).
Proof.
  intros s i m t b x [F U] E NW NX.
  assert (K : forall j, writing_now next (RState m (rs_writing s) (set_nth i x (rs_routines s))) j <-> writing_now next s j).
  { intros j. destruct (Nat.eq_dec j i) as [->|N].
    - split; [|tauto]. intros [t' [op [E' [Hn C]]]]. cbn in E'. rewrite (set_same _ _ _ _ E) in E'. injection E' as ->.
      exfalso. apply NX. exists op. cbn. auto.
    - unfold writing_now. cbn. rewrite (set_other _ i j x _ E N). tauto. }
  split.
  - cbn. rewrite F. split; intros [j H]; exists j; apply K; exact H.
  - intros a b' Ha Hb. apply U; apply K; assumption.
Qed.

Lemma sound_step : forall s i s', sound s -> step s i = Running s' -> sound s'.
Proof.
  intros s i s' S E. unfold race_step in E.
  destruct (nth_error (rs_routines s) i) as [[t b]|] eqn:Ei; [|injection E as <-; exact S].
  destruct (next t) as [op|] eqn:En.
  - destruct b.
    + destruct (call_writes op) eqn:W.
      * destruct (rs_writing s) eqn:Wr; [|discriminate]. injection E as <-.
        assert (Me : writing_now next s i) by (exists t, op; split; [exact Ei | split; [exact En | apply changes_iff; exact W]]).
        destruct S as [F U].
        assert (No : forall j, ~ writing_now next
          (RState (cache_step (rs_map s) op) false (set_nth i (resume t (call_answer (rs_map s) op), false) (rs_routines s))) j).
        { intros j [t' [op' [E' [Hn C]]]]. cbn in E'. destruct (Nat.eq_dec j i) as [->|N].
          - rewrite (set_same _ _ _ _ Ei) in E'. discriminate.
          - rewrite (set_other _ i j _ _ Ei N) in E'. apply N. apply U; [|exact Me]. exists t', op'. auto. }
        split.
        -- cbn. split; [discriminate|]. intros [j H]. destruct (No j H).
        -- intros a c H. destruct (No a H).
      * injection E as <-. apply (sound_idle s i _ t true _ S Ei).
        -- intros [t' [op' [E' [Hn C]]]]. rewrite Ei in E'. injection E' as <-. rewrite En in Hn. injection Hn as <-.
           apply changes_iff in C. congruence.
        -- cbn. intros [op' [D _]]. discriminate.
    + assert (Idle : ~ writing_now next s i).
      { intros [t' [op' [E' _]]]. rewrite Ei in E'. discriminate. }
      destruct (call_shortcut (rs_map s) op).
      * injection E as <-. apply (sound_idle s i _ t false _ S Ei Idle). cbn. intros [op' [D _]]. discriminate.
      * destruct (rs_writing s) eqn:Wr; [discriminate|]. injection E as <-.
        destruct (call_writes op) eqn:W.
        -- destruct S as [F U].
           assert (Nobody : forall j, ~ writing_now next s j).
           { intros j H. assert (X : false = true) by (rewrite <- Wr; apply F; exists j; exact H). discriminate. }
           assert (Only : forall j, writing_now next (RState (rs_map s) true (set_nth i (t, true) (rs_routines s))) j -> j = i).
           { intros j [t' [op' [E' R]]]. cbn in E'. destruct (Nat.eq_dec j i) as [->|N]; [reflexivity|].
             rewrite (set_other _ i j _ _ Ei N) in E'. destruct (Nobody j). exists t', op'. auto. }
           split.
           ++ cbn. split; [|reflexivity]. intros _. exists i, t, op. cbn. rewrite (set_same _ _ _ _ Ei).
              split; [reflexivity|]. split; [exact En | apply changes_iff; exact W].
           ++ intros a c Ha Hc. rewrite (Only a Ha), (Only c Hc). reflexivity.
        -- rewrite <- Wr. apply (sound_idle s i _ t false _ S Ei Idle). cbn. intros [op' [_ [Hn C]]].
           rewrite En in Hn. injection Hn as <-. apply changes_iff in C. congruence.
  - injection E as <-. apply (sound_idle s i _ t b _ S Ei).
    + intros [t' [op' [E' [Hn C]]]]. rewrite Ei in E'. injection E' as <- _. congruence.
    + cbn. intros [op' [D _]]. discriminate.
Qed.

(** A step is fatal exactly when it clashes. *)
Lemma step_fatal : forall s i, sound s -> (step s i = Fatal <-> clash next s i).
Proof.
  intros s i [F U]. unfold race_step, clash. split.
  - intros E. destruct (nth_error (rs_routines s) i) as [[t b]|] eqn:Ei; [|discriminate].
    destruct (next t) as [op|] eqn:En; [|discriminate].
    destruct b.
    + destruct (call_writes op) eqn:W; [|discriminate].
      destruct (rs_writing s) eqn:Wr; [discriminate|]. exfalso.
      assert (X : false = true); [|discriminate]. apply F. exists i, t, op.
      split; [exact Ei | split; [exact En | apply changes_iff; exact W]].
    + destruct (call_shortcut (rs_map s) op) eqn:Sc; [discriminate|].
      destruct (rs_writing s) eqn:Wr; [|discriminate].
      destruct (proj1 F eq_refl) as [j Hj]. split.
      * exists t, op. split; [exact Ei|]. split; [exact En|].
        destruct op; [left; eauto| |]; right; intros Z; rewrite Z in Sc; discriminate.
      * exists j. split; [|exact Hj]. intros ->. destruct Hj as [t' [op' [E' _]]]. rewrite Ei in E'. discriminate.
  - intros [[t [op [Ei [En A]]]] [j [_ Hj]]]. rewrite Ei, En.
    assert (Wr : rs_writing s = true) by (apply F; exists j; exact Hj). rewrite Wr.
    assert (Sc : call_shortcut (rs_map s) op = false).
    { destruct A as [[now [key [d ->]]] | N]; [reflexivity|].
      destruct op, (rs_map s); try reflexivity; destruct N; reflexivity. }
    rewrite Sc. reflexivity.
Qed.

Lemma start_sound : forall c ts, sound (race_start c ts).
Proof.
  intros c ts.
  assert (No : forall j, ~ writing_now next (race_start c ts) j).
  { intros j [t [op [E _]]]. cbn in E. rewrite nth_error_map in E. destruct (nth_error ts j); discriminate. }
  split.
  - cbn. split; [discriminate|]. intros [j H]. destruct (No j H).
  - intros i j H. destruct (No i H).
Qed.

Lemma run_fatal : forall sched s, sound s ->
  (run s sched = Fatal <-> exists p i rest s', sched = p ++ i :: rest /\ run s p = Running s' /\ clash next s' i).
Proof.
  induction sched as [|i sched IH]; intros s S.
  - split; [discriminate|]. intros [p [i [rest [s' [E _]]]]]. destruct p; discriminate.
  - cbn [race_run]. destruct (step s i) as [s1|] eqn:E.
    + rewrite (IH s1 (sound_step _ _ _ S E)). split.
      * intros [p [k [rest [s' [-> [R C]]]]]]. exists (i :: p), k, rest, s'. cbn. rewrite E. auto.
      * intros [p [k [rest [s' [Es [R C]]]]]]. destruct p as [|a p].
        -- cbn in Es, R. injection Es as <- <-. injection R as <-. apply (step_fatal s i S) in C. congruence.
        -- cbn in Es. injection Es as <- ->. cbn in R. rewrite E in R. exists p, k, rest, s'. auto.
    + split; [|reflexivity]. intros _. exists [], i, sched, s. split; [reflexivity|]. split; [reflexivity|].
      apply step_fatal; assumption.
Qed.

(** The process dies exactly when a call begins during a change. *)
Lemma fatal_iff : forall c ts sched,
  run (race_start c ts) sched = Fatal <->
  exists before i after s, sched = before ++ i :: after /\ run (race_start c ts) before = Running s /\ clash next s i.
Proof. intros. apply run_fatal. apply start_sound. Qed.

(** Calls one after the other. *)
Lemma alone_safe : forall c ts sched,
  (forall before i after s j, sched = before ++ i :: after -> run (race_start c ts) before = Running s ->
     in_call next s j -> j = i) ->
  exists s, run (race_start c ts) sched = Running s.
Proof.
  intros c ts sched A. destruct (run (race_start c ts) sched) as [s|] eqn:E; [eauto|].
  apply fatal_iff in E. destruct E as [p [i [rest [s [Es [R [_ [j [N W]]]]]]]]].
  destruct N. apply (A p i rest s j Es R). destruct W as [t [op [E [Hn _]]]]. exists t, op. auto.
Qed.

(** Goroutines that never change the cache. *)
Lemma readers_safe : forall c ts sched,
  (forall p s j, run (race_start c ts) p = Running s -> ~ writing_now next s j) ->
  exists s, run (race_start c ts) sched = Running s.
Proof.
  intros c ts sched A. destruct (run (race_start c ts) sched) as [s|] eqn:E; [eauto|].
  apply fatal_iff in E. destruct E as [p [i [rest [s [Es [R [_ [j [N W]]]]]]]]].
  destruct (A p s j R W).
Qed.

Lemma add_clashes : forall c ts i j t1 t2 n1 k1 d1 n2 k2 d2, i <> j ->
  nth_error ts i = Some t1 -> nth_error ts j = Some t2 ->
  next t1 = Some (CAdd n1 k1 d1) -> next t2 = Some (CAdd n2 k2 d2) ->
  run (race_start c ts) [i; j] = Fatal.
Proof.
  intros c ts i j t1 t2 n1 k1 d1 n2 k2 d2 N E1 E2 H1 H2.
  assert (I1 : nth_error (map (fun t => (t, false)) ts) i = Some (t1, false)) by (rewrite nth_error_map, E1; reflexivity).
  assert (I2 : nth_error (map (fun t => (t, false)) ts) j = Some (t2, false)) by (rewrite nth_error_map, E2; reflexivity).
  cbn [race_run]. unfold race_step at 1, race_start. cbn [rs_routines rs_map rs_writing]. rewrite I1, H1.
  cbn [call_shortcut call_writes]. unfold race_step. cbn [rs_routines rs_map rs_writing].
  rewrite (set_other _ i j _ _ I1) by congruence. rewrite I2, H2. reflexivity.
Qed.
End Race.

(** ** The CSRF middleware *)

Lemma csrf_step_split : forall param header c q pc,
  csrf_step param header c q pc =
  match csrf_next param header (q, pc) with
  | None => (c, snd (csrf_resume param header (q, pc) false))
  | Some op => (cache_step c op, snd (csrf_resume param header (q, pc) (call_answer c op)))
  end.
Proof.
  intros. destruct pc; cbn; try reflexivity.
  destruct (skip_check (cq_method q)); [reflexivity|].
  destruct (beqb (previous_nonce param header q) []) eqn:B; cbn.
  - reflexivity.
  - destruct (cache_contains c (cq_check q) (previous_nonce param header q)); reflexivity.
Qed.

(** As long as the process lives, the requests behave as in [csrf_run]. *)
Lemma race_atomic : forall param header sched c w ts s,
  race_run (csrf_next param header) (csrf_resume param header) (RState c w ts) sched = Running s ->
  exists sched', csrf_run param header c (map fst ts) sched' = (rs_map s, map fst (rs_routines s)).
Proof.
  intros param header. induction sched as [|i sched IH]; intros c w ts s E.
  - cbn in E. injection E as <-. exists []. reflexivity.
  - cbn [race_run] in E. unfold race_step in E. cbn [rs_routines rs_map rs_writing] in E.
    destruct (nth_error ts i) as [[[q pc] b]|] eqn:Ei.
    2:{ exact (IH c w ts s E). }
    assert (Em : nth_error (map fst ts) i = Some (q, pc)) by (rewrite nth_error_map, Ei; reflexivity).
    assert (Done : forall c' pc' w', csrf_step param header c q pc = (c', pc') ->
      race_run (csrf_next param header) (csrf_resume param header) (RState c' w' (set_nth i ((q, pc'), false) ts)) sched = Running s ->
      exists sched', csrf_run param header c (map fst ts) sched' = (rs_map s, map fst (rs_routines s))).
    { intros c' pc' w' Es R. destruct (IH _ _ _ _ R) as [sched' Hs]. exists (i :: sched'). cbn [csrf_run].
      rewrite Em, Es. rewrite map_set in Hs. exact Hs. }
    assert (Q : forall a, csrf_resume param header (q, pc) a = (q, snd (csrf_resume param header (q, pc) a))) by reflexivity.
    destruct (csrf_next param header (q, pc)) as [op|] eqn:En.
    + assert (St : csrf_step param header c q pc = (cache_step c op, snd (csrf_resume param header (q, pc) (call_answer c op))))
        by (rewrite csrf_step_split, En; reflexivity).
      rewrite Q in E.
      destruct b.
      * destruct (call_writes op); [destruct w; [|discriminate]|]; exact (Done _ _ _ St E).
      * destruct (call_shortcut c op); [exact (Done _ _ _ St E)|].
        destruct w; [discriminate|].
        destruct (IH _ _ _ _ E) as [sched' Hs]. exists sched'. rewrite map_set in Hs. cbn [fst] in Hs.
        rewrite (set_idle _ _ _ Em) in Hs. exact Hs.
    + assert (St : csrf_step param header c q pc = (c, snd (csrf_resume param header (q, pc) false)))
        by (rewrite csrf_step_split, En; reflexivity).
      rewrite Q in E. exact (Done _ _ _ St E).
Qed.

Lemma fst_start : forall T (ts : list T), map fst (map (fun t => (t, false)) ts) = ts.
Proof. intros. rewrite map_map. cbn. apply map_id. Qed.

Lemma csrf_race_atomic : forall param header c qs sched s,
  csrf_race param header c qs sched = Running s ->
  exists sched', csrf_run param header c (map (fun q => (q, AtStart)) qs) sched' = (rs_map s, map fst (rs_routines s)).
Proof.
  intros param header c qs sched s E. unfold csrf_race, race_start in E.
  destruct (race_atomic _ _ _ _ _ _ _ E) as [sched' H]. exists sched'. rewrite fst_start in H. exact H.
Qed.

(** Who passes carries an issued nonce. *)
Lemma csrf_race_issued : forall param header qs sched s,
  csrf_race param header new_cache qs sched = Running s ->
  forall i t tok, nth_error (map fst (rs_routines s)) i = Some t -> past_check param header t tok ->
    issued (map fst (rs_routines s)) (cq_check (fst t)) tok.
Proof.
  intros param header qs sched s E i t tok Hi P. destruct (csrf_race_atomic _ _ _ _ _ _ E) as [sched' H].
  assert (A : all_start (map (fun q => (q, AtStart)) qs)).
  { intros k q pc Hk. rewrite nth_error_map in Hk. destruct (nth_error qs k); [|discriminate]. injection Hk as _ <-. reflexivity. }
  pose proof (passed_is_issued param header _ sched' A) as K. rewrite H in K. exact (K i t tok Hi P).
Qed.

Lemma draw_some : forall q r, cq_random q = Some r -> draw q = AtAdd (nonce_of r).
Proof. intros q r H. unfold draw, generate_nonce. rewrite H. reflexivity. Qed.

(** Two safe requests. *)
Lemma csrf_adds_clash : forall param header c qs i j q1 q2 r1 r2,
  i <> j -> nth_error qs i = Some q1 -> nth_error qs j = Some q2 ->
  safe_method (cq_method q1) -> safe_method (cq_method q2) -> cq_random q1 = Some r1 -> cq_random q2 = Some r2 ->
  csrf_race param header c qs [i; j; i; j] = Fatal.
Proof.
  intros param header c qs i j q1 q2 r1 r2 N E1 E2 S1 S2 R1 R2.
  apply Csrf_Proofs.skip_iff in S1, S2.
  set (l := map (fun t : creq * cpc => (t, false)) (map (fun q => (q, AtStart)) qs)).
  assert (I1 : nth_error l i = Some ((q1, AtStart), false)) by (unfold l; rewrite !nth_error_map, E1; reflexivity).
  assert (I2 : nth_error l j = Some ((q2, AtStart), false)) by (unfold l; rewrite !nth_error_map, E2; reflexivity).
  unfold csrf_race, race_start. fold l.
  cbn [race_run]. unfold race_step at 1. cbn [rs_routines rs_map rs_writing]. rewrite I1.
  cbn [csrf_next csrf_resume]. rewrite S1, (draw_some _ _ R1).
  set (l1 := set_nth i (q1, AtAdd (nonce_of r1), false) l).
  assert (J1 : nth_error l1 i = Some (q1, AtAdd (nonce_of r1), false)) by exact (set_same _ _ _ _ I1).
  assert (J2 : nth_error l1 j = Some ((q2, AtStart), false)) by (unfold l1; rewrite (set_other _ _ _ _ _ I1) by congruence; exact I2).
  unfold race_step at 1. cbn [rs_routines rs_map rs_writing]. rewrite J2.
  cbn [csrf_next csrf_resume]. rewrite S2, (draw_some _ _ R2).
  set (l2 := set_nth j (q2, AtAdd (nonce_of r2), false) l1).
  assert (K2 : nth_error l2 j = Some (q2, AtAdd (nonce_of r2), false)) by exact (set_same _ _ _ _ J2).
  assert (K1 : nth_error l2 i = Some (q1, AtAdd (nonce_of r1), false)) by (unfold l2; rewrite (set_other _ _ _ _ _ J2) by congruence; exact J1).
  unfold race_step at 1. cbn [rs_routines rs_map rs_writing]. rewrite K1. cbn [csrf_next call_shortcut call_writes].
  unfold race_step. cbn [rs_routines rs_map rs_writing]. rewrite (set_other _ _ _ _ _ K1) by congruence. rewrite K2. reflexivity.
Qed.

(** A safe request and one with any nonce. *)
Lemma csrf_read_clash : forall param header c qs i j q1 q2 r1 tok,
  c <> [] -> i <> j -> nth_error qs i = Some q1 -> nth_error qs j = Some q2 ->
  safe_method (cq_method q1) -> cq_random q1 = Some r1 -> ~ safe_method (cq_method q2) -> carries param header q2 tok ->
  csrf_race param header c qs [i; i; j] = Fatal.
Proof.
  intros param header c qs i j q1 q2 r1 tok NC N E1 E2 S1 R1 S2 C2.
  apply Csrf_Proofs.skip_iff in S1. apply Csrf_Proofs.skip_not in S2. apply Csrf_Proofs.carries_iff in C2.
  set (l := map (fun t : creq * cpc => (t, false)) (map (fun q => (q, AtStart)) qs)).
  assert (I1 : nth_error l i = Some ((q1, AtStart), false)) by (unfold l; rewrite !nth_error_map, E1; reflexivity).
  assert (I2 : nth_error l j = Some ((q2, AtStart), false)) by (unfold l; rewrite !nth_error_map, E2; reflexivity).
  unfold csrf_race, race_start. fold l.
  cbn [race_run]. unfold race_step at 1. cbn [rs_routines rs_map rs_writing]. rewrite I1.
  cbn [csrf_next csrf_resume]. rewrite S1, (draw_some _ _ R1).
  set (l1 := set_nth i (q1, AtAdd (nonce_of r1), false) l).
  assert (J1 : nth_error l1 i = Some (q1, AtAdd (nonce_of r1), false)) by exact (set_same _ _ _ _ I1).
  assert (J2 : nth_error l1 j = Some ((q2, AtStart), false)) by (unfold l1; rewrite (set_other _ _ _ _ _ I1) by congruence; exact I2).
  unfold race_step at 1. cbn [rs_routines rs_map rs_writing]. rewrite J1. cbn [csrf_next call_shortcut call_writes].
  unfold race_step. cbn [rs_routines rs_map rs_writing]. rewrite (set_other _ _ _ _ _ J1) by congruence. rewrite J2.
  cbn [csrf_next]. rewrite S2. destruct C2 as [NT ->].
  destruct (beqb tok []) eqn:B; [apply Auth_Proofs.beqb_iff in B; contradiction|].
  destruct c; [contradiction|]. reflexivity.
Qed.

(** Forged requests alone. *)
Lemma forged_alive : forall param header c qs sched,
  (forall q, In q qs -> ~ safe_method (cq_method q) /\
     forall tok, carries param header q tok -> cache_contains c (cq_check q) tok = false) ->
  exists s, csrf_race param header c qs sched = Running s /\ rs_map s = c /\
    forall i q pc b, nth_error (rs_routines s) i = Some ((q, pc), b) -> pc = AtStart \/ pc = AtRefused.
Proof.
  intros param header c qs sched F. unfold csrf_race, race_start.
  assert (G : forall sched l,
    (forall i q pc b, nth_error l i = Some ((q, pc), b) -> In q qs /\ (pc = AtStart \/ pc = AtRefused)) ->
    exists s, race_run (csrf_next param header) (csrf_resume param header) (RState c false l) sched = Running s /\ rs_map s = c /\
      forall i q pc b, nth_error (rs_routines s) i = Some ((q, pc), b) -> pc = AtStart \/ pc = AtRefused).
  { clear sched. induction sched as [|i sched IH]; intros l A.
    - exists (RState c false l). split; [reflexivity|]. split; [reflexivity|]. intros i q pc b H. apply (A i q pc b H).
    - cbn [race_run]. unfold race_step. cbn [rs_routines rs_map rs_writing].
      destruct (nth_error l i) as [[[q pc] b]|] eqn:Ei; [|exact (IH l A)].
      destruct (A i q pc b Ei) as [Iq P].
      assert (Put : forall pc' b', pc' = AtStart \/ pc' = AtRefused ->
        exists s, race_run (csrf_next param header) (csrf_resume param header) (RState c false (set_nth i (q, pc', b') l)) sched = Running s /\
          rs_map s = c /\ forall i q pc b, nth_error (rs_routines s) i = Some ((q, pc), b) -> pc = AtStart \/ pc = AtRefused).
      { intros pc' b' P'. apply IH. intros k q' pc'' b'' H. destruct (Nat.eq_dec k i) as [->|N].
        - rewrite (set_same _ _ _ _ Ei) in H. injection H as <- <- <-. auto.
        - rewrite (set_other _ _ _ _ _ Ei N) in H. exact (A k q' pc'' b'' H). }
      destruct (F q Iq) as [U K]. apply Csrf_Proofs.skip_not in U.
      destruct P as [-> | ->]; cbn [csrf_next csrf_resume].
      + rewrite U. destruct (beqb (previous_nonce param header q) []) eqn:B; [apply Put; right; reflexivity|].
        assert (Z : cache_contains c (cq_check q) (previous_nonce param header q) = false).
        { apply K. apply Csrf_Proofs.carries_iff. split; [|reflexivity]. intros E. rewrite E in B. discriminate. }
        cbn [call_writes call_answer cache_step]. rewrite Z. 
        destruct b; [apply Put; right; reflexivity|].
        destruct (call_shortcut c (CContains (cq_check q) (previous_nonce param header q))); apply Put; [right|left]; reflexivity.
      + apply Put. right. reflexivity. }
  apply G. intros i q pc b H. rewrite !nth_error_map in H. destruct (nth_error qs i) as [q'|] eqn:E; [|discriminate].
  cbn in H. injection H as <- <- _. split; [|left; reflexivity]. exact (nth_error_In _ _ E).
Qed.

(** Requests whose cache calls do not overlap. *)
Lemma csrf_alone_safe : forall param header c qs sched,
  (forall before i after s j, sched = before ++ i :: after -> csrf_race param header c qs before = Running s ->
     in_call (csrf_next param header) s j -> j = i) ->
  exists s, csrf_race param header c qs sched = Running s.
Proof. intros. apply alone_safe. assumption. Qed.

Lemma csrf_fatal_iff : forall param header c qs sched,
  csrf_race param header c qs sched = Fatal <->
  exists before i after s, sched = before ++ i :: after /\ csrf_race param header c qs before = Running s /\
    clash (csrf_next param header) s i.
Proof. intros. apply fatal_iff. Qed.

(** ** Cases *)

Lemma race_case : csrf_race (str "_csrf") (str "X-Csrf-Token") new_cache [Csrf_Proofs.get_req 1 0; Csrf_Proofs.get_req 2 0] [0; 1; 0; 1] = Fatal /\
  exists s, csrf_race (str "_csrf") (str "X-Csrf-Token") new_cache [Csrf_Proofs.get_req 1 0; Csrf_Proofs.get_req 2 0] [0; 1; 0; 0; 1; 1] = Running s /\
    map fst (rs_map s) = [Csrf_Proofs.tok_of 2; Csrf_Proofs.tok_of 1] /\
    map fst (rs_routines s) = [(Csrf_Proofs.get_req 1 0, AtHandler (Csrf_Proofs.tok_of 1)); (Csrf_Proofs.get_req 2 0, AtHandler (Csrf_Proofs.tok_of 2))].
Proof. split; [reflexivity|]. eexists. split; [reflexivity|]. split; reflexivity. Qed.

Lemma race_read_case : csrf_race (str "_csrf") (str "X-Csrf-Token") [(str "old", 7%Z)]
  [Csrf_Proofs.get_req 1 0; Csrf_Proofs.post_req (str "x") 2 0] [0; 0; 1] = Fatal /\
  exists s, csrf_race (str "_csrf") (str "X-Csrf-Token") [(str "old", 7%Z)]
    [Csrf_Proofs.post_req (str "x") 1 0; Csrf_Proofs.post_req (str "y") 2 0] [0; 1; 0; 1] = Running s /\
    map (fun t => snd (fst t)) (rs_routines s) = [AtRefused; AtRefused].
Proof. split; [reflexivity|]. eexists. split; reflexivity. Qed.
