(** * Proofs about concurrent requests and forms with the CSRF middleware. *)
From Coq Require Import List NArith ZArith Ascii String Bool Arith Lia.
From Verif Require Import GoBase Http_Model Cache_Model Auth_Model Auth_Proofs Chain_Model Csrf_Model Csrf_Spec Csrf_Proofs.
Import ListNotations.
Local Open Scope string_scope.
Local Open Scope list_scope.
Local Open Scope nat_scope.

Lemma nth_replaced {A : Type} (l : list A) x : forall i j, i < List.length l ->
  nth_error (firstn i l ++ x :: skipn (S i) l) j = if Nat.eqb j i then Some x else nth_error l j.
Proof.
  induction l as [|y l IH]; intros i j L; [cbn in L; lia|].
  destruct i as [|i], j as [|j]; try reflexivity.
  cbn [firstn app nth_error Nat.eqb]. cbn in L. apply IH. lia.
Qed.

Section Conc.
Variables param header : bytes.

(** Steps as a relation on single threads. *)
Lemma run_cons c ts i rest q pc : nth_error ts i = Some (q, pc) ->
  csrf_run param header c ts (i :: rest) =
  csrf_run param header (fst (csrf_step param header c q pc))
    (firstn i ts ++ (q, snd (csrf_step param header c q pc)) :: skipn (S i) ts) rest.
Proof. intros E. cbn [csrf_run]. rewrite E. destruct (csrf_step param header c q pc). reflexivity. Qed.

Lemma draw_nonce q n : draw q = AtAdd n -> generate_nonce (cq_random q) = Some n.
Proof. unfold draw. destruct (generate_nonce (cq_random q)); intros E; [injection E as ->; reflexivity|discriminate]. Qed.

Lemma draw_cases q : (exists n, draw q = AtAdd n) \/ draw q = AtFailure.
Proof. unfold draw. destruct (generate_nonce (cq_random q)) as [n|]; [left; exists n; reflexivity|right; reflexivity]. Qed.

Definition accepted (t : creq * cpc) (tok : bytes) : Prop :=
  past_check param header t tok \/ snd t = AtRemove tok.

(** What a thread remembers is what it saw. *)
Definition remembers (ts : cthreads) : Prop :=
  forall i q pc, nth_error ts i = Some (q, pc) ->
    match pc with
    | AtRemove n => ~ safe_method (cq_method q) /\ carries param header q n
    | AtAdd n | AtHandler n => generate_nonce (cq_random q) = Some n
    | _ => True
    end.

Lemma remembers_step c ts i q pc : nth_error ts i = Some (q, pc) -> remembers ts ->
  remembers (firstn i ts ++ (q, snd (csrf_step param header c q pc)) :: skipn (S i) ts).
Proof.
  intros E R j qj pcj Ej.
  rewrite nth_replaced in Ej by (apply nth_error_Some; congruence).
  destruct (Nat.eqb j i); [|apply (R _ _ _ Ej)].
  assert (qj = q) by congruence. assert (pcj = snd (csrf_step param header c q pc)) as -> by congruence. subst qj.
  specialize (R _ _ _ E).
  assert (D : match draw q with
    | AtRemove n => ~ safe_method (cq_method q) /\ carries param header q n
    | AtAdd n | AtHandler n => generate_nonce (cq_random q) = Some n
    | _ => True
    end).
  { destruct (draw_cases q) as [[n D]|D]; rewrite D; [apply draw_nonce, D|exact I]. }
  destruct pc as [|n|n| | |n]; cbn [csrf_step snd]; try exact R; try exact D.
  destruct (skip_check (cq_method q)) eqn:Sk; [exact D|]. cbv zeta.
  destruct (beqb (previous_nonce param header q) [] || negb (cache_contains c (cq_check q) (previous_nonce param header q))) eqn:O; [exact I|].
  cbn [snd]. apply orb_false_iff in O as [O _]. apply beqb_no in O.
  split; [apply skip_not, Sk|]. apply carries_iff. split; [exact O|reflexivity].
Qed.

Definition sound_state (c : cache) (ts : cthreads) : Prop :=
  (forall now tok, cache_contains c now tok = true -> issued ts now tok) /\
  (forall i q pc tok, nth_error ts i = Some (q, pc) -> accepted (q, pc) tok -> issued ts (cq_check q) tok).

Lemma issued_step ts i q pc c now tok : nth_error ts i = Some (q, pc) -> issued ts now tok ->
  issued (firstn i ts ++ (q, snd (csrf_step param header c q pc)) :: skipn (S i) ts) now tok.
Proof.
  intros E (j & qj & Ej & T). exists j, qj. split; [|exact T].
  rewrite nth_replaced by (apply nth_error_Some; congruence).
  destruct (Nat.eqb j i) eqn:B; [|exact Ej].
  apply Nat.eqb_eq in B. subst j. rewrite E in Ej.
  assert (q = qj) by congruence. assert (pc = AtHandler tok) by congruence. subst. reflexivity.
Qed.

Lemma sound_step c ts i q pc : nth_error ts i = Some (q, pc) -> remembers ts -> sound_state c ts ->
  sound_state (fst (csrf_step param header c q pc))
    (firstn i ts ++ (q, snd (csrf_step param header c q pc)) :: skipn (S i) ts).
Proof.
  intros E R [S1 S2].
  assert (I : i < List.length ts) by (apply nth_error_Some; congruence).
  assert (M : forall now tok, issued ts now tok ->
    issued (firstn i ts ++ (q, snd (csrf_step param header c q pc)) :: skipn (S i) ts) now tok).
  { intros now tok. apply issued_step, E. }
  split.
  - intros now tok H. destruct pc as [|n|n| | |n]; cbn [csrf_step fst] in H.
    + destruct (skip_check (cq_method q)); [apply M, S1, H|]. cbv zeta in H.
      destruct (_ || _); apply M, S1, H.
    + apply contains_remove in H as [_ H]. apply M, S1, H.
    + apply contains_add in H as [[-> T]|[_ H]]; [|apply M, S1, H].
      exists i, q. split; [|exact T]. rewrite nth_replaced by exact I. rewrite Nat.eqb_refl. reflexivity.
    + apply M, S1, H.
    + apply M, S1, H.
    + apply M, S1, H.
  - intros j qj pcj tok Ej A. rewrite nth_replaced in Ej by exact I.
    destruct (Nat.eqb j i) eqn:B; [|apply M, (S2 _ _ _ _ Ej A)].
    assert (qj = q) by congruence. assert (pcj = snd (csrf_step param header c q pc)) by congruence. subst qj.
    clear Ej. apply M.
    destruct pc as [|n|n| | |n]; cbn [csrf_step snd] in H0.
    + destruct (skip_check (cq_method q)) eqn:Sk.
      * cbn [snd] in H0. destruct A as [[A _]|A].
        { cbn in A. exfalso. apply A, skip_iff, Sk. }
        { cbn [snd] in A. destruct (draw_cases q) as [[n D]|D]; congruence. }
      * cbv zeta in H0.
        destruct (beqb (previous_nonce param header q) [] || negb (cache_contains c (cq_check q) (previous_nonce param header q))) eqn:O;
          cbn [snd] in H0; subst pcj.
        { destruct A as [(_ & _ & A)|A]; [destruct A|discriminate]. }
        { destruct A as [(_ & _ & A)|A]; [destruct A|]. cbn [snd] in A.
          assert (previous_nonce param header q = tok) by congruence. subst tok.
          apply orb_false_iff in O as [_ O]. apply negb_false_iff in O. apply S1, O. }
    + destruct A as [(A1 & A2 & A3)|A].
      * cbn [fst snd] in A2, A3. apply (S2 i q (AtRemove n)); [exact E|].
        right. cbn. destruct (R _ _ _ E) as [_ C]. rewrite (carries_same _ _ _ _ _ A2 C). reflexivity.
      * exfalso. cbn [snd] in A. destruct (draw_cases q) as [[n' D]|D]; congruence.
    + apply (S2 i q (AtAdd n)); [exact E|]. destruct A as [(A1 & A2 & A3)|A]; [left; split; [exact A1|]; split; [exact A2|exact Logic.I]|].
      exfalso. cbn in A. congruence.
    + subst. apply (S2 i q _ _ E A).
    + subst. apply (S2 i q _ _ E A).
    + subst. apply (S2 i q _ _ E A).
Qed.

Lemma start_remembers ts : all_start ts -> remembers ts.
Proof. intros A i q pc E. rewrite (A _ _ _ E). exact I. Qed.

Lemma start_sound ts : all_start ts -> sound_state new_cache ts.
Proof.
  intros A. split; [intros now tok H; discriminate H|].
  intros i q pc tok E. rewrite (A _ _ _ E). intros [(_ & _ & [])|H]; discriminate.
Qed.

Lemma run_sound : forall schedule c ts, remembers ts -> sound_state c ts ->
  let (c', ts') := csrf_run param header c ts schedule in remembers ts' /\ sound_state c' ts'.
Proof.
  induction schedule as [|i rest IH]; intros c ts R S; [split; assumption|].
  destruct (nth_error ts i) as [[q pc]|] eqn:E.
  - rewrite (run_cons _ _ _ _ _ _ E). apply IH; [apply remembers_step|apply sound_step]; assumption.
  - cbn [csrf_run]. rewrite E. apply IH; assumption.
Qed.

Lemma concurrent_issued ts schedule : all_start ts ->
  let (c', ts') := csrf_run param header new_cache ts schedule in
  forall i t tok, nth_error ts' i = Some t -> past_check param header t tok -> issued ts' (cq_check (fst t)) tok.
Proof.
  intros A. pose proof (run_sound schedule new_cache ts (start_remembers ts A) (start_sound ts A)) as H.
  destruct (csrf_run param header new_cache ts schedule) as [c' ts'].
  destruct H as [_ [_ H]]. intros i [q pc] tok E P. apply (H i q pc tok E). left. exact P.
Qed.

(** *** Schedules without anything between check and removal *)

Section Once.
Variable tok : bytes.

(** Between steps, when nobody is before a removal. *)
Definition quiet (c : cache) (ts : cthreads) : Prop :=
  (forall i q n, nth_error ts i <> Some (q, AtRemove n)) /\
  ((exists now, cache_contains c now tok = true) -> (exists j q, nth_error ts j = Some (q, AtHandler tok)) /\
     forall i t, nth_error ts i = Some t -> ~ past_check param header t tok) /\
  (forall i j s t, nth_error ts i = Some s -> nth_error ts j = Some t ->
     past_check param header s tok -> past_check param header t tok -> i = j) /\
  (forall i t, nth_error ts i = Some t -> past_check param header t tok ->
     exists j q, nth_error ts j = Some (q, AtHandler tok)).

Lemma drawn_step (ts : cthreads) i q pc pc' : nth_error ts i = Some (q, pc) -> drawn_once tok ts ->
  drawn_once tok (firstn i ts ++ (q, pc') :: skipn (S i) ts).
Proof.
  intros E D j k s t. assert (I : i < List.length ts) by (apply nth_error_Some; congruence).
  rewrite !nth_replaced by exact I. intros Es Et Gs Gt.
  assert (P : forall m u, (if Nat.eqb m i then Some (q, pc') else nth_error ts m) = Some u ->
    exists u', nth_error ts m = Some u' /\ fst u' = fst u).
  { intros m u. destruct (Nat.eqb m i) eqn:B; [|intros H; exists u; split; [exact H|reflexivity]].
    apply Nat.eqb_eq in B. subst m. intros H. injection H as <-. exists (q, pc). split; [exact E|reflexivity]. }
  destruct (P _ _ Es) as (s' & Es' & Fs). destruct (P _ _ Et) as (t' & Et' & Ft).
  apply (D j k s' t' Es' Et'); congruence.
Qed.

(** The state of a thread changes, the others and the past stay. *)
Lemma handler_stays (ts : cthreads) i q pc pc' : nth_error ts i = Some (q, pc) -> (pc = AtHandler tok -> pc' = AtHandler tok) ->
  (exists j q, nth_error ts j = Some (q, AtHandler tok)) ->
  exists j q', nth_error (firstn i ts ++ (q, pc') :: skipn (S i) ts) j = Some (q', AtHandler tok).
Proof.
  intros E H (j & qj & Ej). exists j. assert (I : i < List.length ts) by (apply nth_error_Some; congruence).
  rewrite nth_replaced by exact I. destruct (Nat.eqb j i) eqn:B; [|exists qj; exact Ej].
  apply Nat.eqb_eq in B. subst j. exists q. rewrite H; [reflexivity|congruence].
Qed.

Lemma quiet_move c c' (ts : cthreads) i q pc pc' : nth_error ts i = Some (q, pc) -> quiet c ts ->
  (forall n, pc' <> AtRemove n) -> (pc = AtHandler tok -> pc' = AtHandler tok) ->
  (past_check param header (q, pc') tok -> past_check param header (q, pc) tok) ->
  (forall now, cache_contains c' now tok = true -> cache_contains c now tok = true) ->
  quiet c' (firstn i ts ++ (q, pc') :: skipn (S i) ts).
Proof.
  intros E (Q1 & Q2 & Q3 & Q4) N H P C.
  assert (I : i < List.length ts) by (apply nth_error_Some; congruence).
  assert (L : forall m u, nth_error (firstn i ts ++ (q, pc') :: skipn (S i) ts) m = Some u -> past_check param header u tok ->
    exists u', nth_error ts m = Some u' /\ past_check param header u' tok).
  { intros m u. rewrite nth_replaced by exact I. destruct (Nat.eqb m i) eqn:B.
    - apply Nat.eqb_eq in B. subst m. intros X. injection X as <-. intros X. exists (q, pc). tauto.
    - intros X Y. exists u. tauto. }
  split; [|split; [|split]].
  - intros j qj n. rewrite nth_replaced by exact I. destruct (Nat.eqb j i); [|apply Q1].
    intros X. apply (N n). congruence.
  - intros [now X]. destruct Q2 as [Q2 Q2']; [exists now; apply C, X|]. split.
    + apply (handler_stays ts i q pc pc' E H Q2).
    + intros m u Em X2. destruct (L m u Em X2) as (u' & Eu & X3). apply (Q2' m u' Eu X3).
  - intros j k s t Es Et Ps Pt. destruct (L j s Es Ps) as (s' & Es' & Ps'). destruct (L k t Et Pt) as (t' & Et' & Pt').
    apply (Q3 j k s' t' Es' Et' Ps' Pt').
  - intros m u Em X. destruct (L m u Em X) as (u' & Eu & X'). apply (handler_stays ts i q pc pc' E H (Q4 m u' Eu X')).
Qed.

(** Check and removal in one go. *)
Lemma quiet_check c (ts : cthreads) i q pc' : nth_error ts i = Some (q, AtStart) -> quiet c ts ->
  ~ safe_method (cq_method q) -> carries param header q tok -> cache_contains c (cq_check q) tok = true ->
  (forall n, pc' <> AtRemove n) -> 
  quiet (cache_remove c tok) (firstn i ts ++ (q, pc') :: skipn (S i) ts).
Proof.
  intros E (Q1 & Q2 & Q3 & Q4) U C T N.
  assert (I : i < List.length ts) by (apply nth_error_Some; congruence).
  destruct Q2 as [Q2 Q2']; [exists (cq_check q); exact T|].
  split; [|split; [|split]].
  - intros j qj n. rewrite nth_replaced by exact I. destruct (Nat.eqb j i); [|apply Q1].
    intros X. apply (N n). congruence.
  - intros [now X]. apply contains_remove in X as [X _]. congruence.
  - intros j k s t. rewrite !nth_replaced by exact I. intros Es Et Ps Pt.
    assert (Z : forall m u, (if Nat.eqb m i then Some (q, pc') else nth_error ts m) = Some u -> past_check param header u tok -> m = i).
    { intros m u. destruct (Nat.eqb m i) eqn:B; [intros _ _; apply Nat.eqb_eq, B|].
      intros X Y. exfalso. apply (Q2' m u X Y). }
    rewrite (Z j s Es Ps), (Z k t Et Pt). reflexivity.
  - intros m u _ _. apply (handler_stays ts i q AtStart pc' E); [discriminate|exact Q2].
Qed.

Lemma run_one c ts i : csrf_run param header c ts [i] =
  match nth_error ts i with
  | None => (c, ts)
  | Some (q, pc) => (fst (csrf_step param header c q pc), firstn i ts ++ (q, snd (csrf_step param header c q pc)) :: skipn (S i) ts)
  end.
Proof.
  cbn [csrf_run]. destruct (nth_error ts i) as [[q pc]|]; [|reflexivity].
  destruct (csrf_step param header c q pc). reflexivity.
Qed.

Lemma replace_twice {A : Type} (l : list A) i x y : i < List.length l ->
  firstn i (firstn i l ++ x :: skipn (S i) l) ++ y :: skipn (S i) (firstn i l ++ x :: skipn (S i) l) =
  firstn i l ++ y :: skipn (S i) l.
Proof.
  revert i. induction l as [|z l IH]; intros [|i] L; cbn in L; try lia; [reflexivity|].
  cbn [firstn app skipn]. f_equal. apply IH. lia.
Qed.

Lemma run_quiet : forall n schedule c ts, List.length schedule <= n -> remembers ts -> drawn_once tok ts -> quiet c ts ->
  atomic_checks param header c ts schedule -> 
  let (c', ts') := csrf_run param header c ts schedule in quiet c' ts'.
Proof.
  induction n as [|n IH]; intros schedule c ts L R D Q A.
  { destruct schedule; [exact Q|cbn in L; lia]. }
  destruct schedule as [|i rest]; [exact Q|]. cbn in L.
  cbn [atomic_checks] in A. rewrite run_one in A.
  destruct (nth_error ts i) as [[q pc]|] eqn:E.
  2:{ cbn [csrf_run]. rewrite E. destruct A as [_ A]. apply IH; try assumption. lia. }
  destruct A as [A1 A2].
  assert (I : i < List.length ts) by (apply nth_error_Some; congruence).
  rewrite (run_cons _ _ _ _ _ _ E).
  assert (R' := remembers_step c ts i q pc E R).
  assert (D' := drawn_step ts i q pc (snd (csrf_step param header c q pc)) E D).
  assert (Dr : forall m, draw q <> AtRemove m) by (intros m X; destruct (draw_cases q) as [[k Y]|Y]; congruence).
  destruct pc as [|m|m| | |m].
  - cbn [csrf_step] in *. destruct (skip_check (cq_method q)) eqn:Sk.
    + apply IH; try assumption; [lia|]. cbn [fst snd].
      apply (quiet_move c c ts i q AtStart _ E Q); [exact Dr|discriminate| |tauto].
      intros (X & _). exfalso. apply X. apply skip_iff, Sk.
    + cbv zeta in *.
      destruct (beqb (previous_nonce param header q) [] || negb (cache_contains c (cq_check q) (previous_nonce param header q))) eqn:O.
      * apply IH; try assumption; [lia|]. cbn [fst snd].
        apply (quiet_move c c ts i q AtStart _ E Q); [discriminate|discriminate| |tauto].
        intros (_ & _ & []).
      * cbn [fst snd] in *.
        apply orb_false_iff in O as [O1 O2]. apply beqb_no in O1. apply negb_false_iff in O2.
        apply skip_not in Sk.
        set (m := previous_nonce param header q) in *.
        assert (E2 : nth_error (firstn i ts ++ (q, AtRemove m) :: skipn (S i) ts) i = Some (q, AtRemove m)).
        { rewrite nth_replaced by exact I. rewrite Nat.eqb_refl. reflexivity. }
        destruct rest as [|i' rest]; [specialize (A1 q m E2); discriminate A1|].
        specialize (A1 q m E2). cbn in A1. assert (i' = i) by congruence. subst i'.
        cbn [atomic_checks] in A2. rewrite run_one, E2 in A2. cbn [csrf_step fst snd] in A2.
        rewrite (run_cons _ _ _ _ _ _ E2). cbn [csrf_step fst snd].
        rewrite replace_twice in * by exact I. destruct A2 as [_ A2].
        assert (R2 := remembers_step c _ i q (AtRemove m) E2 R'). cbn [csrf_step snd] in R2. rewrite replace_twice in R2 by exact I.
        apply IH; [cbn in L; lia|exact R2|apply (drawn_step ts i q AtStart); assumption| |exact A2].
        assert (C : carries param header q m) by (apply carries_iff; split; [exact O1|reflexivity]).
        destruct (beqb m tok) eqn:B.
        { apply beqb_iff in B. clearbody m. subst m. apply quiet_check; assumption. }
        { apply beqb_no in B. apply (quiet_move c _ ts i q AtStart _ E Q); [exact Dr|discriminate| |].
          - intros (_ & X & _). exfalso. apply B. exact (carries_same _ _ _ _ _ C X).
          - intros now X. apply contains_remove in X as [_ X]. exact X. }
  - exfalso. destruct Q as [Q _]. apply (Q _ _ _ E).
  - apply IH; try assumption; [lia|]. cbn [csrf_step fst snd].
    assert (G := R _ _ _ E). cbn in G.
    destruct (beqb m tok) eqn:B.
    + apply beqb_iff in B. subst m.
      assert (Only : forall j qj, nth_error ts j <> Some (qj, AtHandler tok)).
      { intros j qj X. assert (j = i).
        { apply (D j i (qj, AtHandler tok) (q, AtAdd tok) X E); [exact (R _ _ _ X)|exact G]. }
        subst j. congruence. }
      destruct Q as (Q1 & Q2 & Q3 & Q4).
      assert (None_past : forall j t, nth_error ts j = Some t -> ~ past_check param header t tok).
      { intros j t X Y. destruct (Q4 j t X Y) as (k & qk & Z). apply (Only _ _ Z). }
      assert (None_past' : forall j t, nth_error (firstn i ts ++ (q, AtHandler tok) :: skipn (S i) ts) j = Some t ->
        ~ past_check param header t tok).
      { intros j t. rewrite nth_replaced by exact I. destruct (Nat.eqb j i); [|apply None_past].
        intros X (Y1 & Y2 & _). apply (None_past i (q, AtAdd tok) E).
        assert (t = (q, AtHandler tok)) by congruence. subst t. cbn in Y1, Y2.
        split; [exact Y1|]. split; [exact Y2|exact Logic.I]. }
      split; [|split; [|split]].
      * intros j qj k. rewrite nth_replaced by exact I. destruct (Nat.eqb j i); [discriminate|apply Q1].
      * intros _. split; [|exact None_past']. exists i, q. rewrite nth_replaced by exact I. rewrite Nat.eqb_refl. reflexivity.
      * intros j k s t Es _ Ps _. exfalso. apply (None_past' j s Es Ps).
      * intros j t Et Pt. exfalso. apply (None_past' j t Et Pt).
    + apply beqb_no in B. apply (quiet_move c _ ts i q (AtAdd m) _ E Q); [discriminate|discriminate| |].
      * intros (Y1 & Y2 & _). split; [exact Y1|]. split; [exact Y2|exact Logic.I].
      * intros now X. apply contains_add in X as [[X _]|[_ X]]; [congruence|exact X].
  - apply IH; try assumption; [lia|]. cbn [csrf_step fst snd].
    apply (quiet_move c c ts i q AtRefused _ E Q); [discriminate|discriminate|tauto|tauto].
  - apply IH; try assumption; [lia|]. cbn [csrf_step fst snd].
    apply (quiet_move c c ts i q AtFailure _ E Q); [discriminate|discriminate|tauto|tauto].
  - apply IH; try assumption; [lia|]. cbn [csrf_step fst snd].
    apply (quiet_move c c ts i q (AtHandler m) _ E Q); [discriminate|tauto|tauto|tauto].
Qed.

Lemma atomic_single_use ts schedule : all_start ts -> drawn_once tok ts -> atomic_checks param header new_cache ts schedule ->
  let (c', ts') := csrf_run param header new_cache ts schedule in
  forall i j s t, nth_error ts' i = Some s -> nth_error ts' j = Some t ->
    past_check param header s tok -> past_check param header t tok -> i = j.
Proof.
  intros A D C.
  assert (Q : quiet new_cache ts).
  { split; [|split; [|split]].
    - intros i q n E. specialize (A _ _ _ E). discriminate.
    - intros [now X]. discriminate X.
    - intros i j [q pc] t E _ (_ & _ & P). rewrite (A _ _ _ E) in P. destruct P.
    - intros i [q pc] E (_ & _ & P). rewrite (A _ _ _ E) in P. destruct P. }
  pose proof (run_quiet (List.length schedule) schedule new_cache ts (le_n _) (start_remembers ts A) D Q C) as H.
  destruct (csrf_run param header new_cache ts schedule) as [c' ts']. apply H.
Qed.
End Once.
End Conc.

(** The race: both requests check before either removes. *)
Definition racers : cthreads := [(get_req 1 0, AtStart); (post_req (tok_of 1) 2 5, AtStart); (post_req (tok_of 1) 3 5, AtStart)].

Lemma post_carries tok n t : tok <> [] -> carries (str "_csrf") (str "X-Csrf-Token") (post_req tok n t) tok.
Proof. intros N. split; [exact N|]. left. reflexivity. Qed.
Lemma post_unsafe tok n t : ~ safe_method (cq_method (post_req tok n t)).
Proof. intros [H|[H|[H|H]]]; discriminate H. Qed.
Lemma tok_nonempty n : tok_of n <> [].
Proof. discriminate. Qed.

Lemma race_passes_twice : exists ts schedule tok i j s t,
  all_start ts /\ drawn_once tok ts /\
  let (c', ts') := csrf_run (str "_csrf") (str "X-Csrf-Token") new_cache ts schedule in
  i <> j /\ nth_error ts' i = Some s /\ nth_error ts' j = Some t /\
  past_check (str "_csrf") (str "X-Csrf-Token") s tok /\ past_check (str "_csrf") (str "X-Csrf-Token") t tok /\
  exists n m, snd s = AtHandler n /\ snd t = AtHandler m.
Proof.
  exists racers, [0; 0; 1; 2; 1; 2; 1; 2], (tok_of 1), 1, 2,
    (post_req (tok_of 1) 2 5, AtHandler (tok_of 2)), (post_req (tok_of 1) 3 5, AtHandler (tok_of 3)).
  split; [|split].
  - intros [|[|[|k]]] q pc E; cbn in E; try congruence. destruct k; discriminate.
  - intros [|[|[|k]]] [|[|[|l]]] p q E1 E2 G1 G2; try reflexivity; cbn in E1, E2;
      try (destruct k; discriminate E1); try (destruct l; discriminate E2);
      injection E1 as <-; injection E2 as <-; exfalso; revert G1 G2; vm_compute; congruence.
  - destruct (csrf_run (str "_csrf") (str "X-Csrf-Token") new_cache racers [0; 0; 1; 2; 1; 2; 1; 2]) as [c' ts'] eqn:E.
    assert (nth_error ts' 1 = Some (post_req (tok_of 1) 2 5, AtHandler (tok_of 2)) /\
            nth_error ts' 2 = Some (post_req (tok_of 1) 3 5, AtHandler (tok_of 3))) as [E1 E2].
    { change ts' with (snd (c', ts')). rewrite <- E. split; vm_compute; reflexivity. }
    split; [lia|]. split; [exact E1|]. split; [exact E2|]. split; [|split].
    + split; [apply post_unsafe|]. split; [apply post_carries, tok_nonempty|exact I].
    + split; [apply post_unsafe|]. split; [apply post_carries, tok_nonempty|exact I].
    + exists (tok_of 2), (tok_of 3). split; reflexivity.
Qed.

(** Case: the same requests with check and removal together. *)
Lemma no_race_case : all_start racers /\ drawn_once (tok_of 1) racers /\
  atomic_checks (str "_csrf") (str "X-Csrf-Token") new_cache racers [0; 0; 1; 1; 2; 1; 2] /\
  exists s, nth_error (snd (csrf_run (str "_csrf") (str "X-Csrf-Token") new_cache racers [0; 0; 1; 1; 2; 1; 2])) 1 = Some s /\
    past_check (str "_csrf") (str "X-Csrf-Token") s (tok_of 1).
Proof.
  split; [|split; [|split]].
  - intros [|[|[|k]]] q pc E; cbn in E; try congruence. destruct k; discriminate.
  - intros [|[|[|k]]] [|[|[|l]]] p q E1 E2 G1 G2; try reflexivity; cbn in E1, E2;
      try (destruct k; discriminate E1); try (destruct l; discriminate E2);
      injection E1 as <-; injection E2 as <-; exfalso; revert G1 G2; vm_compute; congruence.
  - repeat (split; [intros q n E; vm_compute in E; first [discriminate E|reflexivity]|]). exact I.
  - exists (post_req (tok_of 1) 2 5, AtHandler (tok_of 2)). split; [vm_compute; reflexivity|].
    split; [apply post_unsafe|]. split; [apply post_carries, tok_nonempty|exact I].
Qed.

(** ** Forms *)

Lemma form_refused {Resp World : Type} (param header : bytes) : forall r : client_request,
  ~ safe_method (cl_method r) -> hget (cl_headers r) header = [] ->
  forall check add random (h : handler creq Resp (cache * World)) c cw,
  csrf (fun q => q) param header h c (received r check add random) cw = (HReturn None (Some EAccessDenied), cw).
Proof.
  intros r U H check add random h c [k w]. unfold csrf, csrf_gate. cbn [received cq_method cq_headers cq_form fst snd].
  apply skip_not in U. rewrite U. unfold previous_nonce. cbn [cq_headers cq_form received]. rewrite H. reflexivity.
Qed.

Lemma form_not_seen {Resp World : Type} (param header tok : bytes) : exists r,
  alookup param (cl_params r) = Some [tok] /\ ~ safe_method (cl_method r) /\
  forall check add random (h : handler creq Resp (cache * World)) c k w,
  cache_contains k check tok = true ->
  csrf (fun q => q) param header h c (received r check add random) (k, w) = (HReturn None (Some EAccessDenied), (k, w)).
Proof.
  exists (Client (str "POST") [] [(param, [tok])]).
  assert (~ safe_method (str "POST")) as U by (intros [H|[H|[H|H]]]; discriminate H).
  split; [cbn; rewrite beqb_same; reflexivity|]. split; [exact U|].
  intros check add random h c k w _. apply form_refused; [exact U|reflexivity].
Qed.

Lemma parsed_form_seen {Resp World : Type} (param header tok : bytes) (vs : list bytes) (r : client_request) :
  ~ safe_method (cl_method r) -> hget (cl_headers r) header = [] -> alookup param (cl_params r) = Some (tok :: vs) -> tok <> [] ->
  forall check add rnd (h : handler creq Resp (cache * World)) c k w,
  cache_contains k check tok = true ->
  exists k' n, csrf (fun q => q) param header h c (received_parsed r check add (Some rnd)) (k, w) =
    h (with_nonce c n) (received_parsed r check add (Some rnd)) (k', w).
Proof.
  intros U H P N check add rnd h c k w C.
  exists (cache_add (cache_remove k tok) add (nonce_of rnd) csrf_expiration), (nonce_of rnd).
  unfold csrf, csrf_gate. cbn [received_parsed cq_method cq_headers cq_form fst snd].
  apply skip_not in U. rewrite U. unfold previous_nonce. cbn [cq_headers cq_form cq_check received_parsed]. rewrite H.
  cbn [beqb vget]. rewrite P. cbn zeta.
  assert (beqb tok [] = false) as -> by (apply beqb_no; exact N). rewrite C. reflexivity.
Qed.

Lemma passed_is_issued param header ts schedule : all_start ts ->
  let (c', ts') := csrf_run param header new_cache ts schedule in
  forall i t tok, nth_error ts' i = Some t -> past_check param header t tok -> issued ts' (cq_check (fst t)) tok.
Proof. apply concurrent_issued. Qed.

Lemma atomic_use_once param header tok ts schedule : all_start ts -> drawn_once tok ts -> atomic_checks param header new_cache ts schedule ->
  let (c', ts') := csrf_run param header new_cache ts schedule in
  forall i j s t, nth_error ts' i = Some s -> nth_error ts' j = Some t ->
    past_check param header s tok -> past_check param header t tok -> i = j.
Proof. apply atomic_single_use. Qed.

Lemma parsed_form_case :
  let r := Client (str "POST") [(str "Accept", [str "*/*"])] [(str "name", [str "ann"]); (str "_csrf", [tok_of 1; str "x"])] in
  let k := cache_add new_cache 0 (tok_of 1) 100 in
  let h : handler creq (option bytes) (cache * nat) := fun c _ w => (HReturn (Some (cx_nonce c)) None, (fst w, S (snd w))) in
  let run q := csrf (fun q => q) (str "_csrf") (str "X-Csrf-Token") h (Ctx None None None) q (k, 7) in
  ~ safe_method (cl_method r) /\ hget (cl_headers r) (str "X-Csrf-Token") = [] /\ cache_contains k 50 (tok_of 1) = true /\
  run (received r 50 51 (Some (str "0123456789abcdef"))) = (HReturn None (Some EAccessDenied), (k, 7)) /\
  exists k', run (received_parsed r 50 51 (Some (str "0123456789abcdef"))) =
    (HReturn (Some (Some (str "30313233343536373839616263646566"))) None, (k', 8)).
Proof.
  cbv zeta. split; [apply skip_not; vm_compute; reflexivity|]. split; [reflexivity|]. split; [reflexivity|].
  split; [vm_compute; reflexivity|]. eexists. vm_compute. reflexivity.
Qed.
