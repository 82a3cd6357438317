(** * Proofs about event streams over time. *)
From Coq Require Import List NArith ZArith Ascii String Bool Lia.
From Verif Require Import GoBase Resp_Model Stream_Model Stream_Spec.
Import ListNotations.
Local Open Scope string_scope.
Local Open Scope list_scope.

Lemma given_cons : forall l ls, given (l :: ls) = match l with LGive e => [e] | _ => [] end ++ given ls.
Proof. reflexivity. Qed.
Lemma written_cons : forall l ls, written (l :: ls) = match l with LWrite e => [e] | _ => [] end ++ written ls.
Proof. reflexivity. Qed.

Section Any.
Variable g : generator.

Lemma runs_app : forall s l1 s1 l2 s2, @sruns g s l1 s1 -> sruns s1 l2 s2 -> sruns s (l1 ++ l2) s2.
Proof. intros s l1 s1 l2 s2 R. induction R; intros R2; [exact R2|]. cbn. eapply sr_cons; eauto. Qed.
Lemma runs_split : forall l1 l2 s s2, @sruns g s (l1 ++ l2) s2 -> exists s1, sruns s l1 s1 /\ sruns s1 l2 s2.
Proof.
  induction l1 as [|l l1 IH]; intros l2 s s2 R.
  - exists s. split; [apply sr_nil|exact R].
  - inversion R as [|? ? s1 ? ? S R1]; subst. destruct (IH _ _ _ R1) as [s3 [A B]]. exists s3. split; [eapply sr_cons; eauto|exact B].
Qed.

Definition pending (w : wstate) : list event := match w with WGot e => [e] | _ => [] end.

Lemma ended_stays : forall s ls s', @sruns g s ls s' -> sm_write s = WEnd -> given ls = [] /\ written ls = [] /\ sm_write s' = WEnd.
Proof.
  intros s ls s' R. induction R as [s|s l s1 ls s2 S R IH]; intros H; [repeat split; auto|].
  rewrite given_cons, written_cons. destruct S; cbn [sm_write] in *; try discriminate; exact (IH H).
Qed.

Lemma done_stays : forall s ls s', @sruns g s ls s' -> sm_done s = true -> sm_done s' = true.
Proof.
  intros s ls s' R. induction R as [s|s l s1 ls s2 S R IH]; intros H; [exact H|]. apply IH. destruct S; cbn in *; auto.
Qed.

(** The events given so far are those written and the one at hand, or the one that the
    loop ended with. *)
Lemma balance : forall s ls s', @sruns g s ls s' ->
  exists rest, pending (sm_write s) ++ given ls = written ls ++ rest /\ List.length rest <= 1 /\
    (sm_write s' <> WEnd -> rest = pending (sm_write s')).
Proof.
  intros s ls s' R. induction R as [s|s l s1 ls s2 S R IH].
  - exists (pending (sm_write s)). cbn. rewrite app_nil_r. split; [reflexivity|]. split; [destruct (sm_write s); cbn; auto|]. auto.
  - destruct IH as [rest [A [B C]]]. rewrite given_cons, written_cons.
    destruct S; cbn [sm_write pending app] in *; try (exists rest; split; [exact A|]; split; [exact B|exact C]).
    + destruct (ended_stays _ _ _ R eq_refl) as [E [F G]]. rewrite E, F. exists [e]. split; [reflexivity|]. split; [auto|]. contradiction.
    + exists rest. split; [cbn; rewrite A; reflexivity|]. split; [exact B|exact C].
    + destruct (ended_stays _ _ _ R eq_refl) as [E [F G]]. rewrite E, F. exists [e]. split; [reflexivity|]. split; [auto|]. contradiction.
Qed.

(** When the context is done nothing is written any more, and at most one event taken. *)
Lemma after_done : forall s ls s', @sruns g s ls s' -> sm_done s = true ->
  written ls = [] /\ List.length (pending (sm_write s) ++ given ls) <= 1.
Proof.
  intros s ls s' R. induction R as [s|s l s1 ls s2 S R IH]; intros H.
  - split; [reflexivity|]. destruct (sm_write s); cbn; auto.
  - rewrite given_cons, written_cons. destruct S; cbn [sm_write sm_done pending app] in *; try discriminate; try (exact (IH H)).
    destruct (ended_stays _ _ _ R eq_refl) as [E [F _]]. rewrite E, F. split; [reflexivity|]. cbn. auto.
Qed.

(** With a mute generator the loop never ends. *)
Lemma mute_waits : mute g -> forall s ls s', @sruns g s ls s' -> sm_closed s = false -> sm_write s = WWait ->
  sm_closed s' = false /\ sm_write s' = WWait.
Proof.
  intros M s ls s' R. induction R as [s|s l s1 ls s2 S R IH]; intros A B; [auto|].
  destruct S; cbn [sm_closed sm_write] in *; try discriminate; auto.
  - apply M in H. discriminate.
  - apply M in H. discriminate.
Qed.
End Any.

(** ** The properties *)

Lemma stream_order : forall g last ls s, sruns (begin g last) ls s -> exists rest, given ls = written ls ++ rest /\ List.length rest <= 1 /\
  (sm_write s = WWait -> rest = []).
Proof.
  intros g last ls s R. destruct (balance g _ _ _ R) as [rest [A [B C]]]. exists rest. split; [exact A|]. split; [exact B|].
  intros W. rewrite C by (rewrite W; discriminate). rewrite W. reflexivity.
Qed.

Lemma stream_left : forall g last before after s, sruns (begin g last) (before ++ LLeave :: after) s ->
  written after = [] /\ List.length (given after) <= 1.
Proof.
  intros g last before after s R. destruct (runs_split g _ _ _ _ R) as [s1 [_ R1]]. inversion R1 as [|? ? s2 ? ? S R2]; subst.
  inversion S; subst. destruct (after_done g _ _ _ R2 eq_refl) as [A B]. split; [exact A|]. rewrite app_length in B. lia.
Qed.

Lemma stream_over : forall g last before after s, sruns (begin g last) (before ++ LEnd :: after) s ->
  written after = [] /\ given after = [].
Proof.
  intros g last before after s R. destruct (runs_split g _ _ _ _ R) as [s1 [_ R1]]. inversion R1 as [|? ? s2 ? ? S R2]; subst.
  assert (E : sm_write s2 = WEnd) by (inversion S; reflexivity). destruct (ended_stays g _ _ _ R2 E) as [A [B _]]. auto.
Qed.

(** A generator that gives nothing keeps the request for ever. *)
Lemma mute_keeps : forall g last ls s, mute g -> sruns (begin g last) ls s -> sm_write s = WWait /\ ~ In LEnd ls.
Proof.
  intros g last ls s M R. split; [exact (proj2 (mute_waits g M _ _ _ R eq_refl eq_refl))|].
  intros I. apply in_split in I. destruct I as [b [a ->]]. destruct (runs_split g _ _ _ _ R) as [s1 [R1 R2]].
  destruct (mute_waits g M _ _ _ R1 eq_refl eq_refl) as [A B]. inversion R2 as [|? ? s2 ? ? S _]; subst.
  inversion S; subst; cbn in *; congruence.
Qed.
Lemma mute_exists : mute (Generator unit (fun _ => tt) (fun _ _ a _ => a = PTau)).
Proof. intros d p a p' H. exact H. Qed.

(** Once the client has left, a further event or the end of the channel ends the loop. *)
Lemma next_ends : forall g (s : stream g), sm_done s = true -> (exists e, sm_write s = WGot e) \/ (sm_write s = WWait /\ sm_closed s = true) ->
  (exists s', sstep s LEnd s' /\ sm_write s' = WEnd) /\
  forall l s', sstep s l s' -> sm_write s' = WEnd \/
    (sm_done s' = true /\ ((exists e, sm_write s' = WGot e) \/ (sm_write s' = WWait /\ sm_closed s' = true))).
Proof.
  intros g [p c w d] D H. cbn in *. subst d. split.
  - destruct H as [[e ->]|[-> ->]]; eexists; (split; [constructor|reflexivity]).
  - intros l s' S. inversion S; subst; cbn in *; auto; destruct H as [[e0 H]|[H1 H2]]; try discriminate; subst;
      right; (split; [reflexivity|]); left; eexists; reflexivity.
Qed.

(** The goroutine of the example stays at its send for ever. *)
Lemma stuck_stays : forall (s : stream ticking) ls s' e, sruns s ls s' -> sm_write s = WEnd -> sm_gen s = TSend e -> sm_gen s' = TSend e.
Proof.
  intros s ls s' e R. induction R as [s|s l s1 ls s2 S R IH]; intros W P; [exact P|].
  apply IH; destruct S; cbn [sm_gen sm_write] in *; subst; try discriminate; try reflexivity; try assumption.
  - inversion H; subst; try discriminate.
  - inversion H; subst; discriminate.
Qed.

Lemma ticking_sticks : forall (s : stream ticking) e, sm_done s = true -> sm_gen s = TSelect ->
  sm_write s = WEnd \/ (exists e0, sm_write s = WGot e0) ->
  exists ls s', sruns s ls s' /\ sm_write s' = WEnd /\ sm_gen s' = TSend e /\ forall ls2 s2, sruns s' ls2 s2 -> sm_gen s2 = TSend e.
Proof.
  intros [p c w d] e D P W. cbn in *. subst d p. destruct W as [->|[e0 ->]].
  - exists [LOwn], (Stream (g:=ticking) (TSend e) c WEnd true). split.
    + eapply sr_cons; [|apply sr_nil]. apply ss_own. exact (ts_event true e).
    + split; [reflexivity|]. split; [reflexivity|]. intros ls2 s2 R. exact (stuck_stays _ _ _ e R eq_refl eq_refl).
  - exists [LOwn; LEnd], (Stream (g:=ticking) (TSend e) c WEnd true). split.
    + eapply sr_cons; [apply ss_own; exact (ts_event true e)|]. eapply sr_cons; [|apply sr_nil]. apply ss_done.
    + split; [reflexivity|]. split; [reflexivity|]. intros ls2 s2 R. exact (stuck_stays _ _ _ e R eq_refl eq_refl).
Qed.

(** After any time of service. *)
Lemma ticking_serves : forall es last, exists ls, sruns (begin ticking last) ls (Stream (g:=ticking) TSelect false WWait false) /\ written ls = es.
Proof.
  intros es last. assert (K : forall es, exists ls, sruns (Stream (g:=ticking) TSelect false WWait false) ls (Stream (g:=ticking) TSelect false WWait false) /\ written ls = es).
  { induction es0 as [|e es0 [ls [R E]]].
    - exists []. split; [apply sr_nil|reflexivity].
    - exists (LOwn :: LGive e :: LWrite e :: ls). split; [|cbn; f_equal; exact E].
      eapply sr_cons; [apply ss_own; exact (ts_event false e)|]. eapply sr_cons; [apply ss_give; exact (ts_send false e)|].
      eapply sr_cons; [apply ss_write|exact R]. }
  exact (K es).
Qed.
Lemma ticking_leaks : forall es e last, exists ls s, sruns (begin ticking last) ls s /\ written ls = es /\
  sm_done s = true /\ sm_write s = WEnd /\ forall ls2 s2, sruns s ls2 s2 -> sm_gen s2 = TSend e.
Proof.
  intros es e last. destruct (ticking_serves es last) as [ls [R E]].
  exists (ls ++ [LLeave; LOwn; LGive e; LOwn; LEnd]), (Stream (g:=ticking) (TSend e) false WEnd true). split; [|split; [|split; [|split]]].
  - eapply runs_app; [exact R|]. eapply sr_cons; [apply ss_leave|]. eapply sr_cons; [apply ss_own; exact (ts_event true e)|].
    eapply sr_cons; [apply ss_give; exact (ts_send true e)|]. eapply sr_cons; [apply ss_own; exact (ts_event true e)|].
    eapply sr_cons; [apply ss_done|apply sr_nil].
  - unfold written in *. rewrite flat_map_app, E. cbn. apply app_nil_r.
  - reflexivity.
  - reflexivity.
  - intros ls2 s2 R2. exact (stuck_stays _ _ _ e R2 eq_refl eq_refl).
Qed.

(** A polite generator and the loop can always end, and stop only when both have ended. *)
Lemma polite_keeps : forall last ls s, sruns (begin polite last) ls s -> (sm_gen s = TEnded <-> sm_closed s = true).
Proof.
  intros last ls s R. assert (K : sm_gen (begin polite last) = TEnded <-> sm_closed (begin polite last) = true) by (cbn; split; discriminate).
  revert K. induction R as [s|s l s1 ls s2 S R IH]; intros K; [exact K|]. apply IH. clear IH R.
  destruct S; cbn [sm_gen sm_closed] in *; try exact K.
  - inversion H as [? ? ? ? T|]; subst; [inversion T; subst|]; split; intros X; try discriminate; apply K in X; discriminate.
  - inversion H as [? ? ? ? T|]; subst; inversion T; subst; split; discriminate.
  - inversion H as [? ? ? ? T|]; subst; inversion T; subst; split; reflexivity.
Qed.

Lemma polite_ends : forall last ls s, sruns (begin polite last) ls s -> sm_done s = true ->
  (exists ls2 s2, sruns s ls2 s2 /\ sm_write s2 = WEnd /\ sm_gen s2 = TEnded) /\
  ((forall l s', ~ sstep s l s') -> sm_write s = WEnd /\ sm_gen s = TEnded).
Proof.
  intros last ls s R D.
  assert (E : exists ls2 s2, sruns s ls2 s2 /\ sm_write s2 = WEnd /\ sm_gen s2 = TEnded).
  { pose proof (polite_keeps _ _ _ R) as K. destruct s as [p c w d]. cbn in D, K. subst d.
    assert (G : exists ls1, sruns (Stream (g:=polite) p c w true) ls1 (Stream (g:=polite) TEnded true w true)).
    { assert (C : forall c0, c0 = false -> sruns (Stream (g:=polite) TClosing c0 w true) [LClose] (Stream (g:=polite) TEnded true w true)).
      { intros c0 ->. eapply sr_cons; [|apply sr_nil]. apply ss_close. apply ps_like, ts_close. }
      assert (F : p <> TEnded -> c = false) by (intros N; destruct c; [exfalso; apply N, K; reflexivity|reflexivity]).
      destruct p.
      - exists [LOwn; LClose]. eapply sr_cons; [apply ss_own; apply ps_like, ts_done|]. apply C, F. discriminate.
      - exists [LOwn; LClose]. eapply sr_cons; [apply ss_own; apply ps_give_up|]. apply C, F. discriminate.
      - exists [LClose]. apply C, F. discriminate.
      - exists []. rewrite (proj1 K eq_refl). apply sr_nil. }
    destruct G as [ls1 G]. destruct w as [|e|].
    - exists (ls1 ++ [LEnd]). eexists. split; [eapply runs_app; [exact G|eapply sr_cons; [apply ss_closed|apply sr_nil]]|split; reflexivity].
    - exists (ls1 ++ [LEnd]). eexists. split; [eapply runs_app; [exact G|eapply sr_cons; [apply ss_done|apply sr_nil]]|split; reflexivity].
    - exists ls1. eexists. split; [exact G|split; reflexivity]. }
  split; [exact E|]. intros N. destruct E as [ls2 [s2 [R2 [A B]]]]. inversion R2 as [|? l s1 ? ? S _]; subst; [auto|destruct (N _ _ S)].
Qed.

(** Case: two events, of which one is written before the client leaves. *)
Lemma stream_case : let e1 := Event (str "message") (str "1") [str "a"] 0 in let e2 := Event (str "message") (str "2") [str "b"] 0 in
  exists s, sruns (begin ticking []) [LOwn; LGive e1; LWrite e1; LOwn; LGive e2; LLeave; LOwn; LEnd; LClose] s /\ sm_gen s = TEnded.
Proof.
  cbv zeta. eexists. split.
  - eapply sr_cons; [apply ss_own; apply ts_event|]. eapply sr_cons; [apply ss_give; apply ts_send|]. eapply sr_cons; [apply ss_write|].
    eapply sr_cons; [apply ss_own; apply ts_event|]. eapply sr_cons; [apply ss_give; apply ts_send|]. eapply sr_cons; [apply ss_leave|].
    eapply sr_cons; [apply ss_own; apply ts_done|]. eapply sr_cons; [apply ss_done|]. eapply sr_cons; [apply ss_close; apply ts_close|apply sr_nil].
  - reflexivity.
Qed.

(** Such generators exist; the context may be done or not. *)
Lemma mute_request : (exists g, mute g) /\ forall g last ls s, mute g -> sruns (begin g last) ls s -> sm_write s = WWait /\ ~ In LEnd ls.
Proof. split; [eexists; exact mute_exists|exact mute_keeps]. Qed.

(** The stream of the example does not end on its own. *)
Lemma ticking_run : forall ls (s0 s : stream ticking), sruns s0 ls s -> ~ In LLeave ls -> sm_done s0 = false -> sm_closed s0 = false ->
  sm_gen s0 <> TClosing -> sm_gen s0 <> TEnded ->
  sm_done s = false /\ sm_closed s = false /\ ~ In LClose ls /\ sm_gen s <> TClosing /\ sm_gen s <> TEnded.
Proof.
  intros ls s0 s R. induction R as [s|s l s1 ls s2 St R IH]; intros NL D C G1 G2; [split; [exact D|split; [exact C|split; [intros []|auto]]]|].
  assert (X : sm_done s1 = false /\ sm_closed s1 = false /\ l <> LClose /\ sm_gen s1 <> TClosing /\ sm_gen s1 <> TEnded).
  { destruct St as [p p' c w d H|p p' e d H|p p' w d H| | | | |p c w]; cbn [sm_gen sm_closed sm_done sm_write] in *; subst.
    - split; [reflexivity|]. split; [reflexivity|]. split; [discriminate|]. cbn in H. inversion H; subst; split; discriminate.
    - split; [reflexivity|]. split; [reflexivity|]. split; [discriminate|]. cbn in H. inversion H; subst; split; discriminate.
    - exfalso. cbn in H. inversion H; subst. now apply G1.
    - discriminate C.
    - discriminate D.
    - split; [reflexivity|]. split; [reflexivity|]. split; [discriminate|auto].
    - split; [reflexivity|]. split; [reflexivity|]. split; [discriminate|auto].
    - exfalso. apply NL. now left. }
  destruct X as (D1 & C1 & N1 & G3 & G4). destruct (IH ltac:(intro I; apply NL; now right) D1 C1 G3 G4) as (? & ? & ? & ? & ?).
  split; [assumption|]. split; [assumption|]. split; [|auto]. intros [I|I]; [now apply N1|contradiction].
Qed.

Lemma open_ends : forall ls (s0 s : stream ticking), sruns s0 ls s -> ~ In LLeave ls -> sm_done s0 = false -> sm_closed s0 = false ->
  sm_gen s0 <> TClosing -> sm_gen s0 <> TEnded -> sm_write s0 = WWait \/ (exists e, sm_write s0 = WGot e) -> sm_write s = WEnd ->
  (match sm_write s0 with WGot e => [e] | _ => [] end) ++ given ls <> written ls.
Proof.
  intros ls s0 s R. induction R as [s|s l s1 ls s2 St R IH]; intros NL D C G1 G2 W E.
  - destruct W as [W|[e W]]; congruence.
  - assert (O : sruns s [l] s1) by (eapply sr_cons; [exact St|apply sr_nil]).
    destruct (ticking_run _ _ _ O ltac:(intros [I|[]]; apply NL; left; exact I) D C G1 G2) as (D1 & C1 & _ & G3 & G4). clear O.
    assert (NL' : ~ In LLeave ls) by (intro I; apply NL; now right). specialize (IH NL' D1 C1 G3 G4).
    destruct St as [p p' c w d H|p p' e d H|p p' w d H| | |p c e|p c e|p c w]; cbn [sm_gen sm_closed sm_done sm_write] in *; subst.
    + exact (IH W E).
    + specialize (IH (or_intror (ex_intro _ e eq_refl)) E). exact IH.
    + exact (IH W E).
    + discriminate C.
    + discriminate D.
    + specialize (IH (or_introl eq_refl) E). cbn. intros X. injection X as X. exact (IH X).
    + intros X. change (e :: given ls = written ls) in X. clear -X R.
      assert (Y : given ls = [] /\ written ls = []).
      { match type of R with sruns ?t0 _ _ => remember t0 as t end. assert (We : sm_write t = WEnd) by (subst; reflexivity). clear Heqt X. 
        induction R as [s|s l s1 ls s2 St R IH]; [split; reflexivity|].
        destruct St; cbn [sm_write] in *; try discriminate We; subst; exact (IH eq_refl). }
      destruct Y as [Y1 Y2]. rewrite Y2 in X. discriminate X.
    + discriminate D1.
Qed.

Lemma ticking_open : forall last ls s, sruns (begin ticking last) ls s -> ~ In LLeave ls ->
  sm_closed s = false /\ ~ In LClose ls /\ (sm_write s = WEnd -> exists e, given ls = written ls ++ [e]).
Proof.
  intros last ls s R NL. destruct (ticking_run _ _ _ R NL eq_refl eq_refl ltac:(discriminate) ltac:(discriminate)) as (_ & C & N & _).
  split; [exact C|]. split; [exact N|]. intros E. destruct (stream_order _ _ _ _ R) as (rest & G & L & _).
  destruct rest as [|e [|e' rest]]; [|exists e; exact G|cbn in L; lia]. exfalso.
  apply (open_ends _ _ _ R NL eq_refl eq_refl ltac:(discriminate) ltac:(discriminate) (or_introl eq_refl) E). rewrite app_nil_r in G. exact G.
Qed.
Lemma ticking_open_case : let e := Event (str "message") (str "1") [str "a"] 0 in
  exists s, sruns (begin ticking []) [LOwn; LGive e; LOwn; LEnd] s /\ sm_write s = WEnd.
Proof.
  eexists. split.
  - eapply sr_cons; [apply ss_own; apply ts_event|]. eapply sr_cons; [apply ss_give; apply ts_send|]. eapply sr_cons; [apply ss_own; apply ts_none|].
    eapply sr_cons; [apply ss_fail|]. apply sr_nil.
  - reflexivity.
Qed.
