(** * Threads do not disturb each other *)
From Coq Require Import List Arith Lia.
From Verif Require Import Pool_Model Pool_Spec.
Import ListNotations.

Lemma nth_set_nth {A : Type} (l : list A) i x j :
  nth_error (set_nth l i x) j = if Nat.eqb j i then (if Nat.ltb i (List.length l) then Some x else None) else nth_error l j.
Proof.
  revert i j. induction l as [|y l IH]; intros i j; cbn [set_nth].
  - cbn. destruct j, i; cbn; try reflexivity. now destruct (Nat.eqb j i).
  - destruct i as [|i], j as [|j]; cbn; try reflexivity. rewrite IH. cbn. destruct (Nat.eqb j i); [|reflexivity].
    replace (S i <? S (List.length l)) with (i <? List.length l) by reflexivity. reflexivity.
Qed.
Lemma set_nth_length {A : Type} (l : list A) i x : List.length (set_nth l i x) = List.length l.
Proof. revert i. induction l as [|y l IH]; intros [|i]; cbn; auto. Qed.
Lemma in_del_nth {A : Type} (l : list A) i x : In x (del_nth l i) -> In x l.
Proof. revert i. induction l as [|y l IH]; intros [|i]; cbn; auto. intros [->|H]; [auto|right; eauto]. Qed.
Lemma nodup_del_nth {A : Type} (l : list A) i : NoDup l -> NoDup (del_nth l i).
Proof.
  revert i. induction l as [|y l IH]; intros i N; [now destruct i|]. inversion N; subst. destruct i as [|i]; cbn; [assumption|].
  constructor; [|now apply IH]. intro H. apply in_del_nth in H. contradiction.
Qed.
Lemma del_nth_gone {A : Type} (l : list A) i x : NoDup l -> nth_error l i = Some x -> ~ In x (del_nth l i).
Proof.
  revert i. induction l as [|y l IH]; intros [|i] N E; cbn in *; try discriminate E.
  - injection E as ->. now inversion N.
  - inversion N; subst. intros [->|H]; [apply H1; eapply nth_error_In; eauto|]. eapply IH; eauto.
Qed.

Section P.
Variables Obj Val Ev : Type.
Variable fresh : nat -> Obj.
Variable good : Ev -> Prop.
Notation mem := (mem Obj).
Notation config := (config Obj Val Ev).

Definition apart (s m : mem) : Prop := forall l, m l = None \/ s l = None.
Definition within (s s' : mem) : Prop := forall l o, s l = Some o -> s' l = Some o.

Lemma put_same (m : mem) l o : put_mem m l o l = o.
Proof. unfold put_mem. now rewrite Nat.eqb_refl. Qed.
Lemma put_diff (m : mem) l o l' : l' <> l -> put_mem m l o l' = m l'.
Proof. unfold put_mem. intro D. now destruct (Nat.eqb_spec l' l). Qed.
Lemma put_or (m : mem) l o l' : (l' = l /\ put_mem m l o l' = o) \/ (l' <> l /\ put_mem m l o l' = m l').
Proof. destruct (Nat.eq_dec l' l) as [->|D]; [left; split; [reflexivity|apply put_same]|right; split; [exact D|now apply put_diff]]. Qed.

(** More objects that nobody changes do no harm. *)
Lemma alone_more (p : prog Obj Val Ev) : forall s s' m, within s s' -> apart s' m -> alone fresh good s m p -> alone fresh good s' m p.
Proof.
  induction p as [|n k IH|n l k IH|o k IH|l f k IH|l f k IH|e k IH|k IH|g IHg k IHk]; intros s s' m W D A; cbn [alone] in *; auto.
  - intros l M1 M2. apply (IH l s); [exact W| |].
    + intro l'. destruct (put_or m l (Some (fresh n)) l') as [[-> ->]|[_ ->]]; auto.
    + apply A; [exact M1|]. destruct (s l) as [o|] eqn:E; [|reflexivity]. apply W in E. congruence.
  - destruct A as [A1 A2]. split; [exact A1|]. apply (IH s); [exact W| |exact A2].
    intro l'. destruct (put_or m l None l') as [[-> ->]|[_ ->]]; auto.
  - intros l M1 M2. apply (IH l s); [exact W| |].
    + intro l'. destruct (put_or m l (Some o) l') as [[-> ->]|[_ ->]]; auto.
    + apply A; [exact M1|]. destruct (s l) as [o1|] eqn:E; [|reflexivity]. apply W in E. congruence.
  - destruct A as (o & [A1|A1] & A2); exists o; (split; [|eapply IH; eauto]); auto.
  - destruct A as (o & A1 & A2). exists o. split; [exact A1|]. destruct (f o) as [o'|]; [|eapply IH; eauto].
    apply (IH true s); [exact W| |exact A2]. intro l'. destruct (put_or m l (Some o') l') as [[-> ->]|[_ ->]]; auto.
    destruct (D l); [congruence|auto].
  - destruct A as [A1 A2]. split; [exact A1|]. eapply IH; eauto.
  - intro x. eapply IH; eauto.
  - destruct A as (m1 & m2 & s1 & H & A1 & A2). exists m1, m2, s1. split; [exact H|].
    assert (W' : within (join_mem s s1) (join_mem s' s1)).
    { intros l o E. unfold join_mem in *. destruct (s l) as [o1|] eqn:E1.
      - injection E as ->. now rewrite (W _ _ E1).
      - destruct (s' l) as [o2|] eqn:E2; [|exact E]. destruct (H l) as [H1 H2]. unfold join_mem, at_most_one in *. rewrite E in *.
        destruct (m1 l), (m2 l); try easy. destruct (D l); congruence. }
    assert (D1 : apart (join_mem s' s1) m1).
    { intro l. destruct (m1 l) as [o|] eqn:E; [|auto]. right. destruct (H l) as [H1 H2]. unfold join_mem, at_most_one in *. rewrite E in *.
      destruct (m2 l), (s1 l); try easy. destruct (D l) as [K|K]; [congruence|]. now rewrite K. }
    assert (D2 : apart (join_mem s' s1) m2).
    { intro l. destruct (m2 l) as [o|] eqn:E; [|auto]. right. destruct (H l) as [H1 H2]. unfold join_mem, at_most_one in *. rewrite E in *.
      destruct (m1 l), (s1 l); try easy. destruct (D l) as [K|K]; [congruence|]. now rewrite K. }
    split; [eapply IHg; eauto|eapply IHk; eauto].
Qed.

Record fine (c : config) (s : mem) (ms : list mem) : Prop := {
  f_len : List.length ms = List.length (cf_threads c);
  f_alone : forall t m p, nth_error ms t = Some m -> nth_error (cf_threads c) t = Some p -> alone fresh good s m p;
  f_heap : forall t m l o, nth_error ms t = Some m -> m l = Some o -> nth_error (cf_heap c) l = Some o;
  f_fixed : forall l o, s l = Some o -> nth_error (cf_heap c) l = Some o;
  f_fixed_apart : forall t m, nth_error ms t = Some m -> apart s m;
  f_apart : forall t t' m m' l, t <> t' -> nth_error ms t = Some m -> nth_error ms t' = Some m' -> m l = None \/ m' l = None;
  f_pool_heap : forall n l, In l (cf_pools c n) -> nth_error (cf_heap c) l = Some (fresh n);
  f_pool_free : forall n l t m, In l (cf_pools c n) -> nth_error ms t = Some m -> m l = None;
  f_pool_fixed : forall n l, In l (cf_pools c n) -> s l = None;
  f_pool_once : forall n, NoDup (cf_pools c n);
  f_pools_apart : forall n n' l, n <> n' -> In l (cf_pools c n) -> ~ In l (cf_pools c n');
  f_log : Forall good (cf_log c)
}.

Lemma fine_start : fine start no_mem [].
Proof.
  split; cbn; try easy.
  - intros t m p H. now destruct t.
  - intros t m l o H. now destruct t.
  - intros t m H. now destruct t.
  - intros t t' m m' l _ H. now destruct t.
  - constructor.
Qed.

Lemma heap_bound (c : config) s ms : fine c s ms ->
  s (List.length (cf_heap c)) = None /\ forall t m, nth_error ms t = Some m -> m (List.length (cf_heap c)) = None.
Proof.
  intro F. split.
  - destruct (s (List.length (cf_heap c))) as [o|] eqn:E; [|reflexivity].
    apply (f_fixed _ _ _ F) in E. assert (H0 : nth_error (cf_heap c) (List.length (cf_heap c)) <> None) by congruence.
    apply nth_error_Some in H0. lia.
  - intros t m H. destruct (m (List.length (cf_heap c))) as [o|] eqn:E; [|reflexivity].
    apply (f_heap _ _ _ F t m _ _ H) in E. assert (H0 : nth_error (cf_heap c) (List.length (cf_heap c)) <> None) by congruence.
    apply nth_error_Some in H0. lia.
Qed.

(** Changing the memory of one thread. *)
Lemma nth_set {A : Type} (l : list A) t m j x : nth_error (set_nth l t m) j = Some x -> t < List.length l ->
  (j = t /\ x = m) \/ (j <> t /\ nth_error l j = Some x).
Proof.
  rewrite nth_set_nth. intros H L. destruct (Nat.eqb_spec j t) as [->|D].
  - left. destruct (Nat.ltb_spec t (List.length l)); [|lia]. injection H as <-. auto.
  - right. auto.
Qed.

(** The general step of one thread: its program and memory change, the heap and the
    pools with them. *)
Lemma fine_turn (c : config) s ms t m p heap' pools' m' p' log' :
  fine c s ms -> nth_error ms t = Some m -> nth_error (cf_threads c) t = Some p ->
  alone fresh good s m' p' ->
  (forall l o, m' l = Some o -> nth_error heap' l = Some o) ->
  apart s m' ->
  (forall l o, s l = Some o -> nth_error heap' l = Some o) ->
  (forall t' m0 l o, t' <> t -> nth_error ms t' = Some m0 -> m0 l = Some o -> nth_error heap' l = Some o) ->
  (forall t' m0 l, t' <> t -> nth_error ms t' = Some m0 -> m0 l = None \/ m' l = None) ->
  (forall n l, In l (pools' n) -> nth_error heap' l = Some (fresh n)) ->
  (forall n l, In l (pools' n) -> m' l = None /\ s l = None) ->
  (forall n l t' m0, t' <> t -> In l (pools' n) -> nth_error ms t' = Some m0 -> m0 l = None) ->
  (forall n, NoDup (pools' n)) ->
  (forall n n' l, n <> n' -> In l (pools' n) -> ~ In l (pools' n')) ->
  Forall good log' ->
  fine (Config heap' pools' (set_nth (cf_threads c) t p') log') s (set_nth ms t m').
Proof.
  intros F HM HP A H1 H0 H0' H2 H3 H4 H5 H6 H7 H8 H9.
  assert (LT : t < List.length (cf_threads c)) by (apply nth_error_Some; congruence).
  assert (LM : t < List.length ms) by (apply nth_error_Some; congruence).
  split; cbn [cf_heap cf_pools cf_threads cf_log]; try assumption.
  - rewrite !set_nth_length. apply (f_len _ _ _ F).
  - intros j mj pj Em Ep. apply nth_set in Em; [|exact LM]. apply nth_set in Ep; [|exact LT].
    destruct Em as [[-> ->]|[D Em]]; destruct Ep as [[E ->]|[D' Ep]]; try congruence. eapply (f_alone _ _ _ F); eauto.
  - intros j mj l o Em El. apply nth_set in Em; [|exact LM]. destruct Em as [[-> ->]|[D Em]]; eauto.
  - intros j mj Em. apply nth_set in Em; [|exact LM]. destruct Em as [[-> ->]|[D Em]]; [assumption|]. eapply (f_fixed_apart _ _ _ F); eauto.
  - intros j j' mj mj' l D Em Em'. apply nth_set in Em; [|exact LM]. apply nth_set in Em'; [|exact LM].
    destruct Em as [[-> ->]|[D1 Em]]; destruct Em' as [[-> ->]|[D2 Em']]; try congruence.
    + destruct (H3 j' mj' l D2 Em'); auto.
    + eauto.
    + apply (f_apart _ _ _ F j j'); assumption.
  - intros n l j mj I1 Em. apply nth_set in Em; [|exact LM]. destruct Em as [[-> ->]|[D Em]]; [now apply (H5 n l)|eauto].
  - intros n l I1. now apply (H5 n l).
Qed.

(** A thread joins. *)
Lemma fine_join (c : config) s ms m p : fine c s ms -> alone fresh good s m p ->
  (forall l o, m l = Some o -> nth_error (cf_heap c) l = Some o) -> apart s m ->
  (forall t m' l, nth_error ms t = Some m' -> m' l = None \/ m l = None) ->
  (forall n l, In l (cf_pools c n) -> m l = None) ->
  fine (Config (cf_heap c) (cf_pools c) (cf_threads c ++ [p]) (cf_log c)) s (ms ++ [m]).
Proof.
  intros F A H1 H0 H2 H3.
  assert (Q : forall t x, nth_error (ms ++ [m]) t = Some x -> (t = List.length ms /\ x = m) \/ (t < List.length ms /\ nth_error ms t = Some x)).
  { intros t x E. destruct (Nat.lt_ge_cases t (List.length ms)) as [L|L].
    - rewrite nth_error_app1 in E by exact L. auto.
    - rewrite nth_error_app2 in E by exact L. destruct (t - List.length ms) as [|i] eqn:D; [|destruct i; discriminate E].
      cbn in E. injection E as <-. left. split; [lia|reflexivity]. }
  pose proof (f_len _ _ _ F) as LE.
  split; cbn [cf_heap cf_pools cf_threads cf_log]; try apply F.
  - rewrite !app_length. cbn. now rewrite LE.
  - intros t mt pt Em Ep. destruct (Q t mt Em) as [[-> ->]|[L Em']].
    + rewrite LE, nth_error_app2, Nat.sub_diag in Ep by lia. cbn in Ep. injection Ep as <-. exact A.
    + rewrite nth_error_app1 in Ep by lia. eapply (f_alone _ _ _ F); eauto.
  - intros t mt l o Em El. destruct (Q t mt Em) as [[-> ->]|[L Em']]; [auto|eapply (f_heap _ _ _ F); eauto].
  - intros t mt Em. destruct (Q t mt Em) as [[-> ->]|[L Em']]; [auto|eapply (f_fixed_apart _ _ _ F); eauto].
  - intros t t' mt mt' l D Em Em'. destruct (Q t mt Em) as [[-> ->]|[L E1]]; destruct (Q t' mt' Em') as [[-> ->]|[L' E2]]; try congruence.
    + destruct (H2 t' mt' l E2); auto.
    + eauto.
    + apply (f_apart _ _ _ F t t'); assumption.
  - intros n l t mt I1 Em. destruct (Q t mt Em) as [[-> ->]|[L Em']]; [eauto|eapply (f_pool_free _ _ _ F); eauto].
Qed.

(** A thread gives up the right to change some of its objects. *)
Lemma fine_freeze (c : config) s ms t m m' s' : fine c s ms -> nth_error ms t = Some m ->
  (forall p, nth_error (cf_threads c) t = Some p -> alone fresh good (join_mem s s') m' p) ->
  (forall l o, m' l = Some o -> m l = Some o) -> (forall l o, s' l = Some o -> m l = Some o) -> apart s' m' ->
  fine c (join_mem s s') (set_nth ms t m').
Proof.
  intros F HM A H1 H2 H3. assert (LM : t < List.length ms) by (apply nth_error_Some; congruence).
  assert (J : forall l o, join_mem s s' l = Some o -> s l = Some o \/ (s l = None /\ m l = Some o /\ s' l = Some o)).
  { intros l o E. unfold join_mem in E. destruct (s l) eqn:E1; [left; congruence|right; auto]. }
  assert (AP' : apart (join_mem s s') m').
  { intro l. destruct (m' l) as [o|] eqn:E; [|auto]. right. pose proof (H1 _ _ E) as E'.
    unfold join_mem. destruct (f_fixed_apart _ _ _ F t m HM l) as [K|K]; [congruence|]. rewrite K. destruct (H3 l); [congruence|assumption]. }
  assert (AP : forall j mj, j <> t -> nth_error ms j = Some mj -> apart (join_mem s s') mj).
  { intros j mj D E l. destruct (join_mem s s' l) as [o|] eqn:E1; [|auto]. left. destruct (J _ _ E1) as [K|(K1 & K2 & _)].
    - destruct (f_fixed_apart _ _ _ F j mj E l); [assumption|congruence].
    - destruct (f_apart _ _ _ F j t mj m l D E HM); [assumption|congruence]. }
  split; try apply F.
  - rewrite set_nth_length. apply F.
  - intros j mj p Em Ep. apply nth_set in Em; [|exact LM]. destruct Em as [[-> ->]|[D Em]]; [auto|].
    apply (alone_more p s); [|eauto|eapply (f_alone _ _ _ F); eauto].
    intros l o E. unfold join_mem. now rewrite E.
  - intros j mj l o Em El. apply nth_set in Em; [|exact LM]. destruct Em as [[-> ->]|[D Em]]; eapply (f_heap _ _ _ F); eauto.
  - intros l o E. destruct (J _ _ E) as [K|(_ & K & _)]; [eapply (f_fixed _ _ _ F)|eapply (f_heap _ _ _ F)]; eauto.
  - intros j mj Em. apply nth_set in Em; [|exact LM]. destruct Em as [[-> ->]|[D Em]]; [exact AP'|eauto].
  - intros j j' mj mj' l D Em Em'. apply nth_set in Em; [|exact LM]. apply nth_set in Em'; [|exact LM].
    destruct Em as [[-> ->]|[D1 Em]]; destruct Em' as [[-> ->]|[D2 Em']]; try congruence.
    + destruct (m' l) as [o|] eqn:E; [|auto]. apply H1 in E. destruct (f_apart _ _ _ F t j' m mj' l D HM Em'); [congruence|auto].
    + destruct (m' l) as [o|] eqn:E; [|auto]. apply H1 in E. destruct (f_apart _ _ _ F j t mj m l D Em HM); [auto|congruence].
    + apply (f_apart _ _ _ F j j'); assumption.
  - intros n l j mj I1 Em. apply nth_set in Em; [|exact LM]. destruct Em as [[-> ->]|[D Em]]; [|eapply (f_pool_free _ _ _ F); eauto].
    destruct (m' l) as [o|] eqn:E; [|auto]. apply H1 in E. rewrite (f_pool_free _ _ _ F n l t m I1 HM) in E. discriminate E.
  - intros n l I1. destruct (join_mem s s' l) as [o|] eqn:E; [|auto]. destruct (J _ _ E) as [K|(_ & K & _)].
    + rewrite (f_pool_fixed _ _ _ F n l I1) in K. discriminate K.
    + rewrite (f_pool_free _ _ _ F n l t m I1 HM) in K. discriminate K.
Qed.

Definition begins_alone (a : label Obj Val Ev) : Prop :=
  match a with Begin p => alone fresh good no_mem no_mem p | _ => True end.

(** A turn that only changes the program of the thread. *)
Lemma fine_same (c : config) s ms t m p p' log' :
  fine c s ms -> nth_error ms t = Some m -> nth_error (cf_threads c) t = Some p ->
  alone fresh good s m p' -> Forall good log' ->
  fine (Config (cf_heap c) (cf_pools c) (set_nth (cf_threads c) t p') log') s (set_nth ms t m).
Proof.
  intros F HM HP A G. apply (fine_turn c s ms t m p); try assumption; try apply F.
  - intros l o E. eapply (f_heap _ _ _ F); eauto.
  - eapply (f_fixed_apart _ _ _ F); eauto.
  - intros t' m0 l o _ E1 E2. eapply (f_heap _ _ _ F); eauto.
  - intros t' m0 l D E. eapply (f_apart _ _ _ F t' t); eauto.
  - intros n' l' I1. split; [eapply (f_pool_free _ _ _ F); eauto|eapply (f_pool_fixed _ _ _ F); eauto].
  - intros n' l' t' m0 _ I1 E. eapply (f_pool_free _ _ _ F); eauto.
Qed.

(** A turn that makes an object. *)
Lemma fine_new (c : config) s ms t m p o p' :
  fine c s ms -> nth_error ms t = Some m -> nth_error (cf_threads c) t = Some p ->
  (forall l, m l = None -> s l = None -> alone fresh good s (put_mem m l (Some o)) (p' l)) ->
  exists ms', fine (Config (cf_heap c ++ [o]) (cf_pools c) (set_nth (cf_threads c) t (p' (List.length (cf_heap c)))) (cf_log c)) s ms'.
Proof.
  intros F HM HP A. destruct (heap_bound c s ms F) as [HS HB]. set (l := List.length (cf_heap c)) in *.
  exists (set_nth ms t (put_mem m l (Some o))).
  assert (OLD : forall l' o', nth_error (cf_heap c) l' = Some o' -> nth_error (cf_heap c ++ [o]) l' = Some o' /\ l' <> l).
  { intros l' o' E. assert (H : l' < l) by (apply nth_error_Some; congruence). split; [rewrite nth_error_app1 by exact H; exact E|lia]. }
  apply (fine_turn c s ms t m p); try assumption; try apply F.
  * apply A; eauto.
  * intros l' o' E. unfold put_mem in E. destruct (Nat.eqb_spec l' l) as [->|D].
    -- injection E as <-. unfold l. rewrite nth_error_app2, Nat.sub_diag by lia. reflexivity.
    -- eapply OLD, (f_heap _ _ _ F); eauto.
  * intro l'. destruct (put_or m l (Some o) l') as [[-> _]|[_ ->]]; [auto|]. eapply (f_fixed_apart _ _ _ F); eauto.
  * intros l' o' E. eapply OLD, (f_fixed _ _ _ F); eauto.
  * intros t' m0 l' o' _ E1 E2. eapply OLD, (f_heap _ _ _ F); eauto.
  * intros t' m0 l' D E. unfold put_mem. destruct (Nat.eqb_spec l' l) as [->|D'].
    -- left. eauto.
    -- eapply (f_apart _ _ _ F t' t); eauto.
  * intros n' l' I1. eapply OLD, (f_pool_heap _ _ _ F); eauto.
  * intros n' l' I1. split; [|eapply (f_pool_fixed _ _ _ F); eauto].
    rewrite put_diff; [eapply (f_pool_free _ _ _ F); eauto|]. eapply OLD, (f_pool_heap _ _ _ F); eauto.
  * intros n' l' t' m0 _ I1 E. eapply (f_pool_free _ _ _ F); eauto.
Qed.

Lemma fine_step (c : config) s ms a : fine c s ms -> begins_alone a ->
  exists c' s' ms', step fresh a c = Some c' /\ fine c' s' ms'.
Proof.
  intros F B. destruct a as [t x|p|n j]; cbn [step].
  - destruct (nth_error (cf_threads c) t) as [p|] eqn:HP; [|eauto].
    assert (LT : t < List.length (cf_threads c)) by (apply nth_error_Some; congruence).
    destruct (nth_error ms t) as [m|] eqn:HM.
    2: { apply nth_error_None in HM. rewrite (f_len _ _ _ F) in HM. lia. }
    pose proof (f_alone _ _ _ F t m p HM HP) as A.
    destruct p as [|n k|n l k|o k|l f k|l f k|e k|k|g k]; cbn [alone] in A; [eauto| | | | | | | |].
    + destruct (nth_error (cf_pools c n) x) as [l|] eqn:PX.
      * pose proof (nth_error_In _ _ PX) as IN. assert (ML : m l = None) by (eapply (f_pool_free _ _ _ F); eauto).
        assert (SL : s l = None) by (eapply (f_pool_fixed _ _ _ F); eauto).
        eexists. exists s, (set_nth ms t (put_mem m l (Some (fresh n)))). split; [reflexivity|].
        assert (SP : forall n' l', In l' (set_pool (cf_pools c) n (del_nth (cf_pools c n) x) n') -> In l' (cf_pools c n') /\ l' <> l).
        { intros n' l' I1. unfold set_pool in I1. destruct (Nat.eqb_spec n' n) as [->|D].
          - split; [eapply in_del_nth; eauto|]. intros ->. revert I1. apply del_nth_gone; [apply (f_pool_once _ _ _ F)|exact PX].
          - split; [exact I1|]. intros ->. apply (f_pools_apart _ _ _ F n' n l D I1 IN). }
        apply (fine_turn c s ms t m (Get n k)); try assumption; try apply F.
        -- now apply A.
        -- intros l' o E. unfold put_mem in E. destruct (Nat.eqb_spec l' l) as [->|D].
           ++ injection E as <-. eapply (f_pool_heap _ _ _ F); eauto.
           ++ eapply (f_heap _ _ _ F); eauto.
        -- intro l'. destruct (put_or m l (Some (fresh n)) l') as [[-> _]|[_ ->]]; [auto|]. eapply (f_fixed_apart _ _ _ F); eauto.
        -- intros t' m0 l' o _ E1 E2. eapply (f_heap _ _ _ F); eauto.
        -- intros t' m0 l' D E. unfold put_mem. destruct (Nat.eqb_spec l' l) as [->|D'].
           ++ left. eapply (f_pool_free _ _ _ F); eauto.
           ++ eapply (f_apart _ _ _ F t' t); eauto.
        -- intros n' l' I1. apply SP in I1. eapply (f_pool_heap _ _ _ F); apply I1.
        -- intros n' l' I1. apply SP in I1. destruct I1 as [I1 D]. rewrite put_diff by exact D.
           split; [eapply (f_pool_free _ _ _ F); eauto|eapply (f_pool_fixed _ _ _ F); eauto].
        -- intros n' l' t' m0 _ I1 E. apply SP in I1. destruct I1 as [I1 _]. eapply (f_pool_free _ _ _ F); eauto.
        -- intro n'. unfold set_pool. destruct (Nat.eqb n' n); [apply nodup_del_nth|]; apply (f_pool_once _ _ _ F).
        -- intros n1 n2 l' D I1 I2. apply SP in I1. apply SP in I2. eapply (f_pools_apart _ _ _ F); [exact D|apply I1|apply I2].
      * destruct (fine_new c s ms t m (Get n k) (fresh n) k F HM HP A) as [ms' F']. eexists. exists s, ms'. split; [reflexivity|exact F'].
    + destruct A as [ML A]. eexists. exists s, (set_nth ms t (put_mem m l None)). split; [reflexivity|].
      assert (SL : s l = None) by (destruct (f_fixed_apart _ _ _ F t m HM l); [congruence|assumption]).
      assert (LF : forall n', ~ In l (cf_pools c n')).
      { intros n' I1. rewrite (f_pool_free _ _ _ F n' l t m I1 HM) in ML. discriminate ML. }
      assert (SP : forall n' l', In l' (set_pool (cf_pools c) n (l :: cf_pools c n) n') -> (n' = n /\ l' = l) \/ In l' (cf_pools c n')).
      { intros n' l' I1. unfold set_pool in I1. destruct (Nat.eqb_spec n' n) as [->|D]; [|auto]. destruct I1 as [->|I1]; auto. }
      apply (fine_turn c s ms t m (Put n l k)); try assumption; try apply F.
      * intros l' o E. unfold put_mem in E. destruct (Nat.eqb_spec l' l) as [->|D]; [discriminate E|]. eapply (f_heap _ _ _ F); eauto.
      * intro l'. destruct (put_or m l None l') as [[_ ->]|[_ ->]]; [auto|]. eapply (f_fixed_apart _ _ _ F); eauto.
      * intros t' m0 l' o _ E1 E2. eapply (f_heap _ _ _ F); eauto.
      * intros t' m0 l' D E. unfold put_mem. destruct (Nat.eqb_spec l' l) as [->|D']; [auto|]. eapply (f_apart _ _ _ F t' t); eauto.
      * intros n' l' I1. apply SP in I1. destruct I1 as [[-> ->]|I1]; [eapply (f_heap _ _ _ F); eauto|eapply (f_pool_heap _ _ _ F); eauto].
      * intros n' l' I1. apply SP in I1. split.
        -- unfold put_mem. destruct (Nat.eqb_spec l' l) as [->|D]; [reflexivity|].
           destruct I1 as [[_ E]|I1]; [congruence|]. eapply (f_pool_free _ _ _ F); eauto.
        -- destruct I1 as [[_ ->]|I1]; [exact SL|eapply (f_pool_fixed _ _ _ F); eauto].
      * intros n' l' t' m0 D I1 E. apply SP in I1. destruct I1 as [[-> ->]|I1]; [|eapply (f_pool_free _ _ _ F); eauto].
        destruct (f_apart _ _ _ F t' t m0 m l D E HM) as [|K]; [assumption|congruence].
      * intro n'. unfold set_pool. destruct (Nat.eqb_spec n' n) as [->|D]; [constructor; [apply LF|]|]; apply (f_pool_once _ _ _ F).
      * intros n1 n2 l' D I1 I2. apply SP in I1. apply SP in I2.
        destruct I1 as [[-> ->]|I1]; destruct I2 as [[-> E]|I2]; subst; try congruence.
        -- revert I2. apply LF.
        -- revert I1. apply LF.
        -- revert I2. eapply (f_pools_apart _ _ _ F); eauto.
    + destruct (fine_new c s ms t m (New o k) o k F HM HP A) as [ms' F']. eexists. exists s, ms'. split; [reflexivity|exact F'].
    + destruct A as (o & ML & A).
      assert (HL : nth_error (cf_heap c) l = Some o) by (destruct ML; [eapply (f_heap _ _ _ F)|eapply (f_fixed _ _ _ F)]; eauto).
      rewrite HL. eexists. exists s, (set_nth ms t m). split; [reflexivity|].
      apply (fine_same c s ms t m (Look l f k)); try assumption. apply F.
    + destruct A as (o & ML & A). pose proof (f_heap _ _ _ F t m l o HM ML) as HL. rewrite HL.
      destruct (f o) as [o'|].
      2: { eexists. exists s, (set_nth ms t m). split; [reflexivity|]. apply (fine_same c s ms t m (Change l f k)); try assumption. apply F. }
      eexists. exists s, (set_nth ms t (put_mem m l (Some o'))). split; [reflexivity|].
      assert (SL : s l = None) by (destruct (f_fixed_apart _ _ _ F t m HM l); [congruence|assumption]).
      assert (LL : l < List.length (cf_heap c)) by (apply nth_error_Some; congruence).
      assert (OTHER : forall l' o1, l' <> l -> nth_error (cf_heap c) l' = Some o1 -> nth_error (set_nth (cf_heap c) l o') l' = Some o1).
      { intros l' o1 D E. rewrite nth_set_nth. destruct (Nat.eqb_spec l' l); [congruence|exact E]. }
      assert (NOT : forall n', ~ In l (cf_pools c n')).
      { intros n' I1. rewrite (f_pool_free _ _ _ F n' l t m I1 HM) in ML. discriminate ML. }
      apply (fine_turn c s ms t m (Change l f k)); try assumption; try apply F.
      * intros l' o1 E. unfold put_mem in E. destruct (Nat.eqb_spec l' l) as [->|D].
        -- injection E as <-. rewrite nth_set_nth, Nat.eqb_refl. destruct (Nat.ltb_spec l (List.length (cf_heap c))); [reflexivity|lia].
        -- apply OTHER; [exact D|]. eapply (f_heap _ _ _ F); eauto.
      * intro l'. destruct (put_or m l (Some o') l') as [[-> _]|[_ ->]]; [auto|]. eapply (f_fixed_apart _ _ _ F); eauto.
      * intros l' o1 E. apply OTHER; [congruence|]. eapply (f_fixed _ _ _ F); eauto.
      * intros t' m0 l' o1 D E1 E2. apply OTHER; [|eapply (f_heap _ _ _ F); eauto]. intros ->.
        destruct (f_apart _ _ _ F t' t m0 m l D E1 HM); congruence.
      * intros t' m0 l' D E. destruct (f_apart _ _ _ F t' t m0 m l' D E HM) as [K|K]; [auto|].
        unfold put_mem. destruct (Nat.eqb_spec l' l) as [->|D']; [congruence|auto].
      * intros n' l' I1. apply OTHER; [intros ->; revert I1; apply NOT|]. eapply (f_pool_heap _ _ _ F); eauto.
      * intros n' l' I1. split; [|eapply (f_pool_fixed _ _ _ F); eauto].
        rewrite put_diff; [eapply (f_pool_free _ _ _ F); eauto|]. intros ->. revert I1. apply NOT.
      * intros n' l' t' m0 _ I1 E. eapply (f_pool_free _ _ _ F); eauto.
    + destruct A as [G A]. eexists. exists s, (set_nth ms t m). split; [reflexivity|].
      apply (fine_same c s ms t m (Emit e k)); try assumption.
      apply Forall_app. split; [apply (f_log _ _ _ F)|]. constructor; [exact G|constructor].
    + eexists. exists s, (set_nth ms t m). split; [reflexivity|].
      apply (fine_same c s ms t m (Ask k)); try assumption; [apply A|apply F].
    + destruct A as (m1 & m2 & s' & SPL & A1 & A2).
      assert (S0 : forall l, m l = None -> m1 l = None /\ m2 l = None /\ s' l = None).
      { intros l E. destruct (SPL l) as [K1 K2]. unfold at_most_one, join_mem in *. destruct (m1 l), (m2 l), (s' l); try easy; congruence. }
      assert (S1 : forall l o, m1 l = Some o -> m l = Some o /\ m2 l = None /\ s' l = None).
      { intros l o E. destruct (SPL l) as [K1 K2]. unfold at_most_one, join_mem in *. rewrite E in *. destruct (m2 l), (s' l); easy. }
      assert (S2 : forall l o, m2 l = Some o -> m l = Some o /\ s' l = None).
      { intros l o E. destruct (SPL l) as [K1 K2]. unfold at_most_one, join_mem in *. rewrite E in *. destruct (m1 l), (s' l); easy. }
      assert (S3 : forall l o, s' l = Some o -> m l = Some o /\ m1 l = None /\ m2 l = None).
      { intros l o E. destruct (SPL l) as [K1 K2]. unfold at_most_one, join_mem in *. rewrite E in *. destruct (m1 l), (m2 l); easy. }
      eexists. exists (join_mem s s'), (set_nth ms t m2 ++ [m1]). split; [reflexivity|].
      assert (LM : t < List.length ms) by (apply nth_error_Some; congruence).
      assert (F1 : fine (Config (cf_heap c) (cf_pools c) (set_nth (cf_threads c) t k) (cf_log c)) (join_mem s s') (set_nth ms t m2)).
      {
        assert (F0 : fine (Config (cf_heap c) (cf_pools c) (set_nth (cf_threads c) t Stop) (cf_log c)) s (set_nth ms t m)).
        { apply (fine_same c s ms t m (Go g k)); [assumption..|exact I|apply F]. }
        assert (HM0 : nth_error (set_nth ms t m) t = Some m).
        { rewrite nth_set_nth, Nat.eqb_refl. destruct (Nat.ltb_spec t (List.length ms)); [reflexivity|lia]. }
        assert (F2 : fine (Config (cf_heap c) (cf_pools c) (set_nth (cf_threads c) t Stop) (cf_log c)) (join_mem s s') (set_nth (set_nth ms t m) t m2)).
        { apply (fine_freeze _ s _ t m m2 s' F0 HM0).
          - cbn [cf_threads]. intros p E. apply nth_set in E; [|exact LT]. destruct E as [[_ ->]|[D _]]; [exact I|congruence].
          - intros l o E. now apply S2.
          - intros l o E. now apply S3 in E.
          - intro l. destruct (s' l) as [o|] eqn:E; [|auto]. left. now apply S3 in E. }
        assert (HM2 : nth_error (set_nth (set_nth ms t m) t m2) t = Some m2).
        { rewrite nth_set_nth, Nat.eqb_refl, set_nth_length. destruct (Nat.ltb_spec t (List.length ms)); [reflexivity|lia]. }
        assert (TW : forall (A : Type) (l : list A) i x y, set_nth (set_nth l i x) i y = set_nth l i y).
        { clear. intros A l. induction l as [|z l IH]; intros [|i] x y; cbn; auto. now rewrite IH. }
        pose proof (fine_same _ _ _ t m2 Stop k (cf_log c) F2 HM2) as F3. cbn [cf_heap cf_pools cf_threads cf_log] in F3.
        rewrite !TW in F3. apply F3; [|exact A2|apply F].
        rewrite nth_set_nth, Nat.eqb_refl. destruct (Nat.ltb_spec t (List.length (cf_threads c))); [reflexivity|lia]. }
      apply (fine_join _ _ _ m1 g F1 A1); cbn [cf_heap cf_pools].
      * intros l o E. apply S1 in E. eapply (f_heap _ _ _ F); eauto. apply E.
      * intro l. destruct (m1 l) as [o|] eqn:E; [|auto]. right. apply S1 in E. unfold join_mem.
        destruct (f_fixed_apart _ _ _ F t m HM l) as [K|K]; [destruct E; congruence|]. rewrite K. apply E.
      * intros t' m' l E. apply nth_set in E; [|exact LM].
        destruct (m1 l) as [o|] eqn:E1; [|auto]. left. apply S1 in E1. destruct E as [[-> ->]|[D E]]; [apply E1|].
        destruct (f_apart _ _ _ F t' t m' m l D E HM) as [K|K]; [auto|]. destruct E1. congruence.
      * intros n l I1. apply S0. eapply (f_pool_free _ _ _ F); eauto.
  - eexists. exists s, (ms ++ [no_mem]). split; [reflexivity|]. apply fine_join; try assumption; try discriminate; try (intro; auto; fail).
    + apply (alone_more p no_mem); [easy|intro; auto|exact B].
  - eexists. exists s, ms. split; [reflexivity|].
    assert (SP : forall n' l', In l' (set_pool (cf_pools c) n (del_nth (cf_pools c n) j) n') -> In l' (cf_pools c n')).
    { intros n' l' I1. unfold set_pool in I1. destruct (Nat.eqb_spec n' n) as [->|D]; [eapply in_del_nth; eauto|exact I1]. }
    split; cbn [cf_heap cf_pools cf_threads cf_log]; try apply F.
    + intros n' l' I1. eapply (f_pool_heap _ _ _ F); eauto.
    + intros n' l' t m I1 E. eapply (f_pool_free _ _ _ F); eauto.
    + intros n' l' I1. eapply (f_pool_fixed _ _ _ F); eauto.
    + intro n'. unfold set_pool. destruct (Nat.eqb n' n); [apply nodup_del_nth|]; apply (f_pool_once _ _ _ F).
    + intros n1 n2 l' D I1 I2. eapply (f_pools_apart _ _ _ F); eauto.
Qed.

Lemma fine_steps ls : forall c s ms, fine c s ms -> Forall begins_alone ls ->
  exists c' s' ms', steps fresh ls c = Some c' /\ fine c' s' ms'.
Proof.
  induction ls as [|a ls IH]; intros c s ms F B; [exists c, s, ms; auto|]. inversion B; subst.
  destruct (fine_step c s ms a F H1) as (c1 & s1 & ms1 & E & F1). cbn [steps]. rewrite E. eauto.
Qed.

Lemma fine_race_free c s ms : fine c s ms -> race_free c.
Proof.
  intros F t p l HP W.
  assert (OWN : forall t p, nth_error (cf_threads c) t = Some p -> wants p l ->
    exists m o, nth_error ms t = Some m /\ (m l = Some o \/ (s l = Some o /\ looks_at p l))).
  { clear - F. intros t p HP W. assert (LT : t < List.length (cf_threads c)) by (apply nth_error_Some; congruence).
    destruct (nth_error ms t) as [m|] eqn:HM.
    2: { apply nth_error_None in HM. rewrite (f_len _ _ _ F) in HM. lia. }
    pose proof (f_alone _ _ _ F t m p HM HP) as A. destruct p as [|n k|n l0 k|o k|l0 f k|l0 f k|e k|k|g k]; cbn in W; try easy; subst l0; cbn [alone] in A.
    - destruct A as [A _]. eauto.
    - destruct A as (o & [A|A] & _); [eauto|]. exists m, o. cbn. auto.
    - destruct A as (o & A & _). eauto. }
  destruct (OWN t p HP W) as (m & o & HM & ML). split.
  - intros n I1. destruct ML as [ML|[ML _]].
    + rewrite (f_pool_free _ _ _ F n l t m I1 HM) in ML. discriminate ML.
    + rewrite (f_pool_fixed _ _ _ F n l I1) in ML. discriminate ML.
  - intros t' p' HP' W' D. destruct (OWN t' p' HP' W') as (m' & o' & HM' & ML').
    destruct ML as [ML|[ML L1]]; destruct ML' as [ML'|[ML' L2]]; [| | |auto].
    + destruct (f_apart _ _ _ F t' t m' m l D HM' HM); congruence.
    + destruct (f_fixed_apart _ _ _ F t m HM l); congruence.
    + destruct (f_fixed_apart _ _ _ F t' m' HM' l); congruence.
Qed.

(** Whatever the threads do alone they do together, in all schedules. *)
Lemma together (ls : list (label Obj Val Ev)) : (forall p, In (Begin p) ls -> alone fresh good no_mem no_mem p) ->
  exists c, steps fresh ls start = Some c /\ Forall good (cf_log c) /\ race_free c.
Proof.
  intro H. destruct (fine_steps ls start no_mem [] fine_start) as (c & s & ms & E & F).
  - apply Forall_forall. intros [t x|p|n j] I1; cbn; auto.
  - exists c. split; [exact E|]. split; [apply (f_log _ _ _ F)|]. eapply fine_race_free; eauto.
Qed.

End P.
