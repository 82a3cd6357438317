(** * Requests served at the same time: each thread alone *)
From Coq Require Import List NArith ZArith Ascii String Bool Lia Arith.
From Verif Require Import GoBase Glob_Model Pattern_Model Url_Model Match_Model Router_Model Pool_Model Pool_Spec Pool_Proofs
  RoutePool_Model RoutePool_Spec.
Import ListNotations.
Local Open Scope string_scope.
Local Open Scope list_scope.
Local Open Scope nat_scope.

Lemma upd_some {A : Type} (b : list A) i u : i < List.length b ->
  exists b', update b i u = Some b' /\ List.length b' = List.length b /\
    nth_error b' i = Some u /\ (forall j, j <> i -> nth_error b' j = nth_error b j) /\ b' = firstn i b ++ u :: skipn (S i) b.
Proof.
  revert i. induction b as [|x b IH]; intros i L; cbn in L; [lia|]. destruct i as [|i].
  - exists (u :: b). cbn. repeat split; auto. intros [|j] D; [lia|reflexivity].
  - destruct (IH i) as (b' & E & L' & N1 & N2 & E'); [lia|]. exists (x :: b'). cbn [update]. rewrite E. cbn. repeat split; auto.
    + intros [|j] D; cbn; [reflexivity|]. apply N2. lia.
    + now rewrite E'.
Qed.
Lemma upd_length {A : Type} (b b' : list A) i u : update b i u = Some b' -> List.length b' = List.length b /\ i < List.length b.
Proof.
  revert i b'. induction b as [|x b IH]; intros [|i] b' E; cbn in E; try discriminate.
  - injection E as <-. cbn. split; [reflexivity|lia].
  - destruct (update b i u) as [r|] eqn:E1; [|discriminate]. injection E as <-. destruct (IH _ _ E1). cbn. lia.
Qed.

Section P.
Variables (fuel : nat) (re : engine) (r : router).
Notation mem := (mem (list useg)).

Definition good (e : event) : Prop :=
  match e with
  | Over _ => True
  | Saw q h c name v => exists rec segs,
      dispatch_request fuel re r (q_method q) (q_path q) (new_buffer 0) = Calls h rec segs /\ v = path_var rec (q_path q) segs name
  end.
Notation alone := (alone new_buffer good).

(** Sequential code as part of a thread. *)
Lemma on_alone {A : Type} (p : proc A) : forall l k s m b,
  m l = Some b ->
  (forall m', m' l = Some (snd (run p b)) -> (forall l', l' <> l -> m' l' = m l') -> alone s m' (k (fst (run p b)))) ->
  alone s m (on l p k).
Proof.
  induction p as [a| |i c IH|i u c IH]; intros l k s m b M H; cbn [on run fst snd Pool_Spec.alone] in *.
  - apply H; auto.
  - apply H; auto.
  - exists b. split; [auto|]. destruct (nth_error b i) as [u|]; [eapply IH; eauto|]. apply H; auto.
  - exists b. split; [exact M|]. destruct (update b i u) as [b'|].
    + eapply IH; [apply put_same|]. intros m' M1 M2. apply H; [exact M1|]. intros l' D. rewrite M2 by exact D. now apply put_diff.
    + apply H; auto.
Qed.

(** [PathVar]. *)
Lemma var_loop_alone l path s m b k : (m l = Some b \/ s l = Some b) -> forall n i idx, i + n <= List.length b ->
  alone s m (k (match nth_capture idx (firstn n (skipn i b)) with None => Some [] | Some u => useg_text path u end)) ->
  alone s m (var_loop l path n i idx k).
Proof.
  intros M n. induction n as [|n IH]; intros i idx L H; cbn [var_loop]; [exact H|]. cbn [Pool_Spec.alone].
  exists b. split; [exact M|]. destruct (nth_error b i) as [u|] eqn:E.
  2: { apply nth_error_None in E. lia. }
  assert (SK : skipn i b = u :: skipn (S i) b).
  { clear - E. revert i E. induction b as [|x b IH]; intros [|i] E; cbn in *; try discriminate; [congruence|]. apply IH. exact E. }
  rewrite SK in H. cbn [firstn nth_capture] in H. destruct (is_capture (u_mt u)); [destruct idx as [|j]|]; [exact H| |]; apply IH; try assumption; lia.
Qed.

(** A matching context that can be read. *)
Definition readable (s m : mem) (rec : option pattern) (path : bytes) (segs : list useg) (pc : pctx) : Prop :=
  pc_pattern pc = rec /\ pc_path pc = path /\ pc_len pc = List.length segs /\
  exists b, (m (pc_loc pc) = Some b \/ s (pc_loc pc) = Some b) /\ firstn (List.length segs) b = segs.

Lemma firstn_fits {A : Type} (b segs : list A) : firstn (List.length segs) b = segs -> List.length segs <= List.length b.
Proof. intro E. apply (f_equal (@List.length A)) in E. rewrite firstn_length in E. lia. Qed.

Lemma var_alone s m rec path segs pc name k : readable s m rec path segs pc ->
  alone s m (k (path_var rec path segs name)) -> alone s m (var_thread pc name k).
Proof.
  intros (E1 & E2 & E3 & b & M & E4) H. unfold var_thread, path_var in *. rewrite E1. destruct rec as [p|]; [|exact H].
  destruct (p_caps p =? 0)%N; [exact H|]. destruct (find_capture name (p_segs p) 0) as [idx|]; [|exact H].
  apply (var_loop_alone _ _ _ _ b); [exact M|rewrite E3; apply firstn_fits in E4; lia|].
  rewrite E2, E3. cbn [skipn]. rewrite E4. destruct (nth_capture idx segs); exact H.
Qed.

(** [Clone]. *)
Lemma clone_loop_alone l l' s k b n0 : n0 <= List.length b -> l <> l' -> forall n m i b', i + n = n0 ->
  (m l = Some b \/ s l = Some b) -> m l' = Some b' -> List.length b' = n0 -> firstn i b' = firstn i b ->
  (forall m', m' l' = Some (firstn n0 b) -> (forall x, x <> l' -> m' x = m x) -> alone s m' (k true)) ->
  alone s m (clone_loop l l' n i k).
Proof.
  intros LB D n. induction n as [|n IH]; intros m i b' SI M M' LB' F H; cbn [clone_loop].
  - apply H; auto. rewrite M'. f_equal. replace n0 with i by lia. rewrite <- F. replace i with (List.length b') by lia.
    symmetry. apply firstn_all.
  - cbn [Pool_Spec.alone]. exists b. split; [exact M|]. destruct (nth_error b i) as [u|] eqn:E.
    2: { apply nth_error_None in E. lia. }
    cbn [Pool_Spec.alone]. exists b'. split; [exact M'|].
    destruct (upd_some b' i u) as (b1 & U & L1 & _ & _ & U2); [lia|]. rewrite U. apply (IH _ _ b1).
    + lia.
    + rewrite put_diff by exact D. exact M.
    + apply put_same.
    + lia.
    + rewrite U2. rewrite firstn_app, firstn_length, Nat.min_l by lia. replace (S i - i) with 1 by lia.
      rewrite firstn_firstn, Nat.min_r by lia. rewrite F. change (firstn 1 (u :: skipn (S i) b')) with [u].
      clear - E. revert i E. induction b as [|x b IH]; intros [|i] E; cbn in *; try discriminate; [congruence|].
      f_equal. now apply IH.
    + intros m' M1 M2. apply H; [exact M1|]. intros x Dx. rewrite M2 by exact Dx. now apply put_diff.
Qed.

Lemma clone_alone s m rec path segs pc k : readable s m rec path segs pc ->
  (forall l' m', m l' = None -> s l' = None -> m' l' = Some segs -> (forall x, x <> l' -> m' x = m x) ->
     alone s m' (k (Some (PCtx l' (List.length segs) rec path)))) ->
  alone s m (clone_thread pc k).
Proof.
  intros (E1 & E2 & E3 & b & M & E4) H. unfold clone_thread. cbn [Pool_Spec.alone]. intros l' N1 N2.
  assert (D : pc_loc pc <> l') by (intros <-; destruct M; congruence).
  pose proof (firstn_fits _ _ E4) as L.
  apply (clone_loop_alone _ _ _ _ b (List.length segs) L D (pc_len pc) _ 0 (repeat useg_zero (pc_len pc))).
  - exact E3.
  - rewrite put_diff by exact D. exact M.
  - apply put_same.
  - rewrite repeat_length. exact E3.
  - reflexivity.
  - intros m' M1 M2. rewrite E4 in M1. rewrite E1, E2, E3. apply H; auto. intros x Dx. rewrite M2 by exact Dx. now apply put_diff.
Qed.

(** The deferred function. *)
Lemma reset_alone l s k : forall n m i b, i + n = 19 -> m l = Some b -> List.length b = 19 -> firstn i b = repeat useg_zero i ->
  (forall m', m' l = Some (new_buffer 0) -> alone s m' k) -> alone s m (reset_loop l n i k).
Proof.
  intro n. induction n as [|n IH]; intros m i b SI M L F H; cbn [reset_loop].
  - apply H. rewrite M. f_equal. rewrite <- (firstn_all b), L. replace i with 19 in F by lia. exact F.
  - cbn [Pool_Spec.alone]. exists b. split; [exact M|]. destruct (upd_some b i useg_zero) as (b1 & U & L1 & _ & _ & U2); [lia|].
    rewrite U. apply (IH _ _ b1); [lia|apply put_same|lia| |exact H].
    rewrite U2, firstn_app, firstn_length, Nat.min_l by lia. replace (S i - i) with 1 by lia.
    rewrite firstn_firstn, Nat.min_r by lia. rewrite F. change (firstn 1 (useg_zero :: skipn (S i) b)) with [useg_zero].
    rewrite <- (repeat_cons i). reflexivity.
Qed.
Lemma finish_alone q l s m b : m l = Some b -> List.length b = 19 -> alone s m (finish q l).
Proof.
  intros M L. unfold finish. apply (reset_alone l s _ _ m 0 b); auto. intros m' M'. cbn [Pool_Spec.alone]. split; [exact M'|]. split; exact I.
Qed.

(** The handler and its goroutines. *)
Definition fin_ok (own : bool) (l : nat) (fin : thread) : Prop :=
  forall s m, (own = true -> exists b, m l = Some b /\ List.length b = 19) -> alone s m fin.
Definition inv (own : bool) (l : nat) (s m : mem) rec path segs (tab : list pctx) : Prop :=
  (own = true -> exists b, m l = Some b /\ List.length b = 19) /\
  (forall x, m x = None \/ s x = None) /\
  forall c pc, nth_error tab c = Some pc -> (c = 0 -> own = true) ->
    readable s m rec path segs pc /\ (own = true -> c <> 0 -> pc_loc pc <> l).

Lemma hthread_alone q h l rec segs :
  dispatch_request fuel re r (q_method q) (q_path q) (new_buffer 0) = Calls h rec segs ->
  forall p own s m tab fin, careful own p -> fin_ok own l fin -> inv own l s m rec (q_path q) segs tab ->
  alone s m (hthread q h fin tab p).
Proof.
  intros DR p. induction p as [|c name k IH|c k IH|k IH|g IHg k IHk]; intros own s m tab fin C FIN I; cbn [hthread careful] in *.
  - apply FIN, I.
  - destruct C as [C1 C2]. destruct (nth_error tab c) as [pc|] eqn:E; [|apply FIN, I].
    destruct (proj2 (proj2 I) c pc E C1) as [R _]. apply (var_alone _ _ rec (q_path q) segs); [exact R|].
    cbn [Pool_Spec.alone]. split; [exists rec, segs; auto|].
    destruct (path_var rec (q_path q) segs name) as [b|]; [|apply FIN, I]. apply (IH b own); auto.
  - destruct C as [C1 C2]. destruct (nth_error tab c) as [pc|] eqn:E; [|apply FIN, I].
    destruct (proj2 (proj2 I) c pc E C1) as [R _]. apply (clone_alone _ _ rec (q_path q) segs); [exact R|].
    intros l' m' N1 N2 M1 M2. apply (IH own); auto. destruct I as (I1 & I2 & I3). split; [|split].
    + intro O. destruct (I1 O) as (b & B1 & B2). exists b. split; [|exact B2]. rewrite M2; [exact B1|congruence].
    + intro x. destruct (Nat.eq_dec x l') as [->|D]; [auto|]. rewrite M2 by exact D. apply I2.
    + intros c1 pc1 E1 C1'.
      destruct (Nat.lt_ge_cases c1 (List.length tab)) as [L|L].
      * rewrite nth_error_app1 in E1 by exact L. destruct (I3 c1 pc1 E1 C1') as [(R1 & R2 & R3 & b & R4 & R5) R6]. split; [|exact R6].
        repeat split; auto. exists b. split; [|exact R5]. destruct R4 as [R4|R4]; [left|right; exact R4]. rewrite M2; [exact R4|congruence].
      * rewrite nth_error_app2 in E1 by exact L. destruct (c1 - List.length tab) as [|j] eqn:Ej; [|destruct j; discriminate E1].
        cbn in E1. injection E1 as <-. cbn. split.
        -- repeat split; cbn; auto. exists segs. split; [auto|apply firstn_all].
        -- intros O _ ->. destruct (I1 O) as (b & B1 & _). congruence.
  - cbn [Pool_Spec.alone]. intro x. apply (IH x own); auto.
  - destruct C as [C1 C2]. destruct I as (I1 & I2 & I3). cbn [Pool_Spec.alone].
    exists no_mem, (fun x => if own && Nat.eqb x l then m x else None), (fun x => if own && Nat.eqb x l then None else m x).
    split; [|split].
    + intro x. unfold at_most_one, join_mem, no_mem. destruct (own && Nat.eqb x l); destruct (m x); auto.
    + apply (IHg false); [exact C1| |].
      * intros s' m' _. exact I.
      * split; [discriminate|]. split; [intro; auto|]. intros c pc E O. split; [|discriminate].
        destruct c as [|c]; [discriminate (O eq_refl)|]. destruct (I3 (S c) pc E) as [(R1 & R2 & R3 & b & R4 & R5) R6]; [discriminate|].
        repeat split; auto. exists b. split; [|exact R5]. right. unfold join_mem. destruct (I2 (pc_loc pc)) as [K|K].
        -- destruct R4 as [R4|R4]; [congruence|]. now rewrite R4.
        -- rewrite K. destruct R4 as [R4|R4]; [|congruence]. destruct own; [|exact R4]. cbn. destruct (Nat.eqb_spec (pc_loc pc) l) as [e|e]; [|exact R4].
           exfalso. now apply R6 in e.
    + apply (IHk own); [exact C2|exact FIN|]. split; [|split].
      * intro O. destruct (I1 O) as (b & B1 & B2). exists b. rewrite O, Nat.eqb_refl. cbn. auto.
      * intro x. unfold join_mem. destruct (own && Nat.eqb x l); [|auto]. destruct (I2 x) as [K|K]; [auto|]. rewrite K. auto.
      * intros c pc E O. destruct (I3 c pc E O) as [(R1 & R2 & R3 & b & R4 & R5) R6]. split; [|exact R6].
        repeat split; auto. exists b. split; [|exact R5]. unfold join_mem. destruct (I2 (pc_loc pc)) as [K|K].
        -- destruct R4 as [R4|R4]; [congruence|]. rewrite R4. auto.
        -- rewrite K. destruct R4 as [R4|R4]; [|congruence]. destruct (own && Nat.eqb (pc_loc pc) l); auto.
Qed.

Variables (route : request -> proc dispatch) (code : request -> nat -> hproc).

Lemma serve_alone q : routes_as fuel re r route -> (forall q h, careful true (code q h)) ->
  alone no_mem no_mem (serve_thread route code q).
Proof.
  intros RA CA. unfold serve_thread. cbn [Pool_Spec.alone]. intros l _ _. destruct (RA q) as (o & b & RU & LB & DO & PF).
  apply (on_alone _ _ _ _ _ (new_buffer 0)); [apply put_same|]. rewrite RU. cbn [fst snd]. intros m' M1 M2.
  assert (FI : forall s m, m l = Some b -> alone s m (finish q l)) by (intros; eapply finish_alone; eauto).
  destruct o as [[|h rec segs| |]|]; [apply FI; exact M1| | apply FI; exact M1|exact I|apply FI; exact M1].
  assert (DR : dispatch_request fuel re r (q_method q) (q_path q) (new_buffer 0) = Calls h rec segs).
  { destruct (dispatch_request fuel re r (q_method q) (q_path q) (new_buffer 0)); try congruence. contradiction. }
  apply (hthread_alone q h l rec segs DR _ true).
  - apply CA.
  - intros s m H. destruct (H eq_refl) as (b' & B1 & B2). eapply finish_alone; eauto.
  - split; [intros _; eauto|]. split; [intro; auto|]. intros c pc E _. destruct c as [|c]; [|destruct c; discriminate E].
    cbn in E. injection E as <-. split; [|congruence]. repeat split; auto. exists b. cbn. split; [auto|]. now apply (PF h rec segs).
Qed.

End P.

(** ** All together *)

Lemma served_together fuel re r route code ls :
  routes_as fuel re r route -> (forall q h, careful true (code q h)) -> requests_only route code ls ->
  exists c, steps new_buffer ls start = Some c /\ race_free c /\
    forall q h k name v, In (Saw q h k name v) (cf_log c) ->
      exists rec segs, dispatch_request fuel re r (q_method q) (q_path q) (repeat useg_zero 19) = Calls h rec segs /\
        v = path_var rec (q_path q) segs name.
Proof.
  intros RA CA RO. destruct (together _ _ _ new_buffer (good fuel re r) ls) as (c & E & F & R).
  - intros p IN. destruct (RO p IN) as [q ->]. now apply serve_alone.
  - exists c. split; [exact E|]. split; [exact R|]. intros q h k name v IN. rewrite Forall_forall in F. exact (F _ IN).
Qed.
