(** * The search misses nothing and takes the most specific route. *)
From Coq Require Import List NArith ZArith Ascii String Bool Lia Arith Permutation Sorted.
From Verif Require Import GoBase Glob_Model Glob_Spec Glob_Proofs Pattern_Model Pattern_Spec Pattern_Proofs
  Priority_Spec Priority_Proofs Url_Model Url_Spec Url_Proofs Match_Model Search_Proofs Trie_Proofs Grow_Proofs
  Router_Model Routing_Spec Covers_Proofs Routes_Proofs Dispatch_Proofs Routing_Proofs.
Import ListNotations.
Local Open Scope string_scope.
Local Open Scope list_scope.
Local Open Scope nat_scope.

(** ** A route that reads a request covers it *)

Lemma reads_as_single : forall ic rm k ks ts bs, reads_as ic rm (k :: ks) ts bs -> k <> Any ->
  exists t ts' bs', ts = t :: ts' /\ fits ic rm k t /\ reads_as ic rm ks ts' bs'.
Proof.
  intros ic rm k ks ts bs H Hk. inversion H; subst; try congruence; cbn [fits];
    do 3 eexists; (split; [reflexivity|]); split; eauto.
Qed.

Lemma reads_covers : forall re ci path l segs, Forall2 (shares ci) l segs -> forall ps ks us ts bs,
  Forall (shown ci) l -> shows_all ci segs ps ks -> Forall2 reads ps ks -> Forall (plain_piece ci) ks ->
  Forall2 (rec1 path) us ts ->
  (forall s u, In s l -> In u us -> seg_match re ci path s u <> SPanic) ->
  reads_as ci (re_match re) ks ts bs -> exists ms, covers re ci path l us ms.
Proof.
  intros re ci path l segs H. induction H as [|s b l segs Hsb H IH]; intros ps ks us ts bs Hsh Hall Hrd Hpl Hrec Hq Hr.
  - inversion Hall; subst. inversion Hr; subst. inversion Hrec; subst. exists []. apply cov_nil.
  - inversion Hall as [|? s' k ? ps' ks' Hk Hall']; subst. inversion Hsh; subst. inversion Hrd; subst. inversion Hpl; subst.
    assert (Dk : k = Any \/ k <> Any) by (destruct k; [right; discriminate..|left; reflexivity]).
    destruct Dk as [->|Dk].
    + assert (Hm : s_mt s = MTMulti).
      { destruct Hsb as [->|Hsb]; [apply (shows_mt _ _ _ _ Hk)|]. apply has_same_mt in Hsb. rewrite Hsb. apply (shows_mt _ _ _ _ Hk). }
      inversion Hr as [| | | | | |t ts' E1 E2 E3|ks0 run ts' bs0 Hne Hr' E1 E2 E3]; subst.
      * inversion Hall'; subst. inversion H; subst. eexists. apply cov_multi_last; [assumption|].
        intros ->. inversion Hrec.
      * apply Forall2_app_inv_r in Hrec. destruct Hrec as [us1 [us2 [R1 [R2 ->]]]].
        destruct (IH ps' ks' us2 ts' bs) as [ms Hc]; auto.
        { intros s0 u0 A B. apply Hq; [right; assumption|apply in_or_app; right; assumption]. }
        eexists. apply cov_multi; [assumption| |eassumption]. intros ->. inversion H; subst. inversion Hall'; subst. congruence.
    + destruct (reads_as_single _ _ _ _ _ _ Hr Dk) as [t [ts' [bs' [-> [Hf Hr']]]]].
      inversion Hrec as [|u ? us' ? Hu Hrec']; subst.
      destruct (IH ps' ks' us' ts' bs') as [ms Hc]; auto.
      { intros s0 u0 A B. apply Hq; right; assumption. }
      destruct (shares_fits ci s b s' k) as [s0 [k0 [S1 [S2 S3]]]]; auto.
      assert (Hmt : mt_of k0 = mt_of k) by (destruct S3 as [->|S3]; [reflexivity|eapply alike_mt; eassumption]).
      assert (Dk0 : k0 <> Any).
      { intros ->. apply Dk. apply mt_of_any. rewrite <- Hmt. reflexivity. }
      pose proof (seg_match_fits re ci path s s0 k0 u t S1 S2 Hu Dk0) as F.
      assert (Hf0 : fits ci (re_match re) k0 t).
      { destruct S3 as [->|S3]; [assumption|]. eapply alike_fits; [apply alike_sym; eassumption|assumption]. }
      destruct (seg_match re ci path s u) as [m|] eqn:E; [|exfalso; eapply Hq; [left; reflexivity|left; reflexivity|eassumption]].
      destruct F as [[_ F]|[-> _]]; [contradiction|].
      exists (mt_of k0 :: ms). apply cov_one; auto.
      * destruct k0; discriminate.
      * intros A. apply mt_of_any in A. contradiction.
Qed.

(** ** The search *)

Lemma mtype_eq_dec : forall a b : mtype, {a = b} + {a <> b}.
Proof. decide equality. Defined.

Section Complete.
Variable re : engine.
Variable ci : bool.
Variable path : bytes.

Local Notation cov := (covers re ci path).

Definition max_ok (d : nat) (l : list segment) (q : pattern) : Prop :=
  is_greedy q = true \/ (~ In MTMulti (map s_mt l) /\ N.of_nat (d + List.length l) = p_max q /\ (p_max q <= 255)%N).

Definition good (d : nat) (l : list segment) (q : pattern) : Prop :=
  max_ok d l q /\ ~ In MTMulti (map s_mt (removelast l)).

(** The node behind a path. *)
Inductive reach : node -> list segment -> node -> Prop :=
| reach_here : forall n, reach n [] n
| reach_down : forall n c l p, In c (n_ch n) -> reach c l p -> reach n (n_seg c :: l) p.

Lemma reach_leaf : forall n l p, reach n l p -> forall x r q, In x (n_ch p) -> In (r, q) (branch x) ->
  In (l ++ r, q) (leaves n).
Proof.
  intros n l p H. induction H as [n|n c l p Hc H IH]; intros x r q Hx Hr.
  - apply in_leaves. eauto.
  - apply in_leaves. exists c. split; [assumption|]. apply in_branch. right. exists (l ++ r). split; [reflexivity|]. eauto.
Qed.

(** Some branch of the child serves the last segment. *)
Definition serves (u : useg) (y : node) : Prop := exists l q ms, In (l, q) (branch y) /\ cov l [u] ms.

(** Where the request ends at a child without a route, it is answered by a child
    before that one or by none. *)
Definition ends_well (u : useg) (ch : list node) : Prop :=
  forall x m, In x ch -> n_pat x = None -> seg_match re ci path (n_seg x) u = SMt m -> m <> MTUnknown -> m <> MTMulti ->
  (exists y, In y ch /\ serves u y) -> exists z, In z ch /\ serves u z /\ (n_prio z < n_prio x)%N.

Definition all_end_well (us : list useg) (n : node) : Prop :=
  forall l p us0 u ms, reach n l p -> us = us0 ++ [u] -> cov l us0 ms -> ends_well u (n_ch p).

Lemma ends_step : forall u us n c m, all_end_well (u :: us) n -> In c (n_ch n) ->
  seg_match re ci path (n_seg c) u = SMt m -> m <> MTUnknown -> m <> MTMulti -> all_end_well us c.
Proof.
  intros u us n c m H Hc H1 H2 H3 l p us0 v ms Hr -> Hv.
  apply (H (n_seg c :: l) p (u :: us0) v (m :: ms)); [constructor; assumption|reflexivity|]. apply cov_one; assumption.
Qed.

Lemma covers_nil : forall l ms, cov l [] ms -> l = [].
Proof.
  intros l ms H. remember [] as us. induction H as [| | |s l vs us ms Hs Hl H IH]; try congruence.
  apply app_eq_nil in Hequs. destruct Hequs as [-> ->]. exfalso. apply Hl. auto.
Qed.
Lemma covers_nil_l : forall us ms, cov [] us ms -> us = [].
Proof. intros us ms H. inversion H. reflexivity. Qed.

Lemma covers_len : forall l us ms, cov l us ms -> ~ In MTMulti (map s_mt l) -> List.length us = List.length l.
Proof.
  intros l us ms H. induction H as [|s l u us m ms H1 H2 H3 H IH|s us Hs Hne|s l vs us ms Hs Hl H IH]; intros Hn.
  - reflexivity.
  - cbn [List.length]. f_equal. apply IH. intros A. apply Hn. right. assumption.
  - exfalso. apply Hn. left. assumption.
  - exfalso. apply Hn. left. assumption.
Qed.

Lemma good_step : forall d u s l q m, good d (s :: l) q -> seg_match re ci path s u = SMt m ->
  m <> MTUnknown -> m <> MTMulti -> good (S d) l q.
Proof.
  intros d u s l q m [H1 H2] Hm Hm1 Hm2. split.
  - destruct H1 as [H1|[A [B C]]]; [left; assumption|]. right. split; [intros D; apply A; right; assumption|].
    split; [|assumption]. rewrite <- B. cbn [List.length]. f_equal. lia.
  - intros A. apply H2. destruct l; [destruct A|]. right. assumption.
Qed.

(** What is known about two children of a node, the first before the second. *)
Definition sibs (idx : nat) (c1 c2 : node) : Prop :=
  le_prio c1 c2 /\ differ ci c1 c2 /\ differ ci c2 c1 /\ made idx c1 /\ made idx c2 /\ lone c1 /\ lone c2.

Definition diverge (d : nat) (n : node) (l : list segment) (q : pattern) (l2 : list segment) (q2 : pattern) : Prop :=
  exists l0 c1 c2 r1 r2, l = l0 ++ r1 /\ l2 = l0 ++ r2 /\ sibs (d + List.length l0) c1 c2 /\
    In (r1, q) (branch c1) /\ In (r2, q2) (branch c2) /\
    (forall r p, In (r, p) (branch c1) -> In (l0 ++ r, p) (leaves n)) /\
    (forall r p, In (r, p) (branch c2) -> In (l0 ++ r, p) (leaves n)).

Definition LL (idx : nat) (l : list node) : Prop :=
  by_prio idx l /\ all_made idx l /\ all_differ ci idx l /\ all_lone idx l.

Definition says (d : nat) (n : node) (us : list useg) (o : outcome) : Prop :=
  match o with
  | Found p ms => exists l, In (l, p) (leaves n) /\ cov l us ms /\
      forall l2 q2 ms2, In (l2, q2) (leaves n) -> cov l2 us ms2 -> (l, p) = (l2, q2) \/ diverge d n l p l2 q2
  | Fail => forall l q ms, In (l, q) (leaves n) -> ~ cov l us ms
  | Abort => False
  | Panic => True
  end.

Lemma branch_head : forall c l p, In (l, p) (branch c) -> exists l', l = n_seg c :: l'.
Proof. intros c l p Hl. apply in_branch in Hl. destruct Hl as [[-> _]|[l' [-> _]]]; eauto. Qed.

(** A child that cannot serve the request. *)
Lemma child_out : forall d c u us', 
  (forall l q, In (l, q) (branch c) -> (max_at q d <= n_max c)%N) ->
  (forall l q, In (l, q) (branch c) -> good d l q) ->
  List.length (u :: us') <= 19 ->
  (can_match_len c (N.of_nat (S (List.length us'))) = false \/
   seg_match re ci path (n_seg c) u = SMt MTUnknown \/
   (exists m, seg_match re ci path (n_seg c) u = SMt m /\ m <> MTMulti /\ us' <> [] /\
      forall l q ms, In (l, q) (leaves c) -> ~ cov l us' ms)) ->
  forall l q ms, In (l, q) (branch c) -> ~ cov l (u :: us') ms.
Proof.
  intros d c u us' Hmax Hgood Hlen Hcase l q ms Hl Hc. destruct (branch_head _ _ _ Hl) as [l' ->].
  destruct Hcase as [H|[H|[m [H1 [H2 [H3 H4]]]]]].
  - unfold can_match_len in H. apply N.leb_gt in H. pose proof (Hmax _ _ Hl) as A.
    destruct (Hgood _ _ Hl) as [[G|[G1 [G2 G3]]] _]; unfold max_at in A.
    + rewrite G in A. unfold greedy_max in A. cbn [List.length] in *. lia.
    + pose proof (covers_len _ _ _ Hc G1) as E. cbn [List.length] in *.
      destruct (is_greedy q); [unfold greedy_max in A; lia|].
      unfold sub8, u8 in A. rewrite (N.mod_small (N.of_nat d)) in A by lia.
      rewrite (N.mod_small (N.of_nat d)) in A by lia.
      replace (p_max q + 256 - N.of_nat d)%N with (N.of_nat (S (List.length l')) + 1 * 256)%N in A by lia.
      rewrite N.mod_add in A by discriminate. rewrite N.mod_small in A by lia. lia.
  - inversion Hc as [|? ? ? ? m ms' A1 A2 A3 A4|? ? A1 A2|? ? vs us0 ms' A1 A2 A3]; subst; try congruence.
    + rewrite multi_matches in H by assumption. discriminate.
    + rewrite multi_matches in H by assumption. discriminate.
  - inversion Hc as [|? ? ? ? m' ms' A1 A2 A3 A4|? ? A1 A2|? ? vs us0 ms' A1 A2 A3]; subst.
    + apply in_branch in Hl. destruct Hl as [[E _]|[l2 [E Hl]]].
      * injection E as ->. apply covers_nil_l in A4. congruence.
      * injection E as ->. eapply H4; eassumption.
    + rewrite multi_matches in H1 by assumption. congruence.
    + rewrite multi_matches in H1 by assumption. congruence.
Qed.

Lemma ford_inv : forall (A : Type) (R : A -> A -> Prop) x l, ForallOrdPairs R (x :: l) ->
  Forall (R x) l /\ ForallOrdPairs R l.
Proof. intros A R x l H. inversion H; auto. Qed.
Lemma ssort_inv : forall x l, StronglySorted le_prio (x :: l) -> Forall (le_prio x) l /\ StronglySorted le_prio l.
Proof. intros x l H. inversion H; auto. Qed.

(** The same for a list of children. *)
Definition branches (ch : list node) : list (list segment * pattern) := flat_map branch ch.

Lemma in_branches : forall ch l p, In (l, p) (branches ch) <-> exists c, In c ch /\ In (l, p) (branch c).
Proof. intros. unfold branches. rewrite in_flat_map. reflexivity. Qed.

Definition diverges (d : nat) (ch : list node) (l : list segment) (q : pattern) (l2 : list segment) (q2 : pattern) : Prop :=
  exists l0 c1 c2 r1 r2, l = l0 ++ r1 /\ l2 = l0 ++ r2 /\ sibs (d + List.length l0) c1 c2 /\
    In (r1, q) (branch c1) /\ In (r2, q2) (branch c2) /\
    (forall r p, In (r, p) (branch c1) -> In (l0 ++ r, p) (branches ch)) /\
    (forall r p, In (r, p) (branch c2) -> In (l0 ++ r, p) (branches ch)).

Definition tells (d : nat) (ch : list node) (us : list useg) (o : outcome) : Prop :=
  match o with
  | Found p ms => exists l, In (l, p) (branches ch) /\ cov l us ms /\
      forall l2 q2 ms2, In (l2, q2) (branches ch) -> cov l2 us ms2 -> (l, p) = (l2, q2) \/ diverges d ch l p l2 q2
  | Fail => forall l q ms, In (l, q) (branches ch) -> ~ cov l us ms
  | Abort => False
  | Panic => True
  end.

Lemma tells_says : forall d n us o, tells d (n_ch n) us o <-> says d n us o.
Proof. intros d n us o. unfold tells, says, diverges, diverge, branches. rewrite <- leaves_eq. reflexivity. Qed.

Lemma tells_skip : forall d c ch us o, tells d ch us o ->
  (forall l q ms, In (l, q) (branch c) -> ~ cov l us ms) -> tells d (c :: ch) us o.
Proof.
  intros d c ch us o H Hn.
  assert (Hin : forall l q, In (l, q) (branches (c :: ch)) <-> In (l, q) (branch c) \/ In (l, q) (branches ch)).
  { intros l q. unfold branches. cbn [flat_map]. rewrite in_app_iff. reflexivity. }
  destruct o; cbn [tells] in *; auto.
  - destruct H as [l [H1 [H2 H3]]]. exists l. split; [apply Hin; auto|]. split; [assumption|].
    intros l2 q2 ms2 Hl2 Hc2. apply Hin in Hl2. destruct Hl2 as [A|A]; [exfalso; eapply Hn; eassumption|].
    destruct (H3 _ _ _ A Hc2) as [B|B]; [auto|right].
    destruct B as [l0 [c1 [c2 [r1 [r2 [B1 [B2 [B3 [B4 [B5 [B6 B7]]]]]]]]]]].
    exists l0, c1, c2, r1, r2. repeat (split; [assumption|]).
    split; intros r p0 Hr; apply Hin; right; auto.
  - intros l q ms Hl. apply Hin in Hl. destruct Hl as [A|A]; [eapply Hn; eassumption|eapply H; eassumption].
Qed.

Lemma dfs_says : forall n d us, deep LL n d -> maxes n d -> us <> [] -> List.length us <= 19 ->
  (forall l q, In (l, q) (leaves n) -> good d l q) -> all_end_well us n -> says d n us (dfs re ci path n d us).
Proof.
  induction n as [mx pr sg pt ch IH] using node_ind'. intros d us HL Hmx Hne Hlen Hg Hw.
  rewrite dfs_eq. destruct us as [|u us']; [congruence|]. cbn [n_ch].
  destruct (Nat.leb 19 d); [exact I|]. apply tells_says. cbn [n_ch].
  apply deep_eq in HL. apply maxes_eq in Hmx. cbn [n_ch] in *. destruct HL as [HL1 HL2].
  assert (Hg' : forall l q, In (l, q) (branches ch) -> good d l q).
  { intros l q Hl. apply Hg. rewrite leaves_eq. assumption. }
  assert (Hw1 : us' = [] -> ends_well u ch).
  { intros ->. apply (Hw [] (Node mx pr sg pt ch) [] u []); [constructor|reflexivity|constructor]. }
  assert (Hw2 : forall c m, In c ch -> seg_match re ci path (n_seg c) u = SMt m -> m <> MTUnknown -> m <> MTMulti ->
    all_end_well us' c).
  { intros c m Hc. apply (ends_step _ _ _ _ _ Hw). assumption. }
  clear Hg Hw. induction ch as [|c ch IHch].
  { cbn [kids tells]. intros l q ms []. }
  inversion IH as [|? ? IHc IHr]; subst. inversion HL2 as [|? ? HLc HLr]; subst. inversion Hmx as [|? ? [Mc Mc2] Mr]; subst.
  destruct HL1 as [S1 [S2 [S3 S4]]]. unfold by_prio, all_made, all_differ, all_lone in *.
  apply ssort_inv in S1. apply ford_inv in S3. destruct S1 as [S1 S1']. destruct S3 as [S3 S3'].
  inversion S2 as [|? ? S2c S2']; subst. inversion S4 as [|? ? S4c S4']; subst.
  assert (Hin : forall l q, In (l, q) (branches (c :: ch)) <-> In (l, q) (branch c) \/ In (l, q) (branches ch)).
  { intros l q. unfold branches. cbn [flat_map]. rewrite in_app_iff. reflexivity. }
  assert (Hgc : forall l q, In (l, q) (branch c) -> good d l q) by (intros; apply Hg', Hin; auto).
  assert (Hrest : (forall l q ms, In (l, q) (branch c) -> ~ cov l (u :: us') ms) ->
    tells d ch (u :: us') (kids re ci path (fun c vs => dfs re ci path c (S d) vs) u us' ch)).
  { intros Hno. apply IHch; auto.
    - repeat split; assumption.
    - intros l q Hl. apply Hg', Hin. auto.
    - intros -> x m Hx X1 X2 X3 X4 [y [Hy Sy]].
      destruct (Hw1 eq_refl x m) as [z [Z1 [Z2 Z3]]]; auto; [right; assumption|exists y; split; [right|]; assumption|].
      destruct Z1 as [->|Z1]; [|eauto]. destruct Z2 as [l [q [ms [A B]]]]. exfalso. eapply Hno; eassumption.
    - intros c' m Hc'. apply Hw2. right. assumption. }
  assert (Mx : forall l q, In (l, q) (branch c) -> (max_at q d <= n_max c)%N).
  { intros l q Hl. eapply Mc; eassumption. }
  (** the chosen route is behind [c], the other one behind a later child *)
  assert (Hlater : forall l p l2 q2, In (l, p) (branch c) -> In (l2, q2) (branches ch) -> diverges d (c :: ch) l p l2 q2).
  { intros l p l2 q2 Hl Hl2. apply in_branches in Hl2. destruct Hl2 as [c2 [Hc2 Hl2]].
    exists [], c, c2, l, l2. split; [reflexivity|]. split; [reflexivity|]. split.
    - rewrite Forall_forall in *. cbn [List.length]. rewrite Nat.add_0_r. unfold sibs.
      destruct (S3 _ Hc2). auto 10.
    - split; [assumption|]. split; [assumption|]. cbn [app]. split; intros r p0 Hr; apply Hin; [left; assumption|].
      right. apply in_branches. exists c2. auto. }
  cbn [kids]. fold (kids re ci path (fun c vs => dfs re ci path c (S d) vs) u us').
  destruct (can_match_len c (N.of_nat (S (List.length us')))) eqn:El; cbn [negb].
  2:{ assert (Hno : forall l q ms, In (l, q) (branch c) -> ~ cov l (u :: us') ms) by (eapply child_out; eauto).
      apply tells_skip; auto. }
  destruct (seg_match re ci path (n_seg c) u) as [m|] eqn:Em; [|exact I].
  destruct (mtype_eq_dec m MTUnknown) as [->|Hm1].
  { assert (Hno : forall l q ms, In (l, q) (branch c) -> ~ cov l (u :: us') ms) by (eapply child_out; eauto).
      apply tells_skip; auto. }
  destruct (mtype_eq_dec m MTMulti) as [->|Hm2].
  { pose proof (seg_match_multi re ci path (n_seg c) u Em) as Hmu.
    assert (Hnl : leaves c = []).
    { destruct (leaves c) as [|[l q] rest] eqn:Ec; [reflexivity|].
      assert (A : In (l, q) (leaves c)) by (rewrite Ec; left; reflexivity).
      assert (B : In (n_seg c :: l, q) (branch c)) by (apply in_branch; right; exists l; auto).
      destruct (Hgc _ _ B) as [_ G]. exfalso. apply G. apply leaf_path_not_nil in A.
      destruct l; [congruence|]. left. assumption. }
    assert (Hnc : n_ch c = []).
    { destruct (n_ch c) as [|g gs] eqn:Eg; [reflexivity|]. apply deep_eq in HLc. destruct HLc as [[_ [A _]] _].
      rewrite Eg in A. inversion A as [|? ? [l [q [B _]]] _]; subst.
      assert (C : In (l, q) (leaves c)) by (apply in_leaves; exists g; rewrite Eg; split; [left; reflexivity|assumption]).
      rewrite Hnl in C. destruct C. }
    assert (Hb : forall l q, In (l, q) (branch c) <-> l = [n_seg c] /\ n_pat c = Some q).
    { intros l q. rewrite in_branch, Hnl. split; [intros [A|[l' [_ []]]]; assumption|auto]. }
    destruct S2c as [l [q [B _]]]. pose proof (proj1 (Hb _ _) B) as [-> B2]. rewrite Hnc, B2. cbn [tells].
    exists [n_seg c]. split; [apply Hin; auto|]. split; [apply cov_multi_last; [assumption|discriminate]|].
    intros l2 q2 ms2 Hl2 Hc2. apply Hin in Hl2. destruct Hl2 as [A|A]; [|right; apply Hlater; assumption].
    apply Hb in A. destruct A as [-> A]. left. congruence. }
  assert (Hsc : match us' with
      | [] => match n_pat c with Some p => Found p [m] | None => Fail end
      | _ => match dfs re ci path c (S d) us' with
             | Fail => kids re ci path (fun c vs => dfs re ci path c (S d) vs) u us' ch
             | r => cons_mt m r
             end
      end = match m with
          | MTUnknown => kids re ci path (fun c vs => dfs re ci path c (S d) vs) u us' ch
          | MTMulti =>
              match n_ch c, n_pat c with
              | [], Some p => Found p (map (fun _ => MTMulti) (u :: us'))
              | gch, _ => sfx re ci path (fun vs => dfs re ci path c (S d) vs) gch (u :: us')
              end
          | m => match us' with
              | [] => match n_pat c with Some p => Found p [m] | None => Fail end
              | _ => match dfs re ci path c (S d) us' with
                     | Fail => kids re ci path (fun c vs => dfs re ci path c (S d) vs) u us' ch
                     | r => cons_mt m r
                     end
              end
          end) by (destruct m; congruence).
  rewrite <- Hsc. clear Hsc.
  assert (Hinv : forall l2 ms2, cov (n_seg c :: l2) (u :: us') ms2 -> exists ms3, cov l2 us' ms3).
  { intros l2 ms2 Hc2. inversion Hc2 as [|? ? ? ? m' ms' A1 A2 A3 A4|? ? A1 A2|? ? vs us0 ms' A1 A2 A3]; subst.
    - eauto.
    - rewrite multi_matches in Em by assumption. congruence.
    - rewrite multi_matches in Em by assumption. congruence. }
  destruct us' as [|u2 us2].
  - destruct (n_pat c) as [p|] eqn:Ep.
    + cbn [tells]. exists [n_seg c].
      assert (A : In ([n_seg c], p) (branch c)) by (apply in_branch; auto).
      split; [apply Hin; auto|]. split; [apply cov_one; auto; apply cov_nil|].
      intros l2 q2 ms2 Hl2 Hc2. apply Hin in Hl2. destruct Hl2 as [B|B]; [|right; apply Hlater; assumption].
      left. apply in_branch in B. destruct B as [[-> B]|[l' [-> B]]]; [congruence|].
      destruct (Hinv _ _ Hc2) as [ms3 Hc3]. apply covers_nil in Hc3. apply leaf_path_not_nil in B. congruence.
    + cbn [tells]. intros l q ms Hl Hc. apply in_branches in Hl. destruct Hl as [y [Hy Hl]].
      destruct (Hw1 eq_refl c m) as [z [Z1 [Z2 Z3]]]; auto; [left; reflexivity|exists y; split; [assumption|exists l, q, ms; auto]|].
      destruct Z1 as [<-|Z1]; [lia|]. rewrite Forall_forall in S1. specialize (S1 _ Z1). unfold le_prio in S1. lia.
  - assert (Hsub : says (S d) c (u2 :: us2) (dfs re ci path c (S d) (u2 :: us2))).
    { apply IHc; auto; [discriminate|cbn [List.length] in *; lia| |apply (Hw2 c m); auto; left; reflexivity]. intros l q Hl. eapply good_step; [|eassumption|assumption|assumption].
      apply Hgc. apply in_branch. right. exists l. auto. }
    destruct (dfs re ci path c (S d) (u2 :: us2)) as [p ms| | |] eqn:Ed; cbn [cons_mt]; cbn [says] in Hsub.
    + destruct Hsub as [l [H1 [H2 H3]]]. cbn [tells].
      assert (A : In (n_seg c :: l, p) (branch c)) by (apply in_branch; right; exists l; auto).
      exists (n_seg c :: l). split; [apply Hin; auto|]. split; [apply cov_one; auto|].
      intros l2 q2 ms2 Hl2 Hc2. apply Hin in Hl2. destruct Hl2 as [B|B]; [|right; apply Hlater; assumption].
      apply in_branch in B. destruct B as [[-> B]|[l' [-> B]]].
      * destruct (Hinv _ _ Hc2) as [ms3 Hc3]. apply covers_nil_l in Hc3. discriminate.
      * destruct (Hinv _ _ Hc2) as [ms3 Hc3]. destruct (H3 _ _ _ B Hc3) as [E|E]; [left; congruence|right].
        destruct E as [l0 [c1 [c2 [r1 [r2 [B1 [B2 [B3 [B4 [B5 [B6 B7]]]]]]]]]]].
        exists (n_seg c :: l0), c1, c2, r1, r2. split; [cbn [app]; congruence|]. split; [cbn [app]; congruence|].
        split; [cbn [List.length]; rewrite Nat.add_succ_r; exact B3|]. split; [assumption|]. split; [assumption|].
        cbn [app]. split; intros r p0 Hr; apply Hin; left; apply in_branch; right; eexists; (split; [reflexivity|auto]).
    + assert (Hno : forall l q ms, In (l, q) (branch c) -> ~ cov l (u :: u2 :: us2) ms).
      { eapply child_out; eauto. right. right. exists m.
        split; [assumption|]. split; [assumption|]. split; [discriminate|assumption]. }
      apply tells_skip; auto.
    + exact Hsub.
    + exact I.
Qed.

End Complete.
