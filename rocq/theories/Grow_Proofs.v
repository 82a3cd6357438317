(** * How a tree grows, and further invariants: siblings, order, creators. *)
From Coq Require Import List NArith ZArith Ascii String Bool Lia Arith Permutation Sorted.
From Verif Require Import GoBase Sort_Model Sort_Proofs Glob_Model Glob_Spec Pattern_Model Pattern_Spec Pattern_Proofs
  Url_Model Match_Model Search_Proofs Trie_Proofs.
Import ListNotations.
Local Open Scope list_scope.
Local Open Scope nat_scope.

(** The branch created for the pieces that share no node. *)
Fixpoint chain (p : pattern) (idx : nat) (s : segment) (rest : list segment) : node :=
  match rest with
  | [] => Node (max_at p idx) (p_prio p) s (Some p) []
  | s2 :: r => Node (max_at p idx) (p_prio p) s None [chain p (S idx) s2 r]
  end.

Inductive grow (ci : bool) (p : pattern) : nat -> list segment -> node -> node -> Prop :=
| grow_leaf : forall idx s n before c after, n_ch n = before ++ c :: after ->
    has_same_val ci (n_seg c) s = true -> n_pat c = None ->
    grow ci p idx [s] n (set_children n (before ++ set_pattern (raise_max c (max_at p idx)) p :: after))
| grow_down : forall idx s s2 rest n before c after c2, n_ch n = before ++ c :: after ->
    has_same_val ci (n_seg c) s = true ->
    grow ci p (S idx) (s2 :: rest) (raise_max c (max_at p idx)) c2 ->
    grow ci p idx (s :: s2 :: rest) n (set_children n (before ++ c2 :: after))
| grow_new : forall idx s rest n, Forall (fun b => has_same_val ci (n_seg b) s = false) (n_ch n) ->
    grow ci p idx (s :: rest) n (set_children n (sort_children (n_ch n ++ [chain p idx s rest]))).

Lemma add_chain : forall ci p rest idx s mx pr,
  add_segs ci p (S idx) rest (Node mx pr s (match rest with [] => Some p | _ => None end) [])
  = (Node mx pr s (match rest with [] => Some p | _ => None end)
       (match rest with [] => [] | s2 :: r => [chain p (S idx) s2 r] end), false).
Proof.
  intros ci p. induction rest as [|s2 rest IH]; intros idx s mx pr; [reflexivity|].
  cbn [add_segs n_ch find_child]. rewrite IH. cbn [set_children n_max n_prio n_seg n_pat app].
  f_equal. destruct rest; reflexivity.
Qed.

Lemma chain_eq : forall p idx s rest, chain p idx s rest =
  Node (max_at p idx) (p_prio p) s (match rest with [] => Some p | _ => None end)
       (match rest with [] => [] | s2 :: r => [chain p (S idx) s2 r] end).
Proof. intros p idx s [|s2 rest]; reflexivity. Qed.

Lemma add_segs_grow : forall ci p segs idx n n', add_segs ci p idx segs n = (n', false) -> segs <> [] ->
  grow ci p idx segs n n'.
Proof.
  intros ci p. induction segs as [|s rest IH]; intros idx n n' H Hne; [congruence|].
  cbn [add_segs] in H. destruct (find_child ci s (n_ch n)) as [[[before c] after]|] eqn:F.
  - apply find_child_some in F. destruct F as [F1 [F2 _]]. destruct rest as [|s2 rest].
    + destruct (is_leaf (raise_max c (max_at p idx))) eqn:El; [discriminate|]. injection H as <-.
      apply grow_leaf; auto. destruct c as [cm cp cs cpt cc]. unfold is_leaf in El. cbn in *. destruct cpt; congruence.
    + destruct (add_segs ci p (S idx) (s2 :: rest) (raise_max c (max_at p idx))) as [c2 dup] eqn:E.
      injection H as <- ->. apply (grow_down ci p idx s s2 rest n before c after c2); auto. apply IH; [assumption|discriminate].
  - apply find_child_none in F. rewrite add_chain in H. injection H as <-. rewrite <- chain_eq.
    apply grow_new. assumption.
Qed.

(** ** Local invariants of the lists of children *)

Fixpoint deep (L : nat -> list node -> Prop) (n : node) (idx : nat) {struct n} : Prop :=
  match n with
  | Node _ _ _ _ ch =>
      L idx ch /\
      (fix all (l : list node) : Prop :=
         match l with [] => True | c :: l' => deep L c (S idx) /\ all l' end) ch
  end.

Lemma deep_eq : forall L n idx, deep L n idx <-> L idx (n_ch n) /\ Forall (fun c => deep L c (S idx)) (n_ch n).
Proof.
  intros L [mx pr sg pt ch] idx. cbn [deep n_ch].
  assert (H : (fix all (l : list node) : Prop :=
         match l with [] => True | c :: l' => deep L c (S idx) /\ all l' end) ch
      <-> Forall (fun c => deep L c (S idx)) ch).
  { induction ch as [|c ch IH]; [split; constructor|]. rewrite Forall_cons_iff, IH. tauto. }
  rewrite H. tauto.
Qed.

Lemma deep_and : forall L1 L2 n idx, deep L1 n idx -> deep L2 n idx -> deep (fun i l => L1 i l /\ L2 i l) n idx.
Proof.
  intros L1 L2. induction n as [mx pr sg pt ch IH] using node_ind'. intros idx H1 H2.
  apply deep_eq in H1. apply deep_eq in H2. apply deep_eq. cbn [n_ch] in *.
  split; [tauto|]. destruct H1 as [_ H1]. destruct H2 as [_ H2]. rewrite Forall_forall in *. auto.
Qed.

(** What happens to the node that is shared. *)
Definition upd (p : pattern) (c c' : node) : Prop :=
  n_seg c' = n_seg c /\ n_prio c' = n_prio c /\ exists path, Permutation (branch c') ((path, p) :: branch c).

Lemma branch_of : forall c X, Permutation (leaves c) X -> Permutation (branch c)
   (match n_pat c with Some p => [([n_seg c], p)] | None => [] end
    ++ map (fun lp => (n_seg c :: fst lp, snd lp)) X).
Proof. intros c X HX. unfold branch. apply Permutation_app_head, Permutation_map. assumption. Qed.

Lemma grow_leaves : forall ci p idx segs n n', grow ci p idx segs n n' ->
  n_seg n' = n_seg n /\ n_prio n' = n_prio n /\ n_pat n' = n_pat n /\
  exists path, Permutation (leaves n') ((path, p) :: leaves n).
Proof.
  assert (Hset : forall n l, n_seg (set_children n l) = n_seg n /\ n_prio (set_children n l) = n_prio n /\
     n_pat (set_children n l) = n_pat n) by (intros [a b c d e] l; auto).
  assert (Hput : forall n before c after c' (p : pattern), n_ch n = before ++ c :: after ->
    (exists path, Permutation (branch c') ((path, p) :: branch c)) ->
    exists path, Permutation (leaves (set_children n (before ++ c' :: after))) ((path, p) :: leaves n)).
  { intros n before c after c' p E [path H]. exists path. rewrite leaves_set, leaves_eq, E, !flat_map_app.
    cbn [flat_map]. rewrite H. symmetry. apply Permutation_middle. }
  intros ci p idx segs n n' H.
  induction H as [idx s n before c after E1 E2 E3|idx s s2 rest n before c after c2 E1 E2 H IH|idx s rest n E].
  - destruct (Hset n (before ++ set_pattern (raise_max c (max_at p idx)) p :: after)) as [A [B C]].
    split; [assumption|]. split; [assumption|]. split; [assumption|].
    eapply Hput; [eassumption|]. exists [n_seg c].
    destruct c as [cm cp cs cpt cc]. cbn in E3. subst cpt. reflexivity.
  - destruct (Hset n (before ++ c2 :: after)) as [A [B C]].
    split; [assumption|]. split; [assumption|]. split; [assumption|].
    eapply Hput; [eassumption|]. destruct IH as [I1 [I2 [I3 [path I4]]]].
    exists (n_seg c :: path). unfold branch. rewrite I1, I3.
    replace (n_seg (raise_max c (max_at p idx))) with (n_seg c) by (destruct c as [cm cp cs cpt cc]; reflexivity).
    replace (n_pat (raise_max c (max_at p idx))) with (n_pat c) by (destruct c as [cm cp cs cpt cc]; reflexivity).
    rewrite I4, leaves_raise. cbn [map fst snd]. symmetry. apply Permutation_middle.
  - destruct (Hset n (sort_children (n_ch n ++ [chain p idx s rest]))) as [A [B C]].
    split; [assumption|]. split; [assumption|]. split; [assumption|].
    assert (Hc : forall rest idx s, exists path, branch (chain p idx s rest) = [(path, p)]).
    { clear. induction rest as [|s2 rest IH]; intros idx s; [exists [s]; reflexivity|].
      destruct (IH (S idx) s2) as [path Hp]. exists (s :: path). unfold branch. cbn [chain n_pat n_seg].
      rewrite leaves_eq. cbn [n_ch flat_map]. rewrite Hp. reflexivity. }
    destruct (Hc rest idx s) as [path Hp]. exists path. rewrite leaves_set.
    rewrite (flat_map_perm _ _ branch _ _ (sort_children_perm _)), flat_map_app. cbn [flat_map].
    rewrite Hp, leaves_eq. symmetry. apply Permutation_cons_append.
Qed.

Lemma grow_upd : forall ci p idx segs c mx c', grow ci p idx segs (raise_max c mx) c' -> upd p c c'.
Proof.
  intros ci p idx segs c mx c' H. apply grow_leaves in H. destruct H as [H1 [H2 [H3 [path H4]]]].
  destruct c as [cm cp cs cpt cc]. cbn [raise_max n_seg n_prio n_pat] in *.
  split; [assumption|]. split; [assumption|]. exists (cs :: path). unfold branch. rewrite H1, H3.
  rewrite (Permutation_map _ H4). cbn [map fst snd n_seg n_pat]. symmetry. apply Permutation_middle.
Qed.

Lemma upd_leaf : forall p c mx, n_pat c = None -> upd p c (set_pattern (raise_max c mx) p).
Proof.
  intros p [cm cp cs cpt cc] mx E. cbn in E. subst cpt. split; [reflexivity|]. split; [reflexivity|].
  exists [cs]. reflexivity.
Qed.

Lemma chain_branch : forall p rest idx s, exists path, branch (chain p idx s rest) = [(path, p)].
Proof.
  intros p. induction rest as [|s2 rest IH]; intros idx s; [exists [s]; reflexivity|].
  destruct (IH (S idx) s2) as [path Hp]. exists (s :: path). unfold branch. cbn [chain n_pat n_seg].
  rewrite leaves_eq. cbn [n_ch flat_map]. rewrite Hp. reflexivity.
Qed.

(** The general preservation lemma. *)
Lemma grow_deep : forall (L : nat -> list node -> Prop) ci p (all : list segment),
  (forall idx, L idx []) ->
  (forall idx s before c after c', nth_error all idx = Some s -> has_same_val ci (n_seg c) s = true ->
     upd p c c' -> L idx (before ++ c :: after) -> L idx (before ++ c' :: after)) ->
  (forall idx s rest l, skipn idx all = s :: rest -> Forall (fun b => has_same_val ci (n_seg b) s = false) l ->
     L idx l -> L idx (sort_children (l ++ [chain p idx s rest]))) ->
  forall idx segs n n', grow ci p idx segs n n' -> segs = skipn idx all -> deep L n idx -> deep L n' idx.
Proof.
  intros L ci p all H0 H1 H2.
  assert (Hch : forall rest idx s, skipn idx all = s :: rest -> deep L (chain p idx s rest) (S idx)).
  { induction rest as [|s2 rest IH]; intros idx s E; apply deep_eq; cbn [chain n_ch].
    - split; [apply H0|constructor].
    - assert (E2 : skipn (S idx) all = s2 :: rest).
      { change (S idx) with (1 + idx). rewrite Nat.add_comm. rewrite skipn_add, E. reflexivity. }
      split; [|constructor; [apply IH; assumption|constructor]].
      apply (H2 (S idx) s2 rest [] E2); [constructor|apply H0]. }
  assert (Hnth : forall idx s rest, s :: rest = skipn idx all -> nth_error all idx = Some s).
  { intros idx s rest E. rewrite <- (firstn_skipn idx all), <- E.
    assert (List.length (firstn idx all) = idx).
    { rewrite firstn_length. apply Nat.min_l. destruct (le_lt_dec idx (List.length all)) as [A|A]; [assumption|].
      rewrite skipn_all2 in E by lia. discriminate. }
    rewrite nth_error_app2 by lia. rewrite H, Nat.sub_diag. reflexivity. }
  intros idx segs n n' H.
  induction H as [idx s n before c after E1 E2 E3|idx s s2 rest n before c after c2 E1 E2 H IH|idx s rest n E];
    intros Es Hd; apply deep_eq in Hd; destruct Hd as [Hd1 Hd2]; apply deep_eq; (destruct n as [nm np ns npt nc]);
    cbn [set_children n_ch] in *.
  - rewrite E1 in Hd1, Hd2. split.
    + eapply H1; [eapply Hnth; eassumption|eassumption|apply upd_leaf; assumption|assumption].
    + rewrite Forall_app, Forall_cons_iff in *. destruct Hd2 as [A [B C]]. split; [assumption|]. split; [|assumption].
      rewrite deep_eq in *. destruct c as [cm cp cs cpt cc]. assumption.
  - rewrite E1 in Hd1, Hd2. split.
    + eapply H1; [eapply Hnth; eassumption|eassumption|eapply grow_upd; eassumption|assumption].
    + rewrite Forall_app, Forall_cons_iff in *. destruct Hd2 as [A [B C]]. split; [assumption|]. split; [|assumption].
      apply IH.
      * change (S idx) with (1 + idx). rewrite Nat.add_comm, skipn_add, <- Es. reflexivity.
      * rewrite deep_eq in *. destruct c as [cm cp cs cpt cc]. assumption.
  - split; [apply H2; auto|].
    apply (Permutation_Forall (Permutation_sym (sort_children_perm _))). apply Forall_app. split; [assumption|].
    constructor; [apply Hch; auto|constructor].
Qed.

(** ** Sorted by priority *)

Definition le_prio (a b : node) : Prop := (n_prio a <= n_prio b)%N.
Definition by_prio (idx : nat) (l : list node) : Prop := StronglySorted le_prio l.

Lemma child_less_le : forall a b, child_less a b = true -> le_prio a b.
Proof.
  intros a b H. unfold child_less in H. unfold le_prio. destruct (n_prio a =? n_prio b)%N eqn:E.
  - apply N.eqb_eq in E. lia.
  - apply N.ltb_lt in H. lia.
Qed.
Lemma child_less_ge : forall a b, child_less a b = false -> le_prio b a.
Proof.
  intros a b H. unfold child_less in H. unfold le_prio. destruct (n_prio a =? n_prio b)%N eqn:E.
  - apply N.eqb_eq in E. lia.
  - apply N.ltb_ge in H. lia.
Qed.

Lemma sort_children_sorted : forall l, StronglySorted le_prio (sort_children l).
Proof.
  intros l. apply stable_ok; [|exact child_less_le|exact child_less_ge].
  intros x y z. unfold le_prio. lia.
Qed.

Lemma sorted_replace : forall before c c' after, n_prio c' = n_prio c ->
  StronglySorted le_prio (before ++ c :: after) -> StronglySorted le_prio (before ++ c' :: after).
Proof.
  intros before c c' after E. induction before as [|b before IH]; intros H; cbn [app] in *; inversion H; subst.
  - constructor; [assumption|]. unfold le_prio in *. rewrite E. assumption.
  - constructor; [auto|]. rewrite Forall_app, Forall_cons_iff in *. unfold le_prio in *. rewrite E. assumption.
Qed.

(** ** Creators *)

(** The node was made by a route that still stands below it. *)
Definition made (idx : nat) (c : node) : Prop :=
  exists l q, In (l, q) (branch c) /\ n_prio c = p_prio q /\ nth_error (p_segs q) idx = Some (n_seg c).
Definition all_made (idx : nat) (l : list node) : Prop := Forall (made idx) l.

(** ** Siblings differ *)

Definition differ (ci : bool) (a b : node) : Prop :=
  s_mt (n_seg a) <> MTConstraint ->
  has_same_val ci (n_seg a) (n_seg b) = false /\ has_same_val ci (n_seg b) (n_seg a) = false.
Definition all_differ (ci : bool) (idx : nat) (l : list node) : Prop :=
  ForallOrdPairs (fun a b => differ ci a b /\ differ ci b a) l.

(** ** Nodes of constrained variables belong to one route *)

Definition lone (c : node) : Prop := s_mt (n_seg c) = MTConstraint -> exists lq, branch c = [lq].
Definition all_lone (idx : nat) (l : list node) : Prop := Forall lone l.

Lemma ford_perm : forall (A : Type) (R : A -> A -> Prop), (forall a b, R a b -> R b a) ->
  forall l l', Permutation l l' -> ForallOrdPairs R l -> ForallOrdPairs R l'.
Proof.
  intros A R Hs l l' P. induction P as [|x l l' P IH|x y l|l1 l2 l3 P1 IH1 P2 IH2]; intros H.
  - assumption.
  - inversion H; subst. constructor; [eapply Permutation_Forall; eassumption|auto].
  - inversion H as [|? ? F1 H1]; subst. inversion H1 as [|? ? F2 H2]; subst. inversion F1; subst.
    constructor; [constructor; [auto|assumption]|]. constructor; assumption.
  - auto.
Qed.

Lemma ford_replace : forall (A : Type) (R : A -> A -> Prop) before c c' after,
  (forall x, R x c -> R x c') -> (forall x, R c x -> R c' x) ->
  ForallOrdPairs R (before ++ c :: after) -> ForallOrdPairs R (before ++ c' :: after).
Proof.
  intros A R before c c' after H1 H2. induction before as [|b before IH]; intros H; cbn [app] in *; inversion H; subst.
  - constructor; [|assumption]. eapply Forall_impl; [|eassumption]. auto.
  - constructor; [|auto]. rewrite Forall_app, Forall_cons_iff in *. intuition.
Qed.

Lemma ford_snoc : forall (A : Type) (R : A -> A -> Prop) l x, ForallOrdPairs R l -> Forall (fun a => R a x) l ->
  ForallOrdPairs R (l ++ [x]).
Proof.
  intros A R l x H. induction H as [|y l Hy H IH]; intros Hf; [repeat constructor|]. inversion Hf; subst. cbn [app].
  constructor; [|auto]. apply Forall_app. split; [assumption|]. constructor; [assumption|constructor].
Qed.

Lemma beqb_sym : forall a b, beqb a b = beqb b a.
Proof.
  intros a b. destruct (beqb a b) eqn:E; symmetry.
  - apply beqb_eq in E. apply beqb_eq. congruence.
  - apply beqb_neq in E. apply beqb_neq. congruence.
Qed.

Lemma has_same_sym : forall ci a b, s_mt a <> MTConstraint -> has_same_val ci a b = has_same_val ci b a.
Proof.
  intros ci a b H. unfold has_same_val. unfold mt_eqb. rewrite (N.eqb_sym (mt_code (s_mt a))).
  destruct (mt_code (s_mt b) =? mt_code (s_mt a))%N eqn:E; [|reflexivity]. cbn [andb].
  assert (Hm : s_mt a = s_mt b) by (apply mt_eqb_eq; unfold mt_eqb; rewrite N.eqb_sym; assumption).
  rewrite <- Hm. unfold equal_fold. rewrite (beqb_sym (to_lower (s_val b))), (beqb_sym (s_val b)).
  destruct (s_mt a); try reflexivity. congruence.
Qed.

Section Keep.
Variable ci : bool.
Variable p : pattern.

Lemma grow_sorted : forall idx segs n n', grow ci p idx segs n n' -> segs = skipn idx (p_segs p) ->
  deep by_prio n idx -> deep by_prio n' idx.
Proof.
  apply grow_deep.
  - intros idx. constructor.
  - intros idx s before c after c' _ _ [_ [U _]] H. unfold by_prio in *. eapply sorted_replace; eassumption.
  - intros idx s rest l _ _ _. apply sort_children_sorted.
Qed.

Lemma chain_made : forall idx s rest, skipn idx (p_segs p) = s :: rest -> made idx (chain p idx s rest).
Proof.
  intros idx s rest E. destruct (chain_branch p rest idx s) as [path Hb]. exists path, p.
  rewrite Hb. split; [left; reflexivity|]. rewrite chain_eq. cbn [n_prio n_seg]. split; [reflexivity|].
  rewrite <- (firstn_skipn idx (p_segs p)), E.
  assert (List.length (firstn idx (p_segs p)) = idx).
  { rewrite firstn_length. apply Nat.min_l. destruct (le_lt_dec idx (List.length (p_segs p))) as [A|A]; [assumption|].
    rewrite skipn_all2 in E by lia. discriminate. }
  rewrite nth_error_app2 by lia. rewrite H, Nat.sub_diag. reflexivity.
Qed.

Lemma grow_made : forall idx segs n n', grow ci p idx segs n n' -> segs = skipn idx (p_segs p) ->
  deep all_made n idx -> deep all_made n' idx.
Proof.
  apply grow_deep.
  - intros idx. constructor.
  - intros idx s before c after c' _ _ [U1 [U2 [path U3]]] H. unfold all_made in *.
    rewrite Forall_app, Forall_cons_iff in *. destruct H as [A [B C]]. split; [assumption|]. split; [|assumption].
    destruct B as [l [q [B1 [B2 B3]]]]. exists l, q. rewrite U1, U2.
    split; [|split; assumption]. apply (Permutation_in _ (Permutation_sym U3)). right. assumption.
  - intros idx s rest l E _ H. unfold all_made in *.
    apply (Permutation_Forall (Permutation_sym (sort_children_perm _))). apply Forall_app. split; [assumption|].
    constructor; [apply chain_made; assumption|constructor].
Qed.

Lemma grow_differ : forall idx segs n n', grow ci p idx segs n n' -> segs = skipn idx (p_segs p) ->
  deep (all_differ ci) n idx -> deep (all_differ ci) n' idx.
Proof.
  apply grow_deep.
  - intros idx. constructor.
  - intros idx s before c after c' _ _ [U1 _] H. unfold all_differ, differ in *.
    eapply ford_replace; [| |eassumption]; intros x; rewrite U1; auto.
  - intros idx s rest l _ Hn H. unfold all_differ in *.
    eapply ford_perm; [|apply Permutation_sym, sort_children_perm|].
    + intros a b [A B]. auto.
    + apply ford_snoc; [assumption|]. eapply Forall_impl; [|eassumption]. intros b Hb. cbn beta.
      assert (Hs : n_seg (chain p idx s rest) = s) by (rewrite chain_eq; reflexivity).
      unfold differ. rewrite Hs. split; intros Hc.
      * rewrite <- (has_same_sym ci (n_seg b) s) by assumption. auto.
      * rewrite (has_same_sym ci s (n_seg b)) by assumption. auto.
Qed.

Hypothesis Hnot : forall s c, In s (p_segs p) -> s_mt (n_seg c) = MTConstraint -> 
  has_same_val ci (n_seg c) s = true -> False.

Lemma grow_lone : forall idx segs n n', grow ci p idx segs n n' -> segs = skipn idx (p_segs p) ->
  deep all_lone n idx -> deep all_lone n' idx.
Proof.
  apply grow_deep.
  - intros idx. constructor.
  - intros idx s before c after c' E1 E2 [U1 _] H. unfold all_lone in *.
    rewrite Forall_app, Forall_cons_iff in *. destruct H as [A [B C]]. split; [assumption|]. split; [|assumption].
    intros Hm. rewrite U1 in Hm. exfalso. eapply Hnot; [eapply nth_error_In; eassumption|eassumption|eassumption].
  - intros idx s rest l _ _ H. unfold all_lone in *.
    apply (Permutation_Forall (Permutation_sym (sort_children_perm _))). apply Forall_app. split; [assumption|].
    constructor; [|constructor]. intros _. destruct (chain_branch p rest idx s) as [path Hp]. eauto.
Qed.

End Keep.

(** ** Trees that grew from nothing *)

Inductive grown (ci : bool) : list pattern -> node -> Prop :=
| grown_nothing : grown ci [] (m_trie (new_matcher ci))
| grown_root : forall ps p n, grown ci ps n -> p_segs p = [] -> grown ci (ps ++ [p]) n
| grown_more : forall ps p n n', grown ci ps n -> p_segs p <> [] -> grow ci p 0 (p_segs p) n n' ->
    grown ci (ps ++ [p]) n'.

Lemma grown_deep : forall (L : nat -> list node -> Prop) (P : pattern -> Prop) ci, (forall idx, L idx []) ->
  (forall p idx segs n n', P p -> grow ci p idx segs n n' -> segs = skipn idx (p_segs p) -> deep L n idx -> deep L n' idx) ->
  forall ps n, grown ci ps n -> Forall P ps -> deep L n 0.
Proof.
  intros L P ci H0 H ps n G. induction G as [|ps p n G IH E|ps p n n' G IH E Gr]; intros Hp.
  - apply deep_eq. split; [apply H0|constructor].
  - apply Forall_app in Hp. apply IH. tauto.
  - apply Forall_app in Hp. destruct Hp as [Hp1 Hp2]. inversion Hp2; subst.
    eapply H; [eassumption|eassumption|reflexivity|auto].
Qed.

Lemma grown_sorted : forall ci ps n, grown ci ps n -> deep by_prio n 0.
Proof.
  intros ci ps n G. apply (grown_deep by_prio (fun _ => True) ci (fun _ => SSorted_nil _)) with (ps := ps); auto.
  - intros p idx segs a b _. apply grow_sorted.
  - apply Forall_forall. auto.
Qed.
Lemma grown_made : forall ci ps n, grown ci ps n -> deep all_made n 0.
Proof.
  intros ci ps n G. apply (grown_deep all_made (fun _ => True) ci (fun _ => Forall_nil _)) with (ps := ps); auto.
  - intros p idx segs a b _. apply grow_made.
  - apply Forall_forall. auto.
Qed.
Lemma grown_differ : forall ci ps n, grown ci ps n -> deep (all_differ ci) n 0.
Proof.
  intros ci ps n G. apply (grown_deep (all_differ ci) (fun _ => True) ci (fun _ => FOP_nil _)) with (ps := ps); auto.
  - intros p idx segs a b _. apply grow_differ.
  - apply Forall_forall. auto.
Qed.

(** No node below depth [k]. *)
Definition within (k : nat) (idx : nat) (l : list node) : Prop := l = [] \/ idx < k.
Lemma grown_within : forall k ci ps n, grown ci ps n -> Forall (fun p => List.length (p_segs p) <= k) ps ->
  deep (within k) n 0.
Proof.
  intros k ci ps n G H.
  apply (grown_deep (within k) (fun p => List.length (p_segs p) <= k) ci (fun _ => or_introl eq_refl)) with (ps := ps); auto.
  intros p idx segs a b Hl. apply grow_deep.
  - intros i. left. reflexivity.
  - intros i s before c after c' E _ _ _. right. assert (i < List.length (p_segs p)); [|lia].
    apply nth_error_Some. congruence.
  - intros i s rest l E _ _. right. destruct (le_lt_dec (List.length (p_segs p)) i); [|lia].
    rewrite skipn_all2 in E by assumption. discriminate.
Qed.
