(** * Invariants of the route tree. *)
From Coq Require Import List NArith ZArith Ascii String Bool Lia Arith Permutation.
From Verif Require Import GoBase Sort_Model Sort_Proofs Glob_Model Pattern_Model Pattern_Proofs Url_Model Match_Model Search_Proofs.
Import ListNotations.
Local Open Scope list_scope.
Local Open Scope nat_scope.

(** ** The routes held by a tree *)

Fixpoint leaves (n : node) : list (list segment * pattern) :=
  match n with
  | Node _ _ _ _ ch =>
      flat_map (fun c => match n_pat c with Some p => [([n_seg c], p)] | None => [] end
                         ++ map (fun lp => (n_seg c :: fst lp, snd lp)) (leaves c)) ch
  end.

Definition branch (c : node) : list (list segment * pattern) :=
  match n_pat c with Some p => [([n_seg c], p)] | None => [] end
  ++ map (fun lp => (n_seg c :: fst lp, snd lp)) (leaves c).

Lemma leaves_eq : forall n, leaves n = flat_map branch (n_ch n).
Proof. intros [mx pr sg pt ch]. reflexivity. Qed.

Lemma in_branch : forall c l p, In (l, p) (branch c) <->
  (l = [n_seg c] /\ n_pat c = Some p) \/ exists l', l = n_seg c :: l' /\ In (l', p) (leaves c).
Proof.
  intros c l p. unfold branch. rewrite in_app_iff, in_map_iff. split.
  - intros [H|[[l' p'] [E H]]].
    + left. destruct (n_pat c) as [q|]; [|contradiction]. destruct H as [H|[]]. injection H as <- <-. auto.
    + right. simpl in E. injection E as <- <-. exists l'. auto.
  - intros [[-> H]|[l' [-> H]]].
    + left. rewrite H. left. reflexivity.
    + right. exists (l', p). auto.
Qed.

Lemma in_leaves : forall n l p, In (l, p) (leaves n) <-> exists c, In c (n_ch n) /\ In (l, p) (branch c).
Proof. intros n l p. rewrite leaves_eq, in_flat_map. reflexivity. Qed.

Lemma leaf_path_not_nil : forall n l p, In (l, p) (leaves n) -> l <> [].
Proof.
  intros n l p H. apply in_leaves in H. destruct H as [c [_ H]]. apply in_branch in H.
  destruct H as [[-> _]|[l' [-> _]]]; discriminate.
Qed.

(** ** Finding the child *)

Lemma find_child_some : forall ci s l before c after, find_child ci s l = Some (before, c, after) ->
  l = before ++ c :: after /\ has_same_val ci (n_seg c) s = true /\
  Forall (fun b => has_same_val ci (n_seg b) s = false) before.
Proof.
  induction l as [|x l IH]; intros before c after H; [discriminate|]. cbn [find_child] in H.
  destruct (has_same_val ci (n_seg x) s) eqn:E.
  - injection H as <- <- <-. split; [reflexivity|]. split; [assumption|constructor].
  - destruct (find_child ci s l) as [[[b c'] a]|] eqn:F; [|discriminate].
    injection H as <- <- <-. destruct (IH _ _ _ eq_refl) as [-> [H1 H2]].
    split; [reflexivity|]. split; [assumption|]. constructor; assumption.
Qed.

Lemma find_child_none : forall ci s l, find_child ci s l = None ->
  Forall (fun b => has_same_val ci (n_seg b) s = false) l.
Proof.
  induction l as [|x l IH]; intros H; [constructor|]. cbn [find_child] in H.
  destruct (has_same_val ci (n_seg x) s) eqn:E; [discriminate|].
  destruct (find_child ci s l) as [[[b c'] a]|] eqn:F; [discriminate|].
  constructor; auto.
Qed.

(** ** Sorting keeps the children *)

Lemma sort_children_perm : forall l, Permutation (sort_children l) l.
Proof. intros l. apply stable_perm. Qed.

(** ** What a registration does to the routes *)

Definition shares (ci : bool) (a b : segment) : Prop := a = b \/ has_same_val ci a b = true.

Lemma leaves_set : forall n l, leaves (set_children n l) = flat_map branch l.
Proof. intros [mx pr sg pt ch] l. reflexivity. Qed.

Lemma branch_raise : forall c mx, branch (raise_max c mx) = branch c.
Proof. intros [m pr sg pt ch] mx. reflexivity. Qed.
Lemma leaves_raise : forall c mx, leaves (raise_max c mx) = leaves c.
Proof. intros [m pr sg pt ch] mx. reflexivity. Qed.

Lemma add_segs_keeps : forall ci p segs idx n,
  n_seg (fst (add_segs ci p idx segs n)) = n_seg n /\
  n_pat (fst (add_segs ci p idx segs n)) = n_pat n /\
  n_max (fst (add_segs ci p idx segs n)) = n_max n /\
  n_prio (fst (add_segs ci p idx segs n)) = n_prio n.
Proof.
  intros ci p segs idx n. destruct segs as [|s rest]; [auto|]. cbn [add_segs].
  destruct (find_child ci s (n_ch n)) as [[[b c] a]|].
  - destruct rest.
    + destruct (is_leaf (raise_max c (max_at p idx))); auto.
    + destruct (add_segs ci p (S idx) (s0 :: rest) (raise_max c (max_at p idx))). auto.
  - destruct (add_segs ci p (S idx) rest _). auto.
Qed.

Lemma flat_map_perm : forall (A B : Type) (f : A -> list B) l l',
  Permutation l l' -> Permutation (flat_map f l) (flat_map f l').
Proof. intros A B f l l' H. apply Permutation_flat_map. assumption. Qed.

Lemma add_segs_leaves : forall ci p segs idx n n' dup,
  add_segs ci p idx segs n = (n', dup) -> segs <> [] ->
  if dup
  then exists path q, In (path, q) (leaves n) /\ Forall2 (fun a b => has_same_val ci a b = true) path segs
       /\ Permutation (leaves n') (leaves n)
  else exists path, Forall2 (shares ci) path segs /\ Permutation (leaves n') ((path, p) :: leaves n).
Proof.
  intros ci p. induction segs as [|s rest IH]; intros idx n n' dup H Hne; [congruence|].
  cbn [add_segs] in H. destruct (find_child ci s (n_ch n)) as [[[before c] after]|] eqn:F.
  - apply find_child_some in F. destruct F as [F1 [F2 _]].
    assert (Hl : leaves n = flat_map branch before ++ branch c ++ flat_map branch after).
    { rewrite leaves_eq, F1, flat_map_app. reflexivity. }
    destruct rest as [|s2 rest].
    + destruct (is_leaf (raise_max c (max_at p idx))) eqn:El.
      * injection H as <- <-. 
        assert (Hp : exists q, n_pat c = Some q).
        { destruct c as [m pr sg pt ch]. unfold is_leaf in El. cbn in El. destruct pt; [eexists; reflexivity|discriminate]. }
        destruct Hp as [q Hq]. exists [n_seg c], q. split; [|split].
        -- rewrite Hl, !in_app_iff. right. left. apply in_branch. left. auto.
        -- constructor; [assumption|constructor].
        -- rewrite leaves_set, flat_map_app. cbn [flat_map]. rewrite branch_raise, Hl. reflexivity.
      * injection H as <- <-. exists [n_seg c]. split; [constructor; [right; assumption|constructor]|].
        rewrite leaves_set, flat_map_app. cbn [flat_map].
        assert (Hb : branch (set_pattern (raise_max c (max_at p idx)) p) = ([n_seg c], p) :: branch c).
        { destruct c as [m pr sg pt ch]. unfold is_leaf in El. cbn in El. destruct pt; [discriminate|]. reflexivity. }
        rewrite Hb, Hl. symmetry. apply (Permutation_middle (flat_map branch before) (branch c ++ flat_map branch after)).
    + destruct (add_segs ci p (S idx) (s2 :: rest) (raise_max c (max_at p idx))) as [c2 dup2] eqn:E.
      injection H as <- <-. specialize (IH _ _ _ _ E ltac:(discriminate)).
      pose proof (add_segs_keeps ci p (s2 :: rest) (S idx) (raise_max c (max_at p idx))) as K.
      rewrite E in K. cbn [fst] in K. destruct K as [K1 [K2 _]].
      assert (Hs : n_seg (raise_max c (max_at p idx)) = n_seg c) by (destruct c as [cm cp cs cpt cc]; reflexivity).
      assert (Hp : n_pat (raise_max c (max_at p idx)) = n_pat c) by (destruct c as [cm cp cs cpt cc]; reflexivity).
      rewrite leaves_raise in IH.
      assert (Hb : forall X, Permutation (leaves c2) X -> Permutation (branch c2)
         (match n_pat c with Some p => [([n_seg c], p)] | None => [] end
          ++ map (fun lp => (n_seg c :: fst lp, snd lp)) X)).
      { intros X HX. unfold branch. rewrite K1, K2, Hs, Hp. apply Permutation_app_head.
        apply Permutation_map. assumption. }
      destruct dup2.
      * destruct IH as [path [q [I1 [I2 I3]]]]. exists (n_seg c :: path), q. split; [|split].
        -- rewrite Hl, !in_app_iff. right. left. apply in_branch. right. eauto.
        -- constructor; assumption.
        -- rewrite leaves_set, flat_map_app. cbn [flat_map]. rewrite Hl.
           apply Permutation_app_head, Permutation_app_tail. apply (Hb _ I3).
      * destruct IH as [path [I1 I2]]. exists (n_seg c :: path). split.
        -- constructor; [right; assumption|assumption].
        -- rewrite leaves_set, flat_map_app. cbn [flat_map]. rewrite Hl.
           rewrite (Hb _ I2). cbn [map fst snd].
           rewrite <- Permutation_middle. cbn [app]. symmetry. unfold branch.
           apply Permutation_middle.
  - destruct (add_segs ci p (S idx) rest
               (Node (max_at p idx) (p_prio p) s (match rest with [] => Some p | _ => None end) []))
      as [c2 dup2] eqn:E.
    injection H as <- <-.
    pose proof (add_segs_keeps ci p rest (S idx)
       (Node (max_at p idx) (p_prio p) s (match rest with [] => Some p | _ => None end) [])) as K.
    rewrite E in K. cbn [fst n_seg n_pat] in K. destruct K as [K1 [K2 _]].
    assert (Hr : Permutation (leaves (set_children n (sort_children (n_ch n ++ [c2]))))
                   (branch c2 ++ leaves n)).
    { rewrite leaves_set. rewrite (flat_map_perm _ _ branch _ _ (sort_children_perm _)).
      rewrite flat_map_app. cbn [flat_map]. rewrite app_nil_r, leaves_eq. apply Permutation_app_comm. }
    destruct rest as [|s2 rest].
    + cbn [add_segs] in E. injection E as <- <-. exists [s]. split; [constructor; [left; reflexivity|constructor]|].
      rewrite Hr. reflexivity.
    + specialize (IH _ _ _ _ E ltac:(discriminate)). cbn [leaves n_ch flat_map] in IH.
      destruct dup2.
      * destruct IH as [path [q [[] _]]].
      * destruct IH as [path [I1 I2]]. exists (s :: path). split; [constructor; [left; reflexivity|assumption]|].
        rewrite Hr. unfold branch. rewrite K1, K2. cbn [app].
        rewrite I2. reflexivity.
Qed.

(** ** Predicates on all nodes *)

Fixpoint every (P : node -> Prop) (n : node) : Prop :=
  match n with
  | Node mx pr s pt ch =>
      P (Node mx pr s pt ch) /\
      (fix all (l : list node) : Prop := match l with [] => True | c :: l' => every P c /\ all l' end) ch
  end.

Lemma every_eq : forall P n, every P n <-> P n /\ Forall (every P) (n_ch n).
Proof.
  intros P [mx pr sg pt ch]. cbn [every n_ch].
  assert (H : (fix all (l : list node) : Prop :=
         match l with [] => True | c :: l' => every P c /\ all l' end) ch <-> Forall (every P) ch).
  { induction ch as [|c ch IH]; [split; constructor|]. rewrite Forall_cons_iff, IH. tauto. }
  rewrite H. tauto.
Qed.

Lemma every_imp : forall (P Q : node -> Prop) n, (forall m, P m -> Q m) -> every P n -> every Q n.
Proof.
  intros P Q n H. induction n as [mx pr sg pt ch IH] using node_ind'. rewrite !every_eq. cbn [n_ch].
  intros [H1 H2]. split; [auto|]. rewrite Forall_forall in *. auto.
Qed.

Lemma every_and : forall (P Q : node -> Prop) n, every P n -> every Q n -> every (fun m => P m /\ Q m) n.
Proof.
  intros P Q n. induction n as [mx pr sg pt ch IH] using node_ind'. rewrite !every_eq. cbn [n_ch].
  intros [H1 H2] [H3 H4]. split; [auto|]. rewrite Forall_forall in *. auto.
Qed.

(** Width. *)
Definition narrow (k : nat) (n : node) : Prop := List.length (n_ch n) <= k.

Lemma every_narrow_mono : forall k k' n, k <= k' -> every (narrow k) n -> every (narrow k') n.
Proof. intros k k' n H. apply every_imp. unfold narrow. intros m Hm. lia. Qed.

Lemma every_children : forall (P : node -> Prop) n l, 
  P (set_children n l) -> Forall (every P) l -> every P (set_children n l).
Proof. intros P n l H1 H2. apply every_eq. split; [assumption|]. destruct n as [nm np ns npt nc]; assumption. Qed.

Lemma add_segs_narrow : forall ci p k segs idx n,
  every (narrow k) n -> every (narrow (S k)) (fst (add_segs ci p idx segs n)).
Proof.
  intros ci p k. induction segs as [|s rest IH]; intros idx n H.
  - apply (every_narrow_mono k); [lia|assumption].
  - cbn [add_segs].
    assert (Hup : Forall (every (narrow (S k))) (n_ch n)).
    { apply every_eq in H. destruct H as [_ H]. rewrite Forall_forall in *. intros c Hc.
      apply (every_narrow_mono k); [lia|auto]. }
    assert (Hn : List.length (n_ch n) <= k) by (apply every_eq in H; apply H).
    destruct (find_child ci s (n_ch n)) as [[[before c] after]|] eqn:F.
    + apply find_child_some in F. destruct F as [F1 _].
      rewrite F1 in Hup, Hn. rewrite Forall_app, Forall_cons_iff in Hup.
      destruct Hup as [U1 [U2 U3]]. rewrite app_length in Hn. cbn [List.length] in Hn.
      assert (Hc : every (narrow k) (raise_max c (max_at p idx))).
      { apply every_eq in H. destruct H as [_ H]. rewrite F1, Forall_app, Forall_cons_iff in H.
        destruct H as [_ [H _]]. rewrite every_eq in H |- *. destruct c as [cm cp cs cpt cc]; assumption. }
      assert (G : forall x, every (narrow (S k)) x -> every (narrow (S k)) (set_children n (before ++ x :: after))).
      { intros x Hx. apply every_children.
        - unfold narrow. destruct n as [nm np ns npt nc]; cbn [n_ch set_children]. rewrite app_length. cbn [List.length]. lia.
        - rewrite Forall_app, Forall_cons_iff. auto. }
      assert (Hc' : every (narrow (S k)) (raise_max c (max_at p idx))) by (apply (every_narrow_mono k); [lia|assumption]).
      destruct rest as [|s2 rest].
      * destruct (is_leaf (raise_max c (max_at p idx))); cbn [fst]; apply G; [assumption|].
        rewrite every_eq in Hc' |- *. destruct c as [cm cp cs cpt cc]; assumption.
      * specialize (IH (S idx) (raise_max c (max_at p idx)) Hc).
        destruct (add_segs ci p (S idx) (s2 :: rest) (raise_max c (max_at p idx))). cbn [fst] in *. auto.
    + specialize (IH (S idx)
        (Node (max_at p idx) (p_prio p) s (match rest with [] => Some p | _ => None end) [])).
      destruct (add_segs ci p (S idx) rest _) as [c2 dup2]. cbn [fst] in *.
      apply every_children.
      * unfold narrow. destruct n as [nm np ns npt nc]; cbn [n_ch set_children] in *.
        rewrite (Permutation_length (sort_children_perm _)), app_length. simpl. lia.
      * rewrite sort_children_perm, Forall_app. split; [assumption|]. constructor; [|constructor].
        apply IH. apply every_eq. split; [|constructor]. unfold narrow. simpl. lia.
Qed.

(** No ** directly below **. *)
Definition multi_seg (s : segment) : Prop := s_mt s = MTMulti.
Definition no_multi_below (n : node) : Prop :=
  multi_seg (n_seg n) -> Forall (fun c => ~ multi_seg (n_seg c)) (n_ch n).

(** No two adjacent ** among segments. *)
Fixpoint spaced (segs : list segment) : Prop :=
  match segs with
  | [] => True
  | s :: rest => match rest with
                 | [] => True
                 | s2 :: _ => ~ (multi_seg s /\ multi_seg s2)
                 end /\ spaced rest
  end.

Lemma has_same_mt : forall ci a b, has_same_val ci a b = true -> s_mt a = s_mt b.
Proof.
  intros ci a b H. unfold has_same_val in H. apply andb_true_iff in H. destruct H as [H _].
  apply mt_eqb_eq in H. assumption.
Qed.

Lemma add_segs_spaced : forall ci p segs idx n,
  every no_multi_below n -> spaced segs ->
  (match segs with s :: _ => ~ (multi_seg (n_seg n) /\ multi_seg s) | [] => True end) ->
  every no_multi_below (fst (add_segs ci p idx segs n)).
Proof.
  intros ci p. induction segs as [|s rest IH]; intros idx n H Hsp Hs; [assumption|].
  destruct Hsp as [Hsp1 Hsp2].
  cbn [add_segs]. apply every_eq in H. destruct H as [H1 H2].
  destruct (find_child ci s (n_ch n)) as [[[before c] after]|] eqn:F.
  - apply find_child_some in F. destruct F as [F1 [F2 _]]. apply has_same_mt in F2.
    rewrite F1 in H2. rewrite Forall_app, Forall_cons_iff in H2. destruct H2 as [U1 [U2 U3]].
    assert (Hseg : forall mx, n_seg (raise_max c mx) = n_seg c) by (intros; destruct c as [cm cp cs cpt cc]; reflexivity).
    assert (Hc : every no_multi_below (raise_max c (max_at p idx))).
    { rewrite every_eq in U2 |- *. destruct c as [cm cp cs cpt cc]; assumption. }
    assert (G : forall x, n_seg x = n_seg c -> every no_multi_below x ->
                every no_multi_below (set_children n (before ++ x :: after))).
    { intros x Hxs Hx. apply every_children.
      - unfold no_multi_below. destruct n as [nm np ns npt nc]; cbn [n_seg n_ch set_children] in *. intros Hm.
        specialize (H1 Hm). cbn [n_ch] in H1. rewrite F1 in H1. rewrite Forall_app, Forall_cons_iff in *.
        rewrite Hxs. assumption.
      - rewrite Forall_app, Forall_cons_iff. auto. }
    destruct rest as [|s2 rest].
    + destruct (is_leaf (raise_max c (max_at p idx))); cbn [fst]; apply G.
      * apply Hseg.
      * assumption.
      * destruct c as [cm cp cs cpt cc]; reflexivity.
      * rewrite every_eq in Hc |- *. destruct c as [cm cp cs cpt cc]; assumption.
    + pose proof (add_segs_keeps ci p (s2 :: rest) (S idx) (raise_max c (max_at p idx))) as K.
      specialize (IH (S idx) (raise_max c (max_at p idx)) Hc Hsp2).
      destruct (add_segs ci p (S idx) (s2 :: rest) (raise_max c (max_at p idx))) as [c2 dup2].
      cbn [fst] in *. destruct K as [K1 _]. apply G; [rewrite K1; apply Hseg|].
      apply IH. rewrite Hseg. unfold multi_seg in *. rewrite F2. assumption.
  - pose proof (add_segs_keeps ci p rest (S idx)
        (Node (max_at p idx) (p_prio p) s (match rest with [] => Some p | _ => None end) [])) as K.
    specialize (IH (S idx)
        (Node (max_at p idx) (p_prio p) s (match rest with [] => Some p | _ => None end) [])).
    destruct (add_segs ci p (S idx) rest _) as [c2 dup2]. cbn [fst] in *.
    destruct K as [K1 _]. cbn [n_seg] in K1.
    apply every_children.
    + unfold no_multi_below. destruct n as [nm np ns npt nc]; cbn [n_seg n_ch set_children] in *. intros Hm.
      rewrite sort_children_perm, Forall_app. split; [apply H1; assumption|].
      constructor; [|constructor]. rewrite K1. intros Hm2. apply Hs. auto.
    + rewrite sort_children_perm, Forall_app. split; [assumption|]. constructor; [|constructor].
      apply IH; [|assumption|].
      * apply every_eq. split; [|constructor]. intros _. constructor.
      * cbn [n_seg]. destruct rest; assumption.
Qed.

Lemma tree_ok_every : forall n k, (N.of_nat k < 65536)%N ->
  every (narrow k) n -> every no_multi_below n -> tree_ok n.
Proof.
  intros n k Hk. induction n as [mx pr sg pt ch IH] using node_ind'. rewrite !every_eq, tree_ok_eq.
  cbn [n_ch n_seg]. intros [H1 H2] [H3 H4]. unfold narrow in H1. unfold no_multi_below, multi_seg in H3.
  cbn [n_ch n_seg] in *. split; [lia|]. split; [assumption|]. rewrite Forall_forall in *. auto.
Qed.

(** ** Maxima *)

Fixpoint maxes (n : node) (idx : nat) {struct n} : Prop :=
  match n with
  | Node _ _ _ _ ch =>
      (fix all (l : list node) : Prop :=
         match l with
         | [] => True
         | c :: l' => ((forall path q, In (path, q) (branch c) -> (max_at q idx <= n_max c)%N) /\
                       maxes c (S idx)) /\ all l'
         end) ch
  end.

Lemma maxes_eq : forall n idx, maxes n idx <->
  Forall (fun c => (forall path q, In (path, q) (branch c) -> (max_at q idx <= n_max c)%N) /\
                   maxes c (S idx)) (n_ch n).
Proof.
  intros [mx pr sg pt ch] idx. cbn [maxes n_ch].
  induction ch as [|c ch IH]; [split; constructor|]. rewrite Forall_cons_iff, IH. tauto.
Qed.

Lemma raise_max_ge : forall c mx, (mx <= n_max (raise_max c mx))%N /\ (n_max c <= n_max (raise_max c mx))%N.
Proof.
  intros [m pr sg pt ch] mx. cbn [raise_max n_max]. destruct (m <? mx)%N eqn:E.
  - apply N.ltb_lt in E. lia.
  - apply N.ltb_ge in E. lia.
Qed.

Lemma add_segs_from : forall ci p segs idx n path q,
  In (path, q) (leaves (fst (add_segs ci p idx segs n))) -> q = p \/ In (path, q) (leaves n).
Proof.
  intros ci p segs idx n path q H. destruct segs as [|s rest]; [right; assumption|].
  destruct (add_segs ci p idx (s :: rest) n) as [n' dup] eqn:E. cbn [fst] in H.
  apply add_segs_leaves in E; [|discriminate]. destruct dup.
  - destruct E as [_ [_ [_ [_ E]]]]. rewrite E in H. auto.
  - destruct E as [path' [_ E]]. rewrite E in H. destruct H as [H|H]; [left; congruence|auto].
Qed.

Lemma add_segs_maxes : forall ci p segs idx n,
  maxes n idx -> maxes (fst (add_segs ci p idx segs n)) idx.
Proof.
  intros ci p. induction segs as [|s rest IH]; intros idx n H; [assumption|].
  cbn [add_segs]. rewrite maxes_eq in H.
  destruct (find_child ci s (n_ch n)) as [[[before c] after]|] eqn:F.
  - apply find_child_some in F. destruct F as [F1 _]. rewrite F1 in H.
    rewrite Forall_app, Forall_cons_iff in H. destruct H as [U1 [[U2 U3] U4]].
    assert (Hc : maxes (raise_max c (max_at p idx)) (S idx)).
    { rewrite maxes_eq in U3 |- *. destruct c as [cm cp cs cpt cc]; assumption. }
    pose proof (raise_max_ge c (max_at p idx)) as [G1 G2].
    assert (G : forall x, (n_max (raise_max c (max_at p idx)) <= n_max x)%N -> maxes x (S idx) ->
       (forall path q, In (path, q) (branch x) -> q = p \/ In (path, q) (branch c)) ->
       maxes (set_children n (before ++ x :: after)) idx).
    { intros x Hm Hx Hf. rewrite maxes_eq. destruct n as [nm np ns npt nc]. cbn [n_ch set_children].
      rewrite Forall_app, Forall_cons_iff. split; [assumption|]. split; [|assumption].
      split; [|assumption]. intros path q Hq. destruct (Hf _ _ Hq) as [->|Hq']; [lia|].
      specialize (U2 _ _ Hq'). lia. }
    destruct rest as [|s2 rest].
    + destruct (is_leaf (raise_max c (max_at p idx))) eqn:El; cbn [fst]; apply G.
      * lia.
      * assumption.
      * intros path q Hq. rewrite branch_raise in Hq. auto.
      * destruct c as [cm cp cs cpt cc]; cbn; lia.
      * rewrite maxes_eq in Hc |- *. destruct c as [cm cp cs cpt cc]; assumption.
      * intros path q Hq. destruct c as [cm cp cs cpt cc]. apply in_branch in Hq.
        destruct Hq as [[-> Hq]|Hq]; [left; cbn in Hq; congruence|].
        right. apply in_branch. right. assumption.
    + specialize (IH (S idx) (raise_max c (max_at p idx)) Hc).
      pose proof (add_segs_keeps ci p (s2 :: rest) (S idx) (raise_max c (max_at p idx))) as K.
      pose proof (add_segs_from ci p (s2 :: rest) (S idx) (raise_max c (max_at p idx))) as Fr.
      destruct (add_segs ci p (S idx) (s2 :: rest) (raise_max c (max_at p idx))) as [c2 dup2].
      cbn [fst] in *. destruct K as [K1 [K2 [K3 _]]]. apply G; [lia|assumption|].
      intros path q Hq. apply in_branch in Hq. rewrite K1, K2 in Hq.
      assert (Hs : n_seg (raise_max c (max_at p idx)) = n_seg c) by (destruct c as [cm cp cs cpt cc]; reflexivity).
      assert (Hp : n_pat (raise_max c (max_at p idx)) = n_pat c) by (destruct c as [cm cp cs cpt cc]; reflexivity).
      rewrite Hs, Hp in Hq. destruct Hq as [[-> Hq]|[l' [-> Hq]]].
      * right. apply in_branch. left. auto.
      * destruct (Fr _ _ Hq) as [->|Hq']; [auto|]. right. apply in_branch. right.
        rewrite leaves_raise in Hq'. eauto.
  - specialize (IH (S idx)
        (Node (max_at p idx) (p_prio p) s (match rest with [] => Some p | _ => None end) [])).
    pose proof (add_segs_keeps ci p rest (S idx)
        (Node (max_at p idx) (p_prio p) s (match rest with [] => Some p | _ => None end) [])) as K.
    pose proof (add_segs_from ci p rest (S idx)
        (Node (max_at p idx) (p_prio p) s (match rest with [] => Some p | _ => None end) [])) as Fr.
    destruct (add_segs ci p (S idx) rest _) as [c2 dup2]. cbn [fst] in *.
    destruct K as [K1 [K2 [K3 _]]]. cbn [n_seg n_pat n_max] in K1, K2, K3.
    rewrite maxes_eq. destruct n as [nm np ns npt nc]. cbn [n_ch set_children] in *.
    rewrite sort_children_perm, Forall_app. split; [assumption|]. constructor; [|constructor].
    split.
    + intros path q Hq. apply in_branch in Hq. rewrite K2 in Hq. rewrite K3.
      destruct Hq as [[_ Hq]|[l' [_ Hq]]].
      * destruct rest; [injection Hq as <-; lia|discriminate].
      * destruct (Fr _ _ Hq) as [->|[]]. lia.
    + apply IH. rewrite maxes_eq. constructor.
Qed.

Lemma raise_max_id : forall c mx, (mx <= n_max c)%N -> raise_max c mx = c.
Proof.
  intros [m pr sg pt ch] mx H. unfold raise_max. cbn [n_max n_prio n_seg n_pat n_ch] in *.
  destruct (m <? mx)%N eqn:E; [apply N.ltb_lt in E; lia|reflexivity].
Qed.
Lemma set_children_id : forall n l, n_ch n = l -> set_children n l = n.
Proof. intros [m pr sg pt ch] l H. cbn in *. subst. reflexivity. Qed.

(** A refused registration leaves the tree as it was. *)
Lemma add_segs_refused : forall ci p segs idx n n',
  add_segs ci p idx segs n = (n', true) -> maxes n idx ->
  (forall path q i, In (path, q) (leaves n) -> Forall2 (fun a b => has_same_val ci a b = true) path segs ->
     max_at q i = max_at p i) ->
  n' = n.
Proof.
  intros ci p. induction segs as [|s rest IH]; intros idx n n' H Hm Hq; [discriminate|].
  cbn [add_segs] in H. destruct (find_child ci s (n_ch n)) as [[[before c] after]|] eqn:F.
  - apply find_child_some in F. destruct F as [F1 [F2 _]].
    rewrite maxes_eq, F1, Forall_app, Forall_cons_iff in Hm. destruct Hm as [_ [[M1 M2] _]].
    assert (Hin : forall path q, In (path, q) (branch c) -> In (path, q) (leaves n)).
    { intros path q Hb. apply in_leaves. exists c. split; [rewrite F1; apply in_or_app; right; left; reflexivity|assumption]. }
    destruct rest as [|s2 rest].
    + destruct (is_leaf (raise_max c (max_at p idx))) eqn:El; [|discriminate].
      injection H as <-.
      assert (Hp : exists q, n_pat c = Some q).
      { destruct c as [m pr sg pt ch]. unfold is_leaf in El. cbn in El. destruct pt; [eexists; reflexivity|discriminate]. }
      destruct Hp as [q Hp].
      assert (Hb : In ([n_seg c], q) (branch c)) by (apply in_branch; left; auto).
      rewrite raise_max_id.
      * apply set_children_id. assumption.
      * rewrite <- (Hq [n_seg c] q idx); [eapply M1; eassumption|auto|].
        constructor; [assumption|constructor].
    + destruct (add_segs ci p (S idx) (s2 :: rest) (raise_max c (max_at p idx))) as [c2 dup2] eqn:E.
      injection H as <- ->.
      pose proof (add_segs_leaves _ _ _ _ _ _ _ E ltac:(discriminate)) as L. cbn iota in L.
      destruct L as [path [q [L1 [L2 _]]]]. rewrite leaves_raise in L1.
      assert (Hb : In (n_seg c :: path, q) (branch c)) by (apply in_branch; right; eauto).
      assert (Hr : raise_max c (max_at p idx) = c).
      { apply raise_max_id. rewrite <- (Hq (n_seg c :: path) q idx); [eapply M1; eassumption|auto|].
        constructor; assumption. }
      rewrite Hr in E. specialize (IH _ _ _ E M2).
      rewrite IH.
      * apply set_children_id. assumption.
      * intros path' q' i Hl Hf. apply (Hq (n_seg c :: path') q' i).
        -- apply Hin. apply in_branch. right. eauto.
        -- constructor; assumption.
  - destruct (add_segs ci p (S idx) rest _) as [c2 dup2] eqn:E. injection H as <- ->.
    destruct rest as [|s2 rest]; [discriminate|].
    pose proof (add_segs_leaves _ _ _ _ _ _ _ E ltac:(discriminate)) as L. cbn iota in L.
    destruct L as [path [q [[] _]]].
Qed.

(** ** The search finds only routes of the tree *)

Section Sound.
Variable re : engine.
Variable ci : bool.
Variable path : bytes.

(** [covers l us ms]: the pieces [l] cover the segments [us], annotated [ms]. *)
Inductive covers : list segment -> list useg -> list mtype -> Prop :=
| cov_nil : covers [] [] []
| cov_one : forall s l u us m ms,
    seg_match re ci path s u = SMt m -> m <> MTUnknown -> m <> MTMulti ->
    covers l us ms -> covers (s :: l) (u :: us) (m :: ms)
| cov_multi_last : forall s us, s_mt s = MTMulti -> us <> [] ->
    covers [s] us (map (fun _ => MTMulti) us)
| cov_multi : forall s l vs us ms, s_mt s = MTMulti -> l <> [] -> covers l us ms ->
    covers (s :: l) (vs ++ us) (map (fun _ => MTMulti) vs ++ ms).

Lemma sfx_found : forall f gch vs p ms, sfx re ci path f gch vs = Found p ms ->
  exists a b ms', vs = a ++ b /\ f b = Found p ms' /\ ms = map (fun _ => MTMulti) a ++ ms'.
Proof.
  intros f gch. induction vs as [|v vs IH]; intros p ms H; [discriminate|].
  cbn [sfx] in H. fold (sfx re ci path f gch) in H.
  assert (Hgo : cons_mt MTMulti (sfx re ci path f gch vs) = Found p ms ->
    exists a b ms', v :: vs = a ++ b /\ f b = Found p ms' /\ ms = map (fun _ => MTMulti) a ++ ms').
  { intros E. destruct (sfx re ci path f gch vs) as [p' ms'| | |] eqn:Es; try discriminate.
    cbn [cons_mt] in E. injection E as -> <-. destruct (IH _ _ eq_refl) as [a [b [ms2 [E1 [E2 E3]]]]].
    exists (v :: a), b, ms2. split; [rewrite E1; reflexivity|]. split; [assumption|]. rewrite E3. reflexivity. }
  destruct (some_matches re ci path gch v); [auto| |discriminate].
  destruct (f (v :: vs)) as [p' ms'| | |] eqn:Ef; try discriminate; [|auto].
  injection H as -> ->. exists [], (v :: vs), ms. auto.
Qed.

Lemma dfs_sound : forall n d us p ms, dfs re ci path n d us = Found p ms ->
  exists l, In (l, p) (leaves n) /\ covers l us ms.
Proof.
  induction n as [mx pr sg pt ch IH] using node_ind'. intros d us p ms H.
  rewrite dfs_eq in H. destruct us as [|u us']; [discriminate|].
  destruct (Nat.leb 19 d); [discriminate|]. cbn [n_ch] in H.
  cut (exists l c, In c ch /\ In (l, p) (branch c) /\ covers l (u :: us') ms).
  { intros [l [c [H1 [H2 H3]]]]. exists l. split; [|assumption]. apply in_leaves. exists c. auto. }
  induction ch as [|c ch IHch]; [discriminate|].
  rewrite Forall_cons_iff in IH. destruct IH as [IHc IHr].
  cbn [kids] in H. fold (kids re ci path (fun c vs => dfs re ci path c (S d) vs) u us') in H.
  assert (Hgo : kids re ci path (fun c vs => dfs re ci path c (S d) vs) u us' ch = Found p ms ->
    exists l c0, In c0 (c :: ch) /\ In (l, p) (branch c0) /\ covers l (u :: us') ms).
  { intros E. destruct (IHch IHr E) as [l [c0 [H1 H2]]]. exists l, c0. split; [right; assumption|assumption]. }
  destruct (negb (can_match_len c (N.of_nat (S (List.length us'))))); [auto|].
  destruct (seg_match re ci path (n_seg c) u) as [m|] eqn:Em; [|discriminate].
  assert (Hlit : m <> MTUnknown -> m <> MTMulti ->
    match us' with
    | [] => match n_pat c with Some p => Found p [m] | None => Fail end
    | _ => match dfs re ci path c (S d) us' with
           | Fail => kids re ci path (fun c vs => dfs re ci path c (S d) vs) u us' ch
           | r => cons_mt m r
           end
    end = Found p ms ->
    exists l c0, In c0 (c :: ch) /\ In (l, p) (branch c0) /\ covers l (u :: us') ms).
  { intros Hm1 Hm2 E. destruct us' as [|u2 us2].
    - destruct (n_pat c) as [q|] eqn:Ep; [|discriminate]. injection E as -> <-.
      exists [n_seg c], c. split; [left; reflexivity|]. split; [apply in_branch; left; auto|].
      constructor; auto. constructor.
    - destruct (dfs re ci path c (S d) (u2 :: us2)) as [q ms'| | |] eqn:Ed; try discriminate; [|auto].
      cbn [cons_mt] in E. injection E as -> <-. destruct (IHc _ _ _ _ Ed) as [l [H1 H2]].
      exists (n_seg c :: l), c. split; [left; reflexivity|]. split; [apply in_branch; right; eauto|].
      constructor; auto. }
  destruct m; try (apply Hlit; [discriminate|discriminate|assumption]); [auto|].
  apply seg_match_multi in Em.
  assert (Hsf : sfx re ci path (fun vs => dfs re ci path c (S d) vs) (n_ch c) (u :: us') = Found p ms ->
    exists l c0, In c0 (c :: ch) /\ In (l, p) (branch c0) /\ covers l (u :: us') ms).
  { intros E. apply sfx_found in E. destruct E as [a [b [ms' [E1 [E2 E3]]]]].
    destruct (IHc _ _ _ _ E2) as [l [H1 H2]]. exists (n_seg c :: l), c.
    split; [left; reflexivity|]. split; [apply in_branch; right; eauto|].
    rewrite E1, E3. apply cov_multi; auto. eapply leaf_path_not_nil; eauto. }
  destruct (n_ch c) as [|g gs] eqn:Eg; [destruct (n_pat c) as [q|] eqn:Ep|]; [|auto|auto].
  injection H as -> <-. exists [n_seg c], c. split; [left; reflexivity|].
  split; [apply in_branch; left; auto|]. apply (cov_multi_last (n_seg c) (u :: us')); [assumption|discriminate].
Qed.

End Sound.
