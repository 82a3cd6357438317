(** * Proofs about the steps of a registration and of a request between them. *)
From Coq Require Import List NArith ZArith Ascii String Bool Lia Arith Permutation Sorted.
From Verif Require Import GoBase Sort_Model Glob_Model Pattern_Model Url_Model Match_Model Sort_Proofs Filled_Spec Order_Proofs
  RegRace_Model RegRace_Spec RegRace_Proofs.
Import ListNotations.
Local Open Scope list_scope.
Local Open Scope nat_scope.

(** ** What sorting gives *)

Lemma strongly_map {A B} (R : B -> B -> Prop) (f : A -> B) l : StronglySorted R (map f l) -> StronglySorted (fun x y => R (f x) (f y)) l.
Proof.
  induction l as [|a l IH]; intros H; [constructor|]. inversion H; subst. constructor; [auto|].
  rewrite Forall_map in *. assumption.
Qed.
Lemma strongly_pair {A} (R : A -> A -> Prop) l : StronglySorted R l -> forall a b, In a l -> In b l -> a = b \/ R a b \/ R b a.
Proof.
  induction 1 as [|x l S IH F]; intros a b Ia Ib; [contradiction|]. rewrite Forall_forall in F.
  destruct Ia as [<-|Ia]; destruct Ib as [<-|Ib]; auto.
Qed.
Lemma strongly_impl {A} (R Q : A -> A -> Prop) l : (forall a b, R a b -> Q a b) -> StronglySorted R l -> StronglySorted Q l.
Proof. intros I. induction 1; constructor; auto. eapply Forall_impl; [|eassumption]. auto. Qed.

Lemma stable_target {A} (f : A -> node) l l0 : in_order (map f l) -> Permutation l0 l ->
  stable (fun i j => child_less (f i) (f j)) l0 = l.
Proof.
  intros O P.
  destruct (stable_ok (fun i j => child_less (f i) (f j)) (fun i j => child_less (f i) (f j) = true)) with (l := l0) as [Q S].
  - intros x y z. apply child_less_trans.
  - auto.
  - intros x y H. apply child_less_iff. left. apply child_less_not. assumption.
  - symmetry. pose proof (strongly_map _ _ _ O) as SO. eapply sorted_unique with (le := fun i j => child_less (f i) (f j) = true).
    + eapply strongly_impl; [|exact SO]. intros a b H. apply child_less_iff. auto.
    + assumption.
    + rewrite Q. symmetry. assumption.
    + intros a b Ia Ib H1 H2. destruct (strongly_pair _ _ SO a b Ia Ib) as [E|[E|E]]; [assumption| |].
      * apply child_less_iff in H2. destruct H2 as [H2|[H2 H3]].
        -- exfalso. exact (stands_irrefl _ (stands_trans _ _ _ E H2)).
        -- exfalso. destruct E as [E|[_ E]]; [lia|]. rewrite H3 in E. exact (before_irrefl _ E).
      * apply child_less_iff in H1. destruct H1 as [H1|[H1 H3]].
        -- exfalso. exact (stands_irrefl _ (stands_trans _ _ _ E H1)).
        -- exfalso. destruct E as [E|[_ E]]; [lia|]. rewrite H3 in E. exact (before_irrefl _ E).
Qed.

Lemma order_insert pre post x : in_order (pre ++ post) -> Forall (fun c => stands_before c x) pre -> Forall (stands_before x) post ->
  in_order (pre ++ x :: post).
Proof.
  unfold in_order. induction pre as [|a pre IH]; cbn [List.app]; intros S F G.
  - constructor; assumption.
  - inversion S; subst. inversion F; subst. constructor; [apply IH; assumption|].
    rewrite Forall_app in *. destruct H2. split; [assumption|]. constructor; assumption.
Qed.

Lemma map_nth_mid {A} (d : A) a b c : map (fun i => nth i (a ++ b ++ c) d) (seq (List.length a) (List.length b)) = b.
Proof.
  revert a. induction b as [|x b IH]; intros a; [reflexivity|]. cbn [List.length seq map List.app]. f_equal.
  - rewrite app_nth2 by lia. rewrite Nat.sub_diag. reflexivity.
  - specialize (IH (a ++ [x])). rewrite app_length in IH. cbn [List.length] in IH. rewrite Nat.add_1_r in IH.
    rewrite <- IH at 2. apply map_ext. intros i. rewrite <- app_assoc. reflexivity.
Qed.

Lemma forall2_length {A B} (R : A -> B -> Prop) l l' : Forall2 R l l' -> List.length l = List.length l'.
Proof. induction 1; cbn [List.length]; congruence. Qed.

Section Steps.
Variables pre post : list node.
Variable cap : nat.
Variable fresh : node.
Let olds := pre ++ post.
Let n := List.length olds.
Let k := List.length pre.
Hypothesis order : in_order (pre ++ post).
Hypothesis after_pre : Forall (fun c => stands_before c fresh) pre.
Hypothesis before_post : Forall (stands_before fresh) post.

(** The pointers in the order after the registration. *)
Definition ids : list nat := seq 0 k ++ n :: seq k (n - k).

Lemma n_split : n = k + List.length post.
Proof. unfold n, olds, k. apply app_length. Qed.
Lemma ids_length : List.length ids = S n.
Proof. unfold ids. rewrite app_length. cbn [List.length]. rewrite !seq_length. pose proof n_split. lia. Qed.
Lemma seq_split : seq 0 n = seq 0 k ++ seq k (n - k).
Proof. pose proof n_split as N. rewrite <- seq_app. f_equal. lia. Qed.

Lemma nodes_olds mx : map (node_at olds fresh mx) (seq 0 n) = olds.
Proof. exact (map_nth_mid fresh [] olds [with_max fresh mx]). Qed.
Lemma nodes_pre mx : map (node_at olds fresh mx) (seq 0 k) = pre.
Proof.
  etransitivity; [|exact (map_nth_mid fresh [] pre (post ++ [with_max fresh mx]))].
  apply map_ext. intros i. unfold node_at, olds. rewrite <- app_assoc. reflexivity.
Qed.
Lemma nodes_post mx : map (node_at olds fresh mx) (seq k (n - k)) = post.
Proof.
  pose proof n_split as N. replace (n - k) with (List.length post) by lia.
  etransitivity; [|exact (map_nth_mid fresh pre post [with_max fresh mx])].
  apply map_ext. intros i. unfold node_at, olds. rewrite <- app_assoc. reflexivity.
Qed.
Lemma node_new mx : node_at olds fresh mx n = with_max fresh mx.
Proof. unfold node_at. rewrite app_nth2 by (fold n; lia). fold n. rewrite Nat.sub_diag. reflexivity. Qed.
Lemma nodes_ids mx : map (node_at olds fresh mx) ids = pre ++ with_max fresh mx :: post.
Proof. unfold ids. rewrite map_app. cbn [map]. rewrite nodes_pre, nodes_post, node_new. reflexivity. Qed.

Lemma sorted_ids : stable (ptr_less olds fresh) (seq 0 n ++ [n]) = ids.
Proof.
  apply (stable_target (node_at olds fresh 0)).
  - rewrite nodes_ids. apply order_insert; assumption.
  - unfold ids. rewrite seq_split, <- app_assoc. apply Permutation_app_head. symmetry. apply (Permutation_app_comm [n]).
Qed.
Lemma sorted_nodes : sort_children (olds ++ [fresh]) = pre ++ fresh :: post.
Proof.
  apply (stable_target (fun x => x)).
  - rewrite map_id. apply order_insert; assumption.
  - unfold olds. rewrite <- app_assoc. apply Permutation_app_head. symmetry. apply (Permutation_app_comm [fresh]).
Qed.

(** ** The states of a registration *)

Definition place : bool := n <? cap.
Definition arrays_at (pc : wpc) : list (list nat) :=
  match pc with
  | AtAppend => [seq 0 n]
  | AtSort => if place then [seq 0 n ++ [n]] else [seq 0 n; seq 0 n ++ [n]]
  | _ => if place then [ids] else [seq 0 n; ids]
  end.
Definition mine_at (pc : wpc) : nat :=
  match pc with AtAppend => 0 | _ => if place then 0 else 1 end.
Definition head_at (pc : wpc) : nat * nat :=
  match pc with AtMax | AtEnd => (mine_at AtMax, S n) | _ => (0, n) end.
Definition bound_at (pc : wpc) : N := match pc with AtEnd => n_max fresh | _ => 0%N end.
Definition state_at (pc : wpc) (l : lookup) : reg := Reg (arrays_at pc) (head_at pc) (mine_at pc) (bound_at pc) pc l.
Definition next_pc (pc : wpc) : wpc :=
  match pc with AtAppend => AtSort | AtSort => AtStore | AtStore => AtMax | _ => AtEnd end.

Lemma step_next pc l : reg_step olds cap fresh (state_at pc l) = state_at (next_pc pc) l.
Proof.
  destruct pc; unfold reg_step, state_at; cbn [g_pc g_head g_arrays g_mine g_max g_lookup head_at fst snd nth arrays_at mine_at next_pc bound_at].
  - fold n. change (n <? cap) with place. cbn [nth]. replace (firstn n (seq 0 n)) with (seq 0 n) by (symmetry; apply firstn_all2; rewrite seq_length; lia). destruct place; reflexivity.
  - destruct place; cbn [nth]; rewrite sorted_ids; reflexivity.
  - destruct place; reflexivity.
  - destruct place; reflexivity.
  - reflexivity.
Qed.

(** What a request may have read from a pointer. *)
Definition reads (i : nat) (v : node) : Prop := v = node_at olds fresh 0 i \/ v = node_at olds fresh (n_max fresh) i.

Definition sorted_pc (pc : wpc) : bool := match pc with AtAppend | AtSort => false | _ => true end.
Definition stored_pc (pc : wpc) : bool := match pc with AtMax | AtEnd => true | _ => false end.

Definition lookup_ok (pc : wpc) (l : lookup) : Prop :=
  match l with
  | NotBegun => True
  | Looking a len seen => exists is, Forall2 reads is seen /\
      (a = 0 /\ len = n /\ List.length is <= n /\
         (exists j, j <= List.length is /\ is = firstn j (seq 0 n) ++ firstn (List.length is - j) (skipn j ids) /\
            ((place = true /\ sorted_pc pc = true) \/ j = List.length is)) \/
       a = mine_at AtMax /\ len = S n /\ stored_pc pc = true /\ is = firstn (List.length is) ids)
  end.

Lemma ok_next pc l : lookup_ok pc l -> lookup_ok (next_pc pc) l.
Proof.
  destruct l as [|a len seen]; [exact (fun H => H)|]. intros (is & R & [(A & B & C & j & D & E & F)|(A & B & C & D)]).
  - exists is. split; [assumption|]. left. split; [assumption|]. split; [assumption|]. split; [assumption|].
    exists j. split; [assumption|]. split; [assumption|]. destruct F as [[F G]|F]; [|right; assumption]. left. split; [assumption|].
    destruct pc; cbn in *; congruence.
  - exists is. split; [assumption|]. right. split; [assumption|]. split; [assumption|]. split; [|assumption].
    destruct pc; cbn in *; congruence.
Qed.

Lemma firstn_S_nth {A} (l : list A) i x : nth_error l i = Some x -> firstn (S i) l = firstn i l ++ [x].
Proof.
  revert i. induction l as [|a l IH]; intros [|i] H; try discriminate.
  - cbn in H. injection H as ->. reflexivity.
  - cbn [firstn List.app]. f_equal. apply IH. assumption.
Qed.
Lemma nth_error_skip {A} (l : list A) i j : nth_error (skipn i l) j = nth_error l (i + j).
Proof. revert i. induction l as [|a l IH]; intros [|i]; cbn; try reflexivity; [destruct j; reflexivity|apply IH]. Qed.

Lemma ok_lookup pc l : lookup_ok pc l -> exists l', lookup_step olds fresh (state_at pc l) = state_at pc l' /\ lookup_ok pc l'.
Proof.
  destruct l as [|a len seen]; intros H; unfold lookup_step, state_at; cbn [g_lookup g_head g_arrays g_mine g_max g_pc].
  - eexists. split; [reflexivity|]. exists []. split; [constructor|]. destruct pc; cbn [head_at fst snd].
    1,2,3: left; split; [reflexivity|]; split; [reflexivity|]; split; [cbn; lia|];
      exists 0; split; [cbn; lia|]; split; [reflexivity|]; right; reflexivity.
    1,2: right; split; [reflexivity|]; split; [reflexivity|]; split; reflexivity.
  - destruct H as (is & R & H). pose proof (forall2_length _ _ _ R) as L.
    destruct (Nat.ltb_spec (List.length seen) len) as [Lt|Ge].
    2: { eexists. split; [reflexivity|]. exists is. split; assumption. }
    destruct (nth_error (nth a (arrays_at pc) []) (List.length seen)) as [i|] eqn:Ni.
    2: { eexists. split; [reflexivity|]. exists is. split; assumption. }
    eexists. split; [reflexivity|].
    assert (RI : Forall2 reads (is ++ [i]) (seen ++ [node_at olds fresh (bound_at pc) i])).
    { apply Forall2_app; [assumption|]. constructor; [|constructor]. unfold reads. destruct pc; cbn [bound_at]; auto. }
    exists (is ++ [i]). split; [assumption|]. rewrite app_length. cbn [List.length]. rewrite Nat.add_1_r.
    destruct H as [(A & B & C & j & D & E & F)|(A & B & C & D)].
    + left. subst a len. split; [reflexivity|]. split; [reflexivity|]. split; [lia|].
      assert (Old : (place = true /\ sorted_pc pc = true) /\ nth 0 (arrays_at pc) [] = ids \/
                    nth_error (nth 0 (arrays_at pc) []) (List.length seen) = nth_error (seq 0 n) (List.length seen)).
      { destruct pc; unfold arrays_at; [right; reflexivity|right|..].
        - destruct place; cbn [nth]; [|reflexivity]. apply nth_error_app1. rewrite seq_length. assumption.
        - destruct place; cbn [nth]; auto.
        - destruct place; cbn [nth]; auto.
        - destruct place; cbn [nth]; auto. }
      destruct F as [[P Sd]|F].
      * assert (nth 0 (arrays_at pc) [] = ids) as Ids by (destruct pc; cbn in Sd; try discriminate Sd; unfold arrays_at; rewrite P; reflexivity).
        rewrite Ids in Ni. exists j. split; [lia|]. split; [|left; auto].
        rewrite E at 1. rewrite <- app_assoc. f_equal. replace (S (List.length is) - j) with (S (List.length is - j)) by lia.
        symmetry. apply firstn_S_nth. rewrite nth_error_skip. rewrite L. replace (j + (List.length seen - j)) with (List.length seen) by lia. assumption.
      * subst j. rewrite Nat.sub_diag in E. cbn [firstn] in E. rewrite app_nil_r in E.
        destruct Old as [[Srt Ids]|Old].
        -- rewrite Ids in Ni. exists (List.length is). split; [lia|]. split.
           ++ replace (S (List.length is) - List.length is) with 1 by lia. rewrite E at 1. f_equal. symmetry.
              rewrite (firstn_S_nth _ 0 i); [reflexivity|]. rewrite nth_error_skip, Nat.add_0_r, L. assumption.
           ++ left. assumption.
        -- rewrite Old in Ni. exists (S (List.length is)). split; [lia|]. rewrite Nat.sub_diag. cbn [firstn]. rewrite app_nil_r.
           split; [|right; reflexivity]. rewrite E at 1. rewrite L in *. symmetry. apply firstn_S_nth. assumption.
    + right. subst a len. split; [reflexivity|]. split; [reflexivity|]. split; [assumption|].
      assert (nth (mine_at AtMax) (arrays_at pc) [] = ids) as Ids.
      { destruct pc; try discriminate C; unfold arrays_at, mine_at; destruct place; reflexivity. }
      rewrite Ids in Ni. rewrite D at 1. symmetry. apply firstn_S_nth. rewrite L. assumption.
Qed.

Lemma run_ok : forall schedule pc l, lookup_ok pc l ->
  exists pc' l', reg_run olds cap fresh schedule (state_at pc l) = state_at pc' l' /\ lookup_ok pc' l'.
Proof.
  induction schedule as [|w schedule IH]; intros pc l H; [exists pc, l; auto|]. unfold reg_run. cbn [fold_left]. destruct w.
  - rewrite step_next. apply IH. apply ok_next. assumption.
  - destruct (ok_lookup pc l H) as (l' & -> & H'). apply IH. assumption.
Qed.
Lemma start_at : reg_start olds = state_at AtAppend NotBegun.
Proof. reflexivity. Qed.

(** The new node is read once, so all that was read is as of one time. *)
Lemma reads_one : forall is seen, Forall2 reads is seen -> (forall l1 l2, is = l1 ++ n :: l2 -> ~ In n l1 /\ ~ In n l2) ->
  (forall i, In i is -> i <= n) ->
  exists mx, (mx = 0%N \/ mx = n_max fresh) /\ seen = map (node_at olds fresh mx) is.
Proof.
  assert (Old : forall i mx mx', i < n -> node_at olds fresh mx i = node_at olds fresh mx' i).
  { intros i mx mx' H. unfold node_at. rewrite !app_nth1 by assumption. reflexivity. }
  assert (None_ : forall is seen mx, Forall2 reads is seen -> ~ In n is -> (forall i, In i is -> i <= n) -> seen = map (node_at olds fresh mx) is).
  { induction 1 as [|i v is seen R F IH]; intros N B; [reflexivity|]. cbn [map].
    assert (i < n). { specialize (B i (or_introl eq_refl)). destruct (Nat.eq_dec i n); [|lia]. subst. exfalso. apply N. left. reflexivity. }
    f_equal; [destruct R as [-> | ->]; apply Old; assumption|]. apply IH; [intros H'; apply N; right; assumption|].
    intros j J. apply B. right. assumption. }
  intros is seen F Once B. destruct (in_dec Nat.eq_dec n is) as [I|I].
  - apply in_split in I. destruct I as (l1 & l2 & E). destruct (Once l1 l2 E) as [N1 N2]. subst is.
    apply Forall2_app_inv_l in F. destruct F as (s1 & s2 & F1 & F2 & ->). inversion F2 as [|x v ? s3 R F3]; subst.
    assert (exists mx, (mx = 0%N \/ mx = n_max fresh) /\ v = node_at olds fresh mx n) as (mx & M & ->) by (destruct R; eauto).
    exists mx. split; [assumption|]. rewrite map_app. cbn [map]. f_equal; [|f_equal].
    + apply None_; [assumption|assumption|]. intros i H. apply B. apply in_or_app. auto.
    + apply None_; [assumption|assumption|]. intros i H. apply B. apply in_or_app. right. right. assumption.
  - exists 0%N. split; [auto|]. apply None_; assumption.
Qed.

Lemma in_once : forall (l : list nat) x l1 l2, NoDup l -> l = l1 ++ x :: l2 -> ~ In x l1 /\ ~ In x l2.
Proof.
  intros l x l1 l2 D E. rewrite E in D. apply NoDup_remove_2 in D. split; intros H; apply D; apply in_or_app; auto.
Qed.
Lemma nodup_first : forall i (l : list nat), NoDup l -> NoDup (firstn i l).
Proof.
  intros i l D. revert i. induction D as [|x l N D IH]; intros [|i]; cbn [firstn]; constructor; [|apply IH].
  intros H. apply N. rewrite <- (firstn_skipn i l). apply in_or_app. auto.
Qed.
Lemma ids_nodup : NoDup ids.
Proof.
  apply (Permutation_NoDup (l := seq 0 n ++ [n])).
  - unfold ids. rewrite seq_split, <- app_assoc. apply Permutation_app_head. symmetry. apply (Permutation_app_comm [n]).
  - change [n] with (seq (0 + n) 1). rewrite <- seq_app. apply seq_NoDup.
Qed.
Lemma ids_bound i : In i ids -> i <= n.
Proof.
  pose proof n_split. unfold ids. rewrite in_app_iff. cbn [In]. rewrite !in_seq. lia.
Qed.

Lemma first_seq i len : i <= len -> firstn i (seq 0 len) = seq 0 i.
Proof. intros H. replace len with (i + (len - i)) by lia. rewrite seq_app, firstn_app, seq_length, Nat.sub_diag. cbn [firstn]. rewrite app_nil_r. apply firstn_all2. rewrite seq_length. lia. Qed.

(** What a request has read when it has come to the end. *)
Lemma seen_cases schedule a len seen :
  g_lookup (reg_run olds cap fresh schedule (reg_start olds)) = Looking a len seen -> List.length seen = len ->
  seen = olds \/
  (exists mx, (mx = 0%N \/ mx = n_max fresh) /\ seen = pre ++ with_max fresh mx :: post) \/
  place = true /\ post <> [] /\
    ((exists mx, (mx = 0%N \/ mx = n_max fresh) /\ seen = pre ++ with_max fresh mx :: removelast post) \/
     exists a0 y b0, seen = a0 ++ y :: y :: b0 /\ removelast olds = a0 ++ y :: b0).
Proof.
  intros Hl Hn. rewrite start_at in Hl. destruct (run_ok schedule AtAppend NotBegun I) as (pc & l & E & H). rewrite E in Hl.
  cbn [state_at g_lookup] in Hl. subst l. destruct H as (is & R & H). pose proof (forall2_length _ _ _ R) as L.
  pose proof n_split as NS. pose proof ids_length as LI.
  destruct H as [(_ & B & C & j & D & F & G)|(_ & B & _ & D)].
  - assert (List.length is = n) as Li by congruence. rewrite Li in *.
    destruct (Nat.eq_dec j n) as [->|Nj].
    + left. rewrite Nat.sub_diag in F. cbn [firstn] in F. rewrite app_nil_r, first_seq in F by lia. subst is.
      destruct (reads_one _ _ R) as (mx & _ & ->).
      * intros l1 l2 K. exfalso. assert (In n (seq 0 n)) as I by (rewrite K; apply in_elt). apply in_seq in I. lia.
      * intros i I. apply in_seq in I. lia.
      * apply nodes_olds.
    + destruct G as [[P _]|G]; [|congruence].
      destruct (le_lt_dec j k) as [J|J].
      * (* nothing of what was moved had been read *)
        assert (is = firstn n ids) as Is.
        { rewrite F. rewrite first_seq by lia. rewrite <- (firstn_skipn j ids) at 2. rewrite firstn_app.
          assert (firstn j ids = seq 0 j) as ->.
          { unfold ids. rewrite firstn_app, seq_length. replace (j - k) with 0 by lia. cbn [firstn]. rewrite app_nil_r. apply first_seq. assumption. }
          rewrite seq_length. f_equal. symmetry. apply firstn_all2. rewrite seq_length. lia. }
        destruct (reads_one _ _ R) as (mx & M & S0).
        { intros l1 l2 K. apply (in_once is); [|assumption]. rewrite Is. apply nodup_first. apply ids_nodup. }
        { intros i I. apply ids_bound. rewrite Is in I. rewrite <- (firstn_skipn n ids). apply in_or_app. auto. }
        rewrite Is, <- firstn_map, nodes_ids in S0.
        destruct (Nat.eq_dec (List.length post) 0) as [Ep|Ep].
        -- left. rewrite S0. apply length_zero_iff_nil in Ep. unfold olds. rewrite Ep in *. rewrite app_nil_r. rewrite firstn_app. cbn [List.length] in NS.
           replace (n - List.length pre) with 0 by (unfold k in NS; lia). cbn [firstn]. rewrite app_nil_r. apply firstn_all2. unfold k in NS. lia.
        -- right. right. split; [assumption|]. split; [intros Z; rewrite Z in Ep; apply Ep; reflexivity|]. left. exists mx. split; [assumption|]. rewrite S0.
           rewrite firstn_app. unfold k in NS. replace (firstn n pre) with pre by (symmetry; apply firstn_all2; lia). f_equal.
           replace (n - List.length pre) with (S (List.length post - 1)) by lia.
           cbn [firstn]. f_equal. rewrite removelast_firstn_len. f_equal. lia.
      * right. right. split; [assumption|].
        assert (post <> []) as Np. { intros Z. rewrite Z in NS. cbn [List.length] in NS. lia. }
        split; [assumption|]. right.
        assert (skipn j ids = seq (j - 1) (n - (j - 1))) as Sk.
        { unfold ids. rewrite skipn_app, seq_length. rewrite skipn_all2 by (rewrite seq_length; lia). cbn [List.app].
          replace (j - k) with (S (j - 1 - k)) by lia. cbn [skipn].
          replace (n - k) with ((j - 1 - k) + (n - (j - 1))) by lia. rewrite seq_app. rewrite skipn_app, seq_length, Nat.sub_diag.
          rewrite skipn_all2 by (rewrite seq_length; lia). cbn [skipn List.app]. f_equal. lia. }
        rewrite Sk, first_seq in F by lia.
        assert (firstn (n - j) (seq (j - 1) (n - (j - 1))) = seq (j - 1) (n - j)) as Fn.
        { replace (n - (j - 1)) with ((n - j) + 1) by lia. rewrite seq_app, firstn_app, seq_length, Nat.sub_diag. cbn [firstn]. rewrite app_nil_r.
          apply firstn_all2. rewrite seq_length. lia. }
        rewrite Fn in F.
        destruct (reads_one _ _ R) as (mx & M & S0).
        { intros l1 l2 K. exfalso. assert (In n is) as I by (rewrite K; apply in_elt). rewrite F in I. rewrite in_app_iff, !in_seq in I. lia. }
        { intros i I. rewrite F in I. rewrite in_app_iff, !in_seq in I. lia. }
        set (f := node_at olds fresh mx) in *.
        exists (map f (seq 0 (j - 1))), (f (j - 1)), (map f (seq j (n - j - 1))). split.
        -- rewrite S0, F. replace j with ((j - 1) + 1) at 1 by lia. rewrite seq_app. replace (n - j) with (S (n - j - 1)) at 1 by lia.
           cbn [seq]. rewrite !map_app. cbn [map]. rewrite <- app_assoc. cbn [List.app Nat.add]. replace (S (j - 1)) with j by lia. reflexivity.
        -- rewrite <- (nodes_olds mx). fold f. replace n with ((n - 1) + 1) at 1 by lia. rewrite seq_app, map_app. cbn [seq map].
           rewrite removelast_last. replace (n - 1) with ((j - 1) + S (n - j - 1)) by lia. rewrite seq_app, map_app. cbn [seq map Nat.add].
           replace (S (j - 1)) with j by lia. reflexivity.
  - right. left. assert (List.length is = S n) as Li by congruence. rewrite Li in D.
    rewrite firstn_all2 in D by lia. subst is.
    destruct (reads_one _ _ R) as (mx & M & ->).
    + intros l1 l2. apply in_once. apply ids_nodup.
    + apply ids_bound.
    + exists mx. split; [assumption|]. apply nodes_ids.
Qed.

(** The request that begins before the registration and reads after it. *)
Definition unlucky : list bool := false :: true :: true :: true :: true :: repeat false n.
Lemma reading_one seen i : place = true -> nth_error ids (List.length seen) = Some i -> List.length seen < n ->
  lookup_step olds fresh (state_at AtEnd (Looking 0 n seen)) = state_at AtEnd (Looking 0 n (seen ++ [node_at olds fresh (n_max fresh) i])).
Proof.
  intros P Ni Lt. unfold lookup_step. cbn [state_at g_lookup g_arrays g_head g_mine g_max g_pc].
  destruct (Nat.ltb_spec (List.length seen) n) as [_|Q]; [|lia].
  assert (nth 0 (arrays_at AtEnd) [] = ids) as -> by (unfold arrays_at; rewrite P; reflexivity). rewrite Ni. reflexivity.
Qed.
Lemma reading_all : forall c seen, place = true -> List.length seen + c = n ->
  reg_run olds cap fresh (repeat false c) (state_at AtEnd (Looking 0 n seen)) =
  state_at AtEnd (Looking 0 n (seen ++ map (node_at olds fresh (n_max fresh)) (firstn c (skipn (List.length seen) ids)))).
Proof.
  intros c. induction c as [|c IH]; intros seen P Hc.
  - cbn. rewrite app_nil_r. reflexivity.
  - cbn [repeat]. change (reg_run olds cap fresh (false :: repeat false c) (state_at AtEnd (Looking 0 n seen))) with
      (reg_run olds cap fresh (repeat false c) (lookup_step olds fresh (state_at AtEnd (Looking 0 n seen)))).
    destruct (nth_error ids (List.length seen)) as [i|] eqn:Ni.
    2: { apply nth_error_None in Ni. rewrite ids_length in Ni. lia. }
    rewrite (reading_one seen i P Ni) by lia.
    rewrite IH; [|assumption|rewrite app_length; cbn [List.length]; lia].
    rewrite app_length. cbn [List.length]. rewrite Nat.add_1_r. rewrite <- app_assoc. do 3 f_equal. cbn [List.app].
    pose proof (nth_error_split _ _ Ni) as (l1 & l2 & E & L1). rewrite <- L1. rewrite E.
    rewrite !skipn_app. rewrite Nat.sub_diag, skipn_all. replace (S (List.length l1) - List.length l1) with 1 by lia.
    rewrite skipn_all2 by lia. cbn [List.app skipn firstn map]. reflexivity.
Qed.
Lemma unlucky_seen : place = true -> post <> [] ->
  g_lookup (reg_run olds cap fresh unlucky (reg_start olds)) = Looking 0 n (pre ++ fresh :: removelast post) /\
  List.length (pre ++ fresh :: removelast post) = n.
Proof.
  intros P Np. pose proof n_split as NS. pose proof ids_length as LI.
  assert (L : List.length (removelast post) = List.length post - 1).
  { rewrite removelast_firstn_len, firstn_length. lia. }
  split.
  - change (reg_run olds cap fresh unlucky (reg_start olds)) with (reg_run olds cap fresh (repeat false n)
      (reg_step olds cap fresh (reg_step olds cap fresh (reg_step olds cap fresh (reg_step olds cap fresh (state_at AtAppend (Looking 0 n []))))))).
    rewrite !step_next. cbn [next_pc]. rewrite (reading_all n [] P eq_refl).
    cbn [state_at g_lookup List.app List.length skipn]. f_equal. rewrite <- firstn_map, nodes_ids.
      assert (with_max fresh (n_max fresh) = fresh) as -> by (destruct fresh; reflexivity).
      rewrite firstn_app. unfold k in NS. replace (firstn n pre) with pre by (symmetry; apply firstn_all2; lia). f_equal.
      assert (List.length post <> 0) by (intros Z; apply length_zero_iff_nil in Z; contradiction).
      replace (n - List.length pre) with (S (List.length post - 1)) by lia.
      cbn [firstn]. f_equal. rewrite removelast_firstn_len. f_equal. lia.
  - rewrite app_length. cbn [List.length]. rewrite L. unfold k in NS.
    assert (List.length post <> 0) by (intros Z; apply length_zero_iff_nil in Z; contradiction). lia.
Qed.

(** A request that begins when the registration is over. *)
Definition late_ok (l : lookup) : Prop :=
  match l with
  | NotBegun => True
  | Looking a len seen => a = mine_at AtMax /\ len = S n /\ seen = map (node_at olds fresh (n_max fresh)) (firstn (List.length seen) ids)
  end.
Lemma late_step l : late_ok l -> exists l', lookup_step olds fresh (state_at AtEnd l) = state_at AtEnd l' /\ late_ok l'.
Proof.
  destruct l as [|a len seen]; intros H; unfold lookup_step, state_at; cbn [g_lookup g_head g_arrays g_mine g_max g_pc].
  - eexists. split; [reflexivity|]. split; [reflexivity|]. split; reflexivity.
  - destruct H as (A & B & C). destruct (Nat.ltb_spec (List.length seen) len) as [Lt|Ge].
    2: { eexists. split; [reflexivity|]. split; [exact A|]. split; [exact B|exact C]. }
    assert (nth a (arrays_at AtEnd) [] = ids) as -> by (subst a; unfold arrays_at, mine_at; destruct place; reflexivity).
    destruct (nth_error ids (List.length seen)) as [i|] eqn:Ni.
    2: { apply nth_error_None in Ni. rewrite ids_length in Ni. lia. }
    eexists. split; [reflexivity|]. split; [exact A|]. split; [exact B|].
    rewrite app_length. cbn [List.length]. rewrite Nat.add_1_r. rewrite (firstn_S_nth _ _ _ Ni), map_app, <- C. reflexivity.
Qed.
Lemma late_run : forall schedule l, late_ok l -> exists l', reg_run olds cap fresh schedule (state_at AtEnd l) = state_at AtEnd l' /\ late_ok l'.
Proof.
  induction schedule as [|w schedule IH]; intros l H; [exists l; auto|]. unfold reg_run. cbn [fold_left]. destruct w.
  - rewrite step_next. apply IH. assumption.
  - destruct (late_step l H) as (l' & -> & H'). apply IH. assumption.
Qed.
Lemma late_seen s1 s2 a len seen :
  g_pc (reg_run olds cap fresh s1 (reg_start olds)) = AtEnd -> g_lookup (reg_run olds cap fresh s1 (reg_start olds)) = NotBegun ->
  g_lookup (reg_run olds cap fresh (s1 ++ s2) (reg_start olds)) = Looking a len seen -> List.length seen = len ->
  seen = pre ++ fresh :: post.
Proof.
  intros P L E Hn. rewrite start_at in *. destruct (run_ok s1 AtAppend NotBegun I) as (pc & l & R & _).
  unfold reg_run in E. rewrite fold_left_app in E. fold (reg_run olds cap fresh s1 (state_at AtAppend NotBegun)) in E.
  rewrite R in P, L, E. cbn [state_at g_pc g_lookup] in P, L. subst pc l.
  destruct (late_run s2 NotBegun I) as (l & R2 & K). unfold reg_run in R2. rewrite R2 in E. cbn [state_at g_lookup] in E. subst l.
  destruct K as (_ & B & C). rewrite firstn_all2 in C by (rewrite ids_length; lia). rewrite nodes_ids in C. rewrite C.
  destruct fresh. reflexivity.
Qed.
End Steps.
