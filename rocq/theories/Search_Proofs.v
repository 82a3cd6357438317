(** * The matching loop is a depth first search

    [dfs] is a structurally recursive search with the same peculiarities as the
    loop.  The loop with its explicit stacks and wrapping counters computes the
    same outcome, for every tree and every request. *)
From Coq Require Import List NArith ZArith Ascii String Bool Lia Arith.
From Verif Require Import GoBase Glob_Model Pattern_Model Pattern_Proofs Url_Model Match_Model.
Import ListNotations.
Local Open Scope list_scope.
Local Open Scope nat_scope.

Inductive outcome := Found (p : pattern) (ms : list mtype) | Fail | Abort | Panic.

Definition cons_mt (m : mtype) (o : outcome) : outcome :=
  match o with Found p ms => Found p (m :: ms) | r => r end.

Section Dfs.
Variable re : engine.
Variable ci : bool.
Variable path : bytes.

(** Below a ** node with children: the first suffix that works. *)
Definition sfx (f : list useg -> outcome) (gch : list node) : list useg -> outcome :=
  fix go (vs : list useg) : outcome :=
    match vs with
    | [] => Abort
    | v :: vs' =>
        match some_matches re ci path gch v with
        | HPanic => Panic
        | HNo => cons_mt MTMulti (go vs')
        | HYes => match f vs with
                  | Fail => cons_mt MTMulti (go vs')
                  | r => r
                  end
        end
    end.

Definition kids (f : node -> list useg -> outcome) (u : useg) (us' : list useg) : list node -> outcome :=
  fix go (l : list node) : outcome :=
    match l with
    | [] => Fail
    | c :: l' =>
        if negb (can_match_len c (N.of_nat (S (List.length us')))) then go l'
        else
          match seg_match re ci path (n_seg c) u with
          | SPanic => Panic
          | SMt MTUnknown => go l'
          | SMt MTMulti =>
              match n_ch c, n_pat c with
              | [], Some p => Found p (map (fun _ => MTMulti) (u :: us'))
              | gch, _ => sfx (f c) gch (u :: us')
              end
          | SMt m =>
              match us' with
              | [] => match n_pat c with Some p => Found p [m] | None => Fail end
              | _ => match f c us' with
                     | Fail => go l'
                     | r => cons_mt m r
                     end
              end
          end
    end.

Fixpoint dfs (n : node) (d : nat) (us : list useg) {struct n} : outcome :=
  match n with
  | Node _ _ _ _ ch =>
      match us with
      | [] => Fail
      | u :: us' =>
          if Nat.leb 19 d then Panic
          else kids (fun c vs => dfs c (S d) vs) u us' ch
      end
  end.

Lemma dfs_eq : forall n d us,
  dfs n d us = match us with
               | [] => Fail
               | u :: us' => if Nat.leb 19 d then Panic
                             else kids (fun c vs => dfs c (S d) vs) u us' (n_ch n)
               end.
Proof. intros [mx pr sg pt ch] d us. destruct us; reflexivity. Qed.

(** ** Trees *)

Fixpoint tree_ok (n : node) : Prop :=
  match n with
  | Node _ _ s _ ch =>
      (N.of_nat (List.length ch) < 65536)%N /\
      (s_mt s = MTMulti -> Forall (fun c => s_mt (n_seg c) <> MTMulti) ch) /\
      (fix all (l : list node) : Prop :=
         match l with [] => True | c :: l' => tree_ok c /\ all l' end) ch
  end.

Lemma tree_ok_eq : forall n, tree_ok n <->
  (N.of_nat (List.length (n_ch n)) < 65536)%N /\
  (s_mt (n_seg n) = MTMulti -> Forall (fun c => s_mt (n_seg c) <> MTMulti) (n_ch n)) /\
  Forall tree_ok (n_ch n).
Proof.
  intros [mx pr sg pt ch]. cbn [n_ch n_seg tree_ok].
  assert (H : (fix all (l : list node) : Prop :=
         match l with [] => True | c :: l' => tree_ok c /\ all l' end) ch <-> Forall tree_ok ch).
  { induction ch as [|c ch IH]; [split; constructor|]. rewrite Forall_cons_iff, IH. tauto. }
  rewrite H. tauto.
Qed.

Lemma node_ind' : forall P : node -> Prop,
  (forall mx pr sg pt ch, Forall P ch -> P (Node mx pr sg pt ch)) -> forall n, P n.
Proof.
  intros P H. fix IH 1. intros [mx pr sg pt ch]. apply H.
  induction ch as [|c ch IHc]; constructor; [apply IH|apply IHc].
Qed.

(** ** Annotated segments *)

Definition strip (u : useg) : useg := with_mt u MTUnknown.
Definition types (segs : list useg) : list mtype := map u_mt segs.

Lemma seg_match_strip : forall s u, seg_match re ci path s (strip u) = seg_match re ci path s u.
Proof. intros s [a b m]. reflexivity. Qed.

Lemma some_matches_strip : forall l u, some_matches re ci path l (strip u) = some_matches re ci path l u.
Proof.
  induction l as [|n l IH]; intros u; simpl; [reflexivity|].
  rewrite seg_match_strip, IH. reflexivity.
Qed.

Lemma first_match_strip : forall l c left u,
  first_match re ci path l c left (strip u) = first_match re ci path l c left u.
Proof.
  induction l as [|n l IH]; intros c left u; simpl; [reflexivity|].
  rewrite seg_match_strip, !IH. reflexivity.
Qed.

Lemma update_shape : forall (A : Type) (l : list A) i v, i < List.length l ->
  update l i v = Some (firstn i l ++ v :: skipn (S i) l).
Proof.
  induction l as [|x l IH]; intros i v H; simpl in H; [lia|].
  destruct i as [|i]; [reflexivity|]. cbn [update]. rewrite IH by lia. reflexivity.
Qed.

Lemma set_mt_shape : forall segs i m u, nth_error segs i = Some u ->
  set_mt segs (N.of_nat i) m = firstn i segs ++ with_mt u m :: skipn (S i) segs.
Proof.
  intros segs i m u H. unfold set_mt. rewrite Nat2N.id, H.
  rewrite update_shape; [reflexivity|]. apply nth_error_Some. congruence.
Qed.

Lemma skipn_add : forall (A : Type) a b (l : list A), skipn (a + b) l = skipn b (skipn a l).
Proof.
  induction a as [|a IH]; intros b l; [reflexivity|].
  destruct l as [|x l]; [rewrite !skipn_nil; reflexivity|]. apply IH.
Qed.

Lemma skipn_nth : forall (A : Type) (l : list A) i x, nth_error l i = Some x ->
  skipn i l = x :: skipn (S i) l.
Proof.
  induction l as [|y l IH]; intros [|i] x H; simpl in *; try discriminate.
  - congruence.
  - apply IH. assumption.
Qed.

Lemma split_nth : forall (A : Type) (l : list A) i x, nth_error l i = Some x ->
  l = firstn i l ++ x :: skipn (S i) l.
Proof. intros A l i x H. rewrite <- (skipn_nth _ _ _ _ H). symmetry. apply firstn_skipn. Qed.

Lemma set_mt_strip : forall segs i m, map strip (set_mt segs (N.of_nat i) m) = map strip segs.
Proof.
  intros segs i m. destruct (nth_error segs i) as [u|] eqn:E.
  - rewrite (set_mt_shape _ _ _ _ E). rewrite map_app. cbn [map].
    change (strip (with_mt u m)) with (strip u).
    rewrite (split_nth _ _ _ _ E) at 3. rewrite map_app. reflexivity.
  - unfold set_mt. rewrite Nat2N.id, E. reflexivity.
Qed.

Lemma set_mt_types : forall segs i m, i < List.length segs ->
  types (set_mt segs (N.of_nat i) m) = firstn i (types segs) ++ m :: skipn (S i) (types segs).
Proof.
  intros segs i m H. destruct (nth_error segs i) as [u|] eqn:E.
  - rewrite (set_mt_shape _ _ _ _ E). unfold types. rewrite map_app. cbn [map].
    rewrite <- firstn_map, <- skipn_map. reflexivity.
  - apply nth_error_None in E. lia.
Qed.

Lemma strip_len : forall a b, map strip a = map strip b -> List.length a = List.length b.
Proof. intros a b H. apply (f_equal (@List.length useg)) in H. rewrite !map_length in H. assumption. Qed.

Lemma strip_nth : forall a b i u, map strip a = map strip b -> nth_error a i = Some u ->
  exists v, nth_error b i = Some v /\ strip u = strip v.
Proof.
  intros a b i u H Hu.
  assert (E : nth_error (map strip a) i = nth_error (map strip b) i) by (rewrite H; reflexivity).
  rewrite (map_nth_error _ _ _ Hu) in E. symmetry in E.
  destruct (nth_error b i) as [v|] eqn:Eb.
  - rewrite (map_nth_error _ _ _ Eb) in E. exists v. split; congruence.
  - apply nth_error_None in Eb. rewrite <- (map_length strip) in Eb.
    apply nth_error_None in Eb. congruence.
Qed.

(** The search does not look at the annotations. *)
Lemma sfx_ext : forall (f g : list useg -> outcome) gch vs,
  (forall ws, f ws = g ws) -> sfx f gch vs = sfx g gch vs.
Proof.
  intros f g gch vs H. induction vs as [|v vs IH]; [reflexivity|].
  cbn [sfx]. fold (sfx f gch) (sfx g gch). rewrite IH, H. reflexivity.
Qed.


(** ** First matching child *)

Lemma kids_first : forall f u us' l c,
  match first_match re ci path l c (N.of_nat (S (List.length us'))) u with
  | FNone => kids f u us' l = Fail
  | FPanic => kids f u us' l = Panic
  | FSome c' child m =>
      exists pre l', l = pre ++ child :: l' /\ c' = (c + N.of_nat (List.length pre))%N /\
        kids f u us' l = kids f u us' (child :: l') /\
        can_match_len child (N.of_nat (S (List.length us'))) = true /\
        seg_match re ci path (n_seg child) u = SMt m /\ m <> MTUnknown
  end.
Proof.
  intros f u us'. induction l as [|n l IH]; intros c; [reflexivity|].
  cbn [first_match].
  assert (Hskip : forall P : fres -> Prop,
    kids f u us' (n :: l) = kids f u us' l ->
    match first_match re ci path l (c + 1) (N.of_nat (S (List.length us'))) u with
    | FNone => kids f u us' (n :: l) = Fail
    | FPanic => kids f u us' (n :: l) = Panic
    | FSome c' child m =>
        exists pre l', n :: l = pre ++ child :: l' /\ c' = (c + N.of_nat (List.length pre))%N /\
          kids f u us' (n :: l) = kids f u us' (child :: l') /\
          can_match_len child (N.of_nat (S (List.length us'))) = true /\
          seg_match re ci path (n_seg child) u = SMt m /\ m <> MTUnknown
    end).
  { intros _ E. specialize (IH (c + 1)%N). rewrite E.
    destruct (first_match re ci path l (c + 1) (N.of_nat (S (List.length us'))) u); try assumption.
    destruct IH as [pre [l' [E1 [E2 [E3 E4]]]]]. exists (n :: pre), l'. split; [rewrite E1; reflexivity|].
    split; [cbn [List.length]; lia|]. split; assumption. }
  destruct (can_match_len n (N.of_nat (S (List.length us')))) eqn:Ec; cbn [negb].
  - destruct (seg_match re ci path (n_seg n) u) as [m|] eqn:Em.
    + destruct m;
        try (exists [], l; split; [reflexivity|]; split; [cbn [List.length]; lia|];
             split; [reflexivity|]; repeat split; auto; discriminate).
      apply (Hskip (fun _ => True)). cbn [kids]. fold (kids f u us'). rewrite Ec, Em. reflexivity.
    + cbn [kids]. rewrite Ec, Em. reflexivity.
  - apply (Hskip (fun _ => True)). cbn [kids]. fold (kids f u us'). rewrite Ec. reflexivity.
Qed.

(** ** Small numbers *)

Lemma u8_small : forall n, (n < 256)%N -> u8 n = n.
Proof. intros n H. apply N.mod_small. assumption. Qed.
Lemma u16_small : forall n, (n < 65536)%N -> u16 n = n.
Proof. intros n H. apply N.mod_small. assumption. Qed.
Lemma sub8_le : forall a b, (b <= a)%N -> (a < 256)%N -> sub8 a b = (a - b)%N.
Proof.
  intros a b H1 H2. unfold sub8. rewrite (N.mod_small b) by lia.
  replace (a + 256 - b)%N with (a - b + 1 * 256)%N by lia.
  rewrite N.mod_add by lia. apply N.mod_small. lia.
Qed.
Lemma sub8_zero_one : sub8 0 1 = 255%N. Proof. reflexivity. Qed.
Lemma dec_inc : forall j, (j < 256)%N -> u8 (sub8 j 1 + 1) = j.
Proof.
  intros j H. destruct (N.eq_dec j 0) as [->|Hn]; [reflexivity|].
  rewrite sub8_le by lia. rewrite u8_small by lia. lia.
Qed.

Section Sim.
Variable us0 : list useg.
Hypothesis Hlen : List.length us0 <= 19.
Let L := List.length us0.
Let UL := N.of_nat L.

Definition steps_to (st : mstate) (K : nat -> mres) : Prop :=
  exists k, forall f, match_loop re ci path UL (k + f) st = K f.

Definition after_fail (st : mstate) (f : nat) : mres :=
  match round_failed st with
  | inl s => match_loop re ci path UL f s
  | inr r => r
  end.

Definition result_of (i d : nat) (n : node) (anc : list node) (ns : list (N * N)) (mts : list mtype)
    (segs : list useg) (o : outcome) (st : mstate) : Prop :=
  match o with
  | Found p ms =>
      exists segs', steps_to st (fun _ => MRet (Some p) segs') /\
        map strip segs' = us0 /\ types segs' = firstn i (types segs) ++ ms
  | Abort => exists segs', steps_to st (fun _ => MRet None segs')
  | Panic => steps_to st (fun _ => MPanic)
  | Fail =>
      exists ns' segs', steps_to st (after_fail (MS (N.of_nat i) d n anc ns' mts segs')) /\
        List.length ns' = 19 /\
        (forall e, e < d -> nth_error ns' e = nth_error ns e) /\
        (forall e, d < e < 19 -> nth_error ns' e = Some (0, 0)%N) /\
        map strip segs' = us0 /\ firstn i (types segs') = firstn i (types segs) /\
        (forall m, nth_error mts i = Some m -> m <> MTUnknown ->
           S i = L \/ nth_error (types segs') i = Some m)
  end.

Lemma steps_round : forall st st' K, round re ci path UL st = inl st' -> steps_to st' K -> steps_to st K.
Proof.
  intros st st' K E [k Hk]. exists (S k). intros f. cbn [plus match_loop]. rewrite E. apply Hk.
Qed.
Lemma steps_done : forall st r, round re ci path UL st = inr r -> steps_to st (fun _ => r).
Proof. intros st r E. exists 1. intros f. cbn [plus match_loop]. rewrite E. reflexivity. Qed.
Lemma steps_failed : forall st st', round re ci path UL st = round_failed st' -> steps_to st (after_fail st').
Proof. intros st st' E. exists 1. intros f. cbn [plus match_loop]. rewrite E. reflexivity. Qed.
(** A failed search that goes on in the frame below. *)
Lemma steps_after_fail : forall st st1 st2 K,
  steps_to st (after_fail st1) -> round_failed st1 = inl st2 -> steps_to st2 K -> steps_to st K.
Proof.
  intros st st1 st2 K [k Hk] E [k2 Hk2]. exists (k + k2). intros f.
  rewrite <- Nat.add_assoc, Hk. unfold after_fail. rewrite E. apply Hk2.
Qed.

Lemma segs_len : forall segs, map strip segs = us0 -> List.length segs = L.
Proof. intros segs H. unfold L. rewrite <- H, map_length. reflexivity. Qed.

Lemma segs_nth : forall segs i u, map strip segs = us0 -> nth_error us0 i = Some u ->
  exists v, nth_error segs i = Some v /\ strip v = u.
Proof.
  intros segs i u H Hu. rewrite <- H in Hu.
  destruct (nth_error segs i) as [v|] eqn:E.
  - rewrite (map_nth_error _ _ _ E) in Hu. exists v. split; congruence.
  - apply nth_error_None in E. rewrite <- (map_length strip) in E. apply nth_error_None in E. congruence.
Qed.

Lemma set_ok : forall segs i m, map strip segs = us0 -> map strip (set_mt segs (N.of_nat i) m) = us0.
Proof. intros. rewrite set_mt_strip. assumption. Qed.

Lemma types_len : forall segs, map strip segs = us0 -> List.length (types segs) = L.
Proof. intros. unfold types. rewrite map_length. apply segs_len. assumption. Qed.

Lemma set_mt_firstn : forall segs i j m, map strip segs = us0 -> i <= j -> j < L ->
  firstn i (types (set_mt segs (N.of_nat j) m)) = firstn i (types segs).
Proof.
  intros segs i j m H Hij Hj. rewrite set_mt_types by (rewrite segs_len; assumption).
  rewrite firstn_app, firstn_firstn, firstn_length, types_len by assumption.
  replace (Nat.min i j) with i by lia. replace (i - Nat.min j L) with 0 by lia.
  simpl. apply app_nil_r.
Qed.

Lemma set_mt_firstn_S : forall segs j m, map strip segs = us0 -> j < L ->
  firstn (S j) (types (set_mt segs (N.of_nat j) m)) = firstn j (types segs) ++ [m].
Proof.
  intros segs j m H Hj. rewrite set_mt_types by (rewrite segs_len; assumption).
  rewrite firstn_app, firstn_firstn, firstn_length, types_len by assumption.
  replace (Nat.min (S j) j) with j by lia. replace (S j - Nat.min j L) with 1 by lia. reflexivity.
Qed.

Lemma set_mt_nth : forall segs j m, map strip segs = us0 -> j < L ->
  nth_error (types (set_mt segs (N.of_nat j) m)) j = Some m.
Proof.
  intros segs j m H Hj. rewrite set_mt_types by (rewrite segs_len; assumption).
  rewrite nth_error_app2; rewrite firstn_length, types_len by assumption; [|lia].
  replace (j - Nat.min j L) with 0 by lia. reflexivity.
Qed.

(** Filling the rest with **. *)
Lemma fill_multi_spec : forall k i segs, map strip segs = us0 -> i + k = L ->
  map strip (fill_multi k (N.of_nat i) segs) = us0 /\
  types (fill_multi k (N.of_nat i) segs) = firstn i (types segs) ++ repeat MTMulti k.
Proof.
  induction k as [|k IH]; intros i segs H Hi; cbn [fill_multi].
  - split; [assumption|]. simpl. rewrite app_nil_r, firstn_all2; [reflexivity|].
    rewrite types_len by assumption. lia.
  - replace (N.of_nat i + 1)%N with (N.of_nat (S i)) by lia.
    destruct (IH (S i) (set_mt segs (N.of_nat i) MTMulti)) as [H1 H2]; [apply set_ok; assumption|lia|].
    split; [assumption|]. rewrite H2, set_mt_firstn_S by (assumption || lia).
    rewrite <- app_assoc. reflexivity.
Qed.

(** The scan below a ** node. *)
Lemma greedy_spec : forall gch f k i segs, map strip segs = us0 -> i + k = L ->
  match greedy re ci path k gch (N.of_nat i) segs with
  | GrPanic => sfx f gch (skipn i us0) = Panic
  | GrNone _ => sfx f gch (skipn i us0) = Abort
  | GrAt j' segs' => exists j, j' = N.of_nat j /\ i <= j < L /\ map strip segs' = us0 /\
      firstn (S j) (types segs') = firstn i (types segs) ++ repeat MTMulti (S (j - i)) /\
      sfx f gch (skipn i us0) =
      Nat.iter (j - i) (cons_mt MTMulti)
        (match f (skipn j us0) with
         | Fail => cons_mt MTMulti (sfx f gch (skipn (S j) us0))
         | r => r
         end)
  end.
Proof.
  intros gch f. induction k as [|k IH]; intros i segs H Hi; cbn [greedy].
  - rewrite skipn_all2 by (fold L; lia). reflexivity.
  - rewrite Nat2N.id.
    destruct (nth_error us0 i) as [u|] eqn:Eu.
    2:{ apply nth_error_None in Eu. fold L in Eu. lia. }
    destruct (segs_nth segs i u H Eu) as [v [Ev Hv]]. rewrite Ev.
    rewrite (skipn_nth _ _ _ _ Eu). cbn [sfx]. fold (sfx f gch).
    assert (Hv2 : some_matches re ci path gch u = some_matches re ci path gch v).
    { rewrite <- Hv. apply some_matches_strip. }
    rewrite ?Hv2.
    destruct (some_matches re ci path gch v) eqn:Em.
    + replace (u8 (N.of_nat i + 1)) with (N.of_nat (S i)) by (rewrite u8_small by lia; lia).
      specialize (IH (S i) (set_mt segs (N.of_nat i) MTMulti) (set_ok _ _ _ H) ltac:(lia)).
      destruct (greedy re ci path k gch (N.of_nat (S i)) (set_mt segs (N.of_nat i) MTMulti)).
      * rewrite IH. reflexivity.
      * rewrite IH. reflexivity.
      * destruct IH as [j [E1 [E2 [E3 [E4 E5]]]]]. exists j. split; [assumption|].
        split; [lia|]. split; [assumption|]. split.
        -- rewrite E4, set_mt_firstn_S by (assumption || lia). rewrite <- app_assoc.
           replace (S (j - i)) with (S (S (j - S i))) by lia. reflexivity.
        -- rewrite E5. replace (j - i) with (S (j - S i)) by lia. reflexivity.
    + exists i. split; [reflexivity|]. split; [lia|]. split; [apply set_ok; assumption|].
      rewrite set_mt_firstn_S by (assumption || lia).
      replace (i - i) with 0 by lia. split; [reflexivity|]. cbn [Nat.iter nat_rect].
      rewrite (skipn_nth _ _ _ _ Eu). reflexivity.
    + reflexivity.
Qed.

Lemma sfx_not_fail : forall f gch vs, sfx f gch vs <> Fail.
Proof.
  intros f gch. induction vs as [|v vs IH]; cbn [sfx]; [discriminate|].
  fold (sfx f gch).
  assert (Hc : cons_mt MTMulti (sfx f gch vs) <> Fail).
  { destruct (sfx f gch vs); cbn [cons_mt]; congruence. }
  destruct (some_matches re ci path gch v); try discriminate; [assumption|].
  destruct (f (v :: vs)); try discriminate. assumption.
Qed.

(** ** Entering a node *)

Definition enters (n : node) : Prop :=
  forall d i anc ns mts segs,
  i < L -> List.length anc = d -> List.length ns = 19 -> List.length mts = 19 ->
  (forall e, d <= e < 19 -> nth_error ns e = Some (0, 0)%N) ->
  (forall j, i < j < 19 -> nth_error mts j = Some MTUnknown) ->
  (nth_error mts i <> Some MTUnknown -> Forall (fun c => s_mt (n_seg c) <> MTMulti) (n_ch n)) ->
  map strip segs = us0 ->
  result_of i d n anc ns mts segs (dfs n d (skipn i us0)) (MS (N.of_nat i) d n anc ns mts segs).

Lemma skipn_not_nil : forall j, j < L -> skipn j us0 <> [].
Proof.
  intros j Hj E. apply (f_equal (@List.length useg)) in E. rewrite skipn_length in E.
  cbn [List.length] in E. fold L in E. lia.
Qed.

Section InNode.
Variable n : node.
Hypothesis Hn : tree_ok n.
Hypothesis IHn : Forall enters (n_ch n).
Variable d : nat.
Variable anc : list node.
Variable mts : list mtype.
Hypothesis Hanc : List.length anc = d.
Hypothesis Hd : d < 19.
Hypothesis Hmts : List.length mts = 19.

Lemma children_all : firstn (N.to_nat (u16 (N.of_nat (List.length (n_ch n))))) (n_ch n) = n_ch n.
Proof.
  apply tree_ok_eq in Hn. destruct Hn as [H _]. rewrite u16_small by assumption.
  rewrite Nat2N.id. apply firstn_all.
Qed.

(** The state of the loop in node [n] at segment [i], about to try the children
    from number [c] on. *)
Definition frame (i c : nat) (ns : list (N * N)) (segs : list useg) : Prop :=
  i < L /\ List.length ns = 19 /\ (exists x, nth_error ns d = Some (N.of_nat c, x)) /\
  (forall e, d < e < 19 -> nth_error ns e = Some (0, 0)%N) /\
  (forall j, i < j < 19 -> nth_error mts j = Some MTUnknown) /\
  map strip segs = us0.

(** The segments at the start of a round. *)
Definition restored (i : nat) (segs : list useg) : list useg :=
  match nth_error mts i with
  | Some m => if mt_eqb m MTUnknown then segs else set_mt segs (N.of_nat i) m
  | None => segs
  end.

Lemma restored_ok : forall i segs, map strip segs = us0 -> map strip (restored i segs) = us0.
Proof.
  intros i segs H. unfold restored. destruct (nth_error mts i); [|assumption].
  destruct (mt_eqb m MTUnknown); [assumption|apply set_ok; assumption].
Qed.
Lemma restored_firstn : forall i segs, map strip segs = us0 -> i < L ->
  firstn i (types (restored i segs)) = firstn i (types segs).
Proof.
  intros i segs H Hi. unfold restored. destruct (nth_error mts i); [|reflexivity].
  destruct (mt_eqb m MTUnknown); [reflexivity|apply set_mt_firstn; auto].
Qed.
Lemma restored_nth : forall i segs m, map strip segs = us0 -> i < L ->
  nth_error mts i = Some m -> m <> MTUnknown -> nth_error (types (restored i segs)) i = Some m.
Proof.
  intros i segs m H Hi Hm Hne. unfold restored. rewrite Hm.
  destruct (mt_eqb m MTUnknown) eqn:E; [apply mt_eqb_eq in E; contradiction|].
  apply set_mt_nth; assumption.
Qed.

Lemma round_in_frame : forall i c ns segs u us' , frame i c ns segs -> skipn i us0 = u :: us' ->
  round re ci path UL (MS (N.of_nat i) d n anc ns mts segs) =
  match first_match re ci path (skipn c (n_ch n)) (N.of_nat c) (N.of_nat (S (List.length us'))) u with
  | FPanic => inr MPanic
  | FNone => round_failed (MS (N.of_nat i) d n anc ns mts (restored i segs))
  | FSome c' child MTMulti =>
      match n_ch child, is_leaf child with
      | [], true =>
          inr (MRet (n_pat child) (fill_multi (L - i) (N.of_nat i) (restored i segs)))
      | gch, _ =>
          match greedy re ci path (L - i) gch (N.of_nat i) (restored i segs) with
          | GrPanic => inr MPanic
          | GrNone segs' => inr (MRet None segs')
          | GrAt j segs' =>
              match update ns d (c', u8 (j + 1)), update mts (N.to_nat j) MTMulti with
              | Some ns', Some mts' =>
                  round_matched UL (MS (sub8 j 1) (S d) child (n :: anc) ns' mts' segs')
              | _, _ => inr MPanic
              end
          end
      end
  | FSome c' child m =>
      if Nat.eqb (S i) L then
        if is_leaf child then inr (MRet (n_pat child) (set_mt (restored i segs) (N.of_nat i) m))
        else round_failed (MS (N.of_nat i) d n anc ns mts (set_mt (restored i segs) (N.of_nat i) m))
      else
        match update ns d (u16 (c' + 1), N.of_nat i) with
        | Some ns' =>
            round_matched UL (MS (N.of_nat i) (S d) child (n :: anc) ns' mts
                                 (set_mt (restored i segs) (N.of_nat i) m))
        | None => inr MPanic
        end
  end.
Proof.
  intros i c ns segs u us' [Hi [Hns [[x Hx] [Hz [Hm Hs]]]]] Hsk.
  assert (Eu : nth_error us0 i = Some u).
  { destruct (nth_error us0 i) as [u1|] eqn:E.
    - rewrite (skipn_nth _ _ _ _ E) in Hsk. congruence.
    - apply nth_error_None in E. fold L in E. lia. }
  assert (Hl : S (List.length us') = L - i).
  { apply (f_equal (@List.length useg)) in Hsk. rewrite skipn_length in Hsk. cbn [List.length] in Hsk.
    fold L in Hsk. lia. }
  destruct (segs_nth segs i u Hs Eu) as [v [Ev Hv]].
  destruct (nth_error mts i) as [m0|] eqn:Em.
  2:{ apply nth_error_None in Em. lia. }
  unfold round, restored. cbn [ms_idx ms_segs ms_mts ms_nstack ms_depth ms_cur ms_anc].
  replace ((N.of_nat i <? UL)%N) with true by (symmetry; apply N.ltb_lt; unfold UL; lia).
  cbn [negb]. rewrite Nat2N.id, Ev, Em, Hx, Nat2N.id, children_all.
  assert (Hsub : sub8 UL (N.of_nat i) = N.of_nat (L - i)).
  { unfold UL. rewrite sub8_le by lia. lia. }
  assert (Hsub1 : sub8 UL 1 = N.of_nat (L - 1)).
  { unfold UL. rewrite sub8_le by lia. lia. }
  rewrite Hsub, Hl. rewrite <- (first_match_strip _ _ _ v), Hv.
  replace (N.to_nat (UL - N.of_nat i)) with (L - i) by (unfold UL; lia).
  destruct (first_match re ci path (skipn c (n_ch n)) (N.of_nat c) (N.of_nat (L - i)) u)
    as [| |c' child m]; [reflexivity|reflexivity|].
  rewrite Hsub1.
  replace ((N.of_nat i =? N.of_nat (L - 1))%N) with (Nat.eqb (S i) L).
  2:{ destruct (Nat.eqb_spec (S i) L) as [E|E]; symmetry.
      - apply N.eqb_eq. lia.
      - apply N.eqb_neq. lia. }
  destruct m; reflexivity.
Qed.

Lemma seg_match_multi : forall s u, seg_match re ci path s u = SMt MTMulti -> s_mt s = MTMulti.
Proof.
  intros s u H. unfold seg_match in H. destruct (s_mt s) eqn:E; try discriminate; try reflexivity.
  - destruct (_ =? _)%N; [|discriminate]. destruct (useg_text path u); [|discriminate].
    destruct (if ci then _ else _); discriminate.
  - destruct (useg_text path u); [|discriminate]. destruct (s_re s); [|discriminate].
    destruct (re_match re _ _); discriminate.
  - destruct (useg_text path u); [|discriminate].
    destruct (regex_segment_match _ _ ci) as [[]| |]; discriminate.
Qed.

Lemma multi_matches : forall s u, s_mt s = MTMulti -> seg_match re ci path s u = SMt MTMulti.
Proof. intros s u H. unfold seg_match. rewrite H. reflexivity. Qed.

Lemma leads_result : forall i ns ns2 segs segs2 o st st2,
  (forall K, steps_to st2 K -> steps_to st K) ->
  (forall e, e < d -> nth_error ns2 e = nth_error ns e) ->
  firstn i (types segs2) = firstn i (types segs) ->
  result_of i d n anc ns2 mts segs2 o st2 -> result_of i d n anc ns mts segs o st.
Proof.
  intros i ns ns2 segs segs2 o st st2 Hl Hns Ht H. destruct o as [p ms| | |]; cbn [result_of] in *.
  - destruct H as [segs' [H1 [H2 H3]]]. exists segs'. rewrite <- Ht. auto.
  - destruct H as [ns' [segs' [H1 [H2 [H3 [H4 [H5 [H6 H7]]]]]]]]. exists ns', segs'.
    split; [auto|]. split; [assumption|]. split; [intros e He; rewrite H3 by assumption; auto|].
    split; [assumption|]. split; [assumption|]. split; [congruence|assumption].
  - destruct H as [segs' H]. exists segs'. auto.
  - auto.
Qed.

Lemma update_back : forall (A : Type) (l l' : list A) i v w,
  nth_error l i = Some w -> update l i v = Some l' -> update l' i w = Some l.
Proof.
  induction l as [|x l IH]; intros l' [|i] v w H1 H2; cbn [nth_error update] in *; try discriminate.
  - injection H1 as ->. injection H2 as <-. reflexivity.
  - destruct (update l i v) as [r|] eqn:E; [|discriminate]. injection H2 as <-. cbn [update].
    rewrite (IH _ _ _ _ H1 E). reflexivity.
Qed.
Lemma update_same : forall (A : Type) (l : list A) i w,
  nth_error l i = Some w -> update l i w = Some l.
Proof.
  induction l as [|x l IH]; intros [|i] w H; cbn [nth_error update] in *; try discriminate.
  - injection H as ->. reflexivity.
  - rewrite IH by assumption. reflexivity.
Qed.

Lemma firstn_S_nth : forall (A : Type) (l : list A) i x, nth_error l i = Some x ->
  firstn (S i) l = firstn i l ++ [x].
Proof.
  induction l as [|y l IH]; intros [|i] x H; cbn [nth_error] in H; try discriminate.
  - injection H as ->. reflexivity.
  - cbn [firstn app]. f_equal. apply IH. assumption.
Qed.

Lemma dfs_fail_depth : forall c us, us <> [] -> dfs c (S d) us = Fail -> S d < 19.
Proof.
  intros c us Hu H. rewrite dfs_eq in H. destruct us; [congruence|].
  destruct (Nat.leb 19 (S d)) eqn:E; [discriminate|]. apply Nat.leb_gt in E. assumption.
Qed.

Lemma matched_goes_on : forall x depth cur an ns ms sg,
  (x < UL)%N -> 
  round_matched UL (MS (sub8 x 1) depth cur an ns ms sg) =
  inl (MS x depth cur an ns ms sg).
Proof.
  intros x depth cur an ns ms sg Hx. unfold round_matched.
  cbn [ms_idx ms_segs ms_mts ms_nstack ms_depth ms_cur ms_anc].
  assert (Hb : (UL <= 19)%N) by (unfold UL; lia).
  replace ((sub8 x 1 =? sub8 UL 1)%N) with false.
  - cbn [andb]. rewrite dec_inc by lia. reflexivity.
  - symmetry. apply N.eqb_neq. rewrite (sub8_le UL) by lia.
    destruct (N.eq_dec x 0) as [->|Hn0]; [rewrite sub8_zero_one; lia|]. rewrite sub8_le by lia. lia.
Qed.

(** Popping a failed child frame: the loop goes on in node [n]. *)
Lemma pop_frame : forall child i' mts' ns' segs' c j,
  S d < 19 -> i' < 19 -> List.length ns' = 19 ->
  update mts' i' MTUnknown = Some mts -> nth_error ns' d = Some (c, j) ->
  (forall e, S d < e < 19 -> nth_error ns' e = Some (0, 0)%N) ->
  exists ns'', round_failed (MS (N.of_nat i') (S d) child (n :: anc) ns' mts' segs') =
    inl (MS j d n anc ns'' mts segs') /\
    List.length ns'' = 19 /\ nth_error ns'' d = Some (c, j) /\
    (forall e, e < d -> nth_error ns'' e = nth_error ns' e) /\
    (forall e, d < e < 19 -> nth_error ns'' e = Some (0, 0)%N).
Proof.
  intros child i' mts' ns' segs' c j H1 H2 H3 H4 H5 H6.
  destruct (update_spec _ ns' (S d) (0, 0)%N) as [ns'' [E [E1 [E2 [E3 _]]]]]; [lia|].
  exists ns''. unfold round_failed. cbn [ms_idx ms_segs ms_mts ms_nstack ms_depth ms_cur ms_anc].
  rewrite Nat2N.id, H4, E. cbv iota beta. rewrite E3 by lia. rewrite H5. split; [reflexivity|].
  split; [lia|]. split; [reflexivity|].
  split; [intros e He; apply E3; lia|].
  intros e He. destruct (Nat.eq_dec e (S d)) as [->|Hne]; [assumption|].
  rewrite E3 by assumption. apply H6. lia.
Qed.

Lemma iter_found : forall k p ms,
  Nat.iter k (cons_mt MTMulti) (Found p ms) = Found p (repeat MTMulti k ++ ms).
Proof.
  induction k as [|k IH]; intros p ms; [reflexivity|]. cbn [Nat.iter nat_rect].
  change (nat_rect (fun _ => outcome) (Found p ms) (fun _ => cons_mt MTMulti) k)
    with (Nat.iter k (cons_mt MTMulti) (Found p ms)). rewrite IH. reflexivity.
Qed.
Lemma iter_other : forall k o, (forall p ms, o <> Found p ms) ->
  Nat.iter k (cons_mt MTMulti) o = o.
Proof.
  induction k as [|k IH]; intros o H; [reflexivity|]. cbn [Nat.iter nat_rect].
  change (nat_rect (fun _ => outcome) o (fun _ => cons_mt MTMulti) k)
    with (Nat.iter k (cons_mt MTMulti) o). rewrite IH by assumption.
  destruct o; try reflexivity. exfalso. eapply H. reflexivity.
Qed.

Lemma in_sfx : forall c child, nth_error (n_ch n) c = Some child -> s_mt (n_seg child) = MTMulti ->
  ~ (n_ch child = [] /\ is_leaf child = true) ->
  forall k j c0 ns segs u us', L - j = k -> frame j c0 ns segs ->
  skipn j us0 = u :: us' -> can_match_len child (N.of_nat (S (List.length us'))) = true ->
  first_match re ci path (skipn c0 (n_ch n)) (N.of_nat c0) (N.of_nat (S (List.length us'))) u
    = FSome (N.of_nat c) child MTMulti ->
  (forall x, j <= x < 19 -> nth_error mts x = Some MTUnknown) ->
  match sfx (fun vs => dfs child (S d) vs) (n_ch child) (u :: us') with
  | Fail => True
  | o => result_of j d n anc ns mts segs o (MS (N.of_nat j) d n anc ns mts segs)
  end.
Proof.
  intros c child Hc Hmt Hnl.
  assert (Hcc : tree_ok child).
  { apply tree_ok_eq in Hn. destruct Hn as [_ [_ H]]. rewrite Forall_forall in H. apply H.
    eapply nth_error_In; eauto. }
  assert (IHc : enters child).
  { rewrite Forall_forall in IHn. apply IHn. eapply nth_error_In; eauto. }
  induction k as [k IHk] using lt_wf_ind. intros j c0 ns segs u us' Hk Hf Hsk Hcm Hfm Hun.
  pose proof (round_in_frame j c0 ns segs u us' Hf Hsk) as R. rewrite Hfm in R.
  destruct Hf as [Hj [Hns [[x Hx] [Hz [Hm Hs]]]]].
  assert (Hre : restored j segs = segs) by (unfold restored; rewrite Hun by lia; reflexivity).
  rewrite Hre in R.
  assert (R' : round re ci path UL (MS (N.of_nat j) d n anc ns mts segs) =
    match greedy re ci path (L - j) (n_ch child) (N.of_nat j) segs with
          | GrPanic => inr MPanic
          | GrNone segs' => inr (MRet None segs')
          | GrAt j segs' =>
              match update ns d (N.of_nat c, u8 (j + 1)), update mts (N.to_nat j) MTMulti with
              | Some ns', Some mts' =>
                  round_matched UL (MS (sub8 j 1) (S d) child (n :: anc) ns' mts' segs')
              | _, _ => inr MPanic
              end
          end).
  { rewrite R. destruct (n_ch child); [|reflexivity]. destruct (is_leaf child); [|reflexivity].
    exfalso. apply Hnl. auto. }
  clear R. rewrite <- Hsk.
  pose proof (greedy_spec (n_ch child) (fun vs => dfs child (S d) vs) (L - j) j segs Hs ltac:(lia)) as G.
  destruct (greedy re ci path (L - j) (n_ch child) (N.of_nat j) segs) as [segs'| |j1 segs'].
  - rewrite G. cbn [result_of]. exists segs'. apply steps_done. assumption.
  - rewrite G. cbn [result_of]. apply steps_done. assumption.
  - destruct G as [j' [-> [Hj' [Hs' [Ht' G]]]]]. rewrite G. clear G.
    destruct (update_spec _ ns d (N.of_nat c, u8 (N.of_nat j' + 1))) as [ns' [En [En1 [En2 [En3 _]]]]]; [lia|].
    destruct (update_spec _ mts j' MTMulti) as [mts' [Em [Em1 [Em2 [Em3 _]]]]]; [lia|].
    rewrite Nat2N.id, En, Em in R'. rewrite matched_goes_on in R' by (unfold UL; lia).
    assert (E := IHc (S d) j' (n :: anc) ns' mts' segs').
    assert (Ef : firstn j' (types segs') = firstn j (types segs) ++ repeat MTMulti (j' - j)).
    { apply (f_equal (firstn j')) in Ht'. rewrite firstn_firstn in Ht'.
      replace (Nat.min j' (S j')) with j' in Ht' by lia. rewrite Ht'.
      rewrite firstn_app, firstn_firstn, firstn_length, types_len by assumption.
      replace (Nat.min j' j) with j by lia. replace (j' - Nat.min j L) with (j' - j) by lia.
      f_equal. replace (S (j' - j)) with ((j' - j) + 1) by lia. rewrite repeat_app, firstn_app.
      rewrite repeat_length, Nat.sub_diag, firstn_all2 by (rewrite repeat_length; lia).
      simpl. apply app_nil_r. }
    assert (E' : result_of j' (S d) child (n :: anc) ns' mts' segs'
              (dfs child (S d) (skipn j' us0)) (MS (N.of_nat j') (S d) child (n :: anc) ns' mts' segs')).
    { apply E; clear E; try (cbn [List.length]; lia).
      - intros e He. rewrite En3 by lia. apply Hz. lia.
      - intros y Hy. rewrite Em3 by lia. apply Hun. lia.
      - intros _. apply tree_ok_eq in Hcc. destruct Hcc as [_ [H _]]. auto.
      - assumption. }
    clear E. destruct (dfs child (S d) (skipn j' us0)) as [p ms| | |] eqn:Ed; cbn [result_of] in E'.
    + destruct E' as [segs2 [H1 [H2 H3]]]. rewrite iter_found. cbn [result_of].
      exists segs2. split; [eapply steps_round; eassumption|]. split; [assumption|].
      rewrite H3, Ef, <- app_assoc. reflexivity.
    + destruct E' as [ns2 [segs2 [H1 [H2 [H3 [H4 [H5 [H6 H7]]]]]]]].
      assert (Hd' : S d < 19) by (eapply dfs_fail_depth; [apply skipn_not_nil|eassumption]; lia).
      destruct (pop_frame child j' mts' ns2 segs2 (N.of_nat c) (u8 (N.of_nat j' + 1)))
        as [ns3 [P1 [P2 [P3 [P4 P5]]]]]; auto; try lia.
      { eapply update_back; [apply Hun; lia|eassumption]. }
      { rewrite H3 by lia. assumption. }
      rewrite u8_small in P1, P3 by lia. replace (N.of_nat j' + 1)%N with (N.of_nat (S j')) in P1, P3 by lia.
      assert (Hleads : forall K,
        steps_to (MS (N.of_nat (S j')) d n anc ns3 mts segs2) K ->
        steps_to (MS (N.of_nat j) d n anc ns mts segs) K).
      { intros K HK. eapply steps_after_fail; [|eassumption|eassumption].
        eapply steps_round; eassumption. }
      assert (Hns3 : forall e, e < d -> nth_error ns3 e = nth_error ns e).
      { intros e He. rewrite P4, H3, En3 by lia. reflexivity. }
      destruct (Nat.eq_dec (S j') L) as [El|El].
      * rewrite skipn_all2 by (fold L; lia). cbn [sfx cons_mt]. rewrite iter_other by discriminate.
        cbn [result_of]. exists segs2. apply Hleads. apply steps_done.
        unfold round. cbn [ms_idx].
        replace ((N.of_nat (S j') <? UL)%N) with false by (symmetry; apply N.ltb_ge; unfold UL; lia).
        reflexivity.
      * assert (Hsk2 : exists u2 us2, skipn (S j') us0 = u2 :: us2).
        { destruct (skipn (S j') us0) as [|u2 us2] eqn:E2; [|eauto].
          exfalso. apply (skipn_not_nil (S j')); [lia|assumption]. }
        destruct Hsk2 as [u2 [us2 Hsk2]].
        assert (Hl2 : S (List.length us2) = L - S j').
        { apply (f_equal (@List.length useg)) in Hsk2. rewrite skipn_length in Hsk2. fold L in Hsk2.
          cbn [List.length] in Hsk2. lia. }
        assert (Hl1 : S (List.length us') = L - j).
        { apply (f_equal (@List.length useg)) in Hsk. rewrite skipn_length in Hsk. fold L in Hsk.
          cbn [List.length] in Hsk. lia. }
        assert (Hcm2 : can_match_len child (N.of_nat (S (List.length us2))) = true).
        { unfold can_match_len in *. apply N.leb_le in Hcm. apply N.leb_le. lia. }
        assert (Hf2 : frame (S j') c ns3 segs2).
        { split; [lia|]. split; [assumption|]. split; [eauto|]. split; [assumption|].
          split; [intros y Hy; apply Hun; lia|assumption]. }
        assert (Hfm2 : first_match re ci path (skipn c (n_ch n)) (N.of_nat c)
                         (N.of_nat (S (List.length us2))) u2 = FSome (N.of_nat c) child MTMulti).
        { rewrite (skipn_nth _ _ _ _ Hc). cbn [first_match]. rewrite Hcm2. cbn [negb].
          rewrite multi_matches by assumption. reflexivity. }
        assert (Ef2 : firstn (S j') (types segs2) = firstn j (types segs) ++ repeat MTMulti (S (j' - j))).
        { destruct (H7 MTMulti Em2 ltac:(discriminate)) as [H7'|H7']; [contradiction|].
          rewrite (firstn_S_nth _ _ _ _ H7'), H6, Ef, <- app_assoc.
          replace (S (j' - j)) with ((j' - j) + 1) by lia. rewrite repeat_app. reflexivity. }
        assert (Hlt : L - S j' < k) by lia.
        pose proof (IHk (L - S j') Hlt (S j') c ns3 segs2 u2 us2
                        eq_refl Hf2 Hsk2 Hcm2 Hfm2 ltac:(intros y Hy; apply Hun; lia)) as I.
        rewrite <- Hsk2 in I.
        pose proof (sfx_not_fail (fun vs => dfs child (S d) vs) (n_ch child) (skipn (S j') us0)) as Hnf.
        destruct (sfx (fun vs => dfs child (S d) vs) (n_ch child) (skipn (S j') us0)) as [p ms| | |].
        -- cbn [cons_mt]. rewrite iter_found. cbn [result_of] in I |- *.
           destruct I as [segs3 [I1 [I2 I3]]]. exists segs3. split; [auto|]. split; [assumption|].
           rewrite I3, Ef2, <- app_assoc. f_equal. cbn [repeat app]. 
           change (MTMulti :: ms) with ([MTMulti] ++ ms). rewrite app_assoc.
           change (MTMulti :: repeat MTMulti (j' - j) ++ ms) with ((MTMulti :: repeat MTMulti (j' - j)) ++ ms).
           f_equal. rewrite repeat_cons. reflexivity.
        -- congruence.
        -- cbn [cons_mt]. rewrite iter_other by discriminate. cbn [result_of] in I |- *.
           destruct I as [segs3 I]. exists segs3. auto.
        -- cbn [cons_mt]. rewrite iter_other by discriminate. cbn [result_of] in I |- *. auto.
    + destruct E' as [segs2 H1]. rewrite iter_other by discriminate. cbn [result_of].
      exists segs2. eapply steps_round; eassumption.
    + rewrite iter_other by discriminate. cbn [result_of]. eapply steps_round; eassumption.
Qed.

Lemma in_kids : forall k i c ns segs u us', List.length (n_ch n) - c = k -> frame i c ns segs ->
  skipn i us0 = u :: us' ->
  (nth_error mts i <> Some MTUnknown -> Forall (fun c => s_mt (n_seg c) <> MTMulti) (n_ch n)) ->
  result_of i d n anc ns mts segs (kids (fun c vs => dfs c (S d) vs) u us' (skipn c (n_ch n)))
    (MS (N.of_nat i) d n anc ns mts segs).
Proof.
  induction k as [k IHk] using lt_wf_ind. intros i c ns segs u us' Hk Hf Hsk Hnm.
  pose proof (round_in_frame i c ns segs u us' Hf Hsk) as R.
  pose proof (kids_first (fun c vs => dfs c (S d) vs) u us' (skipn c (n_ch n)) (N.of_nat c)) as F.
  destruct (first_match re ci path (skipn c (n_ch n)) (N.of_nat c) (N.of_nat (S (List.length us'))) u)
    as [| |c1 child m] eqn:Efm.
  - rewrite F. cbn [result_of]. destruct Hf as [Hi [Hns [Hx [Hz [Hm Hs]]]]].
    exists ns, (restored i segs). split; [apply steps_failed; assumption|].
    split; [assumption|]. split; [auto|]. split; [assumption|]. split; [apply restored_ok; assumption|].
    split; [apply restored_firstn; assumption|].
    intros m0 H1 H2. right. apply restored_nth; assumption.
  - rewrite F. cbn [result_of]. apply steps_done. assumption.
  - destruct F as [pre [l' [F1 [F2 [F3 [F4 [F5 F6]]]]]]]. rewrite F3. clear F3.
    set (c' := c + List.length pre).
    assert (E1 : c1 = N.of_nat c') by (unfold c'; lia). clear F2. subst c1.
    assert (Hsc : skipn c' (n_ch n) = child :: l').
    { unfold c'. rewrite skipn_add, F1.
      rewrite skipn_app, skipn_all, Nat.sub_diag. reflexivity. }
    assert (Hc : nth_error (n_ch n) c' = Some child).
    { rewrite <- (firstn_skipn c' (n_ch n)), Hsc.
      assert (Hlen' : c' <= List.length (n_ch n)).
      { destruct (Nat.le_gt_cases c' (List.length (n_ch n))) as [H|H]; [assumption|].
        rewrite skipn_all2 in Hsc by lia. discriminate Hsc. }
      rewrite nth_error_app2; rewrite firstn_length; [|lia].
      replace (c' - Nat.min c' (List.length (n_ch n))) with 0 by lia. reflexivity. }
    assert (Hclen : c' < List.length (n_ch n)) by (apply nth_error_Some; congruence).
    assert (Hsc' : skipn (S c') (n_ch n) = l').
    { pose proof (skipn_nth _ _ _ _ Hc) as H. congruence. }
    assert (Hi := Hf). destruct Hi as [Hi [Hns [[x Hx] [Hz [Hm Hs]]]]].
    assert (Hl1 : S (List.length us') = L - i).
    { apply (f_equal (@List.length useg)) in Hsk. rewrite skipn_length in Hsk. fold L in Hsk.
      cbn [List.length] in Hsk. lia. }
    assert (Hco : tree_ok child).
    { apply tree_ok_eq in Hn. destruct Hn as [_ [_ H]]. rewrite Forall_forall in H. apply H.
      eapply nth_error_In; eauto. }
    assert (IHc : enters child).
    { rewrite Forall_forall in IHn. apply IHn. eapply nth_error_In; eauto. }
    destruct (mt_eqb m MTMulti) eqn:Emm.
    + apply mt_eqb_eq in Emm. subst m.
      assert (Hmt : s_mt (n_seg child) = MTMulti) by (eapply seg_match_multi; eassumption).
      assert (Hun : forall y, i <= y < 19 -> nth_error mts y = Some MTUnknown).
      { intros y Hy. destruct (Nat.eq_dec y i) as [->|Hne]; [|apply Hm; lia].
        destruct (nth_error mts i) as [m0|] eqn:E0.
        - destruct (mt_eqb m0 MTUnknown) eqn:E1; [apply mt_eqb_eq in E1; congruence|].
          exfalso. assert (Hall : Forall (fun c => s_mt (n_seg c) <> MTMulti) (n_ch n)).
          { apply Hnm. intros E2. injection E2 as ->. discriminate E1. }
          rewrite Forall_forall in Hall. apply (Hall child); [eapply nth_error_In; eauto|assumption].
        - apply nth_error_None in E0. lia. }
      cbn [kids]. fold (kids (fun c vs => dfs c (S d) vs) u us'). rewrite F4, F5. cbn [negb].
      destruct (n_ch child) as [|g gs] eqn:Eg; [destruct (n_pat child) as [p|] eqn:Ep|].
      * assert (El : is_leaf child = true) by (unfold is_leaf; rewrite Ep; reflexivity).
        rewrite El in R. cbn [result_of].
        destruct (fill_multi_spec (L - i) i (restored i segs)) as [Q1 Q2];
          [apply restored_ok; assumption|lia|].
        eexists. split; [apply steps_done; eassumption|]. split; [assumption|].
        rewrite Q2, restored_firstn by assumption. f_equal.
        rewrite <- Hl1. clear. cbn [repeat map]. f_equal.
        induction us' as [|v vs IH]; [reflexivity|]. cbn. f_equal. assumption.
      * assert (El : is_leaf child = false) by (unfold is_leaf; rewrite Ep; reflexivity).
        pose proof (in_sfx c' child Hc Hmt) as I. rewrite El in I.
        specialize (I ltac:(intros [_ H]; discriminate H) (L - i) i c ns segs u us' eq_refl Hf Hsk F4 Efm Hun).
        rewrite Eg in I.
        pose proof (sfx_not_fail (fun vs => dfs child (S d) vs) [] (u :: us')) as Hnf.
        destruct (sfx (fun vs => dfs child (S d) vs) [] (u :: us')); try assumption. congruence.
      * pose proof (in_sfx c' child Hc Hmt) as I. rewrite Eg in I.
        specialize (I ltac:(intros [H _]; discriminate H) (L - i) i c ns segs u us' eq_refl Hf Hsk F4 Efm Hun).
        pose proof (sfx_not_fail (fun vs => dfs child (S d) vs) (g :: gs) (u :: us')) as Hnf.
        destruct (sfx (fun vs => dfs child (S d) vs) (g :: gs) (u :: us')); try assumption. congruence.
    + assert (Hmm : m <> MTMulti) by (intros ->; discriminate Emm).
      assert (R' : round re ci path UL (MS (N.of_nat i) d n anc ns mts segs) =
        (if Nat.eqb (S i) L then
          if is_leaf child then inr (MRet (n_pat child) (set_mt (restored i segs) (N.of_nat i) m))
          else round_failed (MS (N.of_nat i) d n anc ns mts (set_mt (restored i segs) (N.of_nat i) m))
        else
          match update ns d (u16 (N.of_nat c' + 1), N.of_nat i) with
          | Some ns' =>
              round_matched UL (MS (N.of_nat i) (S d) child (n :: anc) ns' mts
                                   (set_mt (restored i segs) (N.of_nat i) m))
          | None => inr MPanic
          end)).
      { rewrite R. destruct m; try reflexivity. congruence. }
      clear R.
      assert (Hkk : kids (fun c vs => dfs c (S d) vs) u us' (child :: l') =
        match us' with
              | [] => match n_pat child with Some p => Found p [m] | None => Fail end
              | _ => match dfs child (S d) us' with
                     | Fail => kids (fun c vs => dfs c (S d) vs) u us' l'
                     | r => cons_mt m r
                     end
              end).
      { cbn [kids]. fold (kids (fun c vs => dfs c (S d) vs) u us'). rewrite F4, F5. cbn [negb].
        destruct m; try reflexivity; congruence. }
      rewrite Hkk. clear Hkk.
      assert (Hrs : map strip (restored i segs) = us0) by (apply restored_ok; assumption).
      destruct us' as [|u2 us2].
      * cbn [List.length] in Hl1. replace (Nat.eqb (S i) L) with true in R' by (symmetry; apply Nat.eqb_eq; lia).
        destruct (n_pat child) as [p|] eqn:Ep.
        -- assert (El : is_leaf child = true) by (unfold is_leaf; rewrite Ep; reflexivity). rewrite El in R'.
           cbn [result_of]. eexists. split; [apply steps_done; eassumption|].
           split; [apply set_ok; assumption|].
           rewrite set_mt_types by (rewrite segs_len; assumption).
           rewrite restored_firstn by assumption. f_equal.
           rewrite skipn_all2; [reflexivity|]. rewrite types_len by assumption. lia.
        -- assert (El : is_leaf child = false) by (unfold is_leaf; rewrite Ep; reflexivity). rewrite El in R'.
           cbn [result_of]. eexists ns, _. split; [apply steps_failed; eassumption|].
           split; [assumption|]. split; [auto|]. split; [assumption|]. split; [apply set_ok; assumption|].
           split; [rewrite set_mt_firstn by auto; apply restored_firstn; assumption|].
           intros; left; lia.
      * cbn [List.length] in Hl1.
        replace (Nat.eqb (S i) L) with false in R' by (symmetry; apply Nat.eqb_neq; lia).
        assert (Hch : (N.of_nat (List.length (n_ch n)) < 65536)%N).
        { apply tree_ok_eq in Hn. destruct Hn as [H _]. assumption. }
        rewrite u16_small in R' by lia.
        replace (N.of_nat c' + 1)%N with (N.of_nat (S c')) in R' by lia.
        destruct (update_spec _ ns d (N.of_nat (S c'), N.of_nat i)) as [ns' [En [En1 [En2 [En3 _]]]]]; [lia|].
        rewrite En in R'.
        assert (Rm : round_matched UL (MS (N.of_nat i) (S d) child (n :: anc) ns' mts
                                   (set_mt (restored i segs) (N.of_nat i) m)) =
                     inl (MS (N.of_nat (S i)) (S d) child (n :: anc) ns' mts
                                   (set_mt (restored i segs) (N.of_nat i) m))).
        { unfold round_matched. cbn [ms_idx ms_segs ms_mts ms_nstack ms_depth ms_cur ms_anc].
          replace ((N.of_nat i =? sub8 UL 1)%N) with false.
          - cbn [andb]. rewrite u8_small by lia. do 2 f_equal. lia.
          - symmetry. apply N.eqb_neq. unfold UL. rewrite sub8_le by lia. lia. }
        rewrite Rm in R'. clear Rm.
        assert (Hsk2 : skipn (S i) us0 = u2 :: us2).
        { assert (Eu : nth_error us0 i = Some u).
          { destruct (nth_error us0 i) as [u1|] eqn:E.
            - rewrite (skipn_nth _ _ _ _ E) in Hsk. congruence.
            - apply nth_error_None in E. fold L in E. lia. }
          pose proof (skipn_nth _ _ _ _ Eu) as H. congruence. }
        set (segs1 := set_mt (restored i segs) (N.of_nat i) m) in *.
        assert (Hs1 : map strip segs1 = us0) by (apply set_ok; assumption).
        assert (E := IHc (S d) (S i) (n :: anc) ns' mts segs1).
        rewrite Hsk2 in E.
        assert (E' : result_of (S i) (S d) child (n :: anc) ns' mts segs1
              (dfs child (S d) (u2 :: us2)) (MS (N.of_nat (S i)) (S d) child (n :: anc) ns' mts segs1)).
        { apply E; clear E; try (cbn [List.length]; lia).
          - intros e He. rewrite En3 by lia. apply Hz. lia.
          - intros y Hy. apply Hm. lia.
          - intros H. exfalso. apply H. apply Hm. lia.
          - assumption. }
        clear E.
        assert (Ht1 : firstn (S i) (types segs1) = firstn i (types segs) ++ [m]).
        { unfold segs1. rewrite set_mt_firstn_S by assumption.
          rewrite restored_firstn by assumption. reflexivity. }
        destruct (dfs child (S d) (u2 :: us2)) as [p ms| | |] eqn:Ed; cbn [result_of] in E'; cbn [cons_mt].
        -- destruct E' as [segs2 [H1 [H2 H3]]]. cbn [result_of]. exists segs2.
           split; [eapply steps_round; eassumption|]. split; [assumption|].
           rewrite H3, Ht1, <- app_assoc. reflexivity.
        -- destruct E' as [ns2 [segs2 [H1 [H2 [H3 [H4 [H5 [H6 _]]]]]]]].
           assert (Hd' : S d < 19) by (eapply dfs_fail_depth; [|eassumption]; discriminate).
           destruct (pop_frame child (S i) mts ns2 segs2 (N.of_nat (S c')) (N.of_nat i))
             as [ns3 [P1 [P2 [P3 [P4 P5]]]]]; auto; try lia.
           { apply update_same. apply Hm. lia. }
           { rewrite H3 by lia. assumption. }
           assert (Hf3 : frame i (S c') ns3 segs2).
           { split; [assumption|]. split; [assumption|]. split; [eauto|]. split; [assumption|].
             split; [assumption|assumption]. }
           assert (Hlt : List.length (n_ch n) - S c' < k) by (unfold c' in *; lia).
           pose proof (IHk (List.length (n_ch n) - S c') Hlt i (S c') ns3 segs2 u (u2 :: us2) eq_refl Hf3 Hsk Hnm) as I.
           rewrite Hsc' in I. 
           eapply leads_result; [| | |exact I].
           ++ intros K HK. eapply steps_after_fail; [|eassumption|eassumption].
              eapply steps_round; eassumption.
           ++ intros e He. rewrite P4, H3, En3 by lia. reflexivity.
           ++ apply (f_equal (firstn i)) in H6. rewrite !firstn_firstn in H6.
              replace (Nat.min i (S i)) with i in H6 by lia. rewrite H6.
              unfold segs1. rewrite set_mt_firstn by auto. apply restored_firstn; assumption.
        -- destruct E' as [segs2 H1]. cbn [result_of]. exists segs2. eapply steps_round; eassumption.
        -- cbn [result_of]. eapply steps_round; eassumption.
Qed.

End InNode.

Lemma all_enter : forall n, tree_ok n -> enters n.
Proof.
  induction n as [mx pr sg pt ch IH] using node_ind'. intros Hn.
  assert (IHn : Forall enters ch).
  { apply tree_ok_eq in Hn. destruct Hn as [_ [_ H]]. cbn [n_ch] in H.
    rewrite Forall_forall in *. intros c Hc. apply IH; auto. }
  intros d i anc ns mts segs Hi Hanc Hns Hmts Hz Hm Hnm Hs.
  destruct (skipn i us0) as [|u us'] eqn:Hsk; [exfalso; apply (skipn_not_nil i Hi); assumption|].
  rewrite dfs_eq. destruct (Nat.leb 19 d) eqn:Ed.
  - apply Nat.leb_le in Ed. cbn [result_of]. apply steps_done. unfold round.
    cbn [ms_idx ms_segs ms_mts ms_nstack ms_depth ms_cur ms_anc].
    replace ((N.of_nat i <? UL)%N) with true by (symmetry; apply N.ltb_lt; unfold UL; lia).
    cbn [negb]. replace (nth_error ns d) with (@None (N * N)) by (symmetry; apply nth_error_None; lia).
    destruct (nth_error segs (N.to_nat (N.of_nat i))); [|reflexivity].
    destruct (nth_error mts (N.to_nat (N.of_nat i))); reflexivity.
  - apply Nat.leb_gt in Ed.
    apply (in_kids (Node mx pr sg pt ch) Hn IHn d anc mts Hanc Ed Hmts _ i 0 ns segs u us' eq_refl); auto.
    split; [assumption|]. split; [assumption|]. split; [exists 0%N; apply Hz; lia|].
    split; [intros e He; apply Hz; lia|]. split; assumption.
Qed.

End Sim.

(** ** [Match] is the search *)

Definition of_outcome (us : list useg) (o : outcome) (r : match_result) : Prop :=
  match o with
  | Found p ms => exists segs', r = Matched p (Some p) segs' /\
      map strip segs' = map strip us /\ types segs' = ms
  | Fail | Abort => r = NoMatch
  | Panic => r = MatchPanic
  end.

Lemma match_is_dfs : forall m us, m_ci m = ci -> tree_ok (m_trie m) ->
  List.length us <= 19 -> us <> [] ->
  exists k r, (forall f, match_path (k + f) re m path us = r) /\
    of_outcome us (dfs (m_trie m) 0 (map strip us)) r.
Proof.
  intros m us Hci Ht Hl Hne.
  set (us0 := map strip us).
  assert (Hl0 : List.length us0 <= 19) by (unfold us0; rewrite map_length; assumption).
  assert (H0 : 0 < List.length us0) by (unfold us0; rewrite map_length; destruct us; simpl; [congruence|lia]).
  pose proof (all_enter us0 Hl0 (m_trie m) Ht 0 0 [] (repeat (0, 0)%N 19) (repeat MTUnknown 19) us
    H0 eq_refl (repeat_length _ _) (repeat_length _ _)) as E.
  assert (E' : result_of us0 0 0 (m_trie m) [] (repeat (0, 0)%N 19) (repeat MTUnknown 19) us
     (dfs (m_trie m) 0 (skipn 0 us0))
     (MS (N.of_nat 0) 0 (m_trie m) [] (repeat (0, 0)%N 19) (repeat MTUnknown 19) us)).
  { assert (Hrep : forall (A : Type) (x : A) k e, e < k -> nth_error (repeat x k) e = Some x).
    { intros A x. induction k as [|k IHk]; intros e He; [lia|]. destruct e; [reflexivity|].
      cbn [repeat nth_error]. apply IHk. lia. }
    apply E; try reflexivity.
    - intros e He. apply Hrep. lia.
    - intros j Hj. apply Hrep. lia.
    - intros H. exfalso. apply H. reflexivity. }
  clear E. change (skipn 0 us0) with us0 in E'.
  assert (Hm : forall f, match_path f re m path us =
    match match_loop re ci path (N.of_nat (List.length us0)) f
       (MS (N.of_nat 0) 0 (m_trie m) [] (repeat (0, 0)%N 19) (repeat MTUnknown 19) us) with
        | MRet (Some p) segs' => Matched p (Some p) segs'
        | MRet None _ => NoMatch
        | MPanic => MatchPanic
        | MFuel => MatchFuel
        end).
  { intros f. unfold match_path. unfold max_path_segments.
    replace (Nat.ltb 19 (List.length us)) with false by (symmetry; apply Nat.ltb_ge; assumption).
    rewrite Hci. unfold us0 in *. rewrite map_length in *. rewrite u8_small by lia.
    destruct us; [congruence|]. reflexivity. }
  destruct (dfs (m_trie m) 0 us0) as [p ms| | |]; cbn [result_of] in E'; cbn [of_outcome].
  - destruct E' as [segs' [[k Hk] [H1 H2]]]. exists k, (Matched p (Some p) segs').
    split; [intros f; rewrite Hm, Hk; reflexivity|]. exists segs'. split; [reflexivity|]. split; assumption.
  - destruct E' as [ns' [segs' [[k Hk] _]]]. exists k, NoMatch.
    split; [|reflexivity]. intros f. rewrite Hm, Hk. reflexivity.
  - destruct E' as [segs' [k Hk]]. exists k, NoMatch. split; [|reflexivity]. intros f. rewrite Hm, Hk. reflexivity.
  - destruct E' as [k Hk]. exists k, MatchPanic. split; [|reflexivity]. intros f. rewrite Hm, Hk. reflexivity.
Qed.

End Dfs.
