(** * The matching loop on trees of any width

    [Search_Proofs] shows what the matching loop computes on trees whose nodes have
    fewer than 65536 children.  The loop keeps the number of children in sixteen bits
    (matcher.go 48-60), so on a wider node it looks at the first ones only.  [wdfs] is
    the search that does the same, and the loop computes it on every tree. *)
From Coq Require Import List NArith ZArith Ascii String Bool Lia Arith.
From Verif Require Import GoBase Glob_Model Pattern_Model Pattern_Proofs Url_Model Match_Model Search_Proofs.
Import ListNotations.
Local Open Scope list_scope.
Local Open Scope nat_scope.

(** The children the loop looks at. *)
Definition cut (n : node) : list node := firstn (N.to_nat (u16 (N.of_nat (List.length (n_ch n))))) (n_ch n).

Lemma cut_in : forall n c, In c (cut n) -> In c (n_ch n).
Proof. intros n c H. unfold cut in H. rewrite <- (firstn_skipn (N.to_nat (u16 (N.of_nat (List.length (n_ch n)))))). apply in_or_app. left. exact H. Qed.

Lemma cut_len : forall n, (N.of_nat (List.length (cut n)) < 65536)%N.
Proof.
  intros n. unfold cut. rewrite firstn_length.
  assert (H : (u16 (N.of_nat (List.length (n_ch n))) < 65536)%N) by (unfold u16; apply N.mod_lt; discriminate).
  lia.
Qed.

Lemma cut_narrow : forall n, (N.of_nat (List.length (n_ch n)) < 65536)%N -> cut n = n_ch n.
Proof. intros n H. unfold cut. rewrite u16_small by assumption. rewrite Nat2N.id. apply firstn_all. Qed.

Section Wide.
Variable re : engine.
Variable ci : bool.
Variable path : bytes.
Local Notation sfx := (sfx re ci path).
Local Notation kids := (kids re ci path).
Local Notation first_match_strip := (first_match_strip re ci path).
Local Notation some_matches_strip := (some_matches_strip re ci path).
Local Notation kids_first := (kids_first re ci path).

(** [kids] on the first [k] children. *)
Definition some_kids (f : node -> list useg -> outcome) (u : useg) (us' : list useg) : nat -> list node -> outcome :=
  fix go (k : nat) (l : list node) {struct l} : outcome :=
    match k, l with
    | 0, _ => Fail
    | _, [] => Fail
    | S k', c :: l' =>
        if negb (can_match_len c (N.of_nat (S (List.length us')))) then go k' l'
        else
          match seg_match re ci path (n_seg c) u with
          | SPanic => Panic
          | SMt MTUnknown => go k' l'
          | SMt MTMulti =>
              match n_ch c, n_pat c with
              | [], Some p => Found p (map (fun _ => MTMulti) (u :: us'))
              | gch, _ => sfx (f c) gch (u :: us')
              end
          | SMt m =>
              match us' with
              | [] => match n_pat c with Some p => Found p [m] | None => Fail end
              | _ => match f c us' with
                     | Fail => go k' l'
                     | r => cons_mt m r
                     end
              end
          end
    end.

Lemma some_kids_kids : forall f u us' k l, some_kids f u us' k l = kids f u us' (firstn k l).
Proof.
  intros f u us'. induction k as [|k IH]; intros l; [destruct l; reflexivity|]. destruct l as [|c l]; [reflexivity|].
  cbn [some_kids firstn Search_Proofs.kids]. fold (some_kids f u us'). fold (kids f u us'). rewrite IH. reflexivity.
Qed.

Fixpoint wdfs (n : node) (d : nat) (us : list useg) {struct n} : outcome :=
  match n with
  | Node _ _ _ _ ch =>
      match us with
      | [] => Fail
      | u :: us' =>
          if Nat.leb 19 d then Panic
          else some_kids (fun c vs => wdfs c (S d) vs) u us' (N.to_nat (u16 (N.of_nat (List.length ch)))) ch
      end
  end.

Lemma wdfs_eq : forall n d us,
  wdfs n d us = match us with
               | [] => Fail
               | u :: us' => if Nat.leb 19 d then Panic
                             else kids (fun c vs => wdfs c (S d) vs) u us' (cut n)
               end.
Proof.
  intros [mx pr sg pt ch] d us. destruct us; [reflexivity|]. cbn [wdfs]. destruct (Nat.leb 19 d); [reflexivity|].
  apply some_kids_kids.
Qed.

(** Trees with no ** right below another. *)
Fixpoint calm_tree (n : node) : Prop :=
  match n with
  | Node _ _ s _ ch =>
      (s_mt s = MTMulti -> Forall (fun c => s_mt (n_seg c) <> MTMulti) ch) /\
      (fix all (l : list node) : Prop :=
         match l with [] => True | c :: l' => calm_tree c /\ all l' end) ch
  end.

Lemma calm_tree_eq : forall n, calm_tree n <->
  (s_mt (n_seg n) = MTMulti -> Forall (fun c => s_mt (n_seg c) <> MTMulti) (n_ch n)) /\
  Forall calm_tree (n_ch n).
Proof.
  intros [mx pr sg pt ch]. cbn [n_ch n_seg calm_tree].
  assert (H : (fix all (l : list node) : Prop :=
         match l with [] => True | c :: l' => calm_tree c /\ all l' end) ch <-> Forall calm_tree ch).
  { induction ch as [|c ch IH]; [split; constructor|]. rewrite Forall_cons_iff, IH. tauto. }
  rewrite H. tauto.
Qed.

Lemma calm_tree_cut : forall n, calm_tree n ->
  (s_mt (n_seg n) = MTMulti -> Forall (fun c => s_mt (n_seg c) <> MTMulti) (cut n)) /\
  Forall calm_tree (cut n).
Proof.
  intros n H. apply calm_tree_eq in H. destruct H as [H1 H2]. split.
  - intros Hm. specialize (H1 Hm). rewrite Forall_forall in *. intros c Hc. apply H1. apply cut_in. exact Hc.
  - rewrite Forall_forall in *. intros c Hc. apply H2. apply cut_in. exact Hc.
Qed.

Section Sim.
Variable us0 : list useg.
Hypothesis Hlen : List.length us0 <= 19.
Let L := List.length us0.
Let UL := N.of_nat L.

Definition steps_to (st : mstate) (K : nat -> mres) : Prop :=
  exists k, forall f, match_loop re ci path UL (k + f) st = K f.

Definition after_fail (st : mstate) (f : nat) : mres :=
  match round_failed st with
  | inl s => match_loop re ci path UL f s
  | inr r => r
  end.

Definition result_of (i d : nat) (n : node) (anc : list node) (ns : list (N * N)) (mts : list mtype)
    (segs : list useg) (o : outcome) (st : mstate) : Prop :=
  match o with
  | Found p ms =>
      exists segs', steps_to st (fun _ => MRet (Some p) segs') /\
        map strip segs' = us0 /\ types segs' = firstn i (types segs) ++ ms
  | Abort => exists segs', steps_to st (fun _ => MRet None segs')
  | Panic => steps_to st (fun _ => MPanic)
  | Fail =>
      exists ns' segs', steps_to st (after_fail (MS (N.of_nat i) d n anc ns' mts segs')) /\
        List.length ns' = 19 /\
        (forall e, e < d -> nth_error ns' e = nth_error ns e) /\
        (forall e, d < e < 19 -> nth_error ns' e = Some (0, 0)%N) /\
        map strip segs' = us0 /\ firstn i (types segs') = firstn i (types segs) /\
        (forall m, nth_error mts i = Some m -> m <> MTUnknown ->
           S i = L \/ nth_error (types segs') i = Some m)
  end.

Lemma steps_round : forall st st' K, round re ci path UL st = inl st' -> steps_to st' K -> steps_to st K.
Proof.
  intros st st' K E [k Hk]. exists (S k). intros f. cbn [plus match_loop]. rewrite E. apply Hk.
Qed.
Lemma steps_done : forall st r, round re ci path UL st = inr r -> steps_to st (fun _ => r).
Proof. intros st r E. exists 1. intros f. cbn [plus match_loop]. rewrite E. reflexivity. Qed.
Lemma steps_failed : forall st st', round re ci path UL st = round_failed st' -> steps_to st (after_fail st').
Proof. intros st st' E. exists 1. intros f. cbn [plus match_loop]. rewrite E. reflexivity. Qed.
(** A failed search that goes on in the frame below. *)
Lemma steps_after_fail : forall st st1 st2 K,
  steps_to st (after_fail st1) -> round_failed st1 = inl st2 -> steps_to st2 K -> steps_to st K.
Proof.
  intros st st1 st2 K [k Hk] E [k2 Hk2]. exists (k + k2). intros f.
  rewrite <- Nat.add_assoc, Hk. unfold after_fail. rewrite E. apply Hk2.
Qed.

Lemma segs_len : forall segs, map strip segs = us0 -> List.length segs = L.
Proof. intros segs H. unfold L. rewrite <- H, map_length. reflexivity. Qed.

Lemma segs_nth : forall segs i u, map strip segs = us0 -> nth_error us0 i = Some u ->
  exists v, nth_error segs i = Some v /\ strip v = u.
Proof.
  intros segs i u H Hu. rewrite <- H in Hu.
  destruct (nth_error segs i) as [v|] eqn:E.
  - rewrite (map_nth_error _ _ _ E) in Hu. exists v. split; congruence.
  - apply nth_error_None in E. rewrite <- (map_length strip) in E. apply nth_error_None in E. congruence.
Qed.

Lemma set_ok : forall segs i m, map strip segs = us0 -> map strip (set_mt segs (N.of_nat i) m) = us0.
Proof. intros. rewrite set_mt_strip. assumption. Qed.

Lemma types_len : forall segs, map strip segs = us0 -> List.length (types segs) = L.
Proof. intros. unfold types. rewrite map_length. apply segs_len. assumption. Qed.

Lemma set_mt_firstn : forall segs i j m, map strip segs = us0 -> i <= j -> j < L ->
  firstn i (types (set_mt segs (N.of_nat j) m)) = firstn i (types segs).
Proof.
  intros segs i j m H Hij Hj. rewrite set_mt_types by (rewrite segs_len; assumption).
  rewrite firstn_app, firstn_firstn, firstn_length, types_len by assumption.
  replace (Nat.min i j) with i by lia. replace (i - Nat.min j L) with 0 by lia.
  simpl. apply app_nil_r.
Qed.

Lemma set_mt_firstn_S : forall segs j m, map strip segs = us0 -> j < L ->
  firstn (S j) (types (set_mt segs (N.of_nat j) m)) = firstn j (types segs) ++ [m].
Proof.
  intros segs j m H Hj. rewrite set_mt_types by (rewrite segs_len; assumption).
  rewrite firstn_app, firstn_firstn, firstn_length, types_len by assumption.
  replace (Nat.min (S j) j) with j by lia. replace (S j - Nat.min j L) with 1 by lia. reflexivity.
Qed.

Lemma set_mt_nth : forall segs j m, map strip segs = us0 -> j < L ->
  nth_error (types (set_mt segs (N.of_nat j) m)) j = Some m.
Proof.
  intros segs j m H Hj. rewrite set_mt_types by (rewrite segs_len; assumption).
  rewrite nth_error_app2; rewrite firstn_length, types_len by assumption; [|lia].
  replace (j - Nat.min j L) with 0 by lia. reflexivity.
Qed.

(** Filling the rest with **. *)
Lemma fill_multi_spec : forall k i segs, map strip segs = us0 -> i + k = L ->
  map strip (fill_multi k (N.of_nat i) segs) = us0 /\
  types (fill_multi k (N.of_nat i) segs) = firstn i (types segs) ++ repeat MTMulti k.
Proof.
  induction k as [|k IH]; intros i segs H Hi; cbn [fill_multi].
  - split; [assumption|]. simpl. rewrite app_nil_r, firstn_all2; [reflexivity|].
    rewrite types_len by assumption. lia.
  - replace (N.of_nat i + 1)%N with (N.of_nat (S i)) by lia.
    destruct (IH (S i) (set_mt segs (N.of_nat i) MTMulti)) as [H1 H2]; [apply set_ok; assumption|lia|].
    split; [assumption|]. rewrite H2, set_mt_firstn_S by (assumption || lia).
    rewrite <- app_assoc. reflexivity.
Qed.

(** The scan below a ** node. *)
Lemma greedy_spec : forall gch f k i segs, map strip segs = us0 -> i + k = L ->
  match greedy re ci path k gch (N.of_nat i) segs with
  | GrPanic => sfx f gch (skipn i us0) = Panic
  | GrNone _ => sfx f gch (skipn i us0) = Abort
  | GrAt j' segs' => exists j, j' = N.of_nat j /\ i <= j < L /\ map strip segs' = us0 /\
      firstn (S j) (types segs') = firstn i (types segs) ++ repeat MTMulti (S (j - i)) /\
      sfx f gch (skipn i us0) =
      Nat.iter (j - i) (cons_mt MTMulti)
        (match f (skipn j us0) with
         | Fail => cons_mt MTMulti (sfx f gch (skipn (S j) us0))
         | r => r
         end)
  end.
Proof.
  intros gch f. induction k as [|k IH]; intros i segs H Hi; cbn [greedy].
  - rewrite skipn_all2 by (fold L; lia). reflexivity.
  - rewrite Nat2N.id.
    destruct (nth_error us0 i) as [u|] eqn:Eu.
    2:{ apply nth_error_None in Eu. fold L in Eu. lia. }
    destruct (segs_nth segs i u H Eu) as [v [Ev Hv]]. rewrite Ev.
    rewrite (skipn_nth _ _ _ _ Eu). cbn [sfx]. fold (sfx f gch).
    assert (Hv2 : some_matches re ci path gch u = some_matches re ci path gch v).
    { rewrite <- Hv. apply some_matches_strip. }
    rewrite ?Hv2.
    destruct (some_matches re ci path gch v) eqn:Em.
    + replace (u8 (N.of_nat i + 1)) with (N.of_nat (S i)) by (rewrite u8_small by lia; lia).
      specialize (IH (S i) (set_mt segs (N.of_nat i) MTMulti) (set_ok _ _ _ H) ltac:(lia)).
      destruct (greedy re ci path k gch (N.of_nat (S i)) (set_mt segs (N.of_nat i) MTMulti)).
      * rewrite IH. reflexivity.
      * rewrite IH. reflexivity.
      * destruct IH as [j [E1 [E2 [E3 [E4 E5]]]]]. exists j. split; [assumption|].
        split; [lia|]. split; [assumption|]. split.
        -- rewrite E4, set_mt_firstn_S by (assumption || lia). rewrite <- app_assoc.
           replace (S (j - i)) with (S (S (j - S i))) by lia. reflexivity.
        -- rewrite E5. replace (j - i) with (S (j - S i)) by lia. reflexivity.
    + exists i. split; [reflexivity|]. split; [lia|]. split; [apply set_ok; assumption|].
      rewrite set_mt_firstn_S by (assumption || lia).
      replace (i - i) with 0 by lia. split; [reflexivity|]. cbn [Nat.iter nat_rect].
      rewrite (skipn_nth _ _ _ _ Eu). reflexivity.
    + reflexivity.
Qed.

Lemma sfx_not_fail : forall f gch vs, sfx f gch vs <> Fail.
Proof.
  intros f gch. induction vs as [|v vs IH]; cbn [sfx]; [discriminate|].
  fold (sfx f gch).
  assert (Hc : cons_mt MTMulti (sfx f gch vs) <> Fail).
  { destruct (sfx f gch vs); cbn [cons_mt]; congruence. }
  destruct (some_matches re ci path gch v); try discriminate; [assumption|].
  destruct (f (v :: vs)); try discriminate. assumption.
Qed.

(** ** Entering a node *)

Definition enters (n : node) : Prop :=
  forall d i anc ns mts segs,
  i < L -> List.length anc = d -> List.length ns = 19 -> List.length mts = 19 ->
  (forall e, d <= e < 19 -> nth_error ns e = Some (0, 0)%N) ->
  (forall j, i < j < 19 -> nth_error mts j = Some MTUnknown) ->
  (nth_error mts i <> Some MTUnknown -> Forall (fun c => s_mt (n_seg c) <> MTMulti) (cut n)) ->
  map strip segs = us0 ->
  result_of i d n anc ns mts segs (wdfs n d (skipn i us0)) (MS (N.of_nat i) d n anc ns mts segs).

Lemma skipn_not_nil : forall j, j < L -> skipn j us0 <> [].
Proof.
  intros j Hj E. apply (f_equal (@List.length useg)) in E. rewrite skipn_length in E.
  cbn [List.length] in E. fold L in E. lia.
Qed.

Section InNode.
Variable n : node.
Hypothesis Hn : calm_tree n.
Hypothesis IHn : Forall enters (cut n).
Variable d : nat.
Variable anc : list node.
Variable mts : list mtype.
Hypothesis Hanc : List.length anc = d.
Hypothesis Hd : d < 19.
Hypothesis Hmts : List.length mts = 19.

Lemma children_all : firstn (N.to_nat (u16 (N.of_nat (List.length (n_ch n))))) (n_ch n) = cut n.
Proof. reflexivity. Qed.

(** The state of the loop in node [n] at segment [i], about to try the children
    from number [c] on. *)
Definition frame (i c : nat) (ns : list (N * N)) (segs : list useg) : Prop :=
  i < L /\ List.length ns = 19 /\ (exists x, nth_error ns d = Some (N.of_nat c, x)) /\
  (forall e, d < e < 19 -> nth_error ns e = Some (0, 0)%N) /\
  (forall j, i < j < 19 -> nth_error mts j = Some MTUnknown) /\
  map strip segs = us0.

(** The segments at the start of a round. *)
Definition restored (i : nat) (segs : list useg) : list useg :=
  match nth_error mts i with
  | Some m => if mt_eqb m MTUnknown then segs else set_mt segs (N.of_nat i) m
  | None => segs
  end.

Lemma restored_ok : forall i segs, map strip segs = us0 -> map strip (restored i segs) = us0.
Proof.
  intros i segs H. unfold restored. destruct (nth_error mts i); [|assumption].
  destruct (mt_eqb m MTUnknown); [assumption|apply set_ok; assumption].
Qed.
Lemma restored_firstn : forall i segs, map strip segs = us0 -> i < L ->
  firstn i (types (restored i segs)) = firstn i (types segs).
Proof.
  intros i segs H Hi. unfold restored. destruct (nth_error mts i); [|reflexivity].
  destruct (mt_eqb m MTUnknown); [reflexivity|apply set_mt_firstn; auto].
Qed.
Lemma restored_nth : forall i segs m, map strip segs = us0 -> i < L ->
  nth_error mts i = Some m -> m <> MTUnknown -> nth_error (types (restored i segs)) i = Some m.
Proof.
  intros i segs m H Hi Hm Hne. unfold restored. rewrite Hm.
  destruct (mt_eqb m MTUnknown) eqn:E; [apply mt_eqb_eq in E; contradiction|].
  apply set_mt_nth; assumption.
Qed.

Lemma round_in_frame : forall i c ns segs u us' , frame i c ns segs -> skipn i us0 = u :: us' ->
  round re ci path UL (MS (N.of_nat i) d n anc ns mts segs) =
  match first_match re ci path (skipn c (cut n)) (N.of_nat c) (N.of_nat (S (List.length us'))) u with
  | FPanic => inr MPanic
  | FNone => round_failed (MS (N.of_nat i) d n anc ns mts (restored i segs))
  | FSome c' child MTMulti =>
      match n_ch child, is_leaf child with
      | [], true =>
          inr (MRet (n_pat child) (fill_multi (L - i) (N.of_nat i) (restored i segs)))
      | gch, _ =>
          match greedy re ci path (L - i) gch (N.of_nat i) (restored i segs) with
          | GrPanic => inr MPanic
          | GrNone segs' => inr (MRet None segs')
          | GrAt j segs' =>
              match update ns d (c', u8 (j + 1)), update mts (N.to_nat j) MTMulti with
              | Some ns', Some mts' =>
                  round_matched UL (MS (sub8 j 1) (S d) child (n :: anc) ns' mts' segs')
              | _, _ => inr MPanic
              end
          end
      end
  | FSome c' child m =>
      if Nat.eqb (S i) L then
        if is_leaf child then inr (MRet (n_pat child) (set_mt (restored i segs) (N.of_nat i) m))
        else round_failed (MS (N.of_nat i) d n anc ns mts (set_mt (restored i segs) (N.of_nat i) m))
      else
        match update ns d (u16 (c' + 1), N.of_nat i) with
        | Some ns' =>
            round_matched UL (MS (N.of_nat i) (S d) child (n :: anc) ns' mts
                                 (set_mt (restored i segs) (N.of_nat i) m))
        | None => inr MPanic
        end
  end.
Proof.
  intros i c ns segs u us' [Hi [Hns [[x Hx] [Hz [Hm Hs]]]]] Hsk.
  assert (Eu : nth_error us0 i = Some u).
  { destruct (nth_error us0 i) as [u1|] eqn:E.
    - rewrite (skipn_nth _ _ _ _ E) in Hsk. congruence.
    - apply nth_error_None in E. fold L in E. lia. }
  assert (Hl : S (List.length us') = L - i).
  { apply (f_equal (@List.length useg)) in Hsk. rewrite skipn_length in Hsk. cbn [List.length] in Hsk.
    fold L in Hsk. lia. }
  destruct (segs_nth segs i u Hs Eu) as [v [Ev Hv]].
  destruct (nth_error mts i) as [m0|] eqn:Em.
  2:{ apply nth_error_None in Em. lia. }
  unfold round, restored. cbn [ms_idx ms_segs ms_mts ms_nstack ms_depth ms_cur ms_anc].
  replace ((N.of_nat i <? UL)%N) with true by (symmetry; apply N.ltb_lt; unfold UL; lia).
  cbn [negb]. rewrite Nat2N.id, Ev, Em, Hx, Nat2N.id, children_all.
  assert (Hsub : sub8 UL (N.of_nat i) = N.of_nat (L - i)).
  { unfold UL. rewrite sub8_le by lia. lia. }
  assert (Hsub1 : sub8 UL 1 = N.of_nat (L - 1)).
  { unfold UL. rewrite sub8_le by lia. lia. }
  rewrite Hsub, Hl. rewrite <- (first_match_strip _ _ _ v), Hv.
  replace (N.to_nat (UL - N.of_nat i)) with (L - i) by (unfold UL; lia).
  destruct (first_match re ci path (skipn c (cut n)) (N.of_nat c) (N.of_nat (L - i)) u)
    as [| |c' child m]; [reflexivity|reflexivity|].
  rewrite Hsub1.
  replace ((N.of_nat i =? N.of_nat (L - 1))%N) with (Nat.eqb (S i) L).
  2:{ destruct (Nat.eqb_spec (S i) L) as [E|E]; symmetry.
      - apply N.eqb_eq. lia.
      - apply N.eqb_neq. lia. }
  destruct m; reflexivity.
Qed.

Lemma seg_match_multi : forall s u, seg_match re ci path s u = SMt MTMulti -> s_mt s = MTMulti.
Proof.
  intros s u H. unfold seg_match in H. destruct (s_mt s) eqn:E; try discriminate; try reflexivity.
  - destruct (_ =? _)%N; [|discriminate]. destruct (useg_text path u); [|discriminate].
    destruct (if ci then _ else _); discriminate.
  - destruct (useg_text path u); [|discriminate]. destruct (s_re s); [|discriminate].
    destruct (re_match re _ _); discriminate.
  - destruct (useg_text path u); [|discriminate].
    destruct (regex_segment_match _ _ ci) as [[]| |]; discriminate.
Qed.

Lemma multi_matches : forall s u, s_mt s = MTMulti -> seg_match re ci path s u = SMt MTMulti.
Proof. intros s u H. unfold seg_match. rewrite H. reflexivity. Qed.

Lemma leads_result : forall i ns ns2 segs segs2 o st st2,
  (forall K, steps_to st2 K -> steps_to st K) ->
  (forall e, e < d -> nth_error ns2 e = nth_error ns e) ->
  firstn i (types segs2) = firstn i (types segs) ->
  result_of i d n anc ns2 mts segs2 o st2 -> result_of i d n anc ns mts segs o st.
Proof.
  intros i ns ns2 segs segs2 o st st2 Hl Hns Ht H. destruct o as [p ms| | |]; cbn [result_of] in *.
  - destruct H as [segs' [H1 [H2 H3]]]. exists segs'. rewrite <- Ht. auto.
  - destruct H as [ns' [segs' [H1 [H2 [H3 [H4 [H5 [H6 H7]]]]]]]]. exists ns', segs'.
    split; [auto|]. split; [assumption|]. split; [intros e He; rewrite H3 by assumption; auto|].
    split; [assumption|]. split; [assumption|]. split; [congruence|assumption].
  - destruct H as [segs' H]. exists segs'. auto.
  - auto.
Qed.

Lemma update_back : forall (A : Type) (l l' : list A) i v w,
  nth_error l i = Some w -> update l i v = Some l' -> update l' i w = Some l.
Proof.
  induction l as [|x l IH]; intros l' [|i] v w H1 H2; cbn [nth_error update] in *; try discriminate.
  - injection H1 as ->. injection H2 as <-. reflexivity.
  - destruct (update l i v) as [r|] eqn:E; [|discriminate]. injection H2 as <-. cbn [update].
    rewrite (IH _ _ _ _ H1 E). reflexivity.
Qed.
Lemma update_same : forall (A : Type) (l : list A) i w,
  nth_error l i = Some w -> update l i w = Some l.
Proof.
  induction l as [|x l IH]; intros [|i] w H; cbn [nth_error update] in *; try discriminate.
  - injection H as ->. reflexivity.
  - rewrite IH by assumption. reflexivity.
Qed.

Lemma firstn_S_nth : forall (A : Type) (l : list A) i x, nth_error l i = Some x ->
  firstn (S i) l = firstn i l ++ [x].
Proof.
  induction l as [|y l IH]; intros [|i] x H; cbn [nth_error] in H; try discriminate.
  - injection H as ->. reflexivity.
  - cbn [firstn app]. f_equal. apply IH. assumption.
Qed.

Lemma wdfs_fail_depth : forall c us, us <> [] -> wdfs c (S d) us = Fail -> S d < 19.
Proof.
  intros c us Hu H. rewrite wdfs_eq in H. destruct us; [congruence|].
  destruct (Nat.leb 19 (S d)) eqn:E; [discriminate|]. apply Nat.leb_gt in E. assumption.
Qed.

Lemma matched_goes_on : forall x depth cur an ns ms sg,
  (x < UL)%N -> 
  round_matched UL (MS (sub8 x 1) depth cur an ns ms sg) =
  inl (MS x depth cur an ns ms sg).
Proof.
  intros x depth cur an ns ms sg Hx. unfold round_matched.
  cbn [ms_idx ms_segs ms_mts ms_nstack ms_depth ms_cur ms_anc].
  assert (Hb : (UL <= 19)%N) by (unfold UL; lia).
  replace ((sub8 x 1 =? sub8 UL 1)%N) with false.
  - cbn [andb]. rewrite dec_inc by lia. reflexivity.
  - symmetry. apply N.eqb_neq. rewrite (sub8_le UL) by lia.
    destruct (N.eq_dec x 0) as [->|Hn0]; [rewrite sub8_zero_one; lia|]. rewrite sub8_le by lia. lia.
Qed.

(** Popping a failed child frame: the loop goes on in node [n]. *)
Lemma pop_frame : forall child i' mts' ns' segs' c j,
  S d < 19 -> i' < 19 -> List.length ns' = 19 ->
  update mts' i' MTUnknown = Some mts -> nth_error ns' d = Some (c, j) ->
  (forall e, S d < e < 19 -> nth_error ns' e = Some (0, 0)%N) ->
  exists ns'', round_failed (MS (N.of_nat i') (S d) child (n :: anc) ns' mts' segs') =
    inl (MS j d n anc ns'' mts segs') /\
    List.length ns'' = 19 /\ nth_error ns'' d = Some (c, j) /\
    (forall e, e < d -> nth_error ns'' e = nth_error ns' e) /\
    (forall e, d < e < 19 -> nth_error ns'' e = Some (0, 0)%N).
Proof.
  intros child i' mts' ns' segs' c j H1 H2 H3 H4 H5 H6.
  destruct (update_spec _ ns' (S d) (0, 0)%N) as [ns'' [E [E1 [E2 [E3 _]]]]]; [lia|].
  exists ns''. unfold round_failed. cbn [ms_idx ms_segs ms_mts ms_nstack ms_depth ms_cur ms_anc].
  rewrite Nat2N.id, H4, E. cbv iota beta. rewrite E3 by lia. rewrite H5. split; [reflexivity|].
  split; [lia|]. split; [reflexivity|].
  split; [intros e He; apply E3; lia|].
  intros e He. destruct (Nat.eq_dec e (S d)) as [->|Hne]; [assumption|].
  rewrite E3 by assumption. apply H6. lia.
Qed.

Lemma iter_found : forall k p ms,
  Nat.iter k (cons_mt MTMulti) (Found p ms) = Found p (repeat MTMulti k ++ ms).
Proof.
  induction k as [|k IH]; intros p ms; [reflexivity|]. cbn [Nat.iter nat_rect].
  change (nat_rect (fun _ => outcome) (Found p ms) (fun _ => cons_mt MTMulti) k)
    with (Nat.iter k (cons_mt MTMulti) (Found p ms)). rewrite IH. reflexivity.
Qed.
Lemma iter_other : forall k o, (forall p ms, o <> Found p ms) ->
  Nat.iter k (cons_mt MTMulti) o = o.
Proof.
  induction k as [|k IH]; intros o H; [reflexivity|]. cbn [Nat.iter nat_rect].
  change (nat_rect (fun _ => outcome) o (fun _ => cons_mt MTMulti) k)
    with (Nat.iter k (cons_mt MTMulti) o). rewrite IH by assumption.
  destruct o; try reflexivity. exfalso. eapply H. reflexivity.
Qed.

Lemma in_sfx : forall c child, nth_error (cut n) c = Some child -> s_mt (n_seg child) = MTMulti ->
  ~ (n_ch child = [] /\ is_leaf child = true) ->
  forall k j c0 ns segs u us', L - j = k -> frame j c0 ns segs ->
  skipn j us0 = u :: us' -> can_match_len child (N.of_nat (S (List.length us'))) = true ->
  first_match re ci path (skipn c0 (cut n)) (N.of_nat c0) (N.of_nat (S (List.length us'))) u
    = FSome (N.of_nat c) child MTMulti ->
  (forall x, j <= x < 19 -> nth_error mts x = Some MTUnknown) ->
  match sfx (fun vs => wdfs child (S d) vs) (n_ch child) (u :: us') with
  | Fail => True
  | o => result_of j d n anc ns mts segs o (MS (N.of_nat j) d n anc ns mts segs)
  end.
Proof.
  intros c child Hc Hmt Hnl.
  assert (Hcc : calm_tree child).
  { apply calm_tree_cut in Hn. destruct Hn as [_ H]. rewrite Forall_forall in H. apply H.
    eapply nth_error_In; eauto. }
  assert (IHc : enters child).
  { rewrite Forall_forall in IHn. apply IHn. eapply nth_error_In; eauto. }
  induction k as [k IHk] using lt_wf_ind. intros j c0 ns segs u us' Hk Hf Hsk Hcm Hfm Hun.
  pose proof (round_in_frame j c0 ns segs u us' Hf Hsk) as R. rewrite Hfm in R.
  destruct Hf as [Hj [Hns [[x Hx] [Hz [Hm Hs]]]]].
  assert (Hre : restored j segs = segs) by (unfold restored; rewrite Hun by lia; reflexivity).
  rewrite Hre in R.
  assert (R' : round re ci path UL (MS (N.of_nat j) d n anc ns mts segs) =
    match greedy re ci path (L - j) (n_ch child) (N.of_nat j) segs with
          | GrPanic => inr MPanic
          | GrNone segs' => inr (MRet None segs')
          | GrAt j segs' =>
              match update ns d (N.of_nat c, u8 (j + 1)), update mts (N.to_nat j) MTMulti with
              | Some ns', Some mts' =>
                  round_matched UL (MS (sub8 j 1) (S d) child (n :: anc) ns' mts' segs')
              | _, _ => inr MPanic
              end
          end).
  { rewrite R. destruct (n_ch child); [|reflexivity]. destruct (is_leaf child); [|reflexivity].
    exfalso. apply Hnl. auto. }
  clear R. rewrite <- Hsk.
  pose proof (greedy_spec (n_ch child) (fun vs => wdfs child (S d) vs) (L - j) j segs Hs ltac:(lia)) as G.
  destruct (greedy re ci path (L - j) (n_ch child) (N.of_nat j) segs) as [segs'| |j1 segs'].
  - rewrite G. cbn [result_of]. exists segs'. apply steps_done. assumption.
  - rewrite G. cbn [result_of]. apply steps_done. assumption.
  - destruct G as [j' [-> [Hj' [Hs' [Ht' G]]]]]. rewrite G. clear G.
    destruct (update_spec _ ns d (N.of_nat c, u8 (N.of_nat j' + 1))) as [ns' [En [En1 [En2 [En3 _]]]]]; [lia|].
    destruct (update_spec _ mts j' MTMulti) as [mts' [Em [Em1 [Em2 [Em3 _]]]]]; [lia|].
    rewrite Nat2N.id, En, Em in R'. rewrite matched_goes_on in R' by (unfold UL; lia).
    assert (E := IHc (S d) j' (n :: anc) ns' mts' segs').
    assert (Ef : firstn j' (types segs') = firstn j (types segs) ++ repeat MTMulti (j' - j)).
    { apply (f_equal (firstn j')) in Ht'. rewrite firstn_firstn in Ht'.
      replace (Nat.min j' (S j')) with j' in Ht' by lia. rewrite Ht'.
      rewrite firstn_app, firstn_firstn, firstn_length, types_len by assumption.
      replace (Nat.min j' j) with j by lia. replace (j' - Nat.min j L) with (j' - j) by lia.
      f_equal. replace (S (j' - j)) with ((j' - j) + 1) by lia. rewrite repeat_app, firstn_app.
      rewrite repeat_length, Nat.sub_diag, firstn_all2 by (rewrite repeat_length; lia).
      simpl. apply app_nil_r. }
    assert (E' : result_of j' (S d) child (n :: anc) ns' mts' segs'
              (wdfs child (S d) (skipn j' us0)) (MS (N.of_nat j') (S d) child (n :: anc) ns' mts' segs')).
    { apply E; clear E; try (cbn [List.length]; lia).
      - intros e He. rewrite En3 by lia. apply Hz. lia.
      - intros y Hy. rewrite Em3 by lia. apply Hun. lia.
      - intros _. apply calm_tree_cut in Hcc. destruct Hcc as [H _]. auto.
      - assumption. }
    clear E. destruct (wdfs child (S d) (skipn j' us0)) as [p ms| | |] eqn:Ed; cbn [result_of] in E'.
    + destruct E' as [segs2 [H1 [H2 H3]]]. rewrite iter_found. cbn [result_of].
      exists segs2. split; [eapply steps_round; eassumption|]. split; [assumption|].
      rewrite H3, Ef, <- app_assoc. reflexivity.
    + destruct E' as [ns2 [segs2 [H1 [H2 [H3 [H4 [H5 [H6 H7]]]]]]]].
      assert (Hd' : S d < 19) by (eapply wdfs_fail_depth; [apply skipn_not_nil|eassumption]; lia).
      destruct (pop_frame child j' mts' ns2 segs2 (N.of_nat c) (u8 (N.of_nat j' + 1)))
        as [ns3 [P1 [P2 [P3 [P4 P5]]]]]; auto; try lia.
      { eapply update_back; [apply Hun; lia|eassumption]. }
      { rewrite H3 by lia. assumption. }
      rewrite u8_small in P1, P3 by lia. replace (N.of_nat j' + 1)%N with (N.of_nat (S j')) in P1, P3 by lia.
      assert (Hleads : forall K,
        steps_to (MS (N.of_nat (S j')) d n anc ns3 mts segs2) K ->
        steps_to (MS (N.of_nat j) d n anc ns mts segs) K).
      { intros K HK. eapply steps_after_fail; [|eassumption|eassumption].
        eapply steps_round; eassumption. }
      assert (Hns3 : forall e, e < d -> nth_error ns3 e = nth_error ns e).
      { intros e He. rewrite P4, H3, En3 by lia. reflexivity. }
      destruct (Nat.eq_dec (S j') L) as [El|El].
      * rewrite skipn_all2 by (fold L; lia). cbn [sfx cons_mt]. rewrite iter_other by discriminate.
        cbn [result_of]. exists segs2. apply Hleads. apply steps_done.
        unfold round. cbn [ms_idx].
        replace ((N.of_nat (S j') <? UL)%N) with false by (symmetry; apply N.ltb_ge; unfold UL; lia).
        reflexivity.
      * assert (Hsk2 : exists u2 us2, skipn (S j') us0 = u2 :: us2).
        { destruct (skipn (S j') us0) as [|u2 us2] eqn:E2; [|eauto].
          exfalso. apply (skipn_not_nil (S j')); [lia|assumption]. }
        destruct Hsk2 as [u2 [us2 Hsk2]].
        assert (Hl2 : S (List.length us2) = L - S j').
        { apply (f_equal (@List.length useg)) in Hsk2. rewrite skipn_length in Hsk2. fold L in Hsk2.
          cbn [List.length] in Hsk2. lia. }
        assert (Hl1 : S (List.length us') = L - j).
        { apply (f_equal (@List.length useg)) in Hsk. rewrite skipn_length in Hsk. fold L in Hsk.
          cbn [List.length] in Hsk. lia. }
        assert (Hcm2 : can_match_len child (N.of_nat (S (List.length us2))) = true).
        { unfold can_match_len in *. apply N.leb_le in Hcm. apply N.leb_le. lia. }
        assert (Hf2 : frame (S j') c ns3 segs2).
        { split; [lia|]. split; [assumption|]. split; [eauto|]. split; [assumption|].
          split; [intros y Hy; apply Hun; lia|assumption]. }
        assert (Hfm2 : first_match re ci path (skipn c (cut n)) (N.of_nat c)
                         (N.of_nat (S (List.length us2))) u2 = FSome (N.of_nat c) child MTMulti).
        { rewrite (skipn_nth _ _ _ _ Hc). cbn [first_match]. rewrite Hcm2. cbn [negb].
          rewrite multi_matches by assumption. reflexivity. }
        assert (Ef2 : firstn (S j') (types segs2) = firstn j (types segs) ++ repeat MTMulti (S (j' - j))).
        { destruct (H7 MTMulti Em2 ltac:(discriminate)) as [H7'|H7']; [contradiction|].
          rewrite (firstn_S_nth _ _ _ _ H7'), H6, Ef, <- app_assoc.
          replace (S (j' - j)) with ((j' - j) + 1) by lia. rewrite repeat_app. reflexivity. }
        assert (Hlt : L - S j' < k) by lia.
        pose proof (IHk (L - S j') Hlt (S j') c ns3 segs2 u2 us2
                        eq_refl Hf2 Hsk2 Hcm2 Hfm2 ltac:(intros y Hy; apply Hun; lia)) as I.
        rewrite <- Hsk2 in I.
        pose proof (sfx_not_fail (fun vs => wdfs child (S d) vs) (n_ch child) (skipn (S j') us0)) as Hnf.
        destruct (sfx (fun vs => wdfs child (S d) vs) (n_ch child) (skipn (S j') us0)) as [p ms| | |].
        -- cbn [cons_mt]. rewrite iter_found. cbn [result_of] in I |- *.
           destruct I as [segs3 [I1 [I2 I3]]]. exists segs3. split; [auto|]. split; [assumption|].
           rewrite I3, Ef2, <- app_assoc. f_equal. cbn [repeat app]. 
           change (MTMulti :: ms) with ([MTMulti] ++ ms). rewrite app_assoc.
           change (MTMulti :: repeat MTMulti (j' - j) ++ ms) with ((MTMulti :: repeat MTMulti (j' - j)) ++ ms).
           f_equal. rewrite repeat_cons. reflexivity.
        -- congruence.
        -- cbn [cons_mt]. rewrite iter_other by discriminate. cbn [result_of] in I |- *.
           destruct I as [segs3 I]. exists segs3. auto.
        -- cbn [cons_mt]. rewrite iter_other by discriminate. cbn [result_of] in I |- *. auto.
    + destruct E' as [segs2 H1]. rewrite iter_other by discriminate. cbn [result_of].
      exists segs2. eapply steps_round; eassumption.
    + rewrite iter_other by discriminate. cbn [result_of]. eapply steps_round; eassumption.
Qed.

Lemma in_kids : forall k i c ns segs u us', List.length (cut n) - c = k -> frame i c ns segs ->
  skipn i us0 = u :: us' ->
  (nth_error mts i <> Some MTUnknown -> Forall (fun c => s_mt (n_seg c) <> MTMulti) (cut n)) ->
  result_of i d n anc ns mts segs (kids (fun c vs => wdfs c (S d) vs) u us' (skipn c (cut n)))
    (MS (N.of_nat i) d n anc ns mts segs).
Proof.
  induction k as [k IHk] using lt_wf_ind. intros i c ns segs u us' Hk Hf Hsk Hnm.
  pose proof (round_in_frame i c ns segs u us' Hf Hsk) as R.
  pose proof (kids_first (fun c vs => wdfs c (S d) vs) u us' (skipn c (cut n)) (N.of_nat c)) as F.
  destruct (first_match re ci path (skipn c (cut n)) (N.of_nat c) (N.of_nat (S (List.length us'))) u)
    as [| |c1 child m] eqn:Efm.
  - rewrite F. cbn [result_of]. destruct Hf as [Hi [Hns [Hx [Hz [Hm Hs]]]]].
    exists ns, (restored i segs). split; [apply steps_failed; assumption|].
    split; [assumption|]. split; [auto|]. split; [assumption|]. split; [apply restored_ok; assumption|].
    split; [apply restored_firstn; assumption|].
    intros m0 H1 H2. right. apply restored_nth; assumption.
  - rewrite F. cbn [result_of]. apply steps_done. assumption.
  - destruct F as [pre [l' [F1 [F2 [F3 [F4 [F5 F6]]]]]]]. rewrite F3. clear F3.
    set (c' := c + List.length pre).
    assert (E1 : c1 = N.of_nat c') by (unfold c'; lia). clear F2. subst c1.
    assert (Hsc : skipn c' (cut n) = child :: l').
    { unfold c'. rewrite skipn_add, F1.
      rewrite skipn_app, skipn_all, Nat.sub_diag. reflexivity. }
    assert (Hc : nth_error (cut n) c' = Some child).
    { rewrite <- (firstn_skipn c' (cut n)), Hsc.
      assert (Hlen' : c' <= List.length (cut n)).
      { destruct (Nat.le_gt_cases c' (List.length (cut n))) as [H|H]; [assumption|].
        rewrite skipn_all2 in Hsc by lia. discriminate Hsc. }
      rewrite nth_error_app2; rewrite firstn_length; [|lia].
      replace (c' - Nat.min c' (List.length (cut n))) with 0 by lia. reflexivity. }
    assert (Hclen : c' < List.length (cut n)) by (apply nth_error_Some; congruence).
    assert (Hsc' : skipn (S c') (cut n) = l').
    { pose proof (skipn_nth _ _ _ _ Hc) as H. congruence. }
    assert (Hi := Hf). destruct Hi as [Hi [Hns [[x Hx] [Hz [Hm Hs]]]]].
    assert (Hl1 : S (List.length us') = L - i).
    { apply (f_equal (@List.length useg)) in Hsk. rewrite skipn_length in Hsk. fold L in Hsk.
      cbn [List.length] in Hsk. lia. }
    assert (Hco : calm_tree child).
    { apply calm_tree_cut in Hn. destruct Hn as [_ H]. rewrite Forall_forall in H. apply H.
      eapply nth_error_In; eauto. }
    assert (IHc : enters child).
    { rewrite Forall_forall in IHn. apply IHn. eapply nth_error_In; eauto. }
    destruct (mt_eqb m MTMulti) eqn:Emm.
    + apply mt_eqb_eq in Emm. subst m.
      assert (Hmt : s_mt (n_seg child) = MTMulti) by (eapply seg_match_multi; eassumption).
      assert (Hun : forall y, i <= y < 19 -> nth_error mts y = Some MTUnknown).
      { intros y Hy. destruct (Nat.eq_dec y i) as [->|Hne]; [|apply Hm; lia].
        destruct (nth_error mts i) as [m0|] eqn:E0.
        - destruct (mt_eqb m0 MTUnknown) eqn:E1; [apply mt_eqb_eq in E1; congruence|].
          exfalso. assert (Hall : Forall (fun c => s_mt (n_seg c) <> MTMulti) (cut n)).
          { apply Hnm. intros E2. injection E2 as ->. discriminate E1. }
          rewrite Forall_forall in Hall. apply (Hall child); [eapply nth_error_In; eauto|assumption].
        - apply nth_error_None in E0. lia. }
      cbn [kids]. fold (kids (fun c vs => wdfs c (S d) vs) u us'). rewrite F4, F5. cbn [negb].
      destruct (n_ch child) as [|g gs] eqn:Eg; [destruct (n_pat child) as [p|] eqn:Ep|].
      * assert (El : is_leaf child = true) by (unfold is_leaf; rewrite Ep; reflexivity).
        rewrite El in R. cbn [result_of].
        destruct (fill_multi_spec (L - i) i (restored i segs)) as [Q1 Q2];
          [apply restored_ok; assumption|lia|].
        eexists. split; [apply steps_done; eassumption|]. split; [assumption|].
        rewrite Q2, restored_firstn by assumption. f_equal.
        rewrite <- Hl1. clear. cbn [repeat map]. f_equal.
        induction us' as [|v vs IH]; [reflexivity|]. cbn. f_equal. assumption.
      * assert (El : is_leaf child = false) by (unfold is_leaf; rewrite Ep; reflexivity).
        pose proof (in_sfx c' child Hc Hmt) as I. rewrite El in I.
        specialize (I ltac:(intros [_ H]; discriminate H) (L - i) i c ns segs u us' eq_refl Hf Hsk F4 Efm Hun).
        rewrite Eg in I.
        pose proof (sfx_not_fail (fun vs => wdfs child (S d) vs) [] (u :: us')) as Hnf.
        destruct (sfx (fun vs => wdfs child (S d) vs) [] (u :: us')); try assumption. congruence.
      * pose proof (in_sfx c' child Hc Hmt) as I. rewrite Eg in I.
        specialize (I ltac:(intros [H _]; discriminate H) (L - i) i c ns segs u us' eq_refl Hf Hsk F4 Efm Hun).
        pose proof (sfx_not_fail (fun vs => wdfs child (S d) vs) (g :: gs) (u :: us')) as Hnf.
        destruct (sfx (fun vs => wdfs child (S d) vs) (g :: gs) (u :: us')); try assumption. congruence.
    + assert (Hmm : m <> MTMulti) by (intros ->; discriminate Emm).
      assert (R' : round re ci path UL (MS (N.of_nat i) d n anc ns mts segs) =
        (if Nat.eqb (S i) L then
          if is_leaf child then inr (MRet (n_pat child) (set_mt (restored i segs) (N.of_nat i) m))
          else round_failed (MS (N.of_nat i) d n anc ns mts (set_mt (restored i segs) (N.of_nat i) m))
        else
          match update ns d (u16 (N.of_nat c' + 1), N.of_nat i) with
          | Some ns' =>
              round_matched UL (MS (N.of_nat i) (S d) child (n :: anc) ns' mts
                                   (set_mt (restored i segs) (N.of_nat i) m))
          | None => inr MPanic
          end)).
      { rewrite R. destruct m; try reflexivity. congruence. }
      clear R.
      assert (Hkk : kids (fun c vs => wdfs c (S d) vs) u us' (child :: l') =
        match us' with
              | [] => match n_pat child with Some p => Found p [m] | None => Fail end
              | _ => match wdfs child (S d) us' with
                     | Fail => kids (fun c vs => wdfs c (S d) vs) u us' l'
                     | r => cons_mt m r
                     end
              end).
      { cbn [kids]. fold (kids (fun c vs => wdfs c (S d) vs) u us'). rewrite F4, F5. cbn [negb].
        destruct m; try reflexivity; congruence. }
      rewrite Hkk. clear Hkk.
      assert (Hrs : map strip (restored i segs) = us0) by (apply restored_ok; assumption).
      destruct us' as [|u2 us2].
      * cbn [List.length] in Hl1. replace (Nat.eqb (S i) L) with true in R' by (symmetry; apply Nat.eqb_eq; lia).
        destruct (n_pat child) as [p|] eqn:Ep.
        -- assert (El : is_leaf child = true) by (unfold is_leaf; rewrite Ep; reflexivity). rewrite El in R'.
           cbn [result_of]. eexists. split; [apply steps_done; eassumption|].
           split; [apply set_ok; assumption|].
           rewrite set_mt_types by (rewrite segs_len; assumption).
           rewrite restored_firstn by assumption. f_equal.
           rewrite skipn_all2; [reflexivity|]. rewrite types_len by assumption. lia.
        -- assert (El : is_leaf child = false) by (unfold is_leaf; rewrite Ep; reflexivity). rewrite El in R'.
           cbn [result_of]. eexists ns, _. split; [apply steps_failed; eassumption|].
           split; [assumption|]. split; [auto|]. split; [assumption|]. split; [apply set_ok; assumption|].
           split; [rewrite set_mt_firstn by auto; apply restored_firstn; assumption|].
           intros; left; lia.
      * cbn [List.length] in Hl1.
        replace (Nat.eqb (S i) L) with false in R' by (symmetry; apply Nat.eqb_neq; lia).
        assert (Hch : (N.of_nat (List.length (cut n)) < 65536)%N).
        { apply cut_len. }
        rewrite u16_small in R' by lia.
        replace (N.of_nat c' + 1)%N with (N.of_nat (S c')) in R' by lia.
        destruct (update_spec _ ns d (N.of_nat (S c'), N.of_nat i)) as [ns' [En [En1 [En2 [En3 _]]]]]; [lia|].
        rewrite En in R'.
        assert (Rm : round_matched UL (MS (N.of_nat i) (S d) child (n :: anc) ns' mts
                                   (set_mt (restored i segs) (N.of_nat i) m)) =
                     inl (MS (N.of_nat (S i)) (S d) child (n :: anc) ns' mts
                                   (set_mt (restored i segs) (N.of_nat i) m))).
        { unfold round_matched. cbn [ms_idx ms_segs ms_mts ms_nstack ms_depth ms_cur ms_anc].
          replace ((N.of_nat i =? sub8 UL 1)%N) with false.
          - cbn [andb]. rewrite u8_small by lia. do 2 f_equal. lia.
          - symmetry. apply N.eqb_neq. unfold UL. rewrite sub8_le by lia. lia. }
        rewrite Rm in R'. clear Rm.
        assert (Hsk2 : skipn (S i) us0 = u2 :: us2).
        { assert (Eu : nth_error us0 i = Some u).
          { destruct (nth_error us0 i) as [u1|] eqn:E.
            - rewrite (skipn_nth _ _ _ _ E) in Hsk. congruence.
            - apply nth_error_None in E. fold L in E. lia. }
          pose proof (skipn_nth _ _ _ _ Eu) as H. congruence. }
        set (segs1 := set_mt (restored i segs) (N.of_nat i) m) in *.
        assert (Hs1 : map strip segs1 = us0) by (apply set_ok; assumption).
        assert (E := IHc (S d) (S i) (n :: anc) ns' mts segs1).
        rewrite Hsk2 in E.
        assert (E' : result_of (S i) (S d) child (n :: anc) ns' mts segs1
              (wdfs child (S d) (u2 :: us2)) (MS (N.of_nat (S i)) (S d) child (n :: anc) ns' mts segs1)).
        { apply E; clear E; try (cbn [List.length]; lia).
          - intros e He. rewrite En3 by lia. apply Hz. lia.
          - intros y Hy. apply Hm. lia.
          - intros H. exfalso. apply H. apply Hm. lia.
          - assumption. }
        clear E.
        assert (Ht1 : firstn (S i) (types segs1) = firstn i (types segs) ++ [m]).
        { unfold segs1. rewrite set_mt_firstn_S by assumption.
          rewrite restored_firstn by assumption. reflexivity. }
        destruct (wdfs child (S d) (u2 :: us2)) as [p ms| | |] eqn:Ed; cbn [result_of] in E'; cbn [cons_mt].
        -- destruct E' as [segs2 [H1 [H2 H3]]]. cbn [result_of]. exists segs2.
           split; [eapply steps_round; eassumption|]. split; [assumption|].
           rewrite H3, Ht1, <- app_assoc. reflexivity.
        -- destruct E' as [ns2 [segs2 [H1 [H2 [H3 [H4 [H5 [H6 _]]]]]]]].
           assert (Hd' : S d < 19) by (eapply wdfs_fail_depth; [|eassumption]; discriminate).
           destruct (pop_frame child (S i) mts ns2 segs2 (N.of_nat (S c')) (N.of_nat i))
             as [ns3 [P1 [P2 [P3 [P4 P5]]]]]; auto; try lia.
           { apply update_same. apply Hm. lia. }
           { rewrite H3 by lia. assumption. }
           assert (Hf3 : frame i (S c') ns3 segs2).
           { split; [assumption|]. split; [assumption|]. split; [eauto|]. split; [assumption|].
             split; [assumption|assumption]. }
           assert (Hlt : List.length (cut n) - S c' < k) by (unfold c' in *; lia).
           pose proof (IHk (List.length (cut n) - S c') Hlt i (S c') ns3 segs2 u (u2 :: us2) eq_refl Hf3 Hsk Hnm) as I.
           rewrite Hsc' in I. 
           eapply leads_result; [| | |exact I].
           ++ intros K HK. eapply steps_after_fail; [|eassumption|eassumption].
              eapply steps_round; eassumption.
           ++ intros e He. rewrite P4, H3, En3 by lia. reflexivity.
           ++ apply (f_equal (firstn i)) in H6. rewrite !firstn_firstn in H6.
              replace (Nat.min i (S i)) with i in H6 by lia. rewrite H6.
              unfold segs1. rewrite set_mt_firstn by auto. apply restored_firstn; assumption.
        -- destruct E' as [segs2 H1]. cbn [result_of]. exists segs2. eapply steps_round; eassumption.
        -- cbn [result_of]. eapply steps_round; eassumption.
Qed.

End InNode.

Lemma all_enter : forall n, calm_tree n -> enters n.
Proof.
  induction n as [mx pr sg pt ch IH] using node_ind'. intros Hn.
  assert (IHn : Forall enters (cut (Node mx pr sg pt ch))).
  { apply calm_tree_cut in Hn. destruct Hn as [_ H]. rewrite Forall_forall in *. intros c Hc. apply IH; [apply (cut_in (Node mx pr sg pt ch)); assumption|auto]. }
  intros d i anc ns mts segs Hi Hanc Hns Hmts Hz Hm Hnm Hs.
  destruct (skipn i us0) as [|u us'] eqn:Hsk; [exfalso; apply (skipn_not_nil i Hi); assumption|].
  rewrite wdfs_eq. destruct (Nat.leb 19 d) eqn:Ed.
  - apply Nat.leb_le in Ed. cbn [result_of]. apply steps_done. unfold round.
    cbn [ms_idx ms_segs ms_mts ms_nstack ms_depth ms_cur ms_anc].
    replace ((N.of_nat i <? UL)%N) with true by (symmetry; apply N.ltb_lt; unfold UL; lia).
    cbn [negb]. replace (nth_error ns d) with (@None (N * N)) by (symmetry; apply nth_error_None; lia).
    destruct (nth_error segs (N.to_nat (N.of_nat i))); [|reflexivity].
    destruct (nth_error mts (N.to_nat (N.of_nat i))); reflexivity.
  - apply Nat.leb_gt in Ed.
    apply (in_kids (Node mx pr sg pt ch) Hn IHn d anc mts Hanc Ed Hmts _ i 0 ns segs u us' eq_refl); auto.
    split; [assumption|]. split; [assumption|]. split; [exists 0%N; apply Hz; lia|].
    split; [intros e He; apply Hz; lia|]. split; assumption.
Qed.

End Sim.

(** ** [Match] is the search *)

Lemma match_is_wdfs : forall m us, m_ci m = ci -> calm_tree (m_trie m) ->
  List.length us <= 19 -> us <> [] ->
  exists k r, (forall f, match_path (k + f) re m path us = r) /\
    of_outcome us (wdfs (m_trie m) 0 (map strip us)) r.
Proof.
  intros m us Hci Ht Hl Hne.
  set (us0 := map strip us).
  assert (Hl0 : List.length us0 <= 19) by (unfold us0; rewrite map_length; assumption).
  assert (H0 : 0 < List.length us0) by (unfold us0; rewrite map_length; destruct us; simpl; [congruence|lia]).
  pose proof (all_enter us0 Hl0 (m_trie m) Ht 0 0 [] (repeat (0, 0)%N 19) (repeat MTUnknown 19) us
    H0 eq_refl (repeat_length _ _) (repeat_length _ _)) as E.
  assert (E' : result_of us0 0 0 (m_trie m) [] (repeat (0, 0)%N 19) (repeat MTUnknown 19) us
     (wdfs (m_trie m) 0 (skipn 0 us0))
     (MS (N.of_nat 0) 0 (m_trie m) [] (repeat (0, 0)%N 19) (repeat MTUnknown 19) us)).
  { assert (Hrep : forall (A : Type) (x : A) k e, e < k -> nth_error (repeat x k) e = Some x).
    { intros A x. induction k as [|k IHk]; intros e He; [lia|]. destruct e; [reflexivity|].
      cbn [repeat nth_error]. apply IHk. lia. }
    apply E; try reflexivity.
    - intros e He. apply Hrep. lia.
    - intros j Hj. apply Hrep. lia.
    - intros H. exfalso. apply H. reflexivity. }
  clear E. change (skipn 0 us0) with us0 in E'.
  assert (Hm : forall f, match_path f re m path us =
    match match_loop re ci path (N.of_nat (List.length us0)) f
       (MS (N.of_nat 0) 0 (m_trie m) [] (repeat (0, 0)%N 19) (repeat MTUnknown 19) us) with
        | MRet (Some p) segs' => Matched p (Some p) segs'
        | MRet None _ => NoMatch
        | MPanic => MatchPanic
        | MFuel => MatchFuel
        end).
  { intros f. unfold match_path. unfold max_path_segments.
    replace (Nat.ltb 19 (List.length us)) with false by (symmetry; apply Nat.ltb_ge; assumption).
    rewrite Hci. unfold us0 in *. rewrite map_length in *. rewrite u8_small by lia.
    destruct us; [congruence|]. reflexivity. }
  destruct (wdfs (m_trie m) 0 us0) as [p ms| | |]; cbn [result_of] in E'; cbn [of_outcome].
  - destruct E' as [segs' [[k Hk] [H1 H2]]]. exists k, (Matched p (Some p) segs').
    split; [intros f; rewrite Hm, Hk; reflexivity|]. exists segs'. split; [reflexivity|]. split; assumption.
  - destruct E' as [ns' [segs' [[k Hk] _]]]. exists k, NoMatch.
    split; [|reflexivity]. intros f. rewrite Hm, Hk. reflexivity.
  - destruct E' as [segs' [k Hk]]. exists k, NoMatch. split; [|reflexivity]. intros f. rewrite Hm, Hk. reflexivity.
  - destruct E' as [k Hk]. exists k, MatchPanic. split; [|reflexivity]. intros f. rewrite Hm, Hk. reflexivity.
Qed.

End Wide.
