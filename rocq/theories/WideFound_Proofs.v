(** * What the search finds on trees of any width *)
From Coq Require Import List NArith ZArith Ascii String Bool Lia Arith.
From Verif Require Import GoBase Glob_Model Pattern_Model Pattern_Proofs Url_Model Match_Model Search_Proofs Trie_Proofs Wide_Proofs.
Import ListNotations.
Local Open Scope list_scope.
Local Open Scope nat_scope.

Lemma calm_every : forall n, every no_multi_below n -> calm_tree n.
Proof.
  induction n as [mx pr sg pt ch IH] using node_ind'. rewrite every_eq, calm_tree_eq.
  cbn [n_ch n_seg]. intros [H3 H4]. unfold no_multi_below, multi_seg in H3.
  cbn [n_ch n_seg] in *. split; [assumption|]. rewrite Forall_forall in *. auto.
Qed.

Section Sound.
Variable re : engine.
Variable ci : bool.
Variable path : bytes.
Local Notation covers := (covers re ci path).
Local Notation sfx_found := (sfx_found re ci path).

Lemma wdfs_sound : forall n d us p ms, wdfs re ci path n d us = Found p ms ->
  exists l, In (l, p) (leaves n) /\ covers l us ms.
Proof.
  induction n as [mx pr sg pt ch IH] using node_ind'. intros d us p ms H.
  rewrite wdfs_eq in H. destruct us as [|u us']; [discriminate|].
  destruct (Nat.leb 19 d); [discriminate|].
  assert (Hsub : forall c, In c (cut (Node mx pr sg pt ch)) -> In c ch) by (intros c Hc; apply (cut_in (Node mx pr sg pt ch)); exact Hc).
  assert (IH' := incl_Forall Hsub IH). clear IH. rename IH' into IH.
  generalize dependent (cut (Node mx pr sg pt ch)). intros wh H Hsub IH.
  cut (exists l c, In c wh /\ In (l, p) (branch c) /\ covers l (u :: us') ms).
  { intros [l [c [H1 [H2 H3]]]]. exists l. split; [|assumption]. apply in_leaves. exists c. auto. }
  clear Hsub. revert IH H. generalize wh. clear ch wh. intros ch IH H. induction ch as [|c ch IHch]; [discriminate|].
  rewrite Forall_cons_iff in IH. destruct IH as [IHc IHr].
  cbn [kids] in H. fold (kids re ci path (fun c vs => wdfs re ci path c (S d) vs) u us') in H.
  assert (Hgo : kids re ci path (fun c vs => wdfs re ci path c (S d) vs) u us' ch = Found p ms ->
    exists l c0, In c0 (c :: ch) /\ In (l, p) (branch c0) /\ covers l (u :: us') ms).
  { intros E. destruct (IHch IHr E) as [l [c0 [H1 H2]]]. exists l, c0. split; [right; assumption|assumption]. }
  destruct (negb (can_match_len c (N.of_nat (S (List.length us'))))); [auto|].
  destruct (seg_match re ci path (n_seg c) u) as [m|] eqn:Em; [|discriminate].
  assert (Hlit : m <> MTUnknown -> m <> MTMulti ->
    match us' with
    | [] => match n_pat c with Some p => Found p [m] | None => Fail end
    | _ => match wdfs re ci path c (S d) us' with
           | Fail => kids re ci path (fun c vs => wdfs re ci path c (S d) vs) u us' ch
           | r => cons_mt m r
           end
    end = Found p ms ->
    exists l c0, In c0 (c :: ch) /\ In (l, p) (branch c0) /\ covers l (u :: us') ms).
  { intros Hm1 Hm2 E. destruct us' as [|u2 us2].
    - destruct (n_pat c) as [q|] eqn:Ep; [|discriminate]. injection E as -> <-.
      exists [n_seg c], c. split; [left; reflexivity|]. split; [apply in_branch; left; auto|].
      constructor; auto. constructor.
    - destruct (wdfs re ci path c (S d) (u2 :: us2)) as [q ms'| | |] eqn:Ed; try discriminate; [|auto].
      cbn [cons_mt] in E. injection E as -> <-. destruct (IHc _ _ _ _ Ed) as [l [H1 H2]].
      exists (n_seg c :: l), c. split; [left; reflexivity|]. split; [apply in_branch; right; eauto|].
      constructor; auto. }
  destruct m; try (apply Hlit; [discriminate|discriminate|assumption]); [auto|].
  apply seg_match_multi in Em.
  assert (Hsf : sfx re ci path (fun vs => wdfs re ci path c (S d) vs) (n_ch c) (u :: us') = Found p ms ->
    exists l c0, In c0 (c :: ch) /\ In (l, p) (branch c0) /\ covers l (u :: us') ms).
  { intros E. apply sfx_found in E. destruct E as [a [b [ms' [E1 [E2 E3]]]]].
    destruct (IHc _ _ _ _ E2) as [l [H1 H2]]. exists (n_seg c :: l), c.
    split; [left; reflexivity|]. split; [apply in_branch; right; eauto|].
    rewrite E1, E3. apply cov_multi; auto. eapply leaf_path_not_nil; eauto. }
  destruct (n_ch c) as [|g gs] eqn:Eg; [destruct (n_pat c) as [q|] eqn:Ep|]; [|auto|auto].
  injection H as -> <-. exists [n_seg c], c. split; [left; reflexivity|].
  split; [apply in_branch; left; auto|]. apply (cov_multi_last re ci path (n_seg c) (u :: us')); [assumption|discriminate].
Qed.

End Sound.
