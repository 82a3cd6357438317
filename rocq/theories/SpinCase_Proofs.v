(** * Concrete patterns with several **. *)
From Coq Require Import List NArith ZArith Ascii String Bool Lia Arith.
From Verif Require Import GoBase Glob_Model Glob_Spec Pattern_Model Pattern_Spec Priority_Spec Pattern_Proofs
  Priority_Proofs Witness_Proofs Spin_Spec Spin_Proofs.
Import ListNotations.
Local Open Scope string_scope.
Local Open Scope list_scope.
Local Open Scope N_scope.

Ltac no_constraint := let H := fresh in intros ? ? H; cbn in H; repeat (destruct H as [H|H]; [discriminate|]); contradiction.

(** Twenty pieces and two **. *)
Definition pair_text : bytes := str "/{id}/a/a/**/a/a/**/a/a/a/a/a/a/a/a/a/a/a/a/a".
Definition pair_texts : list bytes :=
  [str "{id}"; str "a"; str "a"; str "**"; str "a"; str "a"; str "**"] ++ repeat (str "a") 13.
Definition pair_pieces : list piece :=
  [Var (str "id"); Lit (str "a"); Lit (str "a"); Any; Lit (str "a"); Lit (str "a"); Any] ++ repeat (Lit (str "a")) 13.

Lemma pair_means : forall re, means (re_ok re) false pair_text pair_texts pair_pieces.
Proof.
  intros re. unfold pair_text, pair_texts, pair_pieces. cbn [repeat app].
  split; [split; [repeat (constructor; [not_in|]); constructor|left; split; [reflexivity|discriminate]]|].
  split; [repeat (constructor; [show_reads|]); constructor|].
  split; [repeat first [apply naa_nil|apply naa_one|apply naa_cons; [intros [? ?]; discriminate|]]|].
  no_constraint.
Qed.

Definition pair_number : N := base_priority
  (map (fun m => Seg [] m [] None)
     ([MTCapture; MTLiteral; MTLiteral; MTMulti; MTLiteral; MTLiteral; MTMulti] ++ repeat MTLiteral 13)).

Lemma pair_never : forall re fuel, parse_pattern fuel re pair_text false = PFuel.
Proof.
  intros re fuel.
  destruct (parse_is_rank _ _ _ _ _ (pair_means re) ltac:(cbn; lia)) as [sgs [Hsh Hp]].
  specialize (Hp fuel).
  assert (R : compute_priority fuel sgs = None); [|rewrite R in Hp; assumption].
  assert (B : base_priority sgs = pair_number).
  { unfold pair_number, base_priority.
    assert (G : forall s1 s2 a, map s_mt s1 = map s_mt s2 ->
      fold_left (fun acc s => u64 (u64 (acc * 10) + mt_code (s_mt s))) s1 a =
      fold_left (fun acc s => u64 (u64 (acc * 10) + mt_code (s_mt s))) s2 a).
    { induction s1 as [|x s1 IH]; intros [|y s2] a H; try discriminate; [reflexivity|].
      cbn [map] in H. injection H as H1 H2. cbn [fold_left]. rewrite H1. apply IH, H2. }
    apply G. rewrite (shows_all_mts _ _ _ _ Hsh). reflexivity. }
  unfold compute_priority. rewrite B, (shows_all_count _ _ _ _ Hsh), (proj1 (shows_all_len _ _ _ _ Hsh)).
  change (any_count pair_pieces) with 2%nat. change (List.length pair_pieces) with 20%nat.
  cbn [Nat.eqb spread]. unfold get_split_index.
  assert (E : split_index_loop 40 pair_number (decimal_divider 1) 0 = Some 20%Z) by (vm_compute; reflexivity).
  destruct (split_index_loop fuel pair_number (decimal_divider 1) 0) as [x|] eqn:Ef; [|reflexivity].
  rewrite (split_loop_det _ _ _ _ _ _ _ Ef E).
  match goal with |- context [split_index_loop fuel ?p ?m 0] =>
    let v := eval vm_compute in p in change p with v; let w := eval vm_compute in m in change m with w end.
  rewrite split_loop_diverges by (vm_compute; discriminate). reflexivity.
Qed.

Lemma register_hangs_two : forall re, exists t ps ks,
  means (re_ok re) false t ps ks /\ List.length ps = 20%nat /\ any_count ks = 2%nat /\
  forall fuel, parse_pattern fuel re t false = PFuel.
Proof.
  intros re. exists pair_text, pair_texts, pair_pieces.
  split; [apply pair_means|]. split; [reflexivity|]. split; [reflexivity|]. intros fuel. apply pair_never.
Qed.

(** The same places of the ** and the ranking ends. *)
Definition mild_text : bytes := str "/a/a/a/**/a/a/**/a/a/a/a/a/a/a/a/a/a/a/a/a".
Lemma mild_parsed : forall re, exists p, parse_pattern 40 re mild_text false = POk p.
Proof. intros re. eexists. vm_compute. reflexivity. Qed.

(** A pattern of 18 pieces of which nine are **. *)
Definition nine_text : bytes := str "/**/a/**/b/**/c/**/d/**/e/**/f/**/g/**/h/**/i".
Definition nine_texts : list bytes :=
  [str "**"; str "a"; str "**"; str "b"; str "**"; str "c"; str "**"; str "d"; str "**"; str "e";
   str "**"; str "f"; str "**"; str "g"; str "**"; str "h"; str "**"; str "i"].
Definition nine_pieces : list piece :=
  [Any; Lit (str "a"); Any; Lit (str "b"); Any; Lit (str "c"); Any; Lit (str "d"); Any; Lit (str "e");
   Any; Lit (str "f"); Any; Lit (str "g"); Any; Lit (str "h"); Any; Lit (str "i")].
Lemma nine_spins : forall re, means (re_ok re) false nine_text nine_texts nine_pieces /\
  In (shape nine_pieces) spinning /\ forall fuel, parse_pattern fuel re nine_text false = PFuel.
Proof.
  intros re.
  assert (M : means (re_ok re) false nine_text nine_texts nine_pieces).
  { split; [split; [repeat (constructor; [not_in|]); constructor|left; split; [reflexivity|discriminate]]|].
    split; [repeat (constructor; [show_reads|]); constructor|].
    split; [repeat first [apply naa_nil|apply naa_one|apply naa_cons; [intros [? ?]; discriminate|]]|].
    no_constraint. }
  assert (I : In (shape nine_pieces) spinning).
  { change (shape nine_pieces) with (drawn "*.*.*.*.*.*.*.*.*."). unfold spinning. apply in_map.
    cbn; tauto. }
  split; [exact M|]. split; [exact I|]. apply (proj1 (parse_spins_or_ends _ _ _ _ _ M ltac:(cbn; lia)) I).
Qed.

(** A pattern of 9 pieces of which four are **. *)
Lemma four_ends : forall re fuel, (20 <= fuel)%nat ->
  exists p, parse_pattern fuel re (str "/x/**/{id}/**/*/**/y?/**/b") true = POk p.
Proof.
  intros re. apply (parse_ends re _ _
    [str "x"; str "**"; str "{id}"; str "**"; str "*"; str "**"; str "y?"; str "**"; str "b"]
    [Lit (str "x"); Any; Var (str "id"); Any; One; Any; Glob (str "y?"); Any; Lit (str "b")]).
  - split; [split; [repeat (constructor; [not_in|]); constructor|left; split; [reflexivity|discriminate]]|].
    split; [repeat (constructor; [show_reads|]); constructor|].
    split; [repeat first [apply naa_nil|apply naa_one|apply naa_cons; [intros [? ?]; discriminate|]]|].
    no_constraint.
  - cbn; lia.
  - left. cbn; lia.
Qed.

Lemma same_pieces_case : let re := Engine (fun _ => true) (fun _ _ => true) in
  let t := str "/a/{x:b+}/**" in
  means (re_ok re) true t [str "a"; str "{x:b+}"; str "**"] [Lit (str "a"); Constrained (str "x") (str "b+"); Any] /\
  means (re_ok re) true (t ++ str "/") [str "a"; str "{x:b+}"; str "**"] [Lit (str "a"); Constrained (str "x") (str "b+"); Any] /\
  exists p1 p2, parse_pattern 1 re t true = POk p1 /\ parse_pattern 1 re (t ++ str "/") true = POk p2 /\ p_segs p1 = p_segs p2 /\ p_raw p1 <> p_raw p2.
Proof.
  cbv zeta. split; [show_means|]. split; [show_means|]. eexists _, _. split; [vm_compute; reflexivity|].
  split; [vm_compute; reflexivity|]. split; [reflexivity|discriminate].
Qed.
