(** * Patterns with more than 255 pieces *)
From Coq Require Import List NArith ZArith Ascii String Bool Lia Arith.
From Verif Require Import GoBase Glob_Spec Pattern_Model Pattern_Spec Url_Model Match_Model Router_Model Url_Spec Routing_Spec Pattern_Proofs Priority_Proofs Witness_Proofs.
Import ListNotations.
Local Open Scope string_scope.
Local Open Scope list_scope.
Local Open Scope nat_scope.

Lemma add_all_app re ci ps qs : forall st, add_all re ci (ps ++ qs) st = match add_all re ci ps st with inl r => inl r | inr st' => add_all re ci qs st' end.
Proof. induction ps as [|p ps IH]; intro st; cbn [add_all List.app]; [reflexivity|]. destruct (add_piece re ci p st); [reflexivity|apply IH]. Qed.

Lemma map_some_inj (a b : list segment) : map Some a = map Some b -> a = b.
Proof. revert b. induction a as [|x a IH]; intros [|y b] E; cbn in E; try discriminate; auto. injection E as -> E. f_equal. now apply IH. Qed.

Lemma parse_last : forall fuel re t ci p front back ks,
  parse_pattern fuel re t ci = POk p -> means (re_ok re) ci t (front ++ back) ks ->
  List.length front mod 256 = 0 -> List.length back <= 255 ->
  shows_all ci (p_segs p) back (skipn (List.length front) ks) /\
  (~ In Any ks -> p_max p = N.of_nat (List.length back)).
Proof.
  intros fuel re t ci p front back ks P M Z B.
  destruct t as [|c rest]; [discriminate P|]. unfold parse_pattern in P.
  destruct (Ascii.eqb c slash) eqn:EC; cbn [negb] in P; [|discriminate P]. apply Ascii.eqb_eq in EC. subst c.
  destruct rest as [|c rest].
  { assert (E : means (re_ok re) ci [slash] [] []).
    { split; [split; [constructor|right; reflexivity]|]. split; [constructor|]. split; [constructor|]. intros n r []. }
    destruct (means_unique _ _ _ _ _ _ _ M E) as [EE ->]. apply app_eq_nil in EE. destruct EE as [-> ->]. injection P as <-. cbn. split; [constructor|reflexivity]. }
  remember (c :: rest) as body eqn:EB. assert (NB : body <> []) by (subst; discriminate).
  assert (PP : pieces_of body [] = front ++ back).
  { destruct M as (S1 & R & _). apply spells_pieces; [|exact S1]. clear - R. induction R; constructor; auto. eapply reads_nonempty; eauto. }
  assert (P' : match parse_loop re ci body [] (PState 0 0 MTUnknown MTUnknown (repeat None (List.length (filter (Ascii.eqb slash) (slash :: body))))) with
         | inl r => r
         | inr st =>
             match all_some (firstn (N.to_nat (ps_count st)) (ps_segs st)) with
             | None => PPanic
             | Some segs =>
                 match compute_priority fuel segs with
                 | None => PFuel
                 | Some prio => POk (Pat ci (ps_caps st) (if mt_eqb (ps_max st) MTMulti then greedy_max else ps_count st) prio segs (slash :: body) None)
                 end
             end
         end = POk p) by (subst body; exact P).
  clear P. rewrite parse_loop_pieces, PP, add_all_app in P'.
  set (st0 := PState 0 0 MTUnknown MTUnknown (repeat None (List.length (filter (Ascii.eqb slash) (slash :: body))))) in *.
  pose proof (slash_count_pieces body []) as SC. rewrite PP, app_length in SC.
  assert (C0 : 0 + (List.length front + List.length back) <= List.length (ps_segs st0)).
  { unfold st0. cbn [ps_segs]. rewrite repeat_length. cbn [filter]. change (Ascii.eqb slash slash) with true. cbv iota. cbn [List.length]. lia. }
  pose proof (add_all_spec re ci front st0 0 ltac:(lia) eq_refl ltac:(intros i Hi; cbn in Hi; lia)) as A1.
  destruct (add_all re ci front st0) as [r|st1]; [destruct r; try contradiction; discriminate P'|].
  destruct A1 as (k1 & R1 & _ & _ & L1 & N1 & _ & _ & M1 & _). cbn [Nat.add] in *.
  assert (N1' : ps_count st1 = (N.of_nat 0 mod 256)%N).
  { rewrite N1. replace 256%N with (N.of_nat 256) by reflexivity. rewrite <- Nat2N.inj_mod, Z. reflexivity. }
  pose proof (add_all_spec re ci back st1 0 ltac:(lia) N1' ltac:(intros i Hi; cbn in Hi; lia)) as A2.
  destruct (add_all re ci back st1) as [r|st2]; [destruct r; try contradiction; discriminate P'|].
  destruct A2 as (k2 & R2 & _ & _ & L2 & N2 & _ & _ & M2 & SH). cbn [Nat.add] in *.
  assert (KS : ks = k1 ++ k2).
  { destruct M as (_ & R & _). eapply forall2_reads_functional; [exact R|]. now apply Forall2_app. }
  assert (C2 : ps_count st2 = N.of_nat (List.length back)) by (rewrite N2; apply N.mod_small; lia).
  destruct (SH B) as (sgs & S1 & S2). cbn [firstn List.app] in S2. rewrite C2, Nat2N.id, S2, all_some_map in P'.
  destruct (compute_priority fuel sgs) as [prio|]; [|discriminate P']. injection P' as <-. cbn [p_segs p_max].
  split.
  - rewrite KS. replace (List.length front) with (List.length k1) by (symmetry; eapply forall2_len; exact R1). rewrite skipn_app, skipn_all, Nat.sub_diag. exact S1.
  - intro NA. destruct (mt_eqb (ps_max st2) MTMulti) eqn:E; [|reflexivity]. apply mt_eqb_eq in E. rewrite M2, M1 in E. exfalso. apply NA. rewrite KS. apply in_app_iff.
    apply fold_max_multi in E. destruct E as [E|E]; [|right; exact E]. apply fold_max_multi in E. destruct E as [E|E]; [discriminate E|left; exact E].
Qed.

(** The 257th piece is read at the first segment. *)
Definition far_pieces : list bytes := repeat (str "a") 256 ++ [str "{x}"].
Definition far_text : bytes := spelled far_pieces.
Definition far_kinds : list piece := repeat (Lit (str "a")) 256 ++ [Var (str "x")].

Lemma far_means re ci : means (re_ok re) ci far_text far_pieces far_kinds.
Proof.
  assert (R : forall n, Forall2 reads (repeat (str "a") n ++ [str "{x}"]) (repeat (Lit (str "a")) n ++ [Var (str "x")])).
  { induction n; simpl; constructor; auto; [|apply reads_lit; simpl; try discriminate; intuition discriminate].
    apply (reads_var (str "x")); [discriminate|not_in|apply nas_one]. }
  split; [|split; [apply R|split]].
  - split; [|left; split; [reflexivity|discriminate]]. apply Forall_forall. intros x Hx. apply in_app_iff in Hx. destruct Hx as [Hx|[<-|[]]].
    + apply repeat_spec in Hx. subst x. simpl. intuition discriminate.
    + simpl. intuition discriminate.
  - unfold far_kinds. generalize 256%nat. induction n as [|n IH]; simpl; [constructor|]. destruct n; simpl in *; constructor; auto; intros [H _]; discriminate.
  - intros name r Hi. apply in_app_iff in Hi. destruct Hi as [Hi|[Hi|[]]]; [apply repeat_spec in Hi|]; discriminate.
Qed.

Lemma one_each ic rm ks ts bs : reads_as ic rm ks ts bs -> ~ In Any ks -> List.length ks = List.length ts.
Proof. induction 1; intro N; cbn [List.length]; try reflexivity; try (f_equal; apply IHreads_as; intro; apply N; now right); exfalso; apply N; now left. Qed.

Lemma far_variable : forall re, exists r rec segs,
  handle_all 1 re (new_router false) [(str "GET", far_text, 7)] = (r, [Registered]) /\
  segments_of (str "/q") [str "q"] /\
  dispatch_request 4 re r (str "GET") (str "/q") zeros = Calls 7 rec segs /\
  path_var rec (str "/q") segs (str "x") = Some (str "q") /\
  Routing_Spec.pieces_of (re_ok re) false far_text far_kinds /\ nth_error far_kinds 256 = Some (Var (str "x")) /\
  forall ks bs, Routing_Spec.pieces_of (re_ok re) false far_text ks -> ~ reads_as false (re_match re) ks [str "q"] bs.
Proof.
  intro re. eexists. eexists. eexists.
  split; [vm_compute; reflexivity|].
  split; [apply (segments_spelled (str "q") []); [repeat (constructor; [not_in|]); constructor|few]|].
  split; [vm_compute; reflexivity|]. split; [vm_compute; reflexivity|]. split; [exists far_pieces; apply far_means|]. split; [reflexivity|].
  intros ks bs (ps & M) R. destruct (means_unique _ _ _ _ _ _ _ M (far_means re false)) as [_ ->]. apply one_each in R; [discriminate R|].
  intro I. apply in_app_iff in I. destruct I as [I|[I|[]]]; [apply repeat_spec in I|]; discriminate.
Qed.

Lemma last_case : exists p, parse_pattern 1 (Engine (fun _ => true) (fun _ _ => true)) far_text false = POk p /\
  map s_val (p_segs p) = [str "{x}"] /\ p_max p = 1%N /\ List.length far_pieces = 257 /\
  means (fun _ => true) false far_text (repeat (str "a") 256 ++ [str "{x}"]) far_kinds.
Proof. eexists. split; [vm_compute; reflexivity|]. repeat (split; [reflexivity|]). exact (far_means (Engine (fun _ => true) (fun _ _ => true)) false). Qed.
