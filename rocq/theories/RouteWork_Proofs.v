(** * The rounds of all wildcard comparisons of a request are bounded *)
From Coq Require Import List NArith ZArith Ascii String Bool Lia Arith Permutation.
From Verif Require Import GoBase Glob_Model Pattern_Model Url_Model Match_Model Router_Model Work_Model GlobWork_Model RouteWork_Model
  Glob_Spec Pattern_Proofs Search_Proofs Ends_Proofs Trie_Proofs Url_Proofs Routing_Spec Routes_Proofs Routing_Proofs Url_Spec Work_Spec Work_Proofs GlobWork_Proofs RouteWork_Spec.
Import ListNotations.
Local Open Scope string_scope.
Local Open Scope list_scope.
Local Open Scope nat_scope.

(** ** Wildcard pieces are short and have no two adjacent stars *)

Definition brief (k : nat) (s : segment) : Prop :=
  s_mt s = MTRegex -> no_adjacent_stars (s_val s) /\ List.length (s_val s) <= k.

Lemma brief_more k k' s : k <= k' -> brief k s -> brief k' s.
Proof. intros L B T. destruct (B T). split; [assumption|lia]. Qed.

Definition short_seg (k : nat) (o : option segment) : Prop := forall s, o = Some s -> List.length (s_val s) <= k.

Lemma add_piece_short re ci v st st' k : List.length v <= k ->
  add_piece re ci v st = inr st' -> Forall (short_seg k) (ps_segs st) -> Forall (short_seg k) (ps_segs st').
Proof.
  unfold add_piece. intros Lv E F. destruct (validate_path_segment v) eqn:V; [cbn [negb] in E|discriminate].
  destruct (mt_eqb (ps_last st) MTMulti && mt_eqb (determine_match_type v) MTMulti); [discriminate|].
  destruct (make_segment re ci v) as [[sg cap]|] eqn:M; [|discriminate].
  destruct (update (ps_segs st) (N.to_nat (ps_count st)) (Some sg)) as [l|] eqn:U; [|discriminate].
  injection E as <-. cbn [ps_segs]. apply (update_forall _ _ _ _ _ U F).
  intros s [= <-]. assert (Hv : s_val sg = v); [|rewrite Hv; exact Lv].
  unfold make_segment in M. destruct (determine_match_type v); try (injection M as <- _; reflexivity).
  destruct (re_ok re _); [injection M as <- _; reflexivity|discriminate].
Qed.

Lemma parse_loop_short re ci rest k : forall cur st st', List.length cur + List.length rest <= k ->
  parse_loop re ci rest cur st = inr st' -> Forall (short_seg k) (ps_segs st) -> Forall (short_seg k) (ps_segs st').
Proof.
  induction rest as [|c rest IH]; intros cur st st' L E F; cbn [parse_loop] in E; [injection E as <-; exact F|].
  cbn [List.length] in L. destruct (Ascii.eqb c slash).
  - destruct (add_piece re ci (rev cur) st) as [?|st1] eqn:A; [discriminate|].
    refine (IH _ _ _ _ E _); [cbn [List.length]; lia|]. refine (add_piece_short _ _ _ _ _ k _ A F). rewrite rev_length. lia.
  - destruct rest as [|d rest].
    + refine (add_piece_short _ _ _ _ _ k _ E F). rewrite rev_length. cbn [List.length]. lia.
    + refine (IH _ _ _ _ E F). cbn [List.length] in *; lia.
Qed.

Lemma parsed_brief fuel re t ci p : parse_pattern fuel re t ci = POk p -> Forall (brief (List.length t)) (p_segs p).
Proof.
  intros E0. apply Forall_forall. intros s I T. split; [exact (wildcards_calm _ _ _ _ _ _ E0 I T)|].
  pose proof E0 as E. unfold parse_pattern in E. destruct t as [|c [|d rest]]; [discriminate| |].
  { destruct (Ascii.eqb c slash); [|discriminate]. injection E as <-. destruct I. }
  destruct (Ascii.eqb c slash); [|discriminate]. cbn [negb] in E.
  set (n := List.length _) in E. clearbody n.
  destruct (parse_loop re ci (d :: rest) [] (PState 0 0 MTUnknown MTUnknown (repeat None n))) as [r|st] eqn:L; [subst r|].
  { exfalso. clear E0 I T. revert L. generalize (d :: rest) at 1. intros x. generalize (PState 0 0 MTUnknown MTUnknown (repeat None n)). generalize (@nil ascii).
    induction x as [|y x IH]; intros cur st L; cbn [parse_loop] in L; [discriminate|].
    assert (A : forall v s0, add_piece re ci v s0 <> inl (POk p)).
    { intros v s0 A. unfold add_piece in A. destruct (validate_path_segment v); [|discriminate]. cbn [negb] in A.
      destruct (mt_eqb (ps_last s0) MTMulti && mt_eqb (determine_match_type v) MTMulti); [discriminate|].
      destruct (make_segment re ci v) as [[sg cap]|]; [|discriminate]. destruct (update _ _ _); discriminate. }
    destruct (Ascii.eqb y slash).
    - destruct (add_piece re ci (rev cur) st) as [r|st1] eqn:P; [injection L as ->; exact (A _ _ P)|exact (IH _ _ L)].
    - destruct x as [|z x]; [exact (A _ _ L)|exact (IH _ _ L)]. }
  destruct (all_some (firstn (N.to_nat (ps_count st)) (ps_segs st))) as [segs|] eqn:S; [|discriminate].
  destruct (compute_priority fuel segs) as [prio|]; [|discriminate]. injection E as <-. cbn [p_segs] in I.
  assert (F : Forall (short_seg (List.length (c :: d :: rest))) (ps_segs st)).
  { refine (parse_loop_short _ _ _ _ _ _ _ _ L _); [cbn [List.length]; lia|]. cbn [ps_segs]. apply Forall_forall. intros o Io. apply repeat_spec in Io. subst o. intros s' H. discriminate H. }
  pose proof (all_some_in _ _ _ S I) as J. apply (Forall_forall (short_seg (List.length (c :: d :: rest))) (ps_segs st)) with (x := Some s) in F; [exact (F s eq_refl)|].
  rewrite <- (firstn_skipn (N.to_nat (ps_count st)) (ps_segs st)). apply in_or_app. left. exact J.
Qed.

Definition brief_kids (k : nat) (n : node) : Prop := Forall (fun c => brief k (n_seg c)) (n_ch n).

Lemma every_more (P Q : node -> Prop) : (forall n, P n -> Q n) -> forall n, every P n -> every Q n.
Proof.
  intros H. induction n as [mx pr sg pt ch IH] using node_ind'. rewrite !every_eq. cbn [n_ch]. intros [A B].
  split; [exact (H _ A)|]. rewrite Forall_forall in *. auto.
Qed.
Lemma brief_kids_more k k' n : k <= k' -> every (brief_kids k) n -> every (brief_kids k') n.
Proof.
  intros L. apply every_more. intros x. apply Forall_impl. intros c. apply brief_more. exact L.
Qed.

Lemma add_segs_brief ci p k : forall segs idx n, every (brief_kids k) n -> Forall (brief k) segs ->
  every (brief_kids k) (fst (add_segs ci p idx segs n)).
Proof.
  induction segs as [|s rest IH]; intros idx n H Hs; [exact H|]. cbn [add_segs].
  inversion Hs as [|? ? Hs1 Hs2]; subst. apply every_eq in H. destruct H as [H1 H2]. unfold brief_kids in H1.
  destruct (find_child ci s (n_ch n)) as [[[before c] after]|] eqn:F.
  - apply find_child_some in F. destruct F as [F1 _]. rewrite F1 in H1, H2.
    apply Forall_app in H1. destruct H1 as [A1 A2]. inversion A2 as [|? ? A3 A4]; subst.
    apply Forall_app in H2. destruct H2 as [B1 B2]. inversion B2 as [|? ? B3 B4]; subst.
    assert (G : forall c2, n_seg c2 = n_seg c -> every (brief_kids k) c2 -> every (brief_kids k) (set_children n (before ++ c2 :: after))).
    { intros c2 E1 E2. apply every_children.
      - unfold brief_kids. destruct n as [nm np ns npt nc]; cbn [set_children n_ch] in *. apply Forall_app. split; [exact A1|]. constructor; [rewrite E1; exact A3|exact A4].
      - apply Forall_app. split; [exact B1|]. constructor; assumption. }
    assert (R : n_seg (raise_max c (max_at p idx)) = n_seg c) by (destruct c; reflexivity).
    assert (R' : every (brief_kids k) (raise_max c (max_at p idx))).
    { apply every_eq in B3. apply every_eq. destruct c; exact B3. }
    destruct rest as [|s2 rest].
    + destruct (is_leaf (raise_max c (max_at p idx))); cbn [fst]; apply G; [exact R|exact R'|destruct c; reflexivity|].
      apply every_eq in R'. apply every_eq. destruct c; exact R'.
    + pose proof (add_segs_keeps ci p (s2 :: rest) (S idx) (raise_max c (max_at p idx))) as (K1 & _).
      specialize (IH (S idx) _ R' Hs2). destruct (add_segs ci p (S idx) (s2 :: rest) (raise_max c (max_at p idx))) as [c2 dup].
      cbn [fst] in *. apply G; [congruence|exact IH].
  - set (fresh := Node _ _ _ _ _). pose proof (add_segs_keeps ci p rest (S idx) fresh) as (K1 & _).
    assert (Fr : every (brief_kids k) fresh) by (apply every_eq; split; constructor).
    specialize (IH (S idx) fresh Fr Hs2). destruct (add_segs ci p (S idx) rest fresh) as [c2 dup]. cbn [fst] in *.
    apply every_children.
    + unfold brief_kids. destruct n as [nm np ns npt nc]; cbn [set_children n_ch] in *. rewrite sort_children_perm, Forall_app. split; [exact H1|].
      constructor; [|constructor]. rewrite K1. exact Hs1.
    + rewrite sort_children_perm, Forall_app. split; [exact H2|]. constructor; [exact IH|constructor].
Qed.

Definition all_brief (k : nat) (r : router) : Prop :=
  forall key m, alookup key (r_matchers r) = Some m -> every (brief_kids k) (m_trie m) /\ m_ci m = r_ci r.

Lemma all_brief_more k k' r : k <= k' -> all_brief k r -> all_brief k' r.
Proof. intros L H key m E. destruct (H key m E) as [A B]. split; [eapply brief_kids_more; eassumption|exact B]. Qed.

Lemma brief_step fuel re k r m0 t0 h0 r1 e : all_brief k r -> List.length t0 <= k -> handle fuel re r m0 t0 h0 = (r1, e) -> all_brief k r1.
Proof.
  intros H L Eh. unfold handle in Eh. destruct (parse_pattern fuel re t0 (r_ci r)) as [| | |p0] eqn:P;
      try (injection Eh as <- <-; exact H).
  set (mm := match alookup (to_upper m0) (r_matchers r) with Some m => m | None => new_matcher (r_ci r) end) in Eh.
  assert (Sm : every (brief_kids k) (m_trie mm) /\ m_ci mm = r_ci r).
  { unfold mm. destruct (alookup (to_upper m0) (r_matchers r)) as [m|] eqn:El; [exact (H _ m El)|].
    split; [apply every_eq; split; constructor|reflexivity]. }
  clearbody mm. destruct (add_pattern mm (attach p0 h0)) as [m' dup] eqn:Ea. injection Eh as <- <-.
  intros key m Em. cbn [r_matchers r_ci] in *. rewrite alookup_aset in Em.
  destruct (beqb key (to_upper m0)); [injection Em as <-|exact (H _ _ Em)].
  destruct Sm as [S1 S2]. unfold add_pattern in Ea. change (p_segs (attach p0 h0)) with (p_segs p0) in Ea.
  pose proof (parsed_brief _ _ _ _ _ P) as B.
  assert (B' : Forall (brief k) (p_segs p0)) by (eapply Forall_impl; [|exact B]; intros s; apply brief_more; exact L). clear B.
  destruct (p_segs p0) as [|s rest].
  - destruct (m_root mm); injection Ea as <- _; split; assumption.
  - pose proof (add_segs_brief (m_ci mm) (attach p0 h0) k (s :: rest) 0 _ S1 B') as G.
    destruct (add_segs (m_ci mm) (attach p0 h0) 0 (s :: rest) (m_trie mm)) as [t' d']. injection Ea as <- _. split; assumption.
Qed.

Lemma brief_all fuel re k : forall regs r, all_brief k r -> (forall rg, In rg regs -> List.length (reg_text rg) <= k) ->
  forall r' ends, handle_all fuel re r regs = (r', ends) -> all_brief k r'.
Proof.
  induction regs as [|[[m0 t0] h0] regs IH]; intros r H L r' ends E; cbn [handle_all] in E.
  { injection E as <- <-. exact H. }
  destruct (handle fuel re r m0 t0 h0) as [r1 e] eqn:Eh. destruct (handle_all fuel re r1 regs) as [r2 es] eqn:Er. injection E as <- <-.
  refine (IH r1 _ (fun rg I => L rg (or_intror I)) r2 es Er). refine (brief_step _ _ _ _ _ _ _ _ _ H _ Eh). exact (L _ (or_introl eq_refl)).
Qed.

(** ** Each comparison costs at most so much *)

Lemma slice_le s i j t : slice s i j = Some t -> List.length t <= List.length s.
Proof.
  unfold slice. destruct (_ && _); [|discriminate]. intros [= <-]. rewrite firstn_length, skipn_length. lia.
Qed.

Section Cost.
Variable re : engine.
Variable ci : bool.
Variable path : bytes.
Variable url_len : N.
Variable gf : nat.
Variable k : nat.
Let B := (List.length path + 2) * (2 * k + 3).

Lemma seg_cost s u : brief k s -> seg_rounds ci path gf s u <= B.
Proof.
  intros H. unfold seg_rounds. destruct (s_mt s) eqn:T; try apply Nat.le_0_l. destruct (H T) as [A L].
  destruct (useg_text path u) as [t|] eqn:E; [|apply Nat.le_0_l]. apply slice_le in E.
  etransitivity; [apply wildcard_work; exact A|]. unfold B. apply Nat.mul_le_mono; lia.
Qed.

Lemma first_cost l left u : Forall (fun c => brief k (n_seg c)) l ->
  first_rounds re ci path gf l left u <= B * first_calls re ci path l left u.
Proof.
  induction 1 as [|c l Hc _ IH]; [cbn; lia|]. cbn [first_rounds first_calls]. pose proof (seg_cost _ u Hc) as S. clearbody B.
  destruct (negb _); [exact IH|]. destruct (seg_match re ci path (n_seg c) u) as [[| | | | | |]|]; rewrite ?Nat.mul_succ_r; lia.
Qed.
Lemma some_cost l u : Forall (fun c => brief k (n_seg c)) l ->
  some_rounds re ci path gf l u <= B * some_calls re ci path l u.
Proof.
  induction 1 as [|c l Hc _ IH]; [cbn; lia|]. cbn [some_rounds some_calls]. pose proof (seg_cost _ u Hc) as S. clearbody B.
  destruct (seg_match re ci path (n_seg c) u) as [[| | | | | |]|]; rewrite ?Nat.mul_succ_r; lia.
Qed.
Lemma greedy_cost l : Forall (fun c => brief k (n_seg c)) l -> forall n i segs,
  greedy_rounds re ci path gf n l i segs <= B * greedy_calls re ci path n l i segs.
Proof.
  intros H. induction n as [|n IH]; intros i segs; cbn [greedy_rounds greedy_calls]; [lia|].
  destruct (nth_error segs (N.to_nat i)) as [u|]; [|lia]. pose proof (some_cost l u H) as S.
  specialize (IH (u8 (i + 1)) (set_mt segs i MTMulti)). clearbody B.
  destruct (some_matches re ci path l u); rewrite Nat.mul_add_distr_l; lia.
Qed.

Definition brief_state (st : mstate) : Prop := every (brief_kids k) (ms_cur st) /\ Forall (every (brief_kids k)) (ms_anc st).

Lemma seen_brief n c0 : brief_kids k n -> Forall (fun c => brief k (n_seg c)) (skipn (N.to_nat c0) (firstn (N.to_nat (u16 (N.of_nat (List.length (n_ch n))))) (n_ch n))).
Proof.
  intros H. apply (@incl_Forall _ _ (n_ch n)); [|exact H]. intros c I.
  rewrite <- (firstn_skipn (N.to_nat (u16 (N.of_nat (List.length (n_ch n))))) (n_ch n)). apply in_or_app. left.
  rewrite <- (firstn_skipn (N.to_nat c0)). apply in_or_app. now right.
Qed.
Lemma seen_in n c0 c : In c (skipn (N.to_nat c0) (firstn (N.to_nat (u16 (N.of_nat (List.length (n_ch n))))) (n_ch n))) -> In c (n_ch n).
Proof.
  intros I. rewrite <- (firstn_skipn (N.to_nat (u16 (N.of_nat (List.length (n_ch n))))) (n_ch n)). apply in_or_app. left.
  rewrite <- (firstn_skipn (N.to_nat c0)). apply in_or_app. now right.
Qed.

Lemma round_cost st : brief_state st -> round_rounds re ci path url_len gf st <= B * round_calls re ci path url_len st.
Proof.
  intros [H _]. apply every_eq in H. destruct H as [H1 H2]. unfold round_rounds, round_calls. cbv zeta.
  destruct (negb _); [lia|]. destruct (nth_error (ms_segs st) _) as [u|]; [|lia]. destruct (nth_error (ms_mts st) _) as [mt0|]; [|lia].
  destruct (nth_error (ms_nstack st) _) as [[c0 z]|]; [|lia]. rewrite Nat.mul_add_distr_l.
  apply Nat.add_le_mono; [apply first_cost, seen_brief, H1|].
  destruct (first_match re ci path _ c0 (sub8 url_len (ms_idx st)) u) as [| |c child m] eqn:F; [lia|lia|].
  apply (first_match_in re ci path 0%N eq_refl) in F. destruct F as (I & _). apply seen_in in I.
  assert (Hc : brief_kids k child).
  { rewrite Forall_forall in H2. specialize (H2 _ I). apply every_eq in H2. exact (proj1 H2). }
  unfold brief_kids in Hc. destruct m; try apply Nat.le_0_l. destruct (n_ch child) as [|x l]; [destruct (is_leaf child); [lia|]|]; apply greedy_cost; exact Hc.
Qed.

Lemma failed_brief st st' : brief_state st -> round_failed st = inl st' -> brief_state st'.
Proof.
  intros [H1 H2] E. unfold round_failed in E. destruct (ms_anc st) as [|p anc]; [discriminate|].
  destruct (update _ _ _); [|discriminate]. destruct (update _ _ _) as [ns'|]; [|discriminate].
  destruct (ms_depth st); [discriminate|]. destruct (nth_error ns' n) as [[a b]|]; [|discriminate]. injection E as <-.
  inversion H2; subst. split; assumption.
Qed.

Lemma round_brief st st' : brief_state st -> round re ci path url_len st = inl st' -> brief_state st'.
Proof.
  intros H E. pose proof H as [H1 H2]. unfold round in E. cbv zeta in E.
  destruct (negb _); [discriminate|]. destruct (nth_error (ms_segs st) _) as [u|]; [|discriminate]. destruct (nth_error (ms_mts st) _) as [mt0|]; [|discriminate].
  destruct (nth_error (ms_nstack st) _) as [[c0 z]|]; [|discriminate].
  destruct (first_match re ci path _ c0 (sub8 url_len (ms_idx st)) u) as [| |c child m] eqn:F; [|discriminate|].
  { refine (failed_brief _ _ _ E). exact H. }
  apply (first_match_in re ci path 0%N eq_refl) in F. destruct F as (I & _). apply seen_in in I.
  assert (Hc : every (brief_kids k) child).
  { apply every_eq in H1. destruct H1 as [_ H1]. rewrite Forall_forall in H1. exact (H1 _ I). }
  assert (M : forall i ns mts segs, round_matched url_len (MS i (S (ms_depth st)) child (ms_cur st :: ms_anc st) ns mts segs) = inl st' -> brief_state st').
  { intros i ns mts segs X. apply matched_next in X. subst st'. split; [exact Hc|]. cbn [ms_anc]. constructor; assumption. }
  assert (Pl : forall s1, (if (ms_idx st =? sub8 url_len 1)%N then
              if is_leaf child then inr (MRet (n_pat child) s1)
              else round_failed (MS (ms_idx st) (ms_depth st) (ms_cur st) (ms_anc st) (ms_nstack st) (ms_mts st) s1)
            else
              match update (ms_nstack st) (ms_depth st) (u16 (c + 1), ms_idx st) with
              | Some ns' => round_matched url_len (MS (ms_idx st) (S (ms_depth st)) child (ms_cur st :: ms_anc st) ns' (ms_mts st) s1)
              | None => inr MPanic
              end) = inl st' -> brief_state st').
  { intros s1 X. destruct (_ =? _)%N.
    - destruct (is_leaf child); [discriminate|]. refine (failed_brief _ _ _ X). exact H.
    - destruct (update _ _ _); [|discriminate]. exact (M _ _ _ _ X). }
  assert (Gr : forall g, match g with
      | GrPanic => inr MPanic
      | GrNone segs' => inr (MRet None segs')
      | GrAt j segs' =>
          match update (ms_nstack st) (ms_depth st) (c, u8 (j + 1)), update (ms_mts st) (N.to_nat j) MTMulti with
          | Some ns', Some mts' => round_matched url_len (MS (sub8 j 1) (S (ms_depth st)) child (ms_cur st :: ms_anc st) ns' mts' segs')
          | _, _ => inr MPanic
          end
      end = inl st' -> brief_state st').
  { intros g X. clear E Pl. destruct g; try discriminate. destruct (update (ms_nstack st) _ _); [|discriminate X]. destruct (update (ms_mts st) _ _); [|discriminate X]. exact (M _ _ _ _ X). }
  destruct m; try exact (Pl _ E).
  destruct (n_ch child) as [|g gs]; [destruct (is_leaf child); [discriminate|]|]; exact (Gr _ E).
Qed.

Lemma loop_cost f : forall st, brief_state st -> match_loop_rounds re ci path url_len gf f st <= B * loop_calls re ci path url_len f st.
Proof.
  induction f as [|f IH]; intros st H; cbn [match_loop_rounds loop_calls]; [lia|]. rewrite Nat.mul_add_distr_l.
  apply Nat.add_le_mono; [apply round_cost, H|]. destruct (round re ci path url_len st) as [st'|r] eqn:E; [|lia].
  apply IH. exact (round_brief _ _ H E).
Qed.
End Cost.

Lemma longest_in regs rg : In rg regs -> List.length (reg_text rg) <= longest regs.
Proof. induction regs as [|x regs IH]; intros I; [destruct I|]. cbn [longest]. destruct I as [->|I]; [lia|specialize (IH I); lia]. Qed.

Lemma routing_rounds fuel f gf re ci regs r ends mth path buf : List.length buf = 19 -> handle_all fuel re (new_router ci) regs = (r, ends) ->
  request_rounds f gf re r mth path buf <=
    (List.length path + 2) * (2 * longest regs + 3) * ((2 * Nat.min 19 (slashes path) + 1) * accepted_pieces mth regs ends).
Proof.
  intros Hb E. pose proof (routing_work fuel f re ci regs r ends mth path buf Hb E) as W.
  assert (A : all_brief (longest regs) r).
  { refine (brief_all fuel re _ regs (new_router ci) _ (longest_in regs) r ends E). intros key m X. discriminate X. }
  etransitivity; [|apply Nat.mul_le_mono_l; exact W]. clear W. unfold request_rounds, request_calls.
  destruct (parse_url_path path buf) as [segs|]; [|lia]. destruct (alookup (to_upper mth) (r_matchers r)) as [m|] eqn:El; [|lia].
  destruct (A _ _ El) as [T _]. unfold match_rounds, match_calls. destruct (Nat.ltb _ _); [lia|].
  assert (G : forall n st, st = MS 0 0 (m_trie m) [] (repeat (0, 0)%N max_path_segments) (repeat MTUnknown max_path_segments) segs ->
    match_loop_rounds re (m_ci m) path n gf f st <= (List.length path + 2) * (2 * longest regs + 3) * loop_calls re (m_ci m) path n f st).
  { intros n st ->. apply loop_cost. split; [exact T|constructor]. }
  destruct segs as [|s segs]; [destruct (m_root m); [lia|]|]; apply G; reflexivity.
Qed.

(** ** Cases *)
Definition wild_engine : engine := Engine (fun _ => true) (fun _ _ => true).
Definition wild_regs : list reg :=
  [(str "GET", str "/x/*aaab", 1); (str "GET", str "/**/*ab/c?d", 2); (str "GET", str "/x/{id}/c", 3)].
Definition wild_router : router * list handle_end := handle_all 100 wild_engine (new_router false) wild_regs.
Definition one_wild (w : string) : router := fst (handle_all 100 wild_engine (new_router false) [(str "GET", str "/" ++ str w, 1)]).

Lemma wild_case :
  snd wild_router = [Registered; Registered; Registered] /\ longest wild_regs = 11 /\
  accepted_pieces (str "GET") wild_regs (snd wild_router) = 8 /\ slashes (str "/x/aaaaaac/aaab/cab/c") = 5 /\
  dispatch_request 200 wild_engine (fst wild_router) (str "GET") (str "/x/aaaaaac/aaab/cab/c") (repeat useg_zero 19) = NotFound /\
  request_calls 200 wild_engine (fst wild_router) (str "GET") (str "/x/aaaaaac/aaab/cab/c") (repeat useg_zero 19) = 12 /\
  request_rounds 200 100 wild_engine (fst wild_router) (str "GET") (str "/x/aaaaaac/aaab/cab/c") (repeat useg_zero 19) = 75.
Proof. vm_compute. repeat split. Qed.

Lemma wild_one :
  request_rounds 40 200 wild_engine (one_wild "*aaab") (str "GET") (str "/aaaaaaaaac") (repeat useg_zero 19) = segment_rounds 200 false (str "aaaaaaaaac") (str "*aaab") /\
  request_rounds 40 200 wild_engine (one_wild "**/*ab/c") (str "GET") (str "/aac/ac/c/d") (repeat useg_zero 19) =
    segment_rounds 200 false (str "aac") (str "*ab") + segment_rounds 200 false (str "ac") (str "*ab") +
    segment_rounds 200 false (str "c") (str "*ab") + segment_rounds 200 false (str "d") (str "*ab").
Proof. vm_compute. repeat split. Qed.

(** ** What is counted *)

Section Counted.
Variable re : engine.
Variable path : bytes.
Variable gf : nat.

Lemma set_mt_texts segs i m : map (useg_text path) (set_mt segs (N.of_nat i) m) = map (useg_text path) segs.
Proof.
  assert (G : forall l, map (useg_text path) l = map (useg_text path) (map strip l)).
  { intros l. rewrite map_map. apply map_ext. intros []. reflexivity. }
  rewrite G, set_mt_strip, <- G. reflexivity.
Qed.

Lemma greedy_counted ts c : s_mt (n_seg c) = MTRegex -> List.length ts <= 19 ->
  Forall (fun t => regex_segment_match t (s_val (n_seg c)) false = GRet false) ts ->
  forall k i segs, i + k = List.length ts -> map (useg_text path) segs = map Some ts ->
  greedy_rounds re false path gf k [c] (N.of_nat i) segs = list_sum (map (fun t => segment_rounds gf false t (s_val (n_seg c))) (skipn i ts)) /\
  exists segs', greedy re false path k [c] (N.of_nat i) segs = GrNone segs'.
Proof.
  intros T L F. induction k as [|k IH]; intros i segs E H; cbn [greedy_rounds greedy].
  { replace i with (List.length ts) by lia. rewrite skipn_all. split; [reflexivity|eexists; reflexivity]. }
  rewrite Nat2N.id. destruct (nth_error ts i) as [t|] eqn:N; [|apply nth_error_None in N; lia].
  assert (Nu : exists u, nth_error segs i = Some u /\ useg_text path u = Some t).
  { pose proof (map_nth_error Some i ts N) as M. rewrite <- H in M. destruct (nth_error segs i) as [u|] eqn:U.
    - rewrite (map_nth_error (useg_text path) i segs U) in M. injection M as M. exists u. auto.
    - apply nth_error_None in U. assert (X : nth_error (map (useg_text path) segs) i = None) by (apply nth_error_None; rewrite map_length; exact U). congruence. }
  destruct Nu as (u & U & Ut). rewrite U. cbn [some_rounds some_matches]. unfold seg_rounds, seg_match. rewrite T, Ut.
  assert (Ft : regex_segment_match t (s_val (n_seg c)) false = GRet false).
  { rewrite Forall_forall in F. apply F. exact (nth_error_In _ _ N). }
  rewrite Ft, Nat.add_0_r. replace (u8 (N.of_nat i + 1)) with (N.of_nat (S i)).
  - destruct (IH (S i) (set_mt segs (N.of_nat i) MTMulti) ltac:(lia) ltac:(rewrite set_mt_texts; exact H)) as [I1 I2].
    split; [|exact I2]. rewrite I1.
    assert (Sk : skipn i ts = t :: skipn (S i) ts).
    { clear - N. revert i N. induction ts as [|x l IHl]; intros [|i] N; try discriminate; [injection N as ->; reflexivity|]. cbn [skipn]. exact (IHl _ N). }
    rewrite Sk. reflexivity.
  - unfold u8. rewrite N.mod_small; lia.
Qed.
End Counted.

Definition far_router (re : engine) : router := fst (handle_all 100 re (new_router false) [(str "GET", str "/**/*ab", 1)]).
Definition far_node : node := Eval vm_compute in m_trie (match r_matchers (far_router wild_engine) with (_, m) :: _ => m | [] => new_matcher false end).

Lemma far_matcher re : exists m, alookup (to_upper (str "GET")) (r_matchers (far_router re)) = Some m /\ m_ci m = false /\ m_trie m = far_node.
Proof. vm_compute. eexists. repeat split. Qed.

Lemma rounds_counted re f gf path ts buf : (blen path < 65536)%N -> segments_of path ts -> ts <> [] -> List.length buf = 19 ->
  Forall (fun t => regex_segment_match t (str "*ab") false = GRet false) ts ->
  request_rounds (S f) gf re (far_router re) (str "GET") path buf = list_sum (map (fun t => segment_rounds gf false t (str "*ab")) ts).
Proof.
  intros Lp S Hne Hb F. destruct (parse_url_texts path ts buf Lp S Hb) as (us & P & R). pose proof (walked_len _ _ S) as Lt.
  destruct (far_matcher re) as (m & M1 & M2 & M3). unfold request_rounds. rewrite P, M1. unfold match_rounds. rewrite M2, M3.
  assert (Hu : map (useg_text path) us = map Some ts).
  { clear - R. induction R as [|u t us ts [A _] _ IH]; [reflexivity|]. cbn [map]. now rewrite A, IH. }
  assert (Lu : List.length us = List.length ts) by (rewrite <- (map_length (useg_text path)), Hu, map_length; reflexivity).
  replace (Nat.ltb max_path_segments (List.length us)) with false by (symmetry; apply Nat.ltb_ge; rewrite Lu; exact Lt).
  destruct us as [|u us']; [destruct ts; [congruence|discriminate]|]. set (us := u :: us') in *.
  assert (U : u8 (N.of_nat (List.length us)) = N.of_nat (List.length ts)) by (rewrite Lu; unfold u8; rewrite N.mod_small; lia).
  rewrite U. cbn [match_loop_rounds].
  assert (Pos : 0 < List.length ts) by (destruct ts; [congruence|cbn; lia]).
  assert (C : exists c, n_ch far_node = [c] /\ s_mt (n_seg c) = MTMulti /\ n_max c = 255%N /\ exists d, n_ch c = [d] /\ s_mt (n_seg d) = MTRegex /\ s_val (n_seg d) = str "*ab").
  { eexists. split; [reflexivity|]. split; [reflexivity|]. split; [reflexivity|]. eexists. split; [reflexivity|]. split; reflexivity. }
  destruct C as (c & C1 & C2 & C3 & d & D1 & D2 & D3). rewrite <- D3 in F.
  destruct (greedy_counted re path gf ts d D2 Lt F (List.length ts) 0 us eq_refl Hu) as [G1 [us1 G2]].
  rewrite D3 in G1. cbn [skipn] in G1. rewrite <- G1. change (N.of_nat 0) with 0%N in *.
  assert (FM : forall k, (k <= 255)%N -> first_rounds re false path gf [c] k u = 0 /\ first_match re false path [c] 0 k u = FSome 0 c MTMulti).
  { intros k Hk. cbn [first_rounds first_match]. unfold can_match_len, seg_rounds, seg_match. rewrite C3, C2.
    replace (k <=? 255)%N with true by (symmetry; apply N.leb_le; exact Hk). split; reflexivity. }
  assert (Hl : (sub8 (N.of_nat (List.length ts)) 0 <= 255)%N).
  { assert (X : forall a b, (sub8 a b < 256)%N) by (intros a b; unfold sub8; apply N.mod_lt; discriminate). specialize (X (N.of_nat (List.length ts)) 0%N). lia. }
  destruct (FM _ Hl) as [F1 F2].
  assert (Lk : N.to_nat (N.of_nat (List.length ts) - 0) = List.length ts) by lia.
  assert (Lt0 : (0 <? N.of_nat (List.length ts))%N = true) by (apply N.ltb_lt; lia).
  unfold round_rounds, round. cbn [ms_segs ms_idx ms_mts ms_nstack ms_depth ms_cur ms_anc max_path_segments repeat]. rewrite Lt0. cbn [negb].
  assert (N0 : nth_error us (N.to_nat 0) = Some u) by reflexivity. clearbody us. rewrite N0. cbn [nth_error mt_eqb N.to_nat]. rewrite C1.
  replace (skipn 0 (firstn (N.to_nat (u16 (N.of_nat (List.length [c])))) [c])) with [c] by reflexivity. rewrite F1, F2, D1, Lk. change (mt_eqb MTUnknown MTUnknown) with true. cbv iota. rewrite G2. lia.
Qed.

Definition near_router (re : engine) : router := fst (handle_all 100 re (new_router false) [(str "GET", str "/x*/*ab", 1); (str "GET", str "/?y/z", 2)]).
Definition near_node : node := Eval vm_compute in m_trie (match r_matchers (near_router wild_engine) with (_, m) :: _ => m | [] => new_matcher false end).
Lemma near_matcher re : exists m, alookup (to_upper (str "GET")) (r_matchers (near_router re)) = Some m /\ m_ci m = false /\ m_trie m = near_node.
Proof. vm_compute. eexists. repeat split. Qed.

Lemma rounds_summed re f gf path t1 t2 buf : (blen path < 65536)%N -> segments_of path [t1; t2] -> List.length buf = 19 ->
  regex_segment_match t1 (str "?y") false = GRet false ->
  regex_segment_match t1 (str "x*") false = GRet true -> regex_segment_match t2 (str "*ab") false = GRet false ->
  request_rounds (3 + f) gf re (near_router re) (str "GET") path buf =
    segment_rounds gf false t1 (str "?y") + segment_rounds gf false t1 (str "x*") + segment_rounds gf false t2 (str "*ab").
Proof.
  intros Lp S Hb F0 F1 F2. destruct (parse_url_texts path _ buf Lp S Hb) as (us & P & R).
  destruct (near_matcher re) as (m & M1 & M2 & M3). unfold request_rounds. rewrite P, M1. unfold match_rounds. rewrite M2, M3.
  inversion R as [|u1 ? us1 ? [A1 B1] R1]; subst. inversion R1 as [|u2 ? us2 ? [A2 B2] R2]; subst. inversion R2; subst. clear R R1 R2 P M1 M2 M3 S.
  assert (C : exists c1 c2, n_ch near_node = [c1; c2] /\ s_mt (n_seg c1) = MTRegex /\ s_val (n_seg c1) = str "?y" /\ n_max c1 = 2%N /\
    s_mt (n_seg c2) = MTRegex /\ s_val (n_seg c2) = str "x*" /\ n_max c2 = 2%N /\
    exists d, n_ch c2 = [d] /\ s_mt (n_seg d) = MTRegex /\ s_val (n_seg d) = str "*ab" /\ n_max d = 1%N).
  { eexists. eexists. split; [reflexivity|]. do 6 (split; [reflexivity|]). eexists. repeat split. }
  destruct C as (c1 & c2 & C & T1 & V1 & X1 & T2 & V2 & X2 & d & D & Td & Vd & Xd).
  assert (Y1 : first_rounds re false path gf [c1; c2] 2 u1 = segment_rounds gf false t1 (str "?y") + segment_rounds gf false t1 (str "x*") /\
    first_match re false path [c1; c2] 0 2 u1 = FSome 1 c2 MTRegex).
  { cbn [first_rounds first_match]. unfold can_match_len, seg_rounds, seg_match. rewrite X1, X2, T1, T2, A1, V1, V2, F0, F1.
    cbn [negb N.leb N.compare Pos.compare Pos.compare_cont]. split; [lia|reflexivity]. }
  assert (Y2 : forall s, useg_text path s = Some t2 -> first_rounds re false path gf [d] 1 s = segment_rounds gf false t2 (str "*ab") /\
    first_match re false path [d] 0 1 s = FNone).
  { intros s As. cbn [first_rounds first_match]. unfold can_match_len, seg_rounds, seg_match. rewrite Xd, Td, As, Vd, F2.
    cbn [negb N.leb N.compare Pos.compare Pos.compare_cont]. split; [lia|reflexivity]. }
  destruct Y1 as [Y1 Z1]. destruct (Y2 _ A2) as [Y3 Z3].
  replace (Nat.ltb max_path_segments (List.length [u1; u2])) with false by reflexivity. cbv iota.
  change (u8 (N.of_nat (List.length [u1; u2]))) with 2%N. cbn [Nat.add match_loop_rounds].
  set (v1 := with_mt u1 MTRegex).
  set (st0 := MS _ _ _ _ _ _ _).
  set (st1 := MS 1 1 c2 [near_node] ((2, 0)%N :: repeat (0, 0)%N 18) (repeat MTUnknown 19) [v1; u2]).
  set (st2 := MS 0 0 near_node [] ((2, 0)%N :: repeat (0, 0)%N 18) (repeat MTUnknown 19) [v1; u2]).
  assert (R0 : round re false path 2 st0 = inl st1 /\ round_rounds re false path 2 gf st0 = segment_rounds gf false t1 (str "?y") + segment_rounds gf false t1 (str "x*")).
  { unfold round, round_rounds, st0. cbn [ms_segs ms_idx ms_mts ms_nstack ms_depth ms_cur ms_anc]. rewrite C.
    cbn [N.to_nat nth_error max_path_segments repeat].
    replace (skipn 0 (firstn (N.to_nat (u16 (N.of_nat (List.length [c1; c2])))) [c1; c2])) with [c1; c2] by reflexivity. change (sub8 2 0) with 2%N.
    rewrite Y1, Z1. split; [reflexivity|]. cbn [negb N.ltb N.compare]. lia. }
  assert (R1 : round re false path 2 st1 = inl st2 /\ round_rounds re false path 2 gf st1 = segment_rounds gf false t2 (str "*ab")).
  { unfold round, round_rounds, st1. cbn [ms_segs ms_idx ms_mts ms_nstack ms_depth ms_cur ms_anc]. rewrite D.
    change (N.to_nat 1) with 1. cbn [N.to_nat nth_error max_path_segments repeat].
    replace (skipn 0 (firstn (N.to_nat (u16 (N.of_nat (List.length [d])))) [d])) with [d] by reflexivity. change (sub8 2 1) with 1%N.
    rewrite Y3, Z3. split; [reflexivity|]. change (negb (1 <? 2)%N) with false. cbv iota. lia. }
  assert (R2 : (exists o, round re false path 2 st2 = inr o) /\ round_rounds re false path 2 gf st2 = 0).
  { unfold round, round_rounds, st2. cbn [ms_segs ms_idx ms_mts ms_nstack ms_depth ms_cur ms_anc]. rewrite C.
    change (N.to_nat 0) with 0. cbn [nth_error repeat]. replace (skipn (N.to_nat 2) (firstn (N.to_nat (u16 (N.of_nat (List.length [c1; c2])))) [c1; c2])) with (@nil node) by reflexivity. split; [eexists; reflexivity|reflexivity]. }
  destruct R0 as [R0 Q0]. destruct R1 as [R1 Q1]. destruct R2 as [[o R2] Q2]. rewrite Q0, R0, Q1, R1, Q2, R2. lia.
Qed.

Lemma plain_two a b : ~ In "/"%char a -> ~ In "/"%char b -> ~ too_many [] [a; b] -> walked [] [a; b] = [a; b] -> segments_of ("/"%char :: a ++ "/"%char :: b) [a; b].
Proof.
  intros Ha Hb Hm W. rewrite <- W. change ("/"%char :: a ++ "/"%char :: b) with ([] ++ "/"%char :: a ++ "/"%char :: b).
  apply so_some; [intros []|apply cut_more; [exact Ha|apply cut_last; exact Hb]|exact Hm].
Qed.

Lemma counted_case : segments_of (str "/aaac/d") [str "aaac"; str "d"] /\
  regex_segment_match (str "aaac") (str "*ab") false = GRet false /\ regex_segment_match (str "d") (str "*ab") false = GRet false /\
  request_rounds 1 100 wild_engine (far_router wild_engine) (str "GET") (str "/aaac/d") (repeat useg_zero 19) = 18.
Proof.
  split; [|vm_compute; repeat split].
  apply (plain_two (str "aaac") (str "d")); [vm_compute; intuition discriminate|vm_compute; intuition discriminate|vm_compute; intuition lia|reflexivity].
Qed.

Lemma summed_case : segments_of (str "/xaa/aac") [str "xaa"; str "aac"] /\
  regex_segment_match (str "xaa") (str "?y") false = GRet false /\
  regex_segment_match (str "xaa") (str "x*") false = GRet true /\ regex_segment_match (str "aac") (str "*ab") false = GRet false /\
  request_rounds 3 100 wild_engine (near_router wild_engine) (str "GET") (str "/xaa/aac") (repeat useg_zero 19) = 13.
Proof.
  split; [|vm_compute; repeat split].
  apply (plain_two (str "xaa") (str "aac")); [vm_compute; intuition discriminate|vm_compute; intuition discriminate|vm_compute; intuition lia|reflexivity].
Qed.
