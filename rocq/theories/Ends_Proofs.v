(** * The search in any route tree ends *)
From Coq Require Import List NArith Ascii String Bool Lia Arith.
From Verif Require Import GoBase Glob_Model Pattern_Model Url_Model Match_Model Router_Model Glob_Spec Pattern_Spec Url_Proofs Glob_Proofs Pattern_Proofs Search_Proofs.
Import ListNotations.
Local Open Scope string_scope.
Local Open Scope list_scope.
Local Open Scope nat_scope.

Section Ends.
Variable re : engine.
Variable ci : bool.
Variable path : bytes.
Variable url_len : N.
Hypothesis Short : (url_len < 256)%N.

(** The children that are looked at. *)
Definition kids (n : node) : list node := firstn (N.to_nat (u16 (N.of_nat (List.length (n_ch n))))) (n_ch n).

(** An upper bound of the rounds below a node. *)
Fixpoint bound (n : node) : nat :=
  match n with Node _ _ _ _ ch => S (256 + List.length ch) * (2 + list_max (map bound ch)) end.
Definition below (n : node) : nat := list_max (map bound (n_ch n)).
(** What is left to do at a node from child [c] and segment [i] on. *)
Definition work (n : node) (c i : N) : nat :=
  S (N.to_nat (url_len - i) + (List.length (kids n) - N.to_nat c)) * (2 + below n).
Fixpoint works (anc : list node) (d : nat) (ns : list (N * N)) : nat :=
  match anc, d with
  | p :: anc', S d' => match nth_error ns d' with Some (c, i) => work p c i | None => 0 end + works anc' d' ns
  | _, _ => 0
  end.
Definition total (st : mstate) : nat :=
  match nth_error (ms_nstack st) (ms_depth st) with
  | Some (c, _) => work (ms_cur st) c (ms_idx st) + works (ms_anc st) (ms_depth st) (ms_nstack st)
  | None => 0
  end.

Lemma kids_length n : List.length (kids n) <= List.length (n_ch n) /\ (N.of_nat (List.length (kids n)) < 65536)%N.
Proof.
  unfold kids. rewrite firstn_length. unfold u16.
  assert (L : (N.of_nat (List.length (n_ch n)) mod 65536 < 65536)%N) by (apply N.mod_upper_bound; discriminate).
  split; [lia|]. lia.
Qed.

Lemma work_bound n c i : work n c i <= bound n.
Proof.
  destruct n as [mx pr sg pt ch]. unfold work, below. cbn [bound n_ch]. pose proof (kids_length (Node mx pr sg pt ch)) as [K _]. cbn [n_ch] in K.
  apply Nat.mul_le_mono_r. lia.
Qed.

Lemma child_bound n c : In c (n_ch n) -> bound c <= below n.
Proof.
  intros I. unfold below. pose proof (proj1 (list_max_le (map bound (n_ch n)) _) (Nat.le_refl _)) as F.
  rewrite Forall_forall in F. apply F, in_map, I.
Qed.

(** One step further at a node pays for the visit of a child. *)
Lemma work_less n c i c' i' :
  N.to_nat (url_len - i') + (List.length (kids n) - N.to_nat c') < N.to_nat (url_len - i) + (List.length (kids n) - N.to_nat c) ->
  work n c' i' + below n + 2 <= work n c i.
Proof.
  unfold work. generalize (N.to_nat (url_len - i') + (List.length (kids n) - N.to_nat c')) as a', (N.to_nat (url_len - i) + (List.length (kids n) - N.to_nat c)) as a.
  intros a' a H. apply Nat.le_trans with (S (S a') * (2 + below n)); [cbn [Nat.mul]; lia|]. apply Nat.mul_le_mono_r. lia.
Qed.

Lemma work_pos n c i : 0 < work n c i.
Proof. unfold work. apply Nat.mul_pos_pos; lia. Qed.

Lemma works_update anc d ns k0 v ns' : update ns k0 v = Some ns' -> d <= k0 -> works anc d ns' = works anc d ns.
Proof.
  revert d. induction anc as [|p anc IH]; intros d U L; [reflexivity|]. destruct d as [|d]; [reflexivity|]. cbn [works].
  rewrite (IH d U) by lia. f_equal.
  assert (E : nth_error ns' d = nth_error ns d).
  { clear IH. revert k0 d ns' U L. induction ns as [|x ns IH]; intros k0 d ns' U L; [discriminate|].
    destruct k0 as [|k0]; [lia|]. cbn in U. destruct (update ns k0 v) as [r|] eqn:Eu; [|discriminate]. injection U as <-.
    destruct d as [|d]; [reflexivity|]. cbn. apply (IH k0 d r Eu). lia. }
  rewrite E. reflexivity.
Qed.

Lemma update_at {A : Type} (l : list A) k0 v l' : update l k0 v = Some l' -> nth_error l' k0 = Some v.
Proof.
  revert k0 l'. induction l as [|x l IH]; intros k0 l' U; [discriminate|]. destruct k0 as [|k0]; [injection U as <-; reflexivity|].
  cbn in U. destruct (update l k0 v) as [r|] eqn:E; [|discriminate]. injection U as <-. cbn. exact (IH _ _ E).
Qed.
Lemma update_length {A : Type} (l : list A) k0 v l' : update l k0 v = Some l' -> List.length l' = List.length l.
Proof.
  revert k0 l'. induction l as [|x l IH]; intros k0 l' U; [discriminate|]. destruct k0 as [|k0]; [injection U as <-; reflexivity|].
  cbn in U. destruct (update l k0 v) as [r|] eqn:E; [|discriminate]. injection U as <-. cbn. f_equal. exact (IH _ _ E).
Qed.

Lemma first_match_in l c0 left u c child m : first_match re ci path l c0 left u = FSome c child m ->
  In child l /\ (c0 <= c)%N /\ (c < c0 + N.of_nat (List.length l))%N.
Proof.
  revert c0. induction l as [|n l IH]; intros c0 E; [discriminate|]. cbn [first_match] in E.
  assert (G : first_match re ci path l (c0 + 1) left u = FSome c child m -> In child (n :: l) /\ (c0 <= c)%N /\ (c < c0 + N.of_nat (List.length (n :: l)))%N).
  { intros E'. destruct (IH _ E') as (A & B & C). split; [now right|]. cbn [List.length]. lia. }
  destruct (negb _); [exact (G E)|]. destruct (seg_match _ _ _ _ _) as [mt|]; [|discriminate].
  assert (H : FSome c0 n mt = FSome c child m -> In child (n :: l) /\ (c0 <= c)%N /\ (c < c0 + N.of_nat (List.length (n :: l)))%N).
  { intros E'. injection E' as <- <- _. cbn [List.length]. split; [now left|lia]. }
  destruct mt; auto.
Qed.

Lemma greedy_at k0 l i segs j segs' : (i + N.of_nat k0 <= 256)%N -> greedy re ci path k0 l i segs = GrAt j segs' -> (i <= j)%N /\ (j < i + N.of_nat k0)%N.
Proof.
  revert i segs. induction k0 as [|k0 IH]; intros i segs L E; [discriminate|]. cbn [greedy] in E.
  destruct (nth_error _ _); [|discriminate]. destruct (some_matches _ _ _ _ _); [|injection E as <- _; lia|discriminate].
  destruct (N.eq_dec (N.of_nat k0) 0) as [Z|Z].
  { destruct k0; [discriminate E|lia]. }
  assert (U : u8 (i + 1) = (i + 1)%N) by (unfold u8; apply N.mod_small; lia).
  rewrite U in E. destruct (IH (i + 1)%N (set_mt segs i MTMulti)) as [A B]; [lia|exact E|]. lia.
Qed.

Lemma matched_next st st' : round_matched url_len st = inl st' ->
  st' = MS (u8 (ms_idx st + 1)) (ms_depth st) (ms_cur st) (ms_anc st) (ms_nstack st) (ms_mts st) (ms_segs st).
Proof. unfold round_matched. destruct (_ && _); [discriminate|]. intros E. injection E as <-. reflexivity. Qed.

(** Back to the parent. *)
Lemma failed_less st st' c i0 : List.length (ms_anc st) = ms_depth st -> nth_error (ms_nstack st) (ms_depth st) = Some (c, i0) ->
  round_failed st = inl st' -> List.length (ms_anc st') = ms_depth st' /\ total st' < total st.
Proof.
  intros L N E. unfold round_failed in E. unfold total. rewrite N. destruct (ms_anc st) as [|parent anc]; [discriminate|].
  destruct (update (ms_mts st) _ _); [|discriminate]. destruct (update (ms_nstack st) _ _) as [ns'|] eqn:U; [|discriminate].
  destruct (ms_depth st) as [|d] eqn:D; [discriminate|]. destruct (nth_error ns' d) as [[c1 i1]|] eqn:N1; [|discriminate].
  injection E as <-. cbn [ms_anc ms_depth ms_nstack ms_cur ms_idx] in *. split; [cbn [List.length] in L; lia|]. rewrite N1.
  rewrite <- (works_update (parent :: anc) (S d) _ _ _ _ U) by lia. cbn [works]. rewrite N1.
  pose proof (work_pos (ms_cur st) c (ms_idx st)). lia.
Qed.

(** Down to a child. *)
Lemma pushed_less cur anc depth ns ns' c0 x0 i c' i' child idx mts segs :
  List.length anc = depth -> nth_error ns depth = Some (c0, x0) -> update ns depth (c', i') = Some ns' -> In child (n_ch cur) ->
  N.to_nat (url_len - i') + (List.length (kids cur) - N.to_nat c') < N.to_nat (url_len - i) + (List.length (kids cur) - N.to_nat c0) ->
  forall st, total (MS idx (S depth) child (cur :: anc) ns' mts segs) < total (MS i depth cur anc ns st segs).
Proof.
  intros L N U I Le st. unfold total. cbn [ms_anc ms_depth ms_nstack ms_cur ms_idx]. rewrite N.
  cbn [works]. rewrite (update_at _ _ _ _ U). rewrite (works_update _ _ _ _ _ _ U) by lia.
  pose proof (work_less _ _ _ _ _ Le) as W. pose proof (child_bound _ _ I) as B.
  pose proof (work_bound child) as K.
  destruct (nth_error ns' (S depth)) as [[c1 i1]|]; [specialize (K c1 idx)|pose proof (work_pos cur c0 i)]; lia.
Qed.

Lemma total_segs i depth cur anc ns mts mts' segs segs' : total (MS i depth cur anc ns mts segs) = total (MS i depth cur anc ns mts' segs').
Proof. reflexivity. Qed.

Lemma round_less st st' : List.length (ms_anc st) = ms_depth st -> round re ci path url_len st = inl st' ->
  List.length (ms_anc st') = ms_depth st' /\ total st' < total st.
Proof.
  destruct st as [i depth cur anc ns mts segs]. cbn [ms_anc ms_depth]. intros L E. unfold round in E. cbn [ms_idx ms_segs ms_mts ms_nstack ms_depth ms_cur ms_anc] in E.
  destruct (N.ltb_spec i url_len) as [Li|]; [|discriminate]. cbn [negb] in E.
  destruct (nth_error segs _) as [u|]; [|discriminate]. destruct (nth_error mts _) as [mt0|]; [|discriminate].
  destruct (nth_error ns depth) as [[c0 x0]|] eqn:Nn; [|discriminate].
  set (segs1 := if mt_eqb mt0 MTUnknown then segs else set_mt segs i mt0) in E.
  change (firstn (N.to_nat (u16 (N.of_nat (List.length (n_ch cur))))) (n_ch cur)) with (kids cur) in E.
  destruct (first_match re ci path (skipn (N.to_nat c0) (kids cur)) c0 (sub8 url_len i) u) as [| |c child m] eqn:F; [|discriminate|].
  { destruct (failed_less (MS i depth cur anc ns mts segs1) st' c0 x0 L Nn E) as [A B]. split; [exact A|exact B]. }
  destruct (first_match_in _ _ _ _ _ _ _ F) as (I & C1 & C2). rewrite skipn_length in C2.
  assert (Ik : In child (kids cur)) by (rewrite <- (firstn_skipn (N.to_nat c0)); apply in_or_app; now right).
  assert (Ic : In child (n_ch cur)).
  { unfold kids in Ik. rewrite <- (firstn_skipn (N.to_nat (u16 (N.of_nat (List.length (n_ch cur)))))). apply in_or_app. now left. }
  pose proof (kids_length cur) as [_ K].
  assert (Ck : (c < N.of_nat (List.length (kids cur)))%N) by lia.
  assert (Gr : forall gr, match greedy re ci path (N.to_nat (url_len - i)) gr i segs1 with
      | GrPanic => inr MPanic
      | GrNone segs' => inr (MRet None segs')
      | GrAt j segs' =>
          match update ns depth (c, u8 (j + 1)), update mts (N.to_nat j) MTMulti with
          | Some ns', Some mts' => round_matched url_len (MS (sub8 j 1) (S depth) child (cur :: anc) ns' mts' segs')
          | _, _ => inr MPanic
          end
      end = inl st' -> List.length (ms_anc st') = ms_depth st' /\ total st' < total (MS i depth cur anc ns mts segs)).
  { clear E. intros gr G. destruct (greedy re ci path (N.to_nat (url_len - i)) gr i segs1) as [s1| |j s1] eqn:Eg; [discriminate|discriminate|].
    apply greedy_at in Eg; [|lia]. assert (Uj : u8 (j + 1) = (j + 1)%N) by (unfold u8; apply N.mod_small; lia).
    rewrite Uj in G. destruct (update ns depth _) as [ns'|] eqn:U; [|discriminate]. destruct (update mts _ _) as [mts'|]; [|discriminate].
    apply matched_next in G. subst st'. cbn [ms_anc ms_depth ms_idx ms_cur ms_nstack ms_mts ms_segs]. split; [cbn; lia|].
    rewrite (total_segs i depth cur anc ns mts mts segs s1). eapply pushed_less; [exact L|exact Nn|exact U|exact Ic|lia]. }
  assert (Pl : (let segs' := set_mt segs1 i m in
            if (i =? sub8 url_len 1)%N then
              if is_leaf child then inr (MRet (n_pat child) segs')
              else round_failed (MS i depth cur anc ns mts segs')
            else
              match update ns depth (u16 (c + 1), i) with
              | Some ns' => round_matched url_len (MS i (S depth) child (cur :: anc) ns' mts segs')
              | None => inr MPanic
              end) = inl st' -> List.length (ms_anc st') = ms_depth st' /\ total st' < total (MS i depth cur anc ns mts segs)).
  { clear E. cbv zeta. intros G. destruct (i =? _)%N.
    - destruct (is_leaf child); [discriminate|]. destruct (failed_less (MS i depth cur anc ns mts (set_mt segs1 i m)) st' c0 x0 L Nn G) as [A B]. split; [exact A|exact B].
    - assert (Uc : u16 (c + 1) = (c + 1)%N) by (unfold u16; apply N.mod_small; lia). rewrite Uc in G.
      destruct (update ns depth _) as [ns'|] eqn:U; [|discriminate]. apply matched_next in G. subst st'.
      cbn [ms_anc ms_depth ms_idx ms_cur ms_nstack ms_mts ms_segs]. split; [cbn; lia|].
      rewrite (total_segs i depth cur anc ns mts mts segs (set_mt segs1 i m)). eapply pushed_less; [exact L|exact Nn|exact U|exact Ic|lia]. }
  destruct m; try exact (Pl E).
  destruct (n_ch child) as [|g gs]; [destruct (is_leaf child); [discriminate|]|]; eapply Gr; exact E.
Qed.

Lemma round_result st r : round re ci path url_len st = inr r -> r <> MFuel.
Proof.
  intros E ->. revert E. unfold round, round_failed, round_matched.
  repeat (match goal with |- context [match ?x with _ => _ end] => destruct x end; try discriminate).
Qed.

Lemma loop_ends : forall n st, List.length (ms_anc st) = ms_depth st -> total st <= n ->
  exists r, r <> MFuel /\ forall f, match_loop re ci path url_len (S n + f) st = r.
Proof.
  induction n as [|n IH]; intros st L T.
  - destruct (round re ci path url_len st) as [st'|r] eqn:E.
    + destruct (round_less _ _ L E). lia.
    + exists r. split; [exact (round_result _ _ E)|intros f; cbn; rewrite E; reflexivity].
  - destruct (round re ci path url_len st) as [st'|r] eqn:E.
    + destruct (round_less _ _ L E) as [L' T']. destruct (IH st' L') as (r & Nr & R); [lia|].
      exists r. split; [exact Nr|]. intros f. cbn [Nat.add match_loop]. rewrite E. exact (R f).
    + exists r. split; [exact (round_result _ _ E)|intros f; cbn; rewrite E; reflexivity].
Qed.
End Ends.

Lemma matching_ends re m path segs : List.length segs <= 19 ->
  exists k r, r <> MatchFuel /\ forall f, match_path (k + f) re m path segs = r.
Proof.
  intros L. unfold match_path. destruct (Nat.ltb _ _); [exists 0, NoMatch; split; [discriminate|reflexivity]|].
  assert (G : exists k r, r <> MatchFuel /\ forall f,
    match match_loop re (m_ci m) path (u8 (N.of_nat (List.length segs))) (k + f)
      (MS 0 0 (m_trie m) [] (repeat (0, 0)%N max_path_segments) (repeat MTUnknown max_path_segments) segs) with
    | MRet (Some p) segs' => Matched p (Some p) segs'
    | MRet None _ => NoMatch
    | MPanic => MatchPanic
    | MFuel => MatchFuel
    end = r).
  { set (st := MS _ _ _ _ _ _ _).
    assert (Sh : (u8 (N.of_nat (List.length segs)) < 256)%N) by (unfold u8; apply N.mod_upper_bound; discriminate).
    destruct (loop_ends re (m_ci m) path _ Sh (total (u8 (N.of_nat (List.length segs))) st) st eq_refl (Nat.le_refl _)) as (r & Nr & R).
    exists (S (total (u8 (N.of_nat (List.length segs))) st)). eexists. split; [|intros f; rewrite R; reflexivity].
    destruct r as [[p|] s| |]; try discriminate. congruence. }
  destruct segs as [|u us]; [|exact G]. destruct (m_root m) as [p|]; [|exact G]. exists 0. eexists. split; [|reflexivity]. discriminate.
Qed.

(** The search ends for every router. *)
Lemma search_ends re r mth path buf : List.length buf = 19 ->
  exists k D, D <> ServeRuns /\ forall f, dispatch_request (k + f) re r mth path buf = D.
Proof.
  intros Hb. unfold dispatch_request. destruct (parse_url_no_panic path buf Hb) as (us & -> & Hl).
  destruct (alookup (to_upper mth) (r_matchers r)) as [m|]; [|exists 0, NotFound; split; [discriminate|reflexivity]].
  destruct (matching_ends re m path us Hl) as (k & R & N & E). exists k. eexists. split; [|intros f; rewrite E; reflexivity].
  destruct R as [p rec segs| | |]; try discriminate; [destruct (p_att p); discriminate|congruence].
Qed.

(** ** The wildcard texts of an accepted pattern have no two adjacent stars *)

Definition calm_seg (o : option segment) : Prop :=
  forall s, o = Some s -> s_mt s = MTRegex -> no_adjacent_stars (s_val s).

Lemma update_forall {A : Type} (P : A -> Prop) (l : list A) k0 v l' :
  update l k0 v = Some l' -> Forall P l -> P v -> Forall P l'.
Proof.
  revert k0 l'. induction l as [|x l IH]; intros [|k0] l' E F V; cbn in E; try discriminate.
  - injection E as <-. inversion F; subst. constructor; assumption.
  - destruct (update l k0 v) as [m|] eqn:U; [|discriminate]. injection E as <-. inversion F; subst.
    constructor; [assumption|]. exact (IH _ _ U H2 V).
Qed.

Lemma add_piece_calm re ci v st st' :
  add_piece re ci v st = inr st' -> Forall calm_seg (ps_segs st) -> Forall calm_seg (ps_segs st').
Proof.
  unfold add_piece. intros E F. destruct (validate_path_segment v) eqn:V; [cbn [negb] in E|discriminate].
  destruct (mt_eqb (ps_last st) MTMulti && mt_eqb (determine_match_type v) MTMulti); [discriminate|].
  destruct (validate_reads v V) as [k [R _]]. pose proof (make_segment_spec re ci v k R) as M.
  destruct (make_segment re ci v) as [[sg cap]|]; [|discriminate].
  destruct (update (ps_segs st) (N.to_nat (ps_count st)) (Some sg)) as [l|] eqn:U; [|discriminate].
  injection E as <-. cbn [ps_segs]. apply (update_forall _ _ _ _ _ U F).
  intros s [= <-] T. destruct M as [[Hv M] _]. rewrite Hv.
  destruct R; destruct M as [M _]; rewrite T in M; try discriminate. assumption.
Qed.

Lemma parse_loop_calm re ci rest : forall cur st st',
  parse_loop re ci rest cur st = inr st' -> Forall calm_seg (ps_segs st) -> Forall calm_seg (ps_segs st').
Proof.
  induction rest as [|c rest IH]; intros cur st st' E F; cbn [parse_loop] in E; [injection E as <-; exact F|].
  destruct (Ascii.eqb c slash).
  - destruct (add_piece re ci (rev cur) st) as [?|st1] eqn:A; [discriminate|].
    exact (IH _ _ _ E (add_piece_calm _ _ _ _ _ A F)).
  - destruct rest as [|d rest]; [exact (add_piece_calm _ _ _ _ _ E F)|exact (IH _ _ _ E F)].
Qed.

Lemma all_some_in : forall l r s, all_some l = Some r -> In s r -> In (Some s) l.
Proof.
  induction l as [|[x|] l IH]; intros r s E I; cbn [all_some] in E; try discriminate.
  - injection E as <-. destruct I.
  - destruct (all_some l) as [m|] eqn:A; [|discriminate]. injection E as <-. destruct I as [->|I]; [left; reflexivity|right; exact (IH _ _ eq_refl I)].
Qed.

Lemma wildcards_calm : forall fuel re t ci p s, parse_pattern fuel re t ci = POk p -> In s (p_segs p) -> s_mt s = MTRegex ->
  no_adjacent_stars (s_val s).
Proof.
  intros fuel re t ci p s E I T.
  unfold parse_pattern in E. destruct t as [|c [|d rest]]; [discriminate| |].
  { destruct (Ascii.eqb c slash); [|discriminate]. injection E as <-. destruct I. }
  destruct (Ascii.eqb c slash); [|discriminate]. cbn [negb] in E.
  set (n := List.length _) in E. clearbody n.
  destruct (parse_loop re ci (d :: rest) [] (PState 0 0 MTUnknown MTUnknown (repeat None n))) as [r|st] eqn:L; [subst r|].
  { exfalso. clear I T. revert L. generalize (d :: rest) at 1. intros x. generalize (PState 0 0 MTUnknown MTUnknown (repeat None n)). generalize (@nil ascii).
    induction x as [|y x IH]; intros cur st L; cbn [parse_loop] in L; [discriminate|].
    assert (A : forall v s0, add_piece re ci v s0 <> inl (POk p)).
    { intros v s0 A. unfold add_piece in A. destruct (validate_path_segment v); [|discriminate]. cbn [negb] in A.
      destruct (mt_eqb (ps_last s0) MTMulti && mt_eqb (determine_match_type v) MTMulti); [discriminate|].
      destruct (make_segment re ci v) as [[sg cap]|]; [|discriminate]. destruct (update _ _ _); discriminate. }
    destruct (Ascii.eqb y slash).
    - destruct (add_piece re ci (rev cur) st) as [r|st1] eqn:P; [injection L as ->; exact (A _ _ P)|exact (IH _ _ L)].
    - destruct x as [|z x]; [exact (A _ _ L)|exact (IH _ _ L)]. }
  destruct (all_some (firstn (N.to_nat (ps_count st)) (ps_segs st))) as [segs|] eqn:S; [|discriminate].
  destruct (compute_priority fuel segs) as [prio|]; [|discriminate]. injection E as <-. cbn [p_segs] in I.
  assert (F : Forall calm_seg (ps_segs st)).
  { apply (parse_loop_calm _ _ _ _ _ _ L). cbn [ps_segs]. apply Forall_forall. intros o Io. apply repeat_spec in Io. subst o. intros s' H. discriminate H. }
  pose proof (all_some_in _ _ _ S I) as J. apply (Forall_forall calm_seg (ps_segs st)) with (x := Some s) in F; [exact (F s eq_refl T)|].
  rewrite <- (firstn_skipn (N.to_nat (ps_count st)) (ps_segs st)). apply in_or_app. left. exact J.
Qed.
Lemma wildcards_end : forall fuel re t ci p s, parse_pattern fuel re t ci = POk p -> In s (p_segs p) -> s_mt s = MTRegex ->
  forall u ci', regex_segment_match u (s_val s) ci' <> GFuel.
Proof. intros fuel re t ci p s E I T u ci'. apply glob_terminates. exact (wildcards_calm _ _ _ _ _ _ E I T). Qed.

(** A router with wildcards and two stars, searched far. *)
Definition far_engine : engine := Engine (fun _ => true) (fun _ _ => true).
Definition far_router : router :=
  fst (handle_all 100 far_engine (new_router false) [(str "GET", str "/**/a*b/**/c?", 1); (str "GET", str "/x/**", 2)]).
Lemma far_case :
  snd (handle_all 100 far_engine (new_router false) [(str "GET", str "/**/a*b/**/c?", 1); (str "GET", str "/x/**", 2)]) = [Registered; Registered] /\
  dispatch_request 2 far_engine far_router (str "GET") (str "/a/ab/ab/d/e") (repeat useg_zero 19) = ServeRuns /\
  dispatch_request 30 far_engine far_router (str "GET") (str "/a/ab/ab/d/e") (repeat useg_zero 19) = NotFound /\
  (exists p s, parse_pattern 100 far_engine (str "/**/a*b/**/c?") false = POk p /\ In s (p_segs p) /\ s_mt s = MTRegex /\ s_val s = str "a*b").
Proof.
  split; [vm_compute; reflexivity|]. split; [vm_compute; reflexivity|]. split; [vm_compute; reflexivity|].
  eexists. eexists. split; [vm_compute; reflexivity|]. split; [right; left; reflexivity|]. split; reflexivity.
Qed.
