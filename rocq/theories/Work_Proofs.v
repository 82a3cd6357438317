(** * The work of the search is bounded *)
From Coq Require Import List NArith ZArith Ascii String Bool Lia Arith Permutation.
From Verif Require Import GoBase Glob_Model Pattern_Model Url_Model Match_Model Router_Model Work_Model Pattern_Proofs Search_Proofs Ends_Proofs Trie_Proofs Url_Proofs Routing_Spec Routes_Proofs Routing_Proofs Work_Spec.
Import ListNotations.
Local Open Scope string_scope.
Local Open Scope list_scope.
Local Open Scope nat_scope.

(** The nodes below a node. *)
Fixpoint size (n : node) : nat := match n with Node _ _ _ _ ch => list_sum (map (fun c => S (size c)) ch) end.
Lemma size_eq n : size n = list_sum (map (fun c => S (size c)) (n_ch n)).
Proof. destruct n; reflexivity. Qed.

Definition multi (n : node) : Prop := s_mt (n_seg n) = MTMulti.
(** A ** can take any number of segments. *)
Definition wide (n : node) : Prop := Forall (fun c => multi c -> (255 <= n_max c)%N) (n_ch n).

Lemma seg_multi re ci path s u : seg_match re ci path s u = SMt MTMulti <-> s_mt s = MTMulti.
Proof.
  unfold seg_match. destruct (s_mt s); split; try discriminate; try reflexivity; intros H;
  repeat match type of H with context [match ?x with _ => _ end] => destruct x end; discriminate.
Qed.

Section Bound.
Variable re : engine.
Variable ci : bool.
Variable path : bytes.
Variable url_len : N.
Hypothesis Short : (url_len < 256)%N.
Variable W : nat.
Notation kids := Ends_Proofs.kids.

Definition good (n : node) : Prop := every no_multi_below n /\ every wide n /\ size n <= W.

Lemma kids_in n c : In c (kids n) -> In c (n_ch n).
Proof. unfold kids. intros I. rewrite <- (firstn_skipn (N.to_nat (u16 (N.of_nat (List.length (n_ch n)))))). apply in_or_app. now left. Qed.

Lemma sum_in (f : node -> nat) l c : In c l -> f c <= list_sum (map f l).
Proof.
  intros I. induction l as [|x l IH]; [destruct I|]. change (list_sum (map f (x :: l))) with (f x + list_sum (map f l)).
  destruct I as [->|I]; [lia|specialize (IH I); lia].
Qed.

Lemma good_kid n c : good n -> In c (kids n) -> good c /\ S (size c) <= W /\ (multi c -> (255 <= n_max c)%N) /\ (multi n -> ~ multi c).
Proof.
  intros (A & B & S0) I. apply kids_in in I. apply every_eq in A, B. destruct A as [A1 A2], B as [B1 B2].
  rewrite Forall_forall in A2, B2. unfold wide in B1. rewrite Forall_forall in B1.
  assert (Z : S (size c) <= size n) by (rewrite (size_eq n); exact (sum_in (fun c => S (size c)) _ _ I)).
  split; [split; [auto|split; [auto|lia]]|]. split; [lia|]. split; [auto|].
  intros M. specialize (A1 M). rewrite Forall_forall in A1. exact (A1 _ I).
Qed.

Lemma length_size n : List.length (n_ch n) <= size n.
Proof.
  rewrite size_eq. induction (n_ch n) as [|x l IH]; [cbn; lia|].
  change (list_sum (map (fun c => S (size c)) (x :: l))) with (S (size x) + list_sum (map (fun c => S (size c)) l)). cbn [List.length]. lia.
Qed.

(** ** One search among children *)

Lemma first_calls_le l left u : first_calls re ci path l left u <= List.length l.
Proof.
  induction l as [|n l IH]; cbn [first_calls List.length]; [lia|]. destruct (negb _); [lia|].
  destruct (seg_match _ _ _ _ _) as [[]|]; lia.
Qed.

Lemma first_found l : forall c0 left u c child m, first_match re ci path l c0 left u = FSome c child m ->
  (c0 <= c)%N /\ nth_error l (N.to_nat (c - c0)) = Some child /\ first_calls re ci path l left u <= S (N.to_nat (c - c0)) /\
  (m = MTMulti <-> multi child).
Proof.
  induction l as [|n l IH]; intros c0 left u c child m E; [discriminate|]. cbn [first_match first_calls] in *.
  assert (G : first_match re ci path l (c0 + 1) left u = FSome c child m ->
    (c0 <= c)%N /\ nth_error (n :: l) (N.to_nat (c - c0)) = Some child /\ S (first_calls re ci path l left u) <= S (N.to_nat (c - c0)) /\ (m = MTMulti <-> multi child)).
  { intros E'. destruct (IH _ _ _ _ _ _ E') as (A & B & C & D). replace (N.to_nat (c - c0)) with (S (N.to_nat (c - (c0 + 1)))) by lia.
    split; [lia|]. split; [exact B|]. split; [lia|exact D]. }
  destruct (negb _).
  { destruct (G E) as (A & B & C & D). split; [exact A|]. split; [exact B|]. split; [lia|exact D]. }
  destruct (seg_match re ci path (n_seg n) u) as [mt|] eqn:Es; [|discriminate].
  assert (H : mt <> MTUnknown -> FSome c0 n mt = FSome c child m ->
    (c0 <= c)%N /\ nth_error (n :: l) (N.to_nat (c - c0)) = Some child /\ 1 <= S (N.to_nat (c - c0)) /\ (m = MTMulti <-> multi child)).
  { intros _ E'. injection E' as <- <- <-. replace (N.to_nat (c0 - c0)) with 0 by lia. repeat split; try lia; try reflexivity.
    - intros ->. exact (proj1 (seg_multi _ _ _ _ _) Es).
    - intros M. apply (seg_multi re ci path (n_seg n) u) in M. congruence. }
  destruct mt; first [exact (G E)|exact (H ltac:(discriminate) E)].
Qed.

Lemma first_multi l c0 left u n : nth_error l 0 = Some n -> multi n -> (left <= n_max n)%N ->
  first_match re ci path l c0 left u = FSome c0 n MTMulti /\ first_calls re ci path l left u = 1.
Proof.
  destruct l as [|x l]; [discriminate|]. intros [= ->] M L. cbn [first_match first_calls]. unfold can_match_len.
  rewrite (proj2 (N.leb_le _ _) L). cbn [negb]. rewrite (proj2 (seg_multi re ci path (n_seg n) u) M). split; reflexivity.
Qed.

Lemma some_calls_le l u : some_calls re ci path l u <= List.length l.
Proof. induction l as [|n l IH]; cbn [some_calls List.length]; [lia|]. destruct (seg_match _ _ _ _ _) as [[]|]; lia. Qed.

Lemma greedy_calls_le k : forall l i segs, greedy_calls re ci path k l i segs <= k * List.length l.
Proof.
  induction k as [|k IH]; intros l i segs; cbn [greedy_calls]; [lia|]. destruct (nth_error _ _) as [u|]; [|lia].
  pose proof (some_calls_le l u). cbn [Nat.mul]. destruct (some_matches _ _ _ _ _); [|lia..].
  specialize (IH l (u8 (i + 1)) (set_mt segs i MTMulti)). lia.
Qed.

Lemma greedy_calls_at k : forall l i segs j segs', (i + N.of_nat k <= 256)%N -> greedy re ci path k l i segs = GrAt j segs' ->
  greedy_calls re ci path k l i segs <= N.to_nat (j + 1 - i) * List.length l.
Proof.
  induction k as [|k IH]; intros l i segs j segs' L E; [discriminate|]. pose proof (greedy_at re ci path url_len Short _ _ _ _ _ _ L E) as [J1 J2].
  cbn [greedy greedy_calls] in *. destruct (nth_error _ _) as [u|]; [|discriminate]. pose proof (some_calls_le l u) as Sc.
  destruct (some_matches _ _ _ _ _); [|injection E as <- _; replace (N.to_nat (i + 1 - i)) with 1 by lia; lia|discriminate].
  destruct k as [|k]; [discriminate E|].
  assert (U : u8 (i + 1) = (i + 1)%N) by (unfold u8; apply N.mod_small; lia). rewrite U in *.
  pose proof (greedy_at re ci path url_len Short (S k) l (i + 1)%N _ _ _ ltac:(lia) E) as [J3 _].
  specialize (IH l (i + 1)%N _ j segs' ltac:(lia) E).
  replace (N.to_nat (j + 1 - i)) with (S (N.to_nat (j + 1 - (i + 1)))) by lia. cbn [Nat.mul]. lia.
Qed.

(** ** What is left to do *)

Definition K : nat := 2 * W.
Definition kidsum (n : node) (c : N) : nat := list_sum (map (fun k => S (size k)) (skipn (N.to_nat c) (kids n))).
Definition multi_at (n : node) (c : N) : bool :=
  match nth_error (kids n) (N.to_nat c) with Some k => mt_eqb (s_mt (n_seg k)) MTMulti | None => false end.
Definition level := (node * N * N)%type.
Fixpoint pot (l : list level) : nat :=
  match l with
  | [] => N.to_nat url_len * K
  | (n, c, i) :: l' => if multi_at n c then N.to_nat (url_len - i) * K else kidsum n c + pot l'
  end.
Fixpoint lim (l : list level) : N :=
  match l with [] => 0%N | (n, c, i) :: l' => if multi_at n c then i else lim l' end.
Fixpoint levels_ok (l : list level) : Prop :=
  match l with
  | [] => True
  | (n, c, i) :: l' => good n /\ (lim l' <= i + 1)%N /\ ((exists k, In k (kids n) /\ multi k) -> (lim l' <= i)%N) /\ levels_ok l'
  end.

Lemma multi_at_spec n c : multi_at n c = true <-> exists k, nth_error (kids n) (N.to_nat c) = Some k /\ multi k.
Proof.
  unfold multi_at, multi. destruct (nth_error _ _) as [k|]; [|split; [discriminate|intros (? & ? & ?); discriminate]].
  split; [intros M; exists k; split; [reflexivity|exact (proj1 (mt_eqb_eq _ _) M)]|intros (x & [= <-] & M); exact (proj2 (mt_eqb_eq _ _) M)].
Qed.

Lemma pot_lim l : N.to_nat (url_len - lim l) * K <= pot l.
Proof.
  induction l as [|[[n c] i] l IH]; cbn [pot lim]; [apply Nat.mul_le_mono_r; lia|]. destruct (multi_at n c); lia.
Qed.
Lemma pot_from l i : (lim l <= i)%N -> N.to_nat (url_len - i) * K <= pot l.
Proof. intros L. eapply Nat.le_trans; [|exact (pot_lim l)]. apply Nat.mul_le_mono_r. lia. Qed.

Lemma kidsum_size n c : kidsum n c <= size n.
Proof.
  unfold kidsum. rewrite size_eq. unfold kids. generalize (N.to_nat (u16 (N.of_nat (List.length (n_ch n))))) as m, (N.to_nat c) as d.
  induction (n_ch n) as [|x l IH]; intros m d; [rewrite firstn_nil, skipn_nil; cbn; lia|].
  destruct m as [|m]; [cbn [firstn]; rewrite skipn_nil; cbn; lia|]. cbn [firstn].
  change (list_sum (map (fun c => S (size c)) (x :: l))) with (S (size x) + list_sum (map (fun c => S (size c)) l)).
  destruct d as [|d]; [|cbn [skipn]; specialize (IH m d); lia].
  specialize (IH m 0). cbn [skipn] in *. change (list_sum (map (fun c => S (size c)) (x :: firstn m l))) with (S (size x) + list_sum (map (fun c => S (size c)) (firstn m l))). lia.
Qed.
Lemma kidsum_length n c : List.length (skipn (N.to_nat c) (kids n)) <= kidsum n c.
Proof.
  unfold kidsum. induction (skipn (N.to_nat c) (kids n)) as [|x l IH]; [cbn; lia|].
  change (list_sum (map (fun c => S (size c)) (x :: l))) with (S (size x) + list_sum (map (fun c => S (size c)) l)). cbn [List.length]. lia.
Qed.

Lemma sum_split (l : list node) : forall d k, nth_error l d = Some k ->
  d + S (size k) + list_sum (map (fun k => S (size k)) (skipn (S d) l)) <= list_sum (map (fun k => S (size k)) l).
Proof.
  induction l as [|x l IH]; intros d k E; [destruct d; discriminate|].
  change (list_sum (map (fun c => S (size c)) (x :: l))) with (S (size x) + list_sum (map (fun c => S (size c)) l)).
  destruct d as [|d]; [injection E as ->; cbn [skipn]; lia|]. specialize (IH _ _ E). cbn [skipn] in *. lia.
Qed.
Lemma nth_skip {A : Type} (l : list A) : forall a b, nth_error (skipn a l) b = nth_error l (a + b).
Proof. induction l as [|x l IH]; intros [|a] b; try reflexivity; [destruct b; reflexivity|]. exact (IH a b). Qed.
Lemma skip_skip {A : Type} (l : list A) : forall a b, skipn b (skipn a l) = skipn (a + b) l.
Proof. induction l as [|x l IH]; intros [|a] b; try reflexivity; [now rewrite !skipn_nil|]. exact (IH a b). Qed.

Lemma kidsum_split n c0 c k : (c0 <= c)%N -> nth_error (skipn (N.to_nat c0) (kids n)) (N.to_nat (c - c0)) = Some k ->
  N.to_nat (c - c0) + S (size k) + kidsum n (c + 1) <= kidsum n c0.
Proof.
  intros L E. pose proof (sum_split _ _ _ E) as H. unfold kidsum. rewrite skip_skip in H.
  replace (N.to_nat c0 + S (N.to_nat (c - c0))) with (N.to_nat (c + 1)) in H by lia. exact H.
Qed.

(** ** The levels of a state *)

Definition entry (ns : list (N * N)) (d : nat) : N * N := match nth_error ns d with Some x => x | None => (0, 0)%N end.
Fixpoint above (anc : list node) (d : nat) (ns : list (N * N)) : list level :=
  match anc, d with
  | p :: anc', S d' => (p, fst (entry ns d'), snd (entry ns d')) :: above anc' d' ns
  | _, _ => []
  end.
Definition levels (st : mstate) : list level :=
  (ms_cur st, fst (entry (ms_nstack st) (ms_depth st)), ms_idx st) :: above (ms_anc st) (ms_depth st) (ms_nstack st).

Lemma update_other {A : Type} (l : list A) : forall k0 v l' d, update l k0 v = Some l' -> d <> k0 -> nth_error l' d = nth_error l d.
Proof.
  induction l as [|x l IH]; intros k0 v l' d U L; [discriminate|]. destruct k0 as [|k0].
  - injection U as <-. destruct d; [congruence|reflexivity].
  - cbn in U. destruct (update l k0 v) as [r|] eqn:E; [|discriminate]. injection U as <-. destruct d as [|d]; [reflexivity|]. cbn. apply (IH _ _ _ _ E). congruence.
Qed.
Lemma above_update anc : forall d ns k0 v ns', update ns k0 v = Some ns' -> d <= k0 -> above anc d ns' = above anc d ns.
Proof.
  induction anc as [|p anc IH]; intros d ns k0 v ns' U L; [reflexivity|]. destruct d as [|d]; [reflexivity|]. cbn [above].
  rewrite (IH d _ _ _ _ U) by lia. unfold entry. rewrite (update_other _ _ _ _ d U) by lia. reflexivity.
Qed.

(** Back to the parent. *)
Lemma failed_pot st st' c i0 : List.length (ms_anc st) = ms_depth st -> nth_error (ms_nstack st) (ms_depth st) = Some (c, i0) ->
  levels_ok (levels st) -> round_failed st = inl st' -> multi_at (ms_cur st) c = false ->
  List.length (ms_anc st') = ms_depth st' /\ levels_ok (levels st') /\ kidsum (ms_cur st) c + pot (levels st') <= pot (levels st).
Proof.
  intros L N Ok E Mu. destruct st as [i depth cur anc ns mts segs]. unfold round_failed in E. unfold levels in *. cbn [ms_anc ms_depth ms_nstack ms_cur ms_idx ms_mts ms_segs] in *.
  destruct anc as [|parent anc]; [discriminate|].
  destruct (update mts _ _); [|discriminate]. destruct (update ns _ _) as [ns'|] eqn:U; [|discriminate].
  destruct depth as [|d]; [discriminate|]. destruct (nth_error ns' d) as [[c1 i1]|] eqn:N1; [|discriminate].
  injection E as <-. cbn [ms_anc ms_depth ms_nstack ms_cur ms_idx]. split; [cbn [List.length] in L; lia|].
  assert (A : (parent, fst (entry ns' d), i1) :: above anc d ns' = above (parent :: anc) (S d) ns).
  { rewrite <- (above_update (parent :: anc) (S d) _ _ _ _ U) by lia. cbn [above].
    assert (X : entry ns' d = (c1, i1)) by (unfold entry; rewrite N1; reflexivity). rewrite X. reflexivity. }
  rewrite A. cbn [levels_ok] in Ok. destruct Ok as (_ & _ & _ & Ok). split; [exact Ok|].
  assert (X : entry ns (S d) = (c, i0)) by (unfold entry; rewrite N; reflexivity). rewrite X. cbn [fst]. cbn [pot]. rewrite Mu. lia.
Qed.

Lemma fresh_pot child idx l c : good child -> (lim l <= idx)%N -> pot ((child, c, idx) :: l) <= size child + pot l.
Proof.
  intros G L. cbn [pot]. destruct (multi_at child c); [pose proof (pot_from l idx L); lia|]. pose proof (kidsum_size child c). lia.
Qed.

Lemma round_pot st : List.length (ms_anc st) = ms_depth st -> levels_ok (levels st) ->
  match round re ci path url_len st with
  | inl st' => List.length (ms_anc st') = ms_depth st' /\ levels_ok (levels st') /\
               round_calls re ci path url_len st + pot (levels st') <= pot (levels st)
  | inr _ => round_calls re ci path url_len st <= pot (levels st)
  end.
Proof.
  destruct st as [i depth cur anc ns mts segs]. intros L Ok. unfold round, round_calls. cbn [ms_idx ms_segs ms_mts ms_nstack ms_depth ms_cur ms_anc] in *.
  destruct (N.ltb_spec i url_len) as [Li|]; [|cbn [negb]; lia]. cbn [negb].
  destruct (nth_error segs _) as [u|]; [|lia]. destruct (nth_error mts _) as [mt0|]; [|lia].
  destruct (nth_error ns depth) as [[c0 x0]|] eqn:Nn; [|lia].
  set (segs1 := if mt_eqb mt0 MTUnknown then segs else set_mt segs i mt0). cbv zeta.
  change (firstn (N.to_nat (u16 (N.of_nat (List.length (n_ch cur))))) (n_ch cur)) with (kids cur).
  set (T := above anc depth ns).
  assert (Lv : forall m s, levels (MS i depth cur anc ns m s) = (cur, c0, i) :: T).
  { intros m s. unfold levels, entry. cbn [ms_anc ms_depth ms_nstack ms_cur ms_idx]. rewrite Nn. reflexivity. }
  rewrite Lv in Ok. rewrite Lv. pose proof Ok as (Gc & L1 & L2 & OkT).
  set (left := sub8 url_len i). assert (Hleft : (left <= 255)%N).
  { unfold left, sub8. match goal with |- (?a mod 256 <= 255)%N => assert (a mod 256 < 256)%N by (apply N.mod_upper_bound; discriminate) end. lia. }
  set (seen := skipn (N.to_nat c0) (kids cur)).
  destruct (multi_at cur c0) eqn:Mu.
  - (* the search stays below this ** *)
    apply multi_at_spec in Mu. destruct Mu as (k & Nk & Mk).
    assert (Ik : In k (kids cur)) by exact (nth_error_In _ _ Nk).
    destruct (good_kid _ _ Gc Ik) as (Gk & Sk & Mx & _).
    assert (N0 : nth_error seen 0 = Some k) by (unfold seen; rewrite nth_skip, Nat.add_0_r; exact Nk).
    destruct (first_multi seen c0 left u k N0 Mk ltac:(specialize (Mx Mk); lia)) as [-> ->].
    assert (P0 : pot ((cur, c0, i) :: T) = N.to_nat (url_len - i) * K).
    { cbn [pot]. rewrite (proj2 (multi_at_spec cur c0)); [reflexivity|exists k; auto]. }
    pose proof (length_size k) as Lk.
    assert (Kk : 1 + List.length (n_ch k) + size k <= K) by (unfold K; lia).
    assert (Gr : 1 + greedy_calls re ci path (N.to_nat (url_len - i)) (n_ch k) i segs1 <= N.to_nat (url_len - i) * K).
    { pose proof (greedy_calls_le (N.to_nat (url_len - i)) (n_ch k) i segs1) as X.
      assert (N.to_nat (url_len - i) * S (List.length (n_ch k)) <= N.to_nat (url_len - i) * K) by (apply Nat.mul_le_mono_l; lia).
      rewrite Nat.mul_succ_r in H. lia. }
    assert (Main : match match greedy re ci path (N.to_nat (url_len - i)) (n_ch k) i segs1 with
                   | GrPanic => inr MPanic
                   | GrNone segs' => inr (MRet None segs')
                   | GrAt j segs' =>
                       match update ns depth (c0, u8 (j + 1)), update mts (N.to_nat j) MTMulti with
                       | Some ns', Some mts' => round_matched url_len (MS (sub8 j 1) (S depth) k (cur :: anc) ns' mts' segs')
                       | _, _ => inr MPanic
                       end
                   end with
      | inl st' => List.length (ms_anc st') = ms_depth st' /\ levels_ok (levels st') /\
               1 + greedy_calls re ci path (N.to_nat (url_len - i)) (n_ch k) i segs1 + pot (levels st') <= pot ((cur, c0, i) :: T)
      | inr _ => 1 + greedy_calls re ci path (N.to_nat (url_len - i)) (n_ch k) i segs1 <= pot ((cur, c0, i) :: T)
      end).
    { rewrite P0. destruct (greedy re ci path (N.to_nat (url_len - i)) (n_ch k) i segs1) as [s1| |j s1] eqn:Eg; [exact Gr|exact Gr|].
      pose proof Eg as J. apply (greedy_at re ci path url_len Short) in J; [|lia]. destruct J as [J1 J2]. apply greedy_calls_at in Eg; [|lia].
      assert (Uj : u8 (j + 1) = (j + 1)%N) by (unfold u8; apply N.mod_small; lia). rewrite Uj.
      destruct (update ns depth _) as [ns'|] eqn:U; [|exact Gr]. destruct (update mts _ _) as [mts'|]; [|exact Gr].
      destruct (round_matched _ _) as [st'|] eqn:R; [|exact Gr]. apply matched_next in R. subst st'.
      cbn [ms_anc ms_depth ms_idx ms_cur ms_nstack ms_mts ms_segs]. split; [cbn; lia|].
      assert (Ji : u8 (sub8 j 1 + 1) = j).
      { unfold u8, sub8. destruct (N.eq_dec j 0) as [->|Z]; [reflexivity|].
        change (1 mod 256)%N with 1%N. replace ((j + 256 - 1) mod 256)%N with (j - 1)%N; [rewrite N.mod_small; lia|].
        replace (j + 256 - 1)%N with (j - 1 + 1 * 256)%N by lia. rewrite N.mod_add by discriminate. rewrite N.mod_small; lia. }
      rewrite Ji. unfold levels. cbn [ms_anc ms_depth ms_idx ms_cur ms_nstack above].
      rewrite (above_update _ _ _ _ _ _ U) by lia. fold T. assert (X := update_at _ _ _ _ U). assert (Xe : forall v, nth_error ns' depth = Some v -> entry ns' depth = v) by (intros v Hv; unfold entry; rewrite Hv; reflexivity).
      rewrite (Xe _ X). clear X Xe. cbn [fst snd].
      assert (Mc : multi_at cur c0 = true) by (apply multi_at_spec; exists k; auto).
      set (cc := fst (entry ns' (S depth))).
      assert (Nk' : multi_at k cc = false).
      { destruct (multi_at k cc) eqn:X; [|reflexivity]. apply multi_at_spec in X. destruct X as (y & Y1 & Y2).
        exfalso. exact (proj2 (proj2 (proj2 (good_kid _ _ Gk (nth_error_In _ _ Y1)))) Mk Y2). }
      split.
      - cbn [levels_ok lim]. rewrite Mc. split; [exact Gk|]. split; [lia|]. split.
        + intros (y & Y1 & Y2). exfalso. exact (proj2 (proj2 (proj2 (good_kid _ _ Gk Y1))) Mk Y2).
        + split; [exact Gc|]. specialize (L2 (ex_intro _ k (conj Ik Mk))). split; [lia|]. split; [intros _; lia|exact OkT].
      - cbn [pot]. rewrite Nk', Mc. pose proof (kidsum_size k cc) as Ks.
        replace (N.to_nat (url_len - i)) with (N.to_nat (j + 1 - i) + N.to_nat (url_len - (j + 1))) by lia.
        replace (N.to_nat (j + 1 - i) + N.to_nat (url_len - (j + 1))) with (N.to_nat (url_len - i)) in Eg by lia.
        rewrite Nat.mul_add_distr_r.
        replace (greedy_calls re ci path (N.to_nat (j + 1 - i) + N.to_nat (url_len - (j + 1))) (n_ch k) i segs1)
          with (greedy_calls re ci path (N.to_nat (url_len - i)) (n_ch k) i segs1) by (do 2 f_equal; lia).
        assert (Q : N.to_nat (j + 1 - i) * List.length (n_ch k) + (1 + size k) <= N.to_nat (j + 1 - i) * K).
        { assert (exists d, N.to_nat (j + 1 - i) = S d) as (d & ->) by (exists (N.to_nat (j - i)); lia).
          apply Nat.le_trans with (S d * (List.length (n_ch k) + (1 + size k))); [|apply Nat.mul_le_mono_l; lia].
          rewrite Nat.mul_add_distr_l. cbn [Nat.mul]. lia. }
        lia. }
    destruct (n_ch k) as [|g gs] eqn:Ech; [destruct (is_leaf k); [rewrite P0; lia|]|]; exact Main.
  - (* the children from here on are looked at once *)
    assert (P0 : pot ((cur, c0, i) :: T) = kidsum cur c0 + pot T) by (cbn [pot]; rewrite Mu; reflexivity).
    assert (Fc : first_calls re ci path seen left u <= kidsum cur c0).
    { eapply Nat.le_trans; [apply first_calls_le|apply kidsum_length]. }
    assert (Failed : forall s, match round_failed (MS i depth cur anc ns mts s) with
      | inl st' => List.length (ms_anc st') = ms_depth st' /\ levels_ok (levels st') /\
               first_calls re ci path seen left u + 0 + pot (levels st') <= pot ((cur, c0, i) :: T)
      | inr _ => first_calls re ci path seen left u + 0 <= pot ((cur, c0, i) :: T) end).
    { intros s. destruct (round_failed _) as [st'|r] eqn:R; [|rewrite P0; lia].
      destruct (failed_pot (MS i depth cur anc ns mts s) st' c0 x0 L Nn) as (A & B & C); [rewrite Lv; exact Ok|exact R|exact Mu|].
      split; [exact A|]. split; [exact B|]. rewrite Lv in C. cbn [ms_cur] in C. lia. }
    destruct (first_match re ci path seen c0 left u) as [| |c child m] eqn:F; [exact (Failed _)|rewrite P0; lia|].
    destruct (first_found _ _ _ _ _ _ _ F) as (C1 & C2 & C3 & C4).
    pose proof (kidsum_split _ _ _ _ C1 C2) as Ksp.
    assert (Nc : nth_error (kids cur) (N.to_nat c) = Some child).
    { unfold seen in C2. rewrite nth_skip in C2. replace (N.to_nat c0 + N.to_nat (c - c0)) with (N.to_nat c) in C2 by lia. exact C2. }
    assert (Ik : In child (kids cur)) by exact (nth_error_In _ _ Nc).
    destruct (good_kid _ _ Gc Ik) as (Gk & Sk & Mx & Nm).
    assert (Plain : m <> MTMulti ->
      match (if (i =? sub8 url_len 1)%N then
              if is_leaf child then inr (MRet (n_pat child) (set_mt segs1 i m))
              else round_failed (MS i depth cur anc ns mts (set_mt segs1 i m))
            else
              match update ns depth (u16 (c + 1), i) with
              | Some ns' => round_matched url_len (MS i (S depth) child (cur :: anc) ns' mts (set_mt segs1 i m))
              | None => inr MPanic
              end) with
      | inl st' => List.length (ms_anc st') = ms_depth st' /\ levels_ok (levels st') /\
               first_calls re ci path seen left u + 0 + pot (levels st') <= pot ((cur, c0, i) :: T)
      | inr _ => first_calls re ci path seen left u + 0 <= pot ((cur, c0, i) :: T) end).
    { intros Nmu. destruct (i =? _)%N; [destruct (is_leaf child); [rewrite P0; lia|exact (Failed _)]|].
      assert (Ck : (c < 65536)%N).
      { pose proof (Ends_Proofs.kids_length url_len Short cur) as [_ X]. assert (Y : N.to_nat c < List.length (kids cur)) by (apply nth_error_Some; congruence). lia. }
      destruct (update ns depth _) as [ns'|] eqn:U; [|rewrite P0; lia].
      destruct (round_matched _ _) as [st'|] eqn:R; [|rewrite P0; lia]. apply matched_next in R. subst st'.
      cbn [ms_anc ms_depth ms_idx ms_cur ms_nstack ms_mts ms_segs]. split; [cbn; lia|].
      assert (Ui : u8 (i + 1) = (i + 1)%N) by (unfold u8; apply N.mod_small; lia). rewrite Ui.
      unfold levels. cbn [ms_anc ms_depth ms_idx ms_cur ms_nstack above].
      rewrite (above_update _ _ _ _ _ _ U) by lia. fold T. assert (X := update_at _ _ _ _ U). assert (Xe : forall v, nth_error ns' depth = Some v -> entry ns' depth = v) by (intros v Hv; unfold entry; rewrite Hv; reflexivity).
      rewrite (Xe _ X). clear X Xe. cbn [fst snd].
      assert (Uc : u16 (c + 1) = (c + 1)%N).
      { unfold u16. apply N.mod_small. pose proof (Ends_Proofs.kids_length url_len Short cur) as [_ X].
        assert (Y : N.to_nat c < List.length (kids cur)) by (apply nth_error_Some; congruence). lia. }
      rewrite Uc. set (cc := fst (entry ns' (S depth))).
      assert (Lim : (lim ((cur, (c + 1)%N, i) :: T) <= i + 1)%N).
      { cbn [lim]. destruct (multi_at cur (c + 1)); lia. }
      split.
      - change (levels_ok ((child, cc, (i + 1)%N) :: (cur, (c + 1)%N, i) :: T)). split; [exact Gk|]. split; [lia|]. split; [intros _; exact Lim|].
        split; [exact Gc|]. split; [exact L1|]. split; [exact L2|exact OkT].
      - pose proof (fresh_pot child (i + 1)%N ((cur, (c + 1)%N, i) :: T) cc Gk Lim) as Fp. rewrite P0.
        assert (Pt : pot ((cur, (c + 1)%N, i) :: T) <= kidsum cur (c + 1) + pot T).
        { cbn [pot]. destruct (multi_at cur (c + 1)) eqn:X; [|lia]. apply multi_at_spec in X. destruct X as (y & Y1 & Y2).
          specialize (L2 (ex_intro _ y (conj (nth_error_In _ _ Y1) Y2))). pose proof (pot_from T i L2). lia. }
        lia. }
    destruct m; try exact (Plain ltac:(discriminate)). clear Plain.
    assert (Mk : multi child) by (apply C4; reflexivity).
    specialize (L2 (ex_intro _ child (conj Ik Mk))). pose proof (pot_from T i L2) as Pf.
    pose proof (length_size child) as Lk.
    assert (Kk : List.length (n_ch child) <= K) by (unfold K; lia).
    assert (Gr : first_calls re ci path seen left u + greedy_calls re ci path (N.to_nat (url_len - i)) (n_ch child) i segs1 <= kidsum cur c0 + pot T).
    { pose proof (greedy_calls_le (N.to_nat (url_len - i)) (n_ch child) i segs1) as X.
      assert (N.to_nat (url_len - i) * List.length (n_ch child) <= N.to_nat (url_len - i) * K) by (apply Nat.mul_le_mono_l; lia). lia. }
    assert (Main : match match greedy re ci path (N.to_nat (url_len - i)) (n_ch child) i segs1 with
                   | GrPanic => inr MPanic
                   | GrNone segs' => inr (MRet None segs')
                   | GrAt j segs' =>
                       match update ns depth (c, u8 (j + 1)), update mts (N.to_nat j) MTMulti with
                       | Some ns', Some mts' => round_matched url_len (MS (sub8 j 1) (S depth) child (cur :: anc) ns' mts' segs')
                       | _, _ => inr MPanic
                       end
                   end with
      | inl st' => List.length (ms_anc st') = ms_depth st' /\ levels_ok (levels st') /\
               first_calls re ci path seen left u + greedy_calls re ci path (N.to_nat (url_len - i)) (n_ch child) i segs1 + pot (levels st') <= pot ((cur, c0, i) :: T)
      | inr _ => first_calls re ci path seen left u + greedy_calls re ci path (N.to_nat (url_len - i)) (n_ch child) i segs1 <= pot ((cur, c0, i) :: T)
      end).
    { rewrite P0. destruct (greedy re ci path (N.to_nat (url_len - i)) (n_ch child) i segs1) as [s1| |j s1] eqn:Eg; [exact Gr|exact Gr|].
      pose proof Eg as J. apply (greedy_at re ci path url_len Short) in J; [|lia]. destruct J as [J1 J2]. apply greedy_calls_at in Eg; [|lia].
      assert (Uj : u8 (j + 1) = (j + 1)%N) by (unfold u8; apply N.mod_small; lia). rewrite Uj.
      destruct (update ns depth _) as [ns'|] eqn:U; [|exact Gr]. destruct (update mts _ _) as [mts'|]; [|exact Gr].
      destruct (round_matched _ _) as [st'|] eqn:R; [|exact Gr]. apply matched_next in R. subst st'.
      cbn [ms_anc ms_depth ms_idx ms_cur ms_nstack ms_mts ms_segs]. split; [cbn; lia|].
      assert (Ji : u8 (sub8 j 1 + 1) = j).
      { unfold u8, sub8. destruct (N.eq_dec j 0) as [->|Z]; [reflexivity|].
        change (1 mod 256)%N with 1%N. replace ((j + 256 - 1) mod 256)%N with (j - 1)%N; [rewrite N.mod_small; lia|].
        replace (j + 256 - 1)%N with (j - 1 + 1 * 256)%N by lia. rewrite N.mod_add by discriminate. rewrite N.mod_small; lia. }
      rewrite Ji. unfold levels. cbn [ms_anc ms_depth ms_idx ms_cur ms_nstack above].
      rewrite (above_update _ _ _ _ _ _ U) by lia. fold T. assert (X := update_at _ _ _ _ U). assert (Xe : forall v, nth_error ns' depth = Some v -> entry ns' depth = v) by (intros v Hv; unfold entry; rewrite Hv; reflexivity).
      rewrite (Xe _ X). clear X Xe. cbn [fst snd].
      assert (Mc : multi_at cur c = true) by (apply multi_at_spec; exists child; auto).
      set (cc := fst (entry ns' (S depth))).
      assert (Nk' : multi_at child cc = false).
      { destruct (multi_at child cc) eqn:X; [|reflexivity]. apply multi_at_spec in X. destruct X as (y & Y1 & Y2).
        exfalso. exact (proj2 (proj2 (proj2 (good_kid _ _ Gk (nth_error_In _ _ Y1)))) Mk Y2). }
      split.
      - cbn [levels_ok lim]. rewrite Mc. split; [exact Gk|]. split; [lia|]. split.
        + intros (y & Y1 & Y2). exfalso. exact (proj2 (proj2 (proj2 (good_kid _ _ Gk Y1))) Mk Y2).
        + split; [exact Gc|]. split; [lia|]. split; [intros _; lia|exact OkT].
      - cbn [pot]. rewrite Nk', Mc. pose proof (kidsum_size child cc) as Ks.
        assert (Q : N.to_nat (j + 1 - i) * List.length (n_ch child) <= N.to_nat (j + 1 - i) * K) by (apply Nat.mul_le_mono_l; lia).
        assert (Q2 : N.to_nat (j + 1 - i) * K + N.to_nat (url_len - (j + 1)) * K = N.to_nat (url_len - i) * K) by (rewrite <- Nat.mul_add_distr_r; f_equal; lia).
        lia. }
    destruct (n_ch child) as [|g gs] eqn:Ech; [destruct (is_leaf child); [rewrite P0; lia|]|]; exact Main.
Qed.

Lemma loop_pot f : forall st, List.length (ms_anc st) = ms_depth st -> levels_ok (levels st) ->
  loop_calls re ci path url_len f st <= pot (levels st).
Proof.
  induction f as [|f IH]; intros st L Ok; cbn [loop_calls]; [lia|]. pose proof (round_pot st L Ok) as R.
  destruct (round re ci path url_len st) as [st'|r]; [|lia]. destruct R as (L' & Ok' & R). specialize (IH st' L' Ok'). lia.
Qed.
End Bound.

(** ** What an accepted pattern adds to the tree *)

Lemma made_type re ci v sg cap : make_segment re ci v = Some (sg, cap) -> s_mt sg = determine_match_type v.
Proof.
  unfold make_segment. destruct (determine_match_type v) eqn:E; intros H; try (injection H as <- _; exact eq_refl).
  destruct (re_ok _ _); [injection H as <- _; exact eq_refl|discriminate].
Qed.

Lemma spaced_snoc l s : spaced l -> (forall l0 s0, l = l0 ++ [s0] -> ~ (multi_seg s0 /\ multi_seg s)) -> spaced (l ++ [s]).
Proof.
  induction l as [|x l IH]; intros H N; [cbn; auto|]. destruct H as [H1 H2].
  cbn [app spaced]. split.
  - destruct l as [|y l]; [cbn [app]; exact (N [] x eq_refl)|exact H1].
  - apply IH; [exact H2|]. intros l0 s0 ->. exact (N (x :: l0) s0 eq_refl).
Qed.

Definition tidy (st : pstate) : Prop := (ps_count st < 256)%N /\ exists l,
  firstn (N.to_nat (ps_count st)) (ps_segs st) = map Some l /\ spaced l /\
  (forall l0 s0, l = l0 ++ [s0] -> multi_seg s0 -> ps_last st = MTMulti) /\
  (forall s0, In s0 l -> multi_seg s0 -> ps_max st = MTMulti).

Lemma firstn_update {A : Type} (l : list A) : forall k v l', update l k v = Some l' -> firstn (S k) l' = firstn k l ++ [v].
Proof.
  induction l as [|x l IH]; intros k v l' U; [discriminate|]. destruct k as [|k]; [injection U as <-; reflexivity|].
  cbn in U. destruct (update l k v) as [r|] eqn:E; [|discriminate]. injection U as <-. cbn [firstn app]. f_equal. exact (IH _ _ _ E).
Qed.

Lemma add_piece_tidy re ci v st st' : tidy st -> add_piece re ci v st = inr st' ->
  tidy st' /\ List.length (ps_segs st') = List.length (ps_segs st).
Proof.
  intros (Lt & l & F & Sp & La & Mx) E. unfold add_piece in E. destruct (negb _); [discriminate|].
  destruct (mt_eqb (ps_last st) MTMulti && mt_eqb (determine_match_type v) MTMulti) eqn:B; [discriminate|].
  destruct (make_segment re ci v) as [[sg cap]|] eqn:M; [|discriminate]. apply made_type in M.
  destruct (update (ps_segs st) _ _) as [segs'|] eqn:U; [|discriminate]. injection E as <-. cbn [ps_segs].
  split; [|exact (update_length _ _ _ _ U)]. unfold tidy. cbn [ps_count ps_segs ps_last ps_max].
  pose proof (firstn_update _ _ _ _ U) as Fu. rewrite F in Fu.
  split; [unfold u8; apply N.mod_upper_bound; discriminate|].
  destruct (N.eq_dec (ps_count st) 255) as [Z|Z].
  { rewrite Z. exists []. split; [reflexivity|]. split; [exact I|]. split; [intros [|]; discriminate|intros s0 []]. }
  assert (X : N.to_nat (u8 (ps_count st + 1)) = S (N.to_nat (ps_count st))) by (unfold u8; rewrite N.mod_small; lia).
  rewrite X. exists (l ++ [sg]). split; [rewrite Fu, map_app; reflexivity|]. split; [|split].
  - apply spaced_snoc; [exact Sp|]. intros l0 s0 El [A1 A2]. unfold multi_seg in A2. rewrite M in A2.
    rewrite (La _ _ El A1), A2 in B. discriminate B.
  - intros l0 s0 El A. apply app_inj_tail in El. destruct El as [_ <-]. unfold multi_seg in A. congruence.
  - intros s0 J A. apply in_app_or in J. destruct J as [J|[<-|[]]].
    + rewrite (Mx _ J A). destruct (determine_match_type v); reflexivity.
    + unfold multi_seg in A. rewrite <- M, A. destruct (ps_max st); reflexivity.
Qed.

Lemma parse_loop_tidy re ci rest : forall cur st st', tidy st -> parse_loop re ci rest cur st = inr st' ->
  tidy st' /\ List.length (ps_segs st') = List.length (ps_segs st).
Proof.
  induction rest as [|c rest IH]; intros cur st st' T E; cbn [parse_loop] in E; [injection E as <-; auto|].
  destruct (Ascii.eqb c slash).
  - destruct (add_piece re ci (rev cur) st) as [?|st1] eqn:A; [discriminate|].
    destruct (add_piece_tidy _ _ _ _ _ T A) as [T1 L1]. destruct (IH _ _ _ T1 E) as [T2 L2]. split; [exact T2|congruence].
  - destruct rest as [|d rest]; [exact (add_piece_tidy _ _ _ _ _ T E)|exact (IH _ _ _ T E)].
Qed.

Lemma all_some_map l r : all_some l = Some r -> l = map Some r.
Proof.
  revert r. induction l as [|[x|] l IH]; intros r E; cbn [all_some] in E; try discriminate.
  - injection E as <-. reflexivity.
  - destruct (all_some l) as [m|]; [|discriminate]. injection E as <-. cbn [map]. f_equal. auto.
Qed.

Lemma slashes_filter t : slashes t = List.length (filter (Ascii.eqb slash) t).
Proof.
  unfold slashes. induction t as [|c t IH]; [reflexivity|]. cbn [count_occ filter]. unfold slash in *.
  destruct (ascii_dec c "/"%char) as [->|N]; [cbn; f_equal; exact IH|].
  destruct (Ascii.eqb_spec "/"%char c) as [X|X]; [congruence|exact IH].
Qed.

Lemma parse_loop_not_ok re ci x : forall cur st p, parse_loop re ci x cur st <> inl (POk p).
Proof.
  assert (A : forall v s0 p, add_piece re ci v s0 <> inl (POk p)).
  { intros v s0 p A. unfold add_piece in A. destruct (validate_path_segment v); [|discriminate]. cbn [negb] in A.
    destruct (mt_eqb (ps_last s0) MTMulti && mt_eqb (determine_match_type v) MTMulti); [discriminate|].
    destruct (make_segment re ci v) as [[sg cap]|]; [|discriminate]. destruct (update _ _ _); discriminate. }
  induction x as [|y x IH]; intros cur st p L; cbn [parse_loop] in L; [discriminate|].
  destruct (Ascii.eqb y slash).
  - destruct (add_piece re ci (rev cur) st) as [r|st1] eqn:P; [injection L as ->; exact (A _ _ _ P)|exact (IH _ _ _ L)].
  - destruct x as [|z x]; [exact (A _ _ _ L)|exact (IH _ _ _ L)].
Qed.

Lemma parsed_tidy fuel re t ci p : parse_pattern fuel re t ci = POk p ->
  spaced (p_segs p) /\ (forall s, In s (p_segs p) -> multi_seg s -> is_greedy p = true) /\ List.length (p_segs p) <= slashes t.
Proof.
  intros E. unfold parse_pattern in E. destruct t as [|c [|d rest]]; [discriminate| |].
  { destruct (Ascii.eqb c slash); [|discriminate]. injection E as <-. split; [exact I|]. split; [intros s []|cbn; lia]. }
  destruct (Ascii.eqb c slash); [|discriminate]. cbn [negb] in E. rewrite slashes_filter.
  set (n := List.length _) in *. clearbody n.
  destruct (parse_loop re ci (d :: rest) [] (PState 0 0 MTUnknown MTUnknown (repeat None n))) as [r|st] eqn:L.
  { subst r. destruct (parse_loop_not_ok _ _ _ _ _ _ L). }
  assert (T0 : tidy (PState 0 0 MTUnknown MTUnknown (repeat None n))).
  { split; [reflexivity|]. exists []. split; [reflexivity|]. split; [exact I|]. split; [intros [|]; discriminate|intros s0 []]. }
  destruct (parse_loop_tidy _ _ _ _ _ _ T0 L) as [(Lt & l & F & Sp & La & Mx) Le]. cbn [ps_segs] in Le. rewrite repeat_length in Le.
  destruct (all_some _) as [segs|] eqn:S; [|discriminate]. apply all_some_map in S.
  destruct (compute_priority fuel segs) as [prio|]; [|discriminate]. injection E as <-. cbn [p_segs].
  assert (l = segs) as <-.
  { rewrite F in S. revert S. clear. revert segs. induction l as [|x l IH]; intros [|y r] E; try discriminate; [reflexivity|]. injection E as -> E. f_equal. auto. }
  split; [exact Sp|]. split.
  - intros s J A. unfold is_greedy. cbn [p_max]. rewrite (Mx _ J A). reflexivity.
  - apply (f_equal (@List.length _)) in F. rewrite map_length, firstn_length in F. lia.
Qed.

(** ** The tree after a registration *)

Lemma add_segs_wide ci p : forall segs idx n, every wide n -> (forall s, In s segs -> multi_seg s -> is_greedy p = true) ->
  every wide (fst (add_segs ci p idx segs n)).
Proof.
  induction segs as [|s rest IH]; intros idx n H G; [exact H|]. cbn [add_segs]. apply every_eq in H. destruct H as [H1 H2]. unfold wide in H1.
  assert (Set_ : forall l, Forall (fun c => multi c -> (255 <= n_max c)%N) l -> Forall (every wide) l -> every wide (set_children n l)).
  { intros l A B. apply every_eq. destruct n as [nm np ns npt nc]. split; assumption. }
  assert (G' : forall s, In s rest -> multi_seg s -> is_greedy p = true) by (intros s0 J; apply G; right; exact J).
  destruct (find_child ci s (n_ch n)) as [[[before c] after]|] eqn:F.
  - apply find_child_some in F. destruct F as [F1 _]. rewrite F1 in H1, H2. rewrite Forall_app, Forall_cons_iff in H1, H2.
    destruct H1 as (A1 & A2 & A3), H2 as (B1 & B2 & B3).
    set (c1 := raise_max c (max_at p idx)).
    assert (C1 : every wide c1) by (unfold c1; rewrite every_eq in B2 |- *; destruct c as [cm cp cs cpt cc]; exact B2).
    assert (M1 : multi c1 -> (255 <= n_max c1)%N).
    { unfold c1, raise_max, multi in *. cbn [n_max n_seg]. intros M. specialize (A2 M). destruct (N.ltb_spec (n_max c) (max_at p idx)); lia. }
    destruct rest as [|s2 rest].
    + destruct (is_leaf c1); cbn [fst]; apply Set_; rewrite Forall_app, Forall_cons_iff; split; auto; split; auto.
    + specialize (IH (S idx) c1 C1 G'). pose proof (add_segs_keeps ci p (s2 :: rest) (S idx) c1) as (K1 & _ & K3 & _).
      destruct (add_segs ci p (S idx) (s2 :: rest) c1) as [c2 dup]. cbn [fst] in *.
      apply Set_; rewrite Forall_app, Forall_cons_iff; split; auto; split; auto. unfold multi in *. rewrite K1, K3. exact M1.
  - set (fresh := Node _ _ _ _ _). assert (Cf : every wide fresh) by (apply every_eq; split; constructor).
    specialize (IH (S idx) fresh Cf G'). pose proof (add_segs_keeps ci p rest (S idx) fresh) as (K1 & _ & K3 & _).
    destruct (add_segs ci p (S idx) rest fresh) as [c2 dup]. cbn [fst] in *.
    apply Set_; rewrite sort_children_perm, Forall_app; split; auto; constructor; auto.
    intros M. unfold multi in M. rewrite K1 in M. rewrite K3. cbn [fresh n_max n_seg] in *. unfold max_at. rewrite (G s (or_introl eq_refl) M). reflexivity.
Qed.

Lemma sum_app (f : node -> nat) a b : list_sum (map f (a ++ b)) = list_sum (map f a) + list_sum (map f b).
Proof. rewrite map_app. apply list_sum_app. Qed.
Lemma sum_cons (f : node -> nat) a b : list_sum (map f (a :: b)) = f a + list_sum (map f b).
Proof. reflexivity. Qed.
Lemma sum_perm (f : node -> nat) a b : Permutation a b -> list_sum (map f a) = list_sum (map f b).
Proof. intros P. induction P; rewrite ?sum_cons in *; cbn [map] in *; rewrite ?sum_cons; try lia; reflexivity. Qed.

Lemma add_new ci p : forall segs idx n, n_ch n = [] -> snd (add_segs ci p idx segs n) = false.
Proof.
  induction segs as [|s rest IH]; intros idx n E; [reflexivity|]. cbn [add_segs]. rewrite E. cbn [find_child].
  specialize (IH (S idx) (Node (max_at p idx) (p_prio p) s (match rest with [] => Some p | _ => None end) []) eq_refl).
  destruct (add_segs ci p (S idx) rest _) as [c2 dup]. exact IH.
Qed.

Lemma add_segs_size ci p : forall segs idx n, let (n', dup) := add_segs ci p idx segs n in
  size n' <= size n + (if dup then 0 else List.length segs).
Proof.
  induction segs as [|s rest IH]; intros idx n; [cbn; lia|]. cbn [add_segs].
  assert (Sz : forall l, size (set_children n l) = list_sum (map (fun c => S (size c)) l)) by (intros l; reflexivity).
  destruct (find_child ci s (n_ch n)) as [[[before c] after]|] eqn:F.
  - apply find_child_some in F. destruct F as [F1 _]. rewrite (size_eq n), F1.
    set (c1 := raise_max c (max_at p idx)). assert (S1 : size c1 = size c) by (rewrite (size_eq c); reflexivity).
    destruct rest as [|s2 rest].
    + destruct (is_leaf c1); rewrite Sz, !sum_app, !sum_cons, ?S1; [lia|].
      assert (size (set_pattern c1 p) = size c) by (rewrite (size_eq c); reflexivity). cbn [List.length]. lia.
    + specialize (IH (S idx) c1). destruct (add_segs ci p (S idx) (s2 :: rest) c1) as [c2 dup].
      rewrite Sz, !sum_app, !sum_cons. rewrite S1 in IH. destruct dup; cbn [List.length] in *; lia.
  - set (fresh := Node _ _ _ _ _). specialize (IH (S idx) fresh). pose proof (add_new ci p rest (S idx) fresh eq_refl) as D.
    destruct (add_segs ci p (S idx) rest fresh) as [c2 dup]. cbn [snd] in D. subst dup. rewrite Sz, (size_eq n).
    rewrite (sum_perm _ _ _ (sort_children_perm _)), sum_app, sum_cons. cbn [List.length]. change (size fresh) with 0 in IH. cbn [map list_sum fold_right] in *. lia.
Qed.

Definition sound (k : nat) (m : matcher) : Prop :=
  every no_multi_below (m_trie m) /\ every wide (m_trie m) /\ ~ multi (m_trie m) /\ size (m_trie m) <= k.

Lemma sound_new ci k : sound k (new_matcher ci).
Proof.
  split; [|split; [|split]].
  - apply every_eq. split; [intros _; constructor|constructor].
  - apply every_eq. split; constructor.
  - discriminate.
  - cbn. lia.
Qed.

Lemma sound_add fuel re t ci p0 h k m : parse_pattern fuel re t ci = POk p0 -> sound k m ->
  let (m', dup) := add_pattern m (attach p0 h) in sound (k + if dup then 0 else slashes t) m'.
Proof.
  intros P (A & B & C & D). destruct (parsed_tidy _ _ _ _ _ P) as (T1 & T2 & T3). set (p := attach p0 h).
  assert (Eg : is_greedy p = is_greedy p0) by reflexivity. assert (Es : p_segs p = p_segs p0) by reflexivity.
  unfold add_pattern. rewrite <- Es in *. clearbody p. destruct (p_segs p) as [|s rest] eqn:Ep.
  - destruct (m_root m); (split; [exact A|split; [exact B|split; [exact C|cbn [m_trie]; lia]]]).
  - pose proof (add_segs_spaced (m_ci m) p (s :: rest) 0 (m_trie m) A T1 ltac:(intros [X _]; exact (C X))) as S1.
    pose proof (add_segs_wide (m_ci m) p (s :: rest) 0 (m_trie m) B ltac:(rewrite Eg; exact T2)) as S2.
    pose proof (add_segs_size (m_ci m) p (s :: rest) 0 (m_trie m)) as S3.
    pose proof (add_segs_keeps (m_ci m) p (s :: rest) 0 (m_trie m)) as (K1 & _).
    destruct (add_segs (m_ci m) p 0 (s :: rest) (m_trie m)) as [t' dup]. cbn [fst] in *.
    split; [exact S1|]. split; [exact S2|]. split; [unfold multi in *; cbn [m_trie]; rewrite K1; exact C|]. cbn [m_trie]. destruct dup; lia.
Qed.

Definition all_sound (mth : bytes) (k : nat) (r : router) : Prop := forall m, alookup (to_upper mth) (r_matchers r) = Some m -> sound k m.

Lemma sound_more k k' m : k <= k' -> sound k m -> sound k' m.
Proof. intros L (A & B & C & D). split; [exact A|]. split; [exact B|]. split; [exact C|lia]. Qed.

Lemma sound_all fuel re mth : forall regs r k, all_sound mth k r -> forall r' ends, handle_all fuel re r regs = (r', ends) ->
  all_sound mth (k + accepted_pieces mth regs ends) r'.
Proof.
  induction regs as [|[[m0 t0] h0] regs IH]; intros r k H r' ends E; cbn [handle_all] in E.
  { injection E as <- <-. intros m Em. apply (sound_more k); [lia|exact (H m Em)]. }
  destruct (handle fuel re r m0 t0 h0) as [r1 e] eqn:Eh. destruct (handle_all fuel re r1 regs) as [r2 es] eqn:Er. injection E as <- <-.
  assert (Step : all_sound mth (k + match e with Registered => if same_method_dec mth m0 then slashes t0 else 0 | _ => 0 end) r1).
  { unfold handle in Eh. destruct (parse_pattern fuel re t0 (r_ci r)) as [| | |p0] eqn:P;
      try (injection Eh as <- <-; rewrite Nat.add_0_r; exact H).
    set (mm := match alookup (to_upper m0) (r_matchers r) with Some m => m | None => new_matcher (r_ci r) end) in Eh.
    assert (Sm : to_upper m0 = to_upper mth -> sound k mm).
    { intros X. unfold mm. rewrite X. destruct (alookup (to_upper mth) (r_matchers r)) as [m|] eqn:El; [exact (H m El)|apply sound_new]. }
    destruct (add_pattern mm (attach p0 h0)) as [m' dup] eqn:Ea. injection Eh as <- <-. intros m Em. cbn [r_matchers] in Em. rewrite alookup_aset in Em.
    destruct (beqb (to_upper mth) (to_upper m0)) eqn:Eq.
    - injection Em as <-. apply beqb_eq in Eq. pose proof (sound_add _ _ _ _ _ h0 k mm P (Sm (eq_sym Eq))) as X. rewrite Ea in X.
      destruct dup; [exact X|]. destruct (same_method_dec mth m0) as [_|N]; [exact X|]. destruct N. apply same_method_upper. exact Eq.
    - apply (sound_more k); [lia|exact (H m Em)]. }
  specialize (IH r1 _ Step r2 es Er). intros m Em. specialize (IH m Em). eapply sound_more; [|exact IH].
  cbn [accepted_pieces reg_method reg_text fst snd]. destruct e; lia.
Qed.

(** ** The segments of a path *)

Definition begun (st : ustate) : nat := if (us_start st =? -1)%Z then 0 else 1.
Lemma add_segment_idx path st e st' : add_segment path st e = UAdded st' -> us_idx st' <= S (us_idx st).
Proof.
  unfold add_segment. destruct (slice _ _ _) as [seg|]; [|discriminate]. destruct (Nat.eqb _ _); [intros [= <-]; lia|].
  destruct (beqb _ _); [intros [= <-]; cbn; lia|]. destruct (Nat.leb _ _); [discriminate|]. destruct (update _ _ _); [intros [= <-]; cbn; lia|discriminate].
Qed.
Lemma url_loop_idx path : forall rest pos st st', url_loop path rest pos st = UAdded st' ->
  us_idx st' + begun st' <= us_idx st + begun st + slashes rest.
Proof.
  induction rest as [|c rest IH]; intros pos st st' E; cbn [url_loop] in E; [injection E as <-; cbn; lia|].
  unfold slashes in *. cbn [count_occ]. unfold slash in E. destruct (Ascii.eqb_spec c "/"%char) as [->|N].
  - destruct (ascii_dec "/"%char "/"%char) as [_|X]; [|congruence].
    assert (B : forall a s, begun (UState a (Z.of_N (pos + 1)) s) = 1).
    { intros a s. unfold begun. cbn [us_start]. destruct (Z.eqb_spec (Z.of_N (pos + 1)) (-1)); [lia|reflexivity]. }
    destruct (us_start st =? -1)%Z eqn:S.
    + apply IH in E. rewrite B in E. cbn [us_idx] in E. unfold begun at 2. rewrite S. lia.
    + destruct (add_segment path st pos) as [st1| |] eqn:A; try discriminate. apply add_segment_idx in A.
      apply IH in E. rewrite B in E. cbn [us_idx] in E. unfold begun at 2. rewrite S. lia.
  - destruct (ascii_dec c "/"%char); [congruence|]. exact (IH _ _ _ E).
Qed.

Lemma url_segs_le path buf us : parse_url_path path buf = Some us -> List.length us <= slashes path.
Proof.
  unfold parse_url_path. destruct (_ || _); [intros [= <-]; cbn; lia|].
  destruct (url_loop path path 0 (UState 0 (-1)%Z buf)) as [st| |] eqn:E; [|intros H; try discriminate H; injection H as <-; cbn; lia..].
  apply url_loop_idx in E. cbn [us_idx] in E. change (begun (UState 0 (-1)%Z buf)) with 0 in E. unfold begun in E.
  destruct (us_start st =? -1)%Z; cbn [negb andb].
  - destruct (Nat.eqb (us_idx st) 0); intros [= <-]; [cbn; lia|]. rewrite firstn_length. lia.
  - destruct (_ <? _)%Z; [destruct (add_segment path st _) as [st'| |] eqn:A; [|intros H; try discriminate H; injection H as <-; cbn; lia..]; apply add_segment_idx in A|rename st into st'];
    (destruct (Nat.eqb (us_idx st') 0); intros [= <-]; [cbn; lia|]; rewrite firstn_length; lia).
Qed.

(** ** The bound *)

Lemma match_work f re m path us k : sound k m -> List.length us <= 19 ->
  match_calls f re m path us <= (2 * List.length us + 1) * k.
Proof.
  intros (A & B & C & D) L. unfold match_calls. destruct (Nat.ltb _ _); [lia|].
  assert (U : u8 (N.of_nat (List.length us)) = N.of_nat (List.length us)) by (unfold u8; apply N.mod_small; lia).
  assert (G : loop_calls re (m_ci m) path (u8 (N.of_nat (List.length us))) f
    (MS 0 0 (m_trie m) [] (repeat (0, 0)%N max_path_segments) (repeat MTUnknown max_path_segments) us) <= (2 * List.length us + 1) * k).
  { rewrite U. set (st := MS _ _ _ _ _ _ _).
    assert (Ok : levels_ok (size (m_trie m)) (levels st)).
    { change (levels st) with [(m_trie m, 0%N, 0%N)]. split; [split; [exact A|split; [exact B|lia]]|]. cbn [lim]. split; [lia|]. split; [intros _; lia|exact I]. }
    pose proof (loop_pot re (m_ci m) path (N.of_nat (List.length us)) ltac:(lia) (size (m_trie m)) f st eq_refl Ok) as P.
    eapply Nat.le_trans; [exact P|]. change (levels st) with [(m_trie m, 0%N, 0%N)]. cbn [pot]. unfold K.
    assert (Ks : kidsum (m_trie m) 0 <= size (m_trie m)) by (apply (kidsum_size 0%N); reflexivity). rewrite N.sub_0_r, Nat2N.id.
    apply Nat.le_trans with ((2 * List.length us + 1) * size (m_trie m)); [|apply Nat.mul_le_mono_l; exact D].
    destruct (multi_at _ _); lia. }
  destruct us as [|u us]; [|exact G]. destruct (m_root m); [lia|exact G].
Qed.

Lemma routing_work fuel f re ci regs r ends mth path buf : List.length buf = 19 -> handle_all fuel re (new_router ci) regs = (r, ends) ->
  request_calls f re r mth path buf <= (2 * Nat.min 19 (slashes path) + 1) * accepted_pieces mth regs ends.
Proof.
  intros Hb E. pose proof (sound_all fuel re mth regs (new_router ci) 0 ltac:(intros m X; discriminate X) r ends E) as S. cbn [Nat.add] in S.
  unfold request_calls. destruct (parse_url_no_panic path buf Hb) as (us & P & L). rewrite P. apply url_segs_le in P.
  destruct (alookup (to_upper mth) (r_matchers r)) as [m|] eqn:El; [|lia].
  eapply Nat.le_trans; [exact (match_work f re m path us _ (S m El) L)|]. apply Nat.mul_le_mono_r. lia.
Qed.

(** ** Cases *)

Definition work_engine : engine := Engine (fun _ => true) (fun _ _ => true).
Definition work_regs : list reg :=
  [(str "GET", str "/**/a/x", 1); (str "get", str "/**/a/x", 2); (str "GET", str "/u/{id}", 3); (str "PUT", str "/p/q/r", 4)].
Definition work_router : router * list handle_end := handle_all 100 work_engine (new_router false) work_regs.
Definition work_path : bytes := str "/a/a/a/a/a/a/a/a/a/a/a/a/a/a/a/a/a/a/a".

Lemma work_case :
  snd work_router = [Registered; Duplicate; Registered; Registered] /\
  accepted_pieces (str "Get") work_regs (snd work_router) = 5 /\ slashes work_path = 19 /\
  dispatch_request 200 work_engine (fst work_router) (str "Get") work_path (repeat useg_zero 19) = NotFound /\
  request_calls 200 work_engine (fst work_router) (str "Get") work_path (repeat useg_zero 19) = 75.
Proof. vm_compute. repeat split. Qed.

(** The product of the two counts is not enough. *)
Lemma work_product : ~ (forall fuel f re ci regs r ends mth path buf, List.length buf = 19 ->
  handle_all fuel re (new_router ci) regs = (r, ends) ->
  request_calls f re r mth path buf <= slashes path * accepted_pieces mth regs ends).
Proof.
  intros H. specialize (H 100 200 work_engine false [(str "GET", str "/**/a/x", 1)] _ _ (str "GET") work_path (repeat useg_zero 19) eq_refl eq_refl).
  vm_compute in H. repeat (apply le_S_n in H). inversion H.
Qed.
