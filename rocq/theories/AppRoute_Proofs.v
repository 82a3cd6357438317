(** * Every handler the router calls was registered, on any router *)
From Coq Require Import List NArith ZArith Ascii String Bool Lia Arith Permutation.
From Verif Require Import GoBase Glob_Model Pattern_Model Url_Model Match_Model Router_Model Search_Proofs Trie_Proofs Csrf_Proofs.
Import ListNotations.
Local Open Scope list_scope.
Local Open Scope nat_scope.

Section All.
Variable P : pattern -> Prop.

Inductive node_all : node -> Prop :=
| na_node : forall mx pr sg pt ch, (forall p, pt = Some p -> P p) -> Forall node_all ch -> node_all (Node mx pr sg pt ch).

Lemma node_all_eq n : node_all n <-> (forall p, n_pat n = Some p -> P p) /\ Forall node_all (n_ch n).
Proof.
  destruct n as [mx pr sg pt ch]. cbn [n_pat n_ch]. split.
  - intro H. inversion H; subst. auto.
  - intros [A B]. constructor; assumption.
Qed.

Lemma add_segs_all ci p : P p -> forall segs idx n, node_all n -> node_all (fst (add_segs ci p idx segs n)).
Proof.
  intro Hp. induction segs as [|s rest IH]; intros idx n H; cbn [add_segs fst]; [exact H|].
  pose proof H as H0. apply node_all_eq in H0. destruct H0 as [Hn Hc].
  destruct (find_child ci s (n_ch n)) as [[[before c] after]|] eqn:F.
  - apply find_child_some in F. destruct F as [E _].
    assert (Hx : node_all (raise_max c (max_at p idx)) /\ Forall node_all before /\ Forall node_all after).
    { rewrite E in Hc. apply Forall_app in Hc. destruct Hc as [A B]. inversion B as [|? ? B1 B2]; subst.
      split; [|auto]. apply node_all_eq in B1. apply node_all_eq. exact B1. }
    destruct Hx as (C1 & B1 & B2).
    assert (Put : forall c', node_all c' -> node_all (set_children n (before ++ c' :: after))).
    { intros c' Hc'. apply node_all_eq. cbn [set_children n_pat n_ch]. split; [exact Hn|]. apply Forall_app. split; [exact B1|]. constructor; assumption. }
    destruct rest as [|s' rest].
    + destruct (is_leaf (raise_max c (max_at p idx))); cbn [fst]; apply Put; [exact C1|].
      apply node_all_eq in C1. apply node_all_eq. split; [intros q Q; injection Q as <-; exact Hp|apply C1].
    + specialize (IH (S idx) _ C1). destruct (add_segs ci p (S idx) (s' :: rest) (raise_max c (max_at p idx))) as [c2 dup].
      cbn [fst] in *. apply Put. exact IH.
  - set (fresh := Node (max_at p idx) (p_prio p) s (match rest with [] => Some p | _ => None end) []).
    assert (Hf : node_all fresh).
    { constructor; [|constructor]. intros q Q. destruct rest; [injection Q as <-; exact Hp|discriminate]. }
    specialize (IH (S idx) fresh Hf). destruct (add_segs ci p (S idx) rest fresh) as [c2 dup]. cbn [fst] in *.
    apply node_all_eq. cbn [set_children n_pat n_ch]. split; [exact Hn|].
    eapply Permutation_Forall; [symmetry; apply sort_children_perm|]. apply Forall_app. split; [exact Hc|]. constructor; [exact IH|constructor].
Qed.

Definition matcher_all (m : matcher) : Prop := (forall p, m_root m = Some p -> P p) /\ node_all (m_trie m).

Lemma new_matcher_all ci : matcher_all (new_matcher ci).
Proof. split; [discriminate|]. constructor; [discriminate|constructor]. Qed.

Lemma add_pattern_all m p : P p -> matcher_all m -> matcher_all (fst (add_pattern m p)).
Proof.
  intros Hp [A B]. unfold add_pattern. destruct (p_segs p) as [|s l] eqn:E.
  - destruct (m_root m) as [q|] eqn:R; cbn [fst]; split; cbn [m_root m_trie]; auto.
    + rewrite R. auto.
    + intros q Q. injection Q as <-. exact Hp.
  - pose proof (add_segs_all (m_ci m) p Hp (s :: l) 0 (m_trie m) B) as H.
    destruct (add_segs (m_ci m) p 0 (s :: l) (m_trie m)) as [t dup]. split; [exact A|exact H].
Qed.

Section Loop.
Variables (re : engine) (ci : bool) (path : bytes) (url_len : N).

Definition state_all (st : mstate) : Prop := node_all (ms_cur st) /\ Forall node_all (ms_anc st).
Definition res_all (r : mres) : Prop := match r with MRet (Some p) _ => P p | _ => True end.
Definition round_all (x : mstate + mres) : Prop := match x with inl st => state_all st | inr r => res_all r end.

Lemma first_match_in l : forall c left u c' ch m, first_match re ci path l c left u = FSome c' ch m -> In ch l.
Proof.
  induction l as [|n l IH]; intros c left u c' ch m H; cbn [first_match] in H; [discriminate|].
  destruct (negb (can_match_len n left)); [right; eapply IH; exact H|].
  destruct (seg_match re ci path (n_seg n) u) as [mt|]; [|discriminate].
  destruct mt; try (injection H as <- <- <-; left; reflexivity). right. eapply IH. exact H.
Qed.

Lemma failed_all st : state_all st -> round_all (round_failed st).
Proof.
  intros [A B]. unfold round_failed. destruct (ms_anc st) as [|parent anc] eqn:E; [exact I|].
  inversion B as [|? ? B1 B2]; subst.
  destruct (update (ms_mts st) (N.to_nat (ms_idx st)) MTUnknown); [|exact I].
  destruct (update (ms_nstack st) (ms_depth st) (0%N, 0%N)) as [ns|]; [|exact I].
  destruct (ms_depth st) as [|d]; [exact I|]. destruct (nth_error ns d) as [[x i]|]; [|exact I].
  split; assumption.
Qed.

Lemma pat_all n segs : node_all n -> res_all (MRet (n_pat n) segs).
Proof. intro H. apply node_all_eq in H. cbn. destruct (n_pat n) as [p|]; [apply H; reflexivity|exact I]. Qed.

Lemma matched_all st : state_all st -> round_all (round_matched url_len st).
Proof.
  intros [A B]. unfold round_matched.
  destruct ((ms_idx st =? sub8 url_len 1)%N && is_leaf (ms_cur st)); [exact (pat_all _ (ms_segs st) A)|split; assumption].
Qed.

Lemma in_skip_first {A} (l : list A) a b x : In x (skipn a (firstn b l)) -> In x l.
Proof.
  intro H. assert (H2 : In x (firstn b l)).
  { rewrite <- (firstn_skipn a (firstn b l)). apply in_or_app. right. exact H. }
  rewrite <- (firstn_skipn b l). apply in_or_app. left. exact H2.
Qed.

Lemma round_keeps st : state_all st -> round_all (round re ci path url_len st).
Proof.
  intros [A B]. unfold round. destruct (negb (ms_idx st <? url_len)%N); [exact I|].
  destruct (nth_error (ms_segs st) (N.to_nat (ms_idx st))) as [u|]; [|exact I].
  destruct (nth_error (ms_mts st) (N.to_nat (ms_idx st))) as [mt0|]; [|exact I].
  destruct (nth_error (ms_nstack st) (ms_depth st)) as [[c0 i0]|]; [|exact I].
  match goal with |- context [first_match re ci path ?l1 ?l2 ?l3 u] => destruct (first_match re ci path l1 l2 l3 u) as [| |c child m] eqn:F end.
  - apply failed_all. split; assumption.
  - exact I.
  - assert (Hc : node_all child).
    { apply first_match_in in F. apply in_skip_first in F. apply node_all_eq in A. destruct A as [_ A].
      rewrite Forall_forall in A. auto. }
    assert (Down : forall i d ns mts segs, round_all (round_matched url_len (MS i d child (ms_cur st :: ms_anc st) ns mts segs))).
    { intros. apply matched_all. split; [exact Hc|]. constructor; assumption. }
    assert (Fail : forall i d ns mts segs, round_all (round_failed (MS i d (ms_cur st) (ms_anc st) ns mts segs))).
    { intros. apply failed_all. split; assumption. }
    assert (Gr : forall l segs, round_all
        match greedy re ci path (N.to_nat (url_len - ms_idx st)) l (ms_idx st) segs with
        | GrNone segs' => inr (MRet None segs')
        | GrPanic => inr MPanic
        | GrAt j segs' =>
            match update (ms_nstack st) (ms_depth st) (c, u8 (j + 1)) with
            | Some ns' =>
                match update (ms_mts st) (N.to_nat j) MTMulti with
                | Some mts' => round_matched url_len (MS (sub8 j 1) (S (ms_depth st)) child (ms_cur st :: ms_anc st) ns' mts' segs')
                | None => inr MPanic
                end
            | None => inr MPanic
            end
        end).
    { intros l segs. destruct (greedy re ci path (N.to_nat (url_len - ms_idx st)) l (ms_idx st) segs) as [s| |j s]; try exact I.
      destruct (update (ms_nstack st) (ms_depth st) (c, u8 (j + 1))) as [ns|]; [|exact I].
      destruct (update (ms_mts st) (N.to_nat j) MTMulti) as [mts|]; [apply Down|exact I]. }
    assert (Single : forall mm segs, round_all
        (let segs' := set_mt segs (ms_idx st) mm in
         if (ms_idx st =? sub8 url_len 1)%N
         then if is_leaf child then inr (MRet (n_pat child) segs')
              else round_failed (MS (ms_idx st) (ms_depth st) (ms_cur st) (ms_anc st) (ms_nstack st) (ms_mts st) segs')
         else match update (ms_nstack st) (ms_depth st) (u16 (c + 1), ms_idx st) with
              | Some ns' => round_matched url_len (MS (ms_idx st) (S (ms_depth st)) child (ms_cur st :: ms_anc st) ns' (ms_mts st) segs')
              | None => inr MPanic
              end)).
    { intros mm segs. cbv zeta. destruct (ms_idx st =? sub8 url_len 1)%N.
      - destruct (is_leaf child); [exact (pat_all child _ Hc)|apply Fail].
      - destruct (update (ms_nstack st) (ms_depth st) (u16 (c + 1), ms_idx st)); [apply Down|exact I]. }
    destruct m; try apply Single.
    destruct (n_ch child) as [|g gs]; [|apply Gr]. destruct (is_leaf child); [exact (pat_all child _ Hc)|apply Gr].
Qed.

Lemma loop_keeps fuel : forall st, state_all st -> res_all (match_loop re ci path url_len fuel st).
Proof.
  induction fuel as [|f IH]; intros st H; cbn [match_loop]; [exact I|].
  pose proof (round_keeps st H) as R. destruct (round re ci path url_len st) as [st'|r]; [apply IH; exact R|exact R].
Qed.
End Loop.

Lemma match_path_all fuel re m path segs p rec segs' : matcher_all m -> match_path fuel re m path segs = Matched p rec segs' -> P p.
Proof.
  intros [A B]. unfold match_path. destruct (Nat.ltb max_path_segments (List.length segs)); [discriminate|].
  assert (L : forall ci path n s0 p0, match match_loop re ci path n fuel
                (MS 0 0 (m_trie m) [] (repeat (0%N, 0%N) max_path_segments) (repeat MTUnknown max_path_segments) s0) with
        | MRet (Some p) segs' => Matched p (Some p) segs'
        | MRet None _ => NoMatch
        | MPanic => MatchPanic
        | MFuel => MatchFuel
        end = Matched p0 rec segs' -> P p0).
  { intros ci pa n s0 p0 H.
    pose proof (loop_keeps re ci pa n fuel (MS 0 0 (m_trie m) [] (repeat (0%N, 0%N) max_path_segments) (repeat MTUnknown max_path_segments) s0)) as K.
    destruct (match_loop re ci pa n fuel (MS 0 0 (m_trie m) [] (repeat (0%N, 0%N) max_path_segments) (repeat MTUnknown max_path_segments) s0)) as [[q|] s| |]; try discriminate.
    injection H as <- _ _. apply K. split; [exact B|constructor]. }
  destruct segs as [|u us].
  - destruct (m_root m) as [q|] eqn:R; [|apply L]. intro H. injection H as <- _ _. apply A. reflexivity.
  - apply L.
Qed.

Definition router_all (r : router) : Prop := forall k m, alookup k (r_matchers r) = Some m -> matcher_all m.
End All.

Lemma node_all_imp (P Q : pattern -> Prop) : (forall p, P p -> Q p) -> forall n, node_all P n -> node_all Q n.
Proof.
  intro I. induction n as [mx pr sg pt ch IH] using node_ind'. intro H. inversion H as [? ? ? ? ? A B]; subst.
  constructor; [auto|]. rewrite Forall_forall in *. auto.
Qed.
Lemma router_all_imp (P Q : pattern -> Prop) r : (forall p, P p -> Q p) -> router_all P r -> router_all Q r.
Proof.
  intros I H k m E. destruct (H k m E) as [A B]. split; [auto|]. eapply node_all_imp; eassumption.
Qed.

(** The numbers attached are below [n]. *)
Definition below (n : nat) (p : pattern) : Prop := exists i, p_att p = Some i /\ i < n.

Lemma handle_below fuel re r m path h n : router_all (below n) r -> h < n -> router_all (below n) (fst (handle fuel re r m path h)).
Proof.
  intros R L. unfold handle. destruct (parse_pattern fuel re path (r_ci r)) as [| | |p0]; try exact R.
  assert (A : below n (attach p0 h)) by (exists h; split; [reflexivity|exact L]).
  set (mm := match alookup (to_upper m) (r_matchers r) with Some x => x | None => new_matcher (r_ci r) end).
  assert (Hm : matcher_all (below n) mm).
  { unfold mm. destruct (alookup (to_upper m) (r_matchers r)) as [x|] eqn:E; [exact (R _ _ E)|apply new_matcher_all]. }
  pose proof (add_pattern_all (below n) mm (attach p0 h) A Hm) as K.
  destruct (add_pattern mm (attach p0 h)) as [m' dup]. cbn [fst] in *. intros k x. cbn [r_matchers].
  rewrite lookup_set. destruct (beqb k (to_upper m)); [|apply R]. intro E. injection E as <-. exact K.
Qed.

Lemma dispatch_below f re r m path buf h rec segs n : router_all (below n) r ->
  dispatch_request f re r m path buf = Calls h rec segs -> h < n.
Proof.
  intros R. unfold dispatch_request. destruct (parse_url_path path buf) as [us|]; [|discriminate].
  destruct (alookup (to_upper m) (r_matchers r)) as [mm|] eqn:E; [|discriminate].
  destruct (match_path f re mm path us) as [p q s| | |] eqn:M; try discriminate.
  destruct (match_path_all (below n) f re mm path us p q s (R _ _ E) M) as (i & A & L).
  rewrite A. intro H. injection H as <- _ _. exact L.
Qed.

Lemma new_router_below ci n : router_all (below n) (new_router ci).
Proof. intros k m E. discriminate. Qed.
