(** * Proofs about routes that accept fewer requests than others. *)
From Coq Require Import List NArith ZArith Ascii String Bool Lia Arith.
From Verif Require Import GoBase Glob_Spec Pattern_Model Pattern_Spec Priority_Spec Url_Model Url_Spec
  Router_Model Routing_Spec Choice_Spec Choice_Proofs Narrow_Spec.
Import ListNotations.
Local Open Scope string_scope.
Local Open Scope list_scope.
Local Open Scope nat_scope.

Section N.
Variable ic : bool.
Variable rm : bytes -> bytes -> bool.
Notation acc := (accepts_path ic rm).

Lemma same_text_sym : forall a b, same_text ic a b -> same_text ic b a.
Proof. intros a b. unfold same_text. destruct ic; congruence. Qed.
Lemma same_text_trans : forall a b c, same_text ic a b -> same_text ic b c -> same_text ic a c.
Proof. intros a b c. unfold same_text. destruct ic; congruence. Qed.
Lemma same_text_refl : forall a, same_text ic a a.
Proof. intros a. unfold same_text. destruct ic; reflexivity. Qed.
Lemma other_text : forall w, ~ same_text ic w (w ++ ["a"%char]).
Proof.
  intros w H. unfold same_text in H.
  assert (L : List.length w = List.length (w ++ ["a"%char])).
  { destruct ic; [apply (f_equal (@List.length _)) in H; rewrite !map_length in H; exact H|congruence]. }
  rewrite app_length in L. cbn in L. lia.
Qed.

Lemma acc_nil : forall ks, any_only_last ks -> acc ks [] -> ks = [].
Proof.
  intros ks Ho [bs H]. inversion H; subst; [reflexivity|].
  exfalso. apply Ho. destruct ks0 as [|k ks0]; [congruence|]. left. reflexivity.
Qed.

Lemma acc_lit : forall w ks t ts, acc (Lit w :: ks) (t :: ts) <-> same_text ic w t /\ acc ks ts.
Proof.
  intros w ks t ts. split.
  - intros [bs H]. inversion H; subst. split; [assumption|eexists; eassumption].
  - intros [H [bs R]]. exists bs. apply ra_lit; assumption.
Qed.
Lemma acc_var : forall n ks t ts, acc (Var n :: ks) (t :: ts) <-> acc ks ts.
Proof.
  intros n ks t ts. split.
  - intros [bs H]. inversion H; subst. eexists; eassumption.
  - intros [bs R]. eexists. apply ra_var; eassumption.
Qed.
Lemma acc_one : forall ks t ts, acc (One :: ks) (t :: ts) <-> acc ks ts.
Proof.
  intros ks t ts. split.
  - intros [bs H]. inversion H; subst. eexists; eassumption.
  - intros [bs R]. eexists. apply ra_one; eassumption.
Qed.

Lemma only_last_tl : forall k ks, any_only_last (k :: ks) -> any_only_last ks.
Proof. intros k [|k' ks] H H'; [exact H'|]. apply H. right. exact H'. Qed.
Lemma only_last_any : forall ks, any_only_last (Any :: ks) -> ks = [].
Proof. intros [|k ks] H; [reflexivity|]. exfalso. apply H. left. reflexivity. Qed.

Lemma acc_some : forall ks, any_only_last ks -> Forall with_variables ks \/ Forall with_stars ks ->
  exists ts, acc ks ts.
Proof.
  induction ks as [|k ks IH]; intros Ho Hw; [exists [], []; constructor|].
  assert (Hw' : Forall with_variables ks \/ Forall with_stars ks)
    by (destruct Hw as [Hw|Hw]; inversion Hw; auto).
  destruct (IH (only_last_tl _ _ Ho) Hw') as [ts Ht].
  destruct k; try (destruct Hw as [Hw|Hw]; inversion Hw; contradiction).
  - exists (t :: ts). apply acc_lit. split; [apply same_text_refl|assumption].
  - exists ([] :: ts). apply acc_var. assumption.
  - exists ([] :: ts). apply acc_one. assumption.
  - rewrite (only_last_any _ Ho). exists [[]], []. apply ra_any_last.
Qed.

(** [acc] of a variable or a star as the next piece. *)
Definition free (k : piece) : Prop := match k with Var _ | One => True | _ => False end.
Lemma acc_free : forall k ks t ts, free k -> (acc (k :: ks) (t :: ts) <-> acc ks ts).
Proof. intros [] ks t0 ts H; try contradiction; [apply acc_var|apply acc_one]. Qed.
Lemma acc_free_nil : forall k ks, free k -> ~ acc (k :: ks) [].
Proof. intros [] ks H [bs R]; try contradiction; inversion R. Qed.

Lemma free_not_lit : forall k ks w ks', any_only_last ks -> Forall with_variables ks \/ Forall with_stars ks ->
  free k -> ~ (forall ts, acc (k :: ks) ts -> acc (Lit w :: ks') ts).
Proof.
  intros k ks w ks' Ho Hw Hf H. destruct (acc_some ks Ho Hw) as [ts Ht].
  specialize (H ((w ++ ["a"%char]) :: ts)). apply other_text with (w := w).
  apply (acc_lit w ks'  (w ++ ["a"%char]) ts). apply H. apply acc_free; assumption.
Qed.

Lemma any_only_any : forall ks, any_only_last ks -> Forall with_variables ks \/ Forall with_stars ks ->
  (forall ts, acc [Any] ts -> acc ks ts) -> ks = [Any].
Proof.
  intros [|k ks] Ho Hw H.
  - exfalso. destruct (H [[]]) as [bs R]; [exists []; apply ra_any_last|inversion R].
  - assert (A1 : forall t, acc (k :: ks) [t]) by (intros t; apply H; exists []; apply ra_any_last).
    assert (A2 : forall t u, acc (k :: ks) [t; u]) by (intros t u; apply H; exists []; apply ra_any_last).
    destruct k; try (destruct Hw as [Hw|Hw]; inversion Hw; contradiction).
    + exfalso. apply (other_text t). apply (acc_lit t ks (t ++ ["a"%char]) []). apply A1.
    + exfalso. assert (E : ks = []).
      { apply acc_nil; [eapply only_last_tl; eassumption|]. apply (acc_var name ks [] []). apply A1. }
      subst ks. specialize (A2 [] []). apply (proj1 (acc_var _ _ _ _)) in A2. destruct A2 as [bs R]. inversion R.
    + exfalso. assert (E : ks = []).
      { apply acc_nil; [eapply only_last_tl; eassumption|]. apply (acc_one ks [] []). apply A1. }
      subst ks. specialize (A2 [] []). apply (proj1 (acc_one _ _ _)) in A2. destruct A2 as [bs R]. inversion R.
    + rewrite (only_last_any _ Ho). reflexivity.
Qed.

Lemma acc_any : forall t ts, acc [Any] (t :: ts).
Proof. intros. exists []. apply ra_any_last. Qed.
Lemma acc_any_nil : ~ acc [Any] [].
Proof.
  intros H. assert (E : [Any] = []) by (apply acc_nil; [intros []|exact H]). discriminate.
Qed.

(** Strictly fewer requests: more specific from left to right. *)
Lemma narrower_specific : forall a b, any_only_last a -> any_only_last b ->
  (Forall with_variables a /\ Forall with_variables b) \/ (Forall with_stars a /\ Forall with_stars b) ->
  narrower ic rm a b -> more_specific a b.
Proof.
  induction a as [|x a IH]; intros b Ha Hb Hk [Hsub [ts [Hin Hout]]].
  - assert (E : b = []).
    { apply acc_nil; [assumption|]. apply Hsub. exists []. constructor. }
    subst b. contradiction.
  - assert (Ka : Forall with_variables (x :: a) \/ Forall with_stars (x :: a)) by tauto.
    assert (Kb : Forall with_variables b \/ Forall with_stars b) by tauto.
    destruct (acc_some _ Ha Ka) as [ws Hws].
    destruct b as [|y b].
    { exfalso. assert (E : ws = []).
      { destruct (Hsub _ Hws) as [bs R]. inversion R. reflexivity. }
      subst ws. apply acc_nil in Hws; [discriminate|assumption]. }
    assert (Hts : exists t ts', ts = t :: ts').
    { destruct ts as [|t ts']; [|eauto]. apply acc_nil in Hin; [discriminate|assumption]. }
    destruct Hts as [t [ts' ->]].
    assert (Hk' : (Forall with_variables a /\ Forall with_variables b) \/ (Forall with_stars a /\ Forall with_stars b)).
    { destruct Hk as [[H1 H2]|[H1 H2]]; inversion H1; inversion H2; auto. }
    assert (Ka' : Forall with_variables a \/ Forall with_stars a) by tauto.
    pose proof (only_last_tl _ _ Ha) as Ha'. pose proof (only_last_tl _ _ Hb) as Hb'.
    assert (Both : (kind_rank x = kind_rank y /\ free x /\ free y) ->
                   more_specific (x :: a) (y :: b)).
    { intros [Er [Fx Fy]]. apply ms_later; [assumption|]. apply IH; auto. split.
      - intros us Hu. apply (acc_free y b [] us Fy). apply Hsub. apply acc_free; assumption.
      - exists ts'. split; [apply (acc_free y b t ts' Fy); assumption|].
        intros Hu. apply Hout. apply acc_free; assumption. }
    assert (Lits : forall w, x = Lit w -> more_specific (x :: a) (y :: b)).
    { intros w ->. destruct y.
      - apply ms_later; [reflexivity|].
        assert (Hww : same_text ic w t0).
        { destruct (acc_some a Ha' Ka') as [us Hu].
          assert (Q : acc (Lit t0 :: b) (w :: us)) by (apply Hsub; apply acc_lit; split; [apply same_text_refl|assumption]).
          apply acc_lit in Q. apply same_text_sym. apply Q. }
        apply IH; auto. split.
        + intros us Hu. assert (Q : acc (Lit t0 :: b) (w :: us)) by (apply Hsub; apply acc_lit; split; [apply same_text_refl|assumption]).
          apply acc_lit in Q. apply Q.
        + apply acc_lit in Hin. exists ts'. split; [apply Hin|]. intros Hu. apply Hout. apply acc_lit.
          split; [eapply same_text_trans; [exact Hww|apply Hin]|assumption].
      - exfalso. destruct Hk as [[_ H]|[_ H]]; inversion H; contradiction.
      - apply ms_here; cbn; lia.
      - exfalso. destruct Hk as [[_ H]|[_ H]]; inversion H; contradiction.
      - apply ms_here; cbn; lia.
      - apply ms_here; cbn; lia. }
    assert (Frees : free x -> more_specific (x :: a) (y :: b)).
    { intros Fx. destruct y.
      - exfalso. apply (free_not_lit x a t0 b Ha' Ka' Fx). assumption.
      - exfalso. destruct Hk as [[_ H]|[_ H]]; inversion H; contradiction.
      - apply Both. destruct x; try contradiction; [split; [reflexivity|split; exact I]|].
        exfalso. destruct Hk as [[H1 H2]|[H1 H2]]; inversion H1; inversion H2; contradiction.
      - exfalso. destruct Hk as [[_ H]|[_ H]]; inversion H; contradiction.
      - apply Both. destruct x; try contradiction; [|split; [reflexivity|split; exact I]].
        exfalso. destruct Hk as [[H1 H2]|[H1 H2]]; inversion H1; inversion H2; contradiction.
      - apply ms_here. destruct x; try contradiction; cbn; lia. }
    destruct x; try (destruct Ka as [H|H]; inversion H; contradiction).
    + eapply Lits; reflexivity.
    + apply Frees. exact I.
    + apply Frees. exact I.
    + exfalso. pose proof (only_last_any _ Ha) as ->.
      rewrite (any_only_any _ Hb Kb Hsub) in *. contradiction.
Qed.
End N.

(** The chosen route accepts as few requests as any that matches. *)
Lemma narrowest_chosen : forall fuel re ci regs r outs mth path ts buf f h rec segs,
  handle_all fuel re (new_router ci) regs = (r, outs) ->
  (N.of_nat (List.length regs) < 65536)%N ->
  Forall (fun rg => countable (re_ok re) ci (reg_text rg)) regs ->
  (blen path < 65536)%N -> segments_of path ts -> List.length buf = 19 ->
  (forall rg ks, In rg regs -> pieces_of (re_ok re) ci (reg_text rg) ks -> Forall with_variables ks) \/
  (forall rg ks, In rg regs -> pieces_of (re_ok re) ci (reg_text rg) ks -> Forall with_stars ks) ->
  (forall rg ks, route_of (re_ok re) ci (combine regs outs) mth rg ks ->
     List.length ks <= 19 /\ any_only_last ks /\
     not_cut ci (re_match re) (route_of (re_ok re) ci (combine regs outs) mth) ts ks) ->
  dispatch_request f re r mth path buf = Calls h rec segs ->
  exists rg ks, route_of (re_ok re) ci (combine regs outs) mth rg ks /\ reg_handler rg = h /\
    accepts_path ci (re_match re) ks ts /\
    forall rg2 ks2, route_of (re_ok re) ci (combine regs outs) mth rg2 ks2 ->
      accepts_path ci (re_match re) ks2 ts -> ~ narrower ci (re_match re) ks2 ks.
Proof.
  intros fuel re ci regs r outs mth path ts buf f h rec segs Hr Hn Hc Hp Hs Hb Hk Hrt Hd.
  assert (Hcls : forall rg ks, In rg regs -> pieces_of (re_ok re) ci (reg_text rg) ks ->
    forall k, In k ks -> with_variables k \/ with_stars k).
  { intros rg ks Hin Hp' k Hi. destruct Hk as [Hk|Hk]; specialize (Hk rg ks Hin Hp');
      rewrite Forall_forall in Hk; auto. }
  assert (Hroute : forall rg ks, route_of (re_ok re) ci (combine regs outs) mth rg ks ->
    In rg regs /\ pieces_of (re_ok re) ci (reg_text rg) ks).
  { intros rg ks [Hin [_ Hpc]]. split; [eapply in_combine_l; eassumption|assumption]. }
  assert (Hglob : forall rg ks w, route_of (re_ok re) ci (combine regs outs) mth rg ks -> ~ In (Glob w) ks).
  { intros rg ks w Hro Hi. destruct (Hroute _ _ Hro) as [Hin Hpc].
    destruct (Hcls _ _ Hin Hpc _ Hi); contradiction. }
  destruct (specific_routing fuel re ci regs r outs mth path ts buf f h rec segs) as [rg [ks [bs [H1 [H2 [H3 [_ H4]]]]]]]; auto.
  - rewrite Forall_forall in *. intros rg Hin. split; [apply Hc, Hin|].
    intros _ ks Hpc n r0 Hi. exfalso. destruct (Hcls _ _ Hin Hpc _ Hi); contradiction.
  - intros rg ks Hro. destruct (Hrt _ _ Hro) as [A [B C]]. split; [assumption|]. split; [assumption|].
    split; [|assumption]. intros w t Hi. exfalso. eapply Hglob; eassumption.
  - intros rg1 ks1 bs1 rg2 ks2 bs2 Hro1 _ _ _ i a b _ E1 _. exfalso.
    apply (Hglob _ _ a Hro1). eapply nth_error_In. eassumption.
  - exists rg, ks. split; [assumption|]. split; [assumption|]. split; [eexists; eassumption|].
    intros rg2 ks2 Hro2 [bs2 R2] Hnar. apply (H4 rg2 ks2 bs2 Hro2 R2).
    destruct (Hroute _ _ Hro2) as [I2 P2]. destruct (Hroute _ _ H1) as [I1 P1].
    eapply narrower_specific; [apply (Hrt _ _ Hro2)|apply (Hrt _ _ H1)| |exact Hnar].
    destruct Hk as [Hk|Hk]; [left|right]; split; first [exact (Hk _ _ I2 P2)|exact (Hk _ _ I1 P1)].
Qed.
