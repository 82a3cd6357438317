(** * Routing: from the invariants to the properties. *)
From Coq Require Import List NArith ZArith Ascii String Bool Lia Arith Permutation.
From Verif Require Import GoBase Glob_Model Glob_Spec Glob_Proofs GlobExact_Proofs Pattern_Model Pattern_Spec Pattern_Proofs
  Priority_Spec Priority_Proofs Url_Model Url_Spec Url_Proofs Match_Model Search_Proofs Trie_Proofs Wide_Proofs WideFound_Proofs Grow_Proofs
  Router_Model Routing_Spec Covers_Proofs Routes_Proofs Dispatch_Proofs.
Import ListNotations.
Local Open Scope string_scope.
Local Open Scope list_scope.
Local Open Scope nat_scope.

(** ** Letter case *)

Lemma upper_lower : forall a b, upper a = upper b <-> lower a = lower b.
Proof.
  intros a b. 
  assert (H1 : forall x, lower (upper x) = lower x).
  { intros x. destruct x as [[] [] [] [] [] [] [] []]; vm_compute; reflexivity. }
  assert (H2 : forall x, upper (lower x) = upper x).
  { intros x. destruct x as [[] [] [] [] [] [] [] []]; vm_compute; reflexivity. }
  split; intros H; [rewrite <- (H1 a), <- (H1 b)|rewrite <- (H2 a), <- (H2 b)]; congruence.
Qed.

Lemma same_method_upper : forall a b, same_method a b <-> to_upper a = to_upper b.
Proof.
  unfold same_method, to_upper. induction a as [|x a IH]; intros [|y b]; cbn; try (split; congruence).
  split; intros H; injection H as H1 H2; f_equal; try (apply upper_lower; assumption); apply IH; assumption.
Qed.

(** ** Histories *)

Lemma countable_short : forall re ci t, countable (re_ok re) ci t -> short_text re ci t.
Proof.
  intros re ci t H ps ks Hm. pose proof (H ks (ex_intro _ ps Hm)) as A.
  destruct Hm as [_ [F _]]. apply forall2_len in F. lia.
Qed.
Lemma plain_plain_text : forall re ci t, plain (re_ok re) ci t -> plain_text re ci t.
Proof.
  intros re ci t H ps ks Hm.
  apply Forall_forall. intros k Hk. destruct k; cbn; auto. intros E. exact (H E ks (ex_intro _ ps Hm) _ _ Hk).
Qed.

Lemma history : forall fuel re ci regs r outs,
  handle_all fuel re (new_router ci) regs = (r, outs) ->
  Forall (fun rg => countable (re_ok re) ci (reg_text rg)) regs ->
  rinv re ci (combine regs outs) r /\ List.length outs = List.length regs.
Proof.
  intros fuel re ci regs r outs H Hs. apply (rinv_all fuel re ci regs [] (new_router ci) r outs); auto.
  - apply rinv_new.
  - eapply Forall_impl; [|eassumption]. intros a. apply countable_short.
Qed.

Lemma combine_len : forall (A B : Type) (l : list A) (l' : list B), List.length l' = List.length l ->
  List.length (combine l l') = List.length l.
Proof. intros A B l l' H. rewrite combine_length. lia. Qed.

Lemma forall_combine : forall (A B : Type) (P : A -> Prop) (l : list A) (l' : list B), Forall P l ->
  Forall (fun x => P (fst x)) (combine l l').
Proof.
  intros A B P l l' H. revert l'. induction H; intros [|y l']; cbn; constructor; auto.
Qed.

(** C10 and C16. *)
Lemma routed_sound : forall fuel re ci regs r outs f mth path ts buf h rec segs,
  handle_all fuel re (new_router ci) regs = (r, outs) ->
  Forall (fun rg => countable (re_ok re) ci (reg_text rg) /\ plain (re_ok re) ci (reg_text rg)) regs ->
  (blen path < 65536)%N -> segments_of path ts -> List.length buf = 19 ->
  dispatch_request f re r mth path buf = Calls h rec segs ->
  exists mth' text ks bs, In ((mth', text, h), Registered) (combine regs outs) /\ same_method mth' mth /\
    pieces_of (re_ok re) ci text ks /\ reads_as ci (re_match re) ks ts bs /\
    forall name, path_var rec path segs name = Some (match value_of name bs with Some v => v | None => [] end).
Proof.
  intros fuel re ci regs r outs f mth path ts buf h rec segs H Hs Hp Ht Hb E.
  destruct (history _ _ _ _ _ _ H) as [R1 R2].
  { eapply Forall_impl; [|eassumption]. intros a [A _]. assumption. }
  destruct (dispatch_sound re ci (combine regs outs) r f mth path ts buf h rec segs) as [rg [ps [ks [bs [A1 [A2 [A3 [A4 A5]]]]]]]]; auto.
  - apply forall_combine with (P := fun x => plain_text re ci (reg_text x)).
    eapply Forall_impl; [|eassumption]. intros a [_ A]. apply plain_plain_text. assumption.
  - apply in_registered in A1. destruct A1 as [e [B1 [B2 B3]]]. subst e.
    destruct rg as [[mth' text] h']. cbn in *. subst h'. exists mth', text, ks, bs.
    split; [assumption|]. split; [apply same_method_upper; assumption|]. split; [exists ps; assumption|]. auto.
Qed.

Lemma routed_matching : forall fuel re ci regs r outs f mth path ts buf h rec segs,
  handle_all fuel re (new_router ci) regs = (r, outs) ->
  Forall (fun rg => countable (re_ok re) ci (reg_text rg) /\ plain (re_ok re) ci (reg_text rg)) regs ->
  (blen path < 65536)%N -> segments_of path ts -> List.length buf = 19 ->
  dispatch_request f re r mth path buf = Calls h rec segs ->
  exists mth' text ks bs, In ((mth', text, h), Registered) (combine regs outs) /\ same_method mth' mth /\
    pieces_of (re_ok re) ci text ks /\ reads_as ci (re_match re) ks ts bs.
Proof.
  intros fuel re ci regs r outs f mth path ts buf h rec segs H1 H3 H4 H5 H6 H7.
  destruct (routed_sound _ _ _ _ _ _ _ _ _ _ _ _ _ _ H1 H3 H4 H5 H6 H7) as [a [b [c [d [A [B [C [D _]]]]]]]].
  exists a, b, c, d. auto.
Qed.

(** ** C15 and C21: routers that look the same *)

Definition same_lookup (r r' : router) : Prop :=
  r_ci r = r_ci r' /\ forall key, alookup key (r_matchers r) = alookup key (r_matchers r').

Lemma same_lookup_handle : forall fuel re r1 r2 mth txt h, same_lookup r1 r2 ->
  same_lookup (fst (handle fuel re r1 mth txt h)) (fst (handle fuel re r2 mth txt h)) /\
  snd (handle fuel re r1 mth txt h) = snd (handle fuel re r2 mth txt h).
Proof.
  intros fuel re r1 r2 mth txt h [H1 H2]. unfold handle. rewrite H1, H2.
  destruct (parse_pattern fuel re txt (r_ci r2)) as [| | |p]; try (split; [split; assumption|reflexivity]).
  destruct (add_pattern _ _) as [m' dup]. cbn [fst snd]. split; [|reflexivity]. split; [reflexivity|].
  intros key. cbn [r_matchers]. rewrite !alookup_aset. destruct (beqb key (to_upper mth)); auto.
Qed.

Lemma same_lookup_all : forall fuel re regs r1 r2, same_lookup r1 r2 ->
  same_lookup (fst (handle_all fuel re r1 regs)) (fst (handle_all fuel re r2 regs)) /\
  snd (handle_all fuel re r1 regs) = snd (handle_all fuel re r2 regs).
Proof.
  intros fuel re. induction regs as [|[[mth txt] h] regs IH]; intros r1 r2 H; [auto|]. cbn [handle_all].
  destruct (same_lookup_handle fuel re r1 r2 mth txt h H) as [A B].
  destruct (handle fuel re r1 mth txt h) as [ra ea]. destruct (handle fuel re r2 mth txt h) as [rb eb]. cbn [fst snd] in *.
  destruct (IH ra rb A) as [C D]. destruct (handle_all fuel re ra regs). destruct (handle_all fuel re rb regs).
  cbn [fst snd] in *. split; [assumption|congruence].
Qed.

Lemma same_lookup_dispatch : forall f re r1 r2 mth path buf, same_lookup r1 r2 ->
  dispatch_request f re r1 mth path buf = dispatch_request f re r2 mth path buf.
Proof. intros f re r1 r2 mth path buf [_ H]. unfold dispatch_request. rewrite H. reflexivity. Qed.

Lemma refused_changes_nothing : forall fuel re ci regs r outs mth txt h r' e,
  handle_all fuel re (new_router ci) regs = (r, outs) ->
  Forall (fun rg => countable (re_ok re) ci (reg_text rg)) regs -> countable (re_ok re) ci txt ->
  handle fuel re r mth txt h = (r', e) -> e <> Registered ->
  forall later,
    snd (handle_all fuel re r' later) = snd (handle_all fuel re r later) /\
    forall f m path buf,
      dispatch_request f re (fst (handle_all fuel re r' later)) m path buf =
      dispatch_request f re (fst (handle_all fuel re r later)) m path buf.
Proof.
  intros fuel re ci regs r outs mth txt h r' e H Hs Ht E He later.
  destruct (history _ _ _ _ _ _ H Hs) as [R1 R2].
  destruct (rinv_handle _ _ _ _ _ _ _ _ _ _ R1 (countable_short _ _ _ Ht) E) as [_ [A _]].
  destruct A as [A|[A1 A2]]; [congruence|].
  assert (S : same_lookup r' r) by (split; auto).
  destruct (same_lookup_all fuel re later r' r S) as [B C]. split; [assumption|].
  intros. apply same_lookup_dispatch. assumption.
Qed.

(** Methods. *)
Lemma handle_other_method : forall fuel re r m1 txt h f m2 path buf, ~ same_method m1 m2 ->
  dispatch_request f re (fst (handle fuel re r m1 txt h)) m2 path buf = dispatch_request f re r m2 path buf.
Proof.
  intros fuel re r m1 txt h f m2 path buf H. unfold dispatch_request.
  replace (alookup (to_upper m2) (r_matchers (fst (handle fuel re r m1 txt h)))) with (alookup (to_upper m2) (r_matchers r)); [reflexivity|].
  unfold handle. destruct (parse_pattern fuel re txt (r_ci r)); try reflexivity.
  destruct (add_pattern _ _) as [m' dup]. cbn [fst r_matchers]. rewrite alookup_aset.
  destruct (beqb (to_upper m2) (to_upper m1)) eqn:E; [|reflexivity]. apply beqb_eq in E.
  exfalso. apply H. apply same_method_upper. congruence.
Qed.

Definition same_at (key : bytes) (r r' : router) : Prop :=
  r_ci r = r_ci r' /\ alookup key (r_matchers r) = alookup key (r_matchers r').

Lemma handle_same_at : forall fuel re m2 r1 r2 mth txt h, same_at (to_upper m2) r1 r2 -> same_method mth m2 ->
  same_at (to_upper m2) (fst (handle fuel re r1 mth txt h)) (fst (handle fuel re r2 mth txt h)) /\
  snd (handle fuel re r1 mth txt h) = snd (handle fuel re r2 mth txt h).
Proof.
  intros fuel re m2 r1 r2 mth txt h [H1 H2] Hm. apply same_method_upper in Hm. unfold handle. rewrite H1, Hm, H2.
  destruct (parse_pattern fuel re txt (r_ci r2)) as [| | |p]; try (split; [split; assumption|reflexivity]).
  destruct (add_pattern _ _) as [m' dup]. cbn [fst snd]. split; [|reflexivity]. split; [reflexivity|].
  cbn [r_matchers]. rewrite !alookup_aset. destruct (beqb (to_upper m2) (to_upper m2)); auto.
Qed.

Lemma handle_other_at : forall fuel re m2 r mth txt h, ~ same_method mth m2 ->
  same_at (to_upper m2) (fst (handle fuel re r mth txt h)) r.
Proof.
  intros fuel re m2 r mth txt h Hm. unfold handle.
  destruct (parse_pattern fuel re txt (r_ci r)); try (split; reflexivity).
  destruct (add_pattern _ _) as [m' dup]. cbn [fst]. split; [reflexivity|]. cbn [r_matchers]. rewrite alookup_aset.
  destruct (beqb (to_upper m2) (to_upper mth)) eqn:E; [|reflexivity]. apply beqb_eq in E.
  exfalso. apply Hm. apply same_method_upper. congruence.
Qed.

(** The registrations of one method. *)
Definition only (m : bytes) (regs : list (bytes * bytes * nat)) : list (bytes * bytes * nat) :=
  filter (fun rg => if same_method_dec (fst (fst rg)) m then true else false) regs.

Lemma only_same_at : forall fuel re m regs r1 r2, same_at (to_upper m) r1 r2 ->
  same_at (to_upper m) (fst (handle_all fuel re r1 regs)) (fst (handle_all fuel re r2 (only m regs))).
Proof.
  intros fuel re m. induction regs as [|[[mth txt] h] regs IH]; intros r1 r2 H; [assumption|].
  cbn [handle_all only filter fst]. destruct (same_method_dec mth m) as [Hm|Hm].
  - cbn [handle_all]. fold (only m regs).
    destruct (handle_same_at fuel re m r1 r2 mth txt h H Hm) as [A _].
    destruct (handle fuel re r1 mth txt h) as [ra ea]. destruct (handle fuel re r2 mth txt h) as [rb eb]. cbn [fst snd] in *.
    specialize (IH ra rb A). destruct (handle_all fuel re ra regs). destruct (handle_all fuel re rb (only m regs)). assumption.
  - fold (only m regs). pose proof (handle_other_at fuel re m r1 mth txt h Hm) as A.
    destruct (handle fuel re r1 mth txt h) as [ra ea]. cbn [fst] in A.
    assert (B : same_at (to_upper m) ra r2) by (destruct A, H; split; congruence).
    specialize (IH ra r2 B). destruct (handle_all fuel re ra regs). assumption.
Qed.

Lemma only_matters : forall fuel re r regs f m path buf,
  dispatch_request f re (fst (handle_all fuel re r regs)) m path buf =
  dispatch_request f re (fst (handle_all fuel re r (only m regs))) m path buf.
Proof.
  intros fuel re r regs f m path buf.
  destruct (only_same_at fuel re m regs r r) as [_ H]; [split; reflexivity|].
  unfold dispatch_request. rewrite H. reflexivity.
Qed.

Lemma method_case_handle : forall fuel re r m1 m2 txt h, same_method m1 m2 ->
  handle fuel re r m1 txt h = handle fuel re r m2 txt h.
Proof. intros fuel re r m1 m2 txt h H. apply same_method_upper in H. unfold handle. rewrite H. reflexivity. Qed.
Lemma method_case_dispatch : forall f re r m1 m2 path buf, same_method m1 m2 ->
  dispatch_request f re r m1 path buf = dispatch_request f re r m2 path buf.
Proof. intros f re r m1 m2 path buf H. apply same_method_upper in H. unfold dispatch_request. rewrite H. reflexivity. Qed.

(** ** C17 *)
Lemma routing_ends : forall fuel re ci regs r outs mth path buf,
  handle_all fuel re (new_router ci) regs = (r, outs) ->
  Forall (fun rg => countable (re_ok re) ci (reg_text rg)) regs -> List.length buf = 19 ->
  exists k D, D <> ServeRuns /\ forall f, dispatch_request (k + f) re r mth path buf = D.
Proof.
  intros fuel re ci regs r outs mth path buf H Hs Hb. destruct (history _ _ _ _ _ _ H Hs) as [R1 R2].
  eapply dispatch_ends; eassumption.
Qed.

(** ** C08 *)
Lemma overlong_404 : forall fuel re ci regs r outs mth path buf f,
  handle_all fuel re (new_router ci) regs = (r, outs) ->
  Forall (fun rg => countable (re_ok re) ci (reg_text rg)) regs ->
  (blen path < 65536)%N -> overlong path -> List.length buf = 19 ->
  (forall mth' text h ks, In ((mth', text, h), Registered) (combine regs outs) -> same_method mth' mth ->
     pieces_of (re_ok re) ci text ks -> ks <> []) ->
  dispatch_request (S f) re r mth path buf = NotFound.
Proof.
  intros fuel re ci regs r outs mth path buf f H Hs Hp Ho Hb Hr. destruct (history _ _ _ _ _ _ H Hs) as [R1 R2].
  unfold dispatch_request. rewrite (parse_url_overlong path buf Hp Ho Hb).
  destruct (alookup (to_upper mth) (r_matchers r)) as [m|] eqn:E; [|reflexivity].
  rewrite match_empty. destruct (m_root m) as [p|] eqn:Er; [|reflexivity]. exfalso.
  destruct (ri_some _ _ _ _ R1 _ _ E) as [pats [M1 M2]].
  assert (Hin : In ([], p) (routes m)) by (unfold routes; rewrite Er; left; reflexivity).
  assert (Hpin : In p pats) by (eapply minv_pats_in; eauto).
  destruct (forall2_in_r _ _ _ _ _ _ M2 Hpin) as [rg [B1 [B2 [ps [ks B3]]]]].
  pose proof (mi_paths _ _ _ _ _ M1) as Hpa. rewrite Forall_forall in Hpa. specialize (Hpa _ Hin).
  cbn in Hpa. inversion Hpa as [Hsn|]. symmetry in H0. apply (proj1 (parsed_nil _ _ _ _ _ _ B3)) in H0.
  apply in_registered in B1. destruct B1 as [e [C1 [C2 C3]]]. subst e. destruct rg as [[m' t] h].
  apply (Hr m' t h ks C1); [apply same_method_upper; assumption| |assumption].
  exists ps. apply (pd_means _ _ _ _ _ _ B3).
Qed.

(** ** C09 *)
Lemma strip_texts : forall path us us' ts, map strip us' = map strip us -> Forall2 (rec1 path) us ts ->
  Forall (fun u => useg_text path u <> None) us'.
Proof.
  intros path us us' ts E H. pose proof (strip_rec1 _ _ _ _ E H) as A. clear E H.
  induction A as [|u t us'' ts' [H1 H2] _ IH]; constructor; [congruence|assumption].
Qed.
Lemma nth_capture_in : forall us i u, nth_capture i us = Some u -> In u us.
Proof.
  induction us as [|x us IH]; intros i u H; cbn in H; [discriminate|].
  destruct (is_capture (u_mt x)); [destruct i|]; [injection H as ->; left; reflexivity| |]; right; eauto.
Qed.

Lemma path_var_safe : forall fuel re ci regs r outs f mth path buf h rec segs,
  handle_all fuel re (new_router ci) regs = (r, outs) ->
  Forall (fun rg => countable (re_ok re) ci (reg_text rg)) regs ->
  (blen path < 65536)%N -> List.length buf = 19 ->
  dispatch_request f re r mth path buf = Calls h rec segs ->
  forall name, path_var rec path segs name <> None.
Proof.
  intros fuel re ci regs r outs f mth path buf h rec segs H Hs Hp Hb E name.
  destruct (history _ _ _ _ _ _ H Hs) as [R1 R2].
  assert (Hus : exists us ts, parse_url_path path buf = Some us /\ records path us ts /\ List.length us <= 19).
  { destruct (path_cases path) as [Ho|[ts Ht]].
    - exists [], []. split; [apply parse_url_overlong; assumption|]. split; [constructor|cbn; lia].
    - destruct (parse_url_segments path ts buf Hp Ht Hb) as [us [Hu Hrec]]. exists us, ts.
      split; [assumption|]. split; [assumption|]. rewrite (records_len _ _ _ Hrec). eapply walked_len; eassumption. }
  destruct Hus as [us [ts [Hu [Hrec Hul]]]].
  destruct (records_rec1 _ _ _ Hp Hrec) as [Hr1 Hst].
  destruct (dispatch_wide re ci r mth path buf us (ri_ci _ _ _ _ R1) Hu Hul) as [k [D [H1 H2]]].
  { intros m Hk. eapply rinv_calm; eassumption. }
  assert (ED : Calls h rec segs = D) by (eapply dispatch_det; [eassumption|eassumption|discriminate]).
  assert (Htx : Forall (fun u => useg_text path u <> None) segs).
  { destruct (alookup (to_upper mth) (r_matchers r)) as [m|] eqn:Ek; [|congruence].
    unfold wide_behind in H2. destruct us as [|u us].
    - destruct (m_root m) as [p|]; [|congruence]. unfold calls in H2. destruct (p_att p); [|congruence].
      rewrite H2 in ED. injection ED as -> -> ->. constructor.
    - rewrite Hst in H2. destruct (wdfs re ci path (m_trie m) 0 (u :: us)) as [p ms| | |] eqn:Ed; try congruence.
      destruct H2 as [segs' [H3 [H4 H5]]]. rewrite H3 in ED.
      assert (segs = segs') by (unfold calls in ED; destruct (p_att p); congruence). subst segs'.
      eapply strip_texts; [|exact Hr1]. rewrite H4. symmetry. assumption. }
  unfold path_var. destruct rec as [p|]; [|discriminate]. destruct (p_caps p =? 0)%N; [discriminate|].
  destruct (find_capture name (p_segs p) 0) as [i|]; [|discriminate].
  destruct (nth_capture i segs) as [u|] eqn:En; [|discriminate].
  rewrite Forall_forall in Htx. apply Htx. eapply nth_capture_in. eassumption.
Qed.

(** ** C18 *)

Lemma calm_no_panic : forall ci w t, no_adjacent_stars w -> calm ci w t -> regex_segment_match t w ci <> GPanic.
Proof.
  intros ci w t Hn H E. apply H. apply (glob_panic_iff ci t w Hn). exact E.
Qed.

Section NoPanic.
Variable re : engine.
Variable ci : bool.
Variable path : bytes.

Definition quiet (us : list useg) (idx : nat) (l : list node) : Prop :=
  Forall (fun c => forall u, In u us -> seg_match re ci path (n_seg c) u <> SPanic) l.

Lemma some_matches_quiet : forall l u, (forall c, In c l -> seg_match re ci path (n_seg c) u <> SPanic) ->
  some_matches re ci path l u <> HPanic.
Proof.
  induction l as [|c l IH]; intros u H; cbn; [discriminate|].
  pose proof (H c (or_introl eq_refl)) as A. destruct (seg_match re ci path (n_seg c) u) as [[]|]; try discriminate; try congruence.
  apply IH. intros c' Hc. apply H. right. assumption.
Qed.

Definition roomy (d : nat) (us : list useg) (l : list segment) : Prop :=
  d + List.length l <= 18 \/ (d + List.length us <= 19 /\ ~ In MTMulti (map s_mt (removelast l))).

Lemma roomy_step : forall d u us s l, roomy d (u :: us) (s :: l) -> roomy (S d) us l.
Proof.
  intros d u us s l [H|[H1 H2]]; unfold roomy; cbn [List.length] in *; [left; lia|right].
  split; [lia|]. intros A. apply H2. destruct l; [destruct A|]. right. assumption.
Qed.
Lemma roomy_multi : forall d us vs s l, s_mt s = MTMulti -> l <> [] -> roomy d us (s :: l) -> roomy (S d) vs l.
Proof.
  intros d us vs s l Hs Hl [H|[H1 H2]]; unfold roomy; cbn [List.length] in *; [left; lia|].
  exfalso. apply H2. destruct l; [congruence|]. left. assumption.
Qed.

Lemma sfx_no_panic : forall f gch vs, (forall v, In v vs -> some_matches re ci path gch v <> HPanic) ->
  (forall a b, vs = a ++ b -> f b <> Panic) -> sfx re ci path f gch vs <> Panic.
Proof.
  intros f gch. induction vs as [|v vs IH]; intros H1 H2; [discriminate|].
  cbn [sfx]. fold (sfx re ci path f gch).
  assert (G : cons_mt MTMulti (sfx re ci path f gch vs) <> Panic).
  { assert (A : sfx re ci path f gch vs <> Panic).
    { apply IH; [intros x Hx; apply H1; right; assumption|]. intros a b E. apply (H2 (v :: a) b). rewrite E. reflexivity. }
    destruct (sfx re ci path f gch vs); cbn; congruence. }
  pose proof (H1 v (or_introl eq_refl)) as A. destruct (some_matches re ci path gch v); [assumption| |congruence].
  pose proof (H2 [] (v :: vs) eq_refl) as B. destruct (f (v :: vs)); try congruence.
Qed.

Lemma dfs_no_panic : forall us0 n d us, deep (quiet us0) n d -> deep all_made n d ->
  (forall u, In u us -> In u us0) -> (exists l, roomy d us l) ->
  (forall l p, In (l, p) (leaves n) -> roomy d us l) -> dfs re ci path n d us <> Panic.
Proof.
  intros us0. induction n as [mx pr sg pt ch IH] using node_ind'. intros d us Hq Hm Hin Hex Hall.
  rewrite dfs_eq. destruct us as [|u us']; [discriminate|]. cbn [n_ch].
  destruct (Nat.leb_spec 19 d) as [Hd|Hd].
  { destruct Hex as [l [A|[A _]]]; cbn [List.length] in *; lia. }
  apply deep_eq in Hq. apply deep_eq in Hm. cbn [n_ch] in *. destruct Hq as [Q1 Q2]. destruct Hm as [M1 M2].
  assert (Hch : forall c l p, In c ch -> In (l, p) (branch c) -> roomy d (u :: us') l).
  { intros c l p Hc Hl. apply (Hall l p). apply in_leaves. exists c. auto. }
  clear Hall Hex. induction ch as [|c ch IHch]; [discriminate|].
  inversion IH as [|? ? IHc IHr]; subst. inversion Q1 as [|? ? Q1c Q1r]; subst. inversion Q2 as [|? ? Q2c Q2r]; subst.
  inversion M1 as [|? ? M1c M1r]; subst. inversion M2 as [|? ? M2c M2r]; subst.
  specialize (IHch IHr Q1r Q2r M1r M2r). cbn [kids]. fold (kids re ci path (fun c vs => dfs re ci path c (S d) vs) u us').
  assert (G : kids re ci path (fun c vs => dfs re ci path c (S d) vs) u us' ch <> Panic).
  { apply IHch. intros c' l p Hc. apply (Hch c' l p). right. assumption. }
  clear IHch.
  destruct (negb (can_match_len c (N.of_nat (S (List.length us'))))); [assumption|].
  pose proof (Q1c u (Hin u (or_introl eq_refl))) as Hs.
  destruct (seg_match re ci path (n_seg c) u) as [m|] eqn:Em; [|congruence].
  assert (Hhead : forall l p, In (l, p) (branch c) -> exists l', l = n_seg c :: l').
  { intros l p Hl. apply in_branch in Hl. destruct Hl as [[-> _]|[l' [-> _]]]; eauto. }
  assert (Hone : match us' with
    | [] => match n_pat c with Some p => Found p [m] | None => Fail end
    | _ => match dfs re ci path c (S d) us' with
           | Fail => kids re ci path (fun c vs => dfs re ci path c (S d) vs) u us' ch
           | r => cons_mt m r
           end
    end <> Panic).
  { destruct us' as [|u2 us2]; [destruct (n_pat c); discriminate|].
    assert (A : dfs re ci path c (S d) (u2 :: us2) <> Panic).
    { apply IHc; auto.
      - intros x Hx. apply Hin. right. assumption.
      - destruct M1c as [l [q [B1 _]]]. destruct (Hhead _ _ B1) as [l' ->]. exists l'.
        eapply roomy_step. eapply Hch; [left; reflexivity|eassumption].
      - intros l p Hl. eapply roomy_step. eapply Hch; [left; reflexivity|]. apply in_branch. right. exists l. split; [reflexivity|eassumption]. }
    destruct (dfs re ci path c (S d) (u2 :: us2)); try assumption; discriminate. }
  destruct m; try assumption.
  assert (Hsf : sfx re ci path (fun vs => dfs re ci path c (S d) vs) (n_ch c) (u :: us') <> Panic).
  { pose proof (seg_match_multi re ci path (n_seg c) u Em) as Hmu.
    destruct (n_ch c) as [|g gs] eqn:Eg.
    - generalize (u :: us'). intros vs. induction vs as [|v vs IHv]; [discriminate|]. cbn [sfx].
      cbn [some_matches]. change ((fix go (vs0 : list useg) : outcome := _) vs) with (sfx re ci path (fun vs => dfs re ci path c (S d) vs) [] vs).
      destruct (sfx re ci path (fun vs => dfs re ci path c (S d) vs) [] vs); try discriminate. congruence.
    - rewrite <- Eg. apply deep_eq in Q2c. destruct Q2c as [Q3 Q4]. apply sfx_no_panic.
      + intros v Hv. apply some_matches_quiet. intros x Hx. unfold quiet in Q3. rewrite Forall_forall in Q3. apply Q3; auto.
      + intros a b E. assert (Q2c : deep (quiet us0) c (S d)) by (apply deep_eq; split; assumption).
        assert (Hlv : forall l p, In (l, p) (leaves c) -> roomy (S d) b l).
        { intros l p Hl. eapply roomy_multi; [exact Hmu|eapply leaf_path_not_nil; eassumption|].
          eapply Hch; [left; reflexivity|]. apply in_branch. right. exists l. split; [reflexivity|eassumption]. }
        apply IHc; auto.
        * intros x Hx. apply Hin. rewrite E. apply in_or_app. right. assumption.
        * apply deep_eq in M2c. destruct M2c as [M3 _]. rewrite Eg in M3. inversion M3 as [|? ? M4 _]; subst.
          destruct M4 as [l [q [B1 _]]]. exists l. apply (Hlv l q). apply in_leaves. exists g. split; [rewrite Eg; left; reflexivity|assumption]. }
  destruct (n_ch c) as [|g gs] eqn:Eg; [destruct (n_pat c)|]; [discriminate|assumption|assumption].
Qed.

Lemma wdfs_no_panic : forall us0 n d us, deep (quiet us0) n d -> deep all_made n d ->
  (forall u, In u us -> In u us0) -> (exists l, roomy d us l) ->
  (forall l p, In (l, p) (leaves n) -> roomy d us l) -> wdfs re ci path n d us <> Panic.
Proof.
  intros us0. induction n as [mx pr sg pt ch IH] using node_ind'. intros d us Hq Hm Hin Hex Hall.
  rewrite wdfs_eq. destruct us as [|u us']; [discriminate|].
  destruct (Nat.leb_spec 19 d) as [Hd|Hd].
  { destruct Hex as [l [A|[A _]]]; cbn [List.length] in *; lia. }
  apply deep_eq in Hq. apply deep_eq in Hm. cbn [n_ch] in *. destruct Hq as [Q1 Q2]. destruct Hm as [M1 M2].
  assert (Hch : forall c l p, In c ch -> In (l, p) (branch c) -> roomy d (u :: us') l).
  { intros c l p Hc Hl. apply (Hall l p). apply in_leaves. exists c. auto. }
  clear Hall Hex.
  assert (Hsub : incl (cut (Node mx pr sg pt ch)) ch) by (intros c Hc; apply (cut_in (Node mx pr sg pt ch)); exact Hc).
  revert Hsub. generalize (cut (Node mx pr sg pt ch)). intros wh Hsub.
  apply (incl_Forall Hsub) in IH. apply (incl_Forall Hsub) in Q1. apply (incl_Forall Hsub) in Q2.
  apply (incl_Forall Hsub) in M1. apply (incl_Forall Hsub) in M2.
  assert (Hch' : forall c l p, In c wh -> In (l, p) (branch c) -> roomy d (u :: us') l).
  { intros c l p Hc. apply (Hch c l p). apply Hsub. exact Hc. }
  clear Hch Hsub. clear ch. rename wh into ch. rename Hch' into Hch.
  induction ch as [|c ch IHch]; [discriminate|].
  inversion IH as [|? ? IHc IHr]; subst. inversion Q1 as [|? ? Q1c Q1r]; subst. inversion Q2 as [|? ? Q2c Q2r]; subst.
  inversion M1 as [|? ? M1c M1r]; subst. inversion M2 as [|? ? M2c M2r]; subst.
  specialize (IHch IHr Q1r Q2r M1r M2r). cbn [kids]. fold (kids re ci path (fun c vs => wdfs re ci path c (S d) vs) u us').
  assert (G : kids re ci path (fun c vs => wdfs re ci path c (S d) vs) u us' ch <> Panic).
  { apply IHch. intros c' l p Hc. apply (Hch c' l p). right. assumption. }
  clear IHch.
  destruct (negb (can_match_len c (N.of_nat (S (List.length us'))))); [assumption|].
  pose proof (Q1c u (Hin u (or_introl eq_refl))) as Hs.
  destruct (seg_match re ci path (n_seg c) u) as [m|] eqn:Em; [|congruence].
  assert (Hhead : forall l p, In (l, p) (branch c) -> exists l', l = n_seg c :: l').
  { intros l p Hl. apply in_branch in Hl. destruct Hl as [[-> _]|[l' [-> _]]]; eauto. }
  assert (Hone : match us' with
    | [] => match n_pat c with Some p => Found p [m] | None => Fail end
    | _ => match wdfs re ci path c (S d) us' with
           | Fail => kids re ci path (fun c vs => wdfs re ci path c (S d) vs) u us' ch
           | r => cons_mt m r
           end
    end <> Panic).
  { destruct us' as [|u2 us2]; [destruct (n_pat c); discriminate|].
    assert (A : wdfs re ci path c (S d) (u2 :: us2) <> Panic).
    { apply IHc; auto.
      - intros x Hx. apply Hin. right. assumption.
      - destruct M1c as [l [q [B1 _]]]. destruct (Hhead _ _ B1) as [l' ->]. exists l'.
        eapply roomy_step. eapply Hch; [left; reflexivity|eassumption].
      - intros l p Hl. eapply roomy_step. eapply Hch; [left; reflexivity|]. apply in_branch. right. exists l. split; [reflexivity|eassumption]. }
    destruct (wdfs re ci path c (S d) (u2 :: us2)); try assumption; discriminate. }
  destruct m; try assumption.
  assert (Hsf : sfx re ci path (fun vs => wdfs re ci path c (S d) vs) (n_ch c) (u :: us') <> Panic).
  { pose proof (seg_match_multi re ci path (n_seg c) u Em) as Hmu.
    destruct (n_ch c) as [|g gs] eqn:Eg.
    - generalize (u :: us'). intros vs. induction vs as [|v vs IHv]; [discriminate|]. cbn [sfx].
      cbn [some_matches]. change ((fix go (vs0 : list useg) : outcome := _) vs) with (sfx re ci path (fun vs => wdfs re ci path c (S d) vs) [] vs).
      destruct (sfx re ci path (fun vs => wdfs re ci path c (S d) vs) [] vs); try discriminate. congruence.
    - rewrite <- Eg. apply deep_eq in Q2c. destruct Q2c as [Q3 Q4]. apply sfx_no_panic.
      + intros v Hv. apply some_matches_quiet. intros x Hx. unfold quiet in Q3. rewrite Forall_forall in Q3. apply Q3; auto.
      + intros a b E. assert (Q2c : deep (quiet us0) c (S d)) by (apply deep_eq; split; assumption).
        assert (Hlv : forall l p, In (l, p) (leaves c) -> roomy (S d) b l).
        { intros l p Hl. eapply roomy_multi; [exact Hmu|eapply leaf_path_not_nil; eassumption|].
          eapply Hch; [left; reflexivity|]. apply in_branch. right. exists l. split; [reflexivity|eassumption]. }
        apply IHc; auto.
        * intros x Hx. apply Hin. rewrite E. apply in_or_app. right. assumption.
        * apply deep_eq in M2c. destruct M2c as [M3 _]. rewrite Eg in M3. inversion M3 as [|? ? M4 _]; subst.
          destruct M4 as [l [q [B1 _]]]. exists l. apply (Hlv l q). apply in_leaves. exists g. split; [rewrite Eg; left; reflexivity|assumption]. }
  destruct (n_ch c) as [|g gs] eqn:Eg; [destruct (n_pat c)|]; [discriminate|assumption|assumption].
Qed.
End NoPanic.

Lemma deep_made : forall (Q : pattern -> Prop) n idx, deep all_made n idx ->
  (forall l q, In (l, q) (leaves n) -> Q q) ->
  deep (fun i l => Forall (fun c => exists q, Q q /\ nth_error (p_segs q) i = Some (n_seg c)) l) n idx.
Proof.
  intros Q. induction n as [mx pr sg pt ch IH] using node_ind'. intros idx H Hq.
  apply deep_eq in H. apply deep_eq. cbn [n_ch] in *. destruct H as [H1 H2].
  assert (Hb : forall c l q, In c ch -> In (l, q) (branch c) -> Q q).
  { intros c l q Hc Hl. apply (Hq l q). apply in_leaves. exists c. auto. }
  split; apply Forall_forall; intros c Hc.
  - unfold all_made in H1. rewrite Forall_forall in H1. destruct (H1 c Hc) as [l [q [A [_ B]]]]. exists q.
    split; [eapply Hb; eassumption|assumption].
  - rewrite Forall_forall in IH, H2. apply IH; auto. intros l q Hl. apply (Hb c (n_seg c :: l) q Hc).
    apply in_branch. right. exists l. auto.
Qed.

Lemma deep_imp : forall (L1 L2 : nat -> list node -> Prop), (forall i l, L1 i l -> L2 i l) ->
  forall n idx, deep L1 n idx -> deep L2 n idx.
Proof.
  intros L1 L2 Hi. induction n as [mx pr sg pt ch IH] using node_ind'. intros idx H.
  apply deep_eq in H. apply deep_eq. cbn [n_ch] in *. destruct H as [H1 H2]. split; [auto|].
  rewrite Forall_forall in *. auto.
Qed.

Lemma shows_all_nth : forall ci segs ps ks i sg, shows_all ci segs ps ks -> nth_error segs i = Some sg ->
  exists s k, nth_error ps i = Some s /\ nth_error ks i = Some k /\ shows ci sg s k.
Proof.
  intros ci segs ps ks i sg H. revert i. induction H as [|sg' s k sgs ss ks Hk H IH]; intros [|i] E; try discriminate.
  - injection E as ->. exists s, k. auto.
  - apply IH. assumption.
Qed.

Lemma forall2_nth : forall (A B : Type) (R : A -> B -> Prop) l l' i a b, Forall2 R l l' ->
  nth_error l i = Some a -> nth_error l' i = Some b -> R a b.
Proof.
  intros A B R l l' i a b H. revert i. induction H; intros [|i] E1 E2; try discriminate; cbn in *; [congruence|eauto].
Qed.

Lemma removelast_map : forall (A B : Type) (f : A -> B) l, removelast (map f l) = map f (removelast l).
Proof. intros A B f. induction l as [|x [|y l] IH]; [reflexivity|reflexivity|]. cbn in *. rewrite IH. reflexivity. Qed.

Lemma any_last_mts : forall ci l segs ps ks, Forall2 (shares ci) l segs -> shows_all ci segs ps ks ->
  any_only_last ks -> ~ In MTMulti (map s_mt (removelast l)).
Proof.
  intros ci l segs ps ks H1 H2 H3 A. rewrite <- removelast_map, (shares_mts _ _ _ H1), (shows_all_mts _ _ _ _ H2), removelast_map in A.
  apply in_map_iff in A. destruct A as [k [A1 A2]]. apply mt_of_any in A1. subst k. apply H3. assumption.
Qed.

(** All routes that were registered for the method. *)
Definition routes_of (re : engine) (ci : bool) (regs : list (bytes * bytes * nat)) (outs : list handle_end)
    (mth : bytes) (P : list piece -> Prop) : Prop :=
  forall mth' text h ks, In ((mth', text, h), Registered) (combine regs outs) -> same_method mth' mth ->
    pieces_of (re_ok re) ci text ks -> P ks.

Lemma search_quiet : forall re ci k pats m path us ts, minv re ci k pats m -> Forall2 (rec1 path) us ts ->
  (forall q t ps ks, In q pats -> parsed re ci q t ps ks -> forall w s, In (Glob w) ks -> In s ts -> calm ci w s) ->
  deep (quiet re ci path us) (m_trie m) 0.
Proof.
  intros re ci k pats m path us ts M Hr Hc.
  assert (D : deep (fun i l => Forall (fun c => exists q, In q pats /\ nth_error (p_segs q) i = Some (n_seg c)) l) (m_trie m) 0).
  { apply (deep_made (fun q => In q pats)).
    - apply (grown_made ci pats). apply (mi_grown _ _ _ _ _ M).
    - intros l q Hl. eapply minv_pats_in; [eassumption|]. exists l. unfold routes. apply in_or_app. right. assumption. }
  eapply deep_imp; [|exact D]. intros i l Hl. unfold quiet. eapply Forall_impl; [|exact Hl].
  intros c [q [Hq Hn]] u Hu. cbn beta.
  pose proof (mi_parsed _ _ _ _ _ M) as Hp. rewrite Forall_forall in Hp. destruct (Hp q Hq) as [t [ps [ks P]]].
  destruct (shows_all_nth _ _ _ _ _ _ (pd_shows _ _ _ _ _ _ P) Hn) as [s [k' [N1 [N2 N3]]]].
  destruct (pd_means _ _ _ _ _ _ P) as [_ [F _]]. pose proof (forall2_nth _ _ _ _ _ _ _ _ F N1 N2) as Hrd.
  destruct (forall2_in_l _ _ _ _ _ _ Hr Hu) as [s' [Hs1 Hs2]].
  assert (Hk : k' = Any \/ k' <> Any) by (destruct k'; [right; discriminate..|left; reflexivity]).
  destruct Hk as [->|Hk].
  - destruct N3 as [_ [N3 _]]. rewrite (multi_matches re ci path _ u N3). discriminate.
  - pose proof (seg_match_fits re ci path _ _ _ _ _ N3 Hrd Hs2 Hk) as A.
    destruct (seg_match re ci path (n_seg c) u); [discriminate|]. destruct A as [w [-> A]]. intros _.
    assert (Hns : no_adjacent_stars w) by (inversion Hrd; assumption).
    apply (calm_no_panic ci w s' Hns); [|assumption].
    eapply Hc; [exact Hq|exact P|eapply nth_error_In; exact N2|assumption].
Qed.

Lemma never_crashes : forall fuel re ci regs r outs f mth path buf,
  handle_all fuel re (new_router ci) regs = (r, outs) ->
  Forall (fun rg => countable (re_ok re) ci (reg_text rg)) regs ->
  (blen path < 65536)%N -> List.length buf = 19 ->
  routes_of re ci regs outs mth (fun ks => (List.length ks <= 18 \/ any_only_last ks) /\
    forall ts w t, segments_of path ts -> In (Glob w) ks -> In t ts -> calm ci w t) ->
  dispatch_request f re r mth path buf <> ServeCrash.
Proof.
  intros fuel re ci regs r outs f mth path buf H Hs Hp Hb Hro E.
  destruct (history _ _ _ _ _ _ H Hs) as [R1 R2].
  assert (Hus : exists us ts, parse_url_path path buf = Some us /\ records path us ts /\ List.length us <= 19 /\
     (us = [] \/ segments_of path ts)).
  { destruct (path_cases path) as [Ho|[ts Ht]].
    - exists [], []. split; [apply parse_url_overlong; assumption|]. split; [constructor|]. split; [cbn; lia|auto].
    - destruct (parse_url_segments path ts buf Hp Ht Hb) as [us [Hu Hrec]]. exists us, ts.
      split; [assumption|]. split; [assumption|]. split; [|auto]. rewrite (records_len _ _ _ Hrec). eapply walked_len; eassumption. }
  destruct Hus as [us [ts [Hu [Hrec [Hul Hcase]]]]].
  destruct (records_rec1 _ _ _ Hp Hrec) as [Hr1 Hst].
  destruct (dispatch_wide re ci r mth path buf us (ri_ci _ _ _ _ R1) Hu Hul) as [k [D [H1 H2]]].
  { intros m Hk. eapply rinv_calm; eassumption. }
  assert (ED : ServeCrash = D) by (eapply dispatch_det; [eassumption|eassumption|discriminate]).
  destruct (alookup (to_upper mth) (r_matchers r)) as [m|] eqn:Ek; [|congruence].
  destruct (ri_some _ _ _ _ R1 _ _ Ek) as [pats [M1 M2]].
  assert (Hatt : forall q, In q pats -> exists h, p_att q = Some h).
  { intros q Hq. destruct (forall2_in_r _ _ _ _ _ _ M2 Hq) as [rg [_ [B _]]]. eauto. }
  assert (Hreg : forall q t ps ks, In q pats -> parsed re ci q t ps ks ->
     (List.length ks <= 18 \/ any_only_last ks) /\
     forall ts w t, segments_of path ts -> In (Glob w) ks -> In t ts -> calm ci w t).
  { intros q t ps ks Hq P. destruct (forall2_in_r _ _ _ _ _ _ M2 Hq) as [rg [B1 [B2 [ps' [ks' P']]]]].
    assert (Ht : t = reg_text rg) by (rewrite <- (pd_raw _ _ _ _ _ _ P), <- (pd_raw _ _ _ _ _ _ P'); reflexivity).
    apply in_registered in B1. destruct B1 as [e [C1 [C2 C3]]]. subst e. destruct rg as [[m' t'] h]. cbn in *. subst t'.
    eapply Hro; [exact C1|apply same_method_upper; assumption|]. exists ps. apply (pd_means _ _ _ _ _ _ P). }
  assert (Hrt : forall l p, In (l, p) (leaves (m_trie m)) -> In (l, p) (routes m) /\ In p pats).
  { intros l p Hlp. assert (A : In (l, p) (routes m)) by (unfold routes; apply in_or_app; right; assumption).
    split; [assumption|]. eapply minv_pats_in; eauto. }
  unfold wide_behind in H2. destruct us as [|u us].
  - destruct (m_root m) as [p|] eqn:Er; [|congruence].
    assert (Hin : In ([], p) (routes m)) by (unfold routes; rewrite Er; left; reflexivity).
    destruct (Hatt p) as [h Hh]; [eapply minv_pats_in; eauto|]. unfold calls in H2. rewrite Hh in H2. congruence.
  - destruct Hcase as [|Hseg]; [discriminate|]. rewrite Hst in H2.
    destruct (wdfs re ci path (m_trie m) 0 (u :: us)) as [p ms| | |] eqn:Ed; try congruence.
    + destruct H2 as [segs' [H3 _]]. destruct (wdfs_sound _ _ _ _ _ _ _ _ Ed) as [l [L1 _]].
      destruct (Hatt p) as [h Hh]; [eapply Hrt; eassumption|]. unfold calls in H3. rewrite Hh in H3. congruence.
    + apply (wdfs_no_panic re ci path (u :: us) (m_trie m) 0 (u :: us)) in Ed; auto.
      * eapply search_quiet; [eassumption|eassumption|]. intros q t ps ks Hq P w s Hw Hs'.
        destruct (Hreg q t ps ks Hq P) as [_ A]. eauto.
      * apply (grown_made ci pats). apply (mi_grown _ _ _ _ _ M1).
      * exists []. left. cbn. lia.
      * intros l p Hlp. destruct (Hrt l p Hlp) as [A1 A2].
        pose proof (mi_parsed _ _ _ _ _ M1) as Hpp. rewrite Forall_forall in Hpp. destruct (Hpp p A2) as [t [ps [ks P]]].
        pose proof (mi_paths _ _ _ _ _ M1) as Hpa. rewrite Forall_forall in Hpa. specialize (Hpa _ A1). cbn [fst snd] in Hpa.
        destruct (Hreg p t ps ks A2 P) as [[B|B] _].
        -- left. cbn. rewrite (forall2_len _ _ _ _ _ Hpa).
           destruct (shows_all_len _ _ _ _ (pd_shows _ _ _ _ _ _ P)) as [X Y]. lia.
        -- right. split; [cbn in *; lia|]. eapply any_last_mts; [exact Hpa|apply (pd_shows _ _ _ _ _ _ P)|assumption].
Qed.
