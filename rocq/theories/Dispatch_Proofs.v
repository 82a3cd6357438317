(** * Requests: what the router does is what the search finds. *)
From Coq Require Import List NArith ZArith Ascii String Bool Lia Arith Permutation.
From Verif Require Import GoBase Glob_Model Glob_Spec Pattern_Model Pattern_Spec Pattern_Proofs
  Priority_Spec Priority_Proofs Url_Model Url_Spec Url_Proofs Match_Model Search_Proofs Trie_Proofs Wide_Proofs WideFound_Proofs
  Router_Model Routing_Spec Covers_Proofs Routes_Proofs.
Import ListNotations.
Local Open Scope string_scope.
Local Open Scope list_scope.
Local Open Scope nat_scope.

(** ** More fuel does not change an answer *)

Lemma match_loop_more : forall re ci path len f g st, match_loop re ci path len f st <> MFuel ->
  match_loop re ci path len (f + g) st = match_loop re ci path len f st.
Proof.
  intros re ci path len. induction f as [|f IH]; intros g st H; [cbn in H; congruence|].
  cbn [match_loop Nat.add] in *. destruct (round re ci path len st) as [st'|r]; [auto|reflexivity].
Qed.

Lemma match_path_more : forall re m path us f g, match_path f re m path us <> MatchFuel ->
  match_path (f + g) re m path us = match_path f re m path us.
Proof.
  intros re m path us f g H. unfold match_path in *. destruct (Nat.ltb _ _); [reflexivity|].
  assert (E : forall st, (match match_loop re (m_ci m) path (u8 (N.of_nat (List.length us))) f st with
        | MRet (Some p) segs' => Matched p (Some p) segs'
        | MRet None _ => NoMatch
        | MPanic => MatchPanic
        | MFuel => MatchFuel
        end) <> MatchFuel ->
     match_loop re (m_ci m) path (u8 (N.of_nat (List.length us))) (f + g) st =
     match_loop re (m_ci m) path (u8 (N.of_nat (List.length us))) f st).
  { intros st A. apply match_loop_more. intros B. rewrite B in A. congruence. }
  destruct us as [|u us]; [destruct (m_root m); [reflexivity|]|]; rewrite E by assumption; reflexivity.
Qed.

Lemma dispatch_more : forall re r mth path buf f g, dispatch_request f re r mth path buf <> ServeRuns ->
  dispatch_request (f + g) re r mth path buf = dispatch_request f re r mth path buf.
Proof.
  intros re r mth path buf f g H. unfold dispatch_request in *. destruct (parse_url_path path buf); [|reflexivity].
  destruct (alookup _ _); [|reflexivity]. rewrite match_path_more; [reflexivity|].
  intros A. rewrite A in H. congruence.
Qed.

Lemma dispatch_det : forall re r mth path buf k D f d, (forall f, dispatch_request (k + f) re r mth path buf = D) ->
  dispatch_request f re r mth path buf = d -> d <> ServeRuns -> d = D.
Proof.
  intros re r mth path buf k D f d H E Hd. rewrite <- (H f), Nat.add_comm. rewrite dispatch_more; congruence.
Qed.

(** ** The search behind a request *)

Definition calls (p : pattern) (rec : option pattern) (segs : list useg) : dispatch :=
  match p_att p with Some h => Calls h rec segs | None => ServeCrash end.

Lemma match_empty : forall re m path f, match_path (S f) re m path [] =
  match m_root m with Some p => Matched p None [] | None => NoMatch end.
Proof. intros re m path f. unfold match_path. cbn. destruct (m_root m); reflexivity. Qed.

Definition behind (re : engine) (ci : bool) (path : bytes) (m : matcher) (us : list useg) (D : dispatch) : Prop :=
  match us with
  | [] => D = match m_root m with Some p => calls p None [] | None => NotFound end
  | _ => match dfs re ci path (m_trie m) 0 (map strip us) with
         | Found p ms => exists segs', D = calls p (Some p) segs' /\ map strip segs' = map strip us /\ types segs' = ms
         | Fail | Abort => D = NotFound
         | Panic => D = ServeCrash
         end
  end.

Lemma minv_tree_ok : forall re ci k pats m, minv re ci k pats m -> (N.of_nat k < 65536)%N -> tree_ok (m_trie m).
Proof. intros re ci k pats m H Hk. destruct H. eapply tree_ok_every; eassumption. Qed.

Lemma dispatch_behind : forall re ci r mth path buf us, r_ci r = ci ->
  parse_url_path path buf = Some us -> List.length us <= 19 ->
  (forall m, alookup (to_upper mth) (r_matchers r) = Some m -> m_ci m = ci /\ tree_ok (m_trie m)) ->
  exists k D, (forall f, dispatch_request (k + f) re r mth path buf = D) /\
    match alookup (to_upper mth) (r_matchers r) with
    | None => D = NotFound
    | Some m => behind re ci path m us D
    end.
Proof.
  intros re ci r mth path buf us Hci Hp Hl Hm. unfold dispatch_request. rewrite Hp.
  destruct (alookup (to_upper mth) (r_matchers r)) as [m|]; [|exists 0, NotFound; auto].
  destruct (Hm m eq_refl) as [Hmc Ht]. destruct us as [|u us].
  - exists 1, (match m_root m with Some p => calls p None [] | None => NotFound end). split; [|reflexivity].
    intros f. cbn [Nat.add]. rewrite match_empty. destruct (m_root m); reflexivity.
  - destruct (match_is_dfs re ci path m (u :: us) Hmc Ht Hl ltac:(discriminate)) as [k [res [H1 H2]]].
    exists k. unfold behind. unfold of_outcome in H2. destruct (dfs re ci path (m_trie m) 0 (map strip (u :: us))) as [p ms| | |].
    + destruct H2 as [segs' [-> [H3 H4]]]. eexists. split; [intros f; rewrite H1; reflexivity|].
      exists segs'. auto.
    + subst res. exists NotFound. split; [intros f; rewrite H1; reflexivity|reflexivity].
    + subst res. exists NotFound. split; [intros f; rewrite H1; reflexivity|reflexivity].
    + subst res. exists ServeCrash. split; [intros f; rewrite H1; reflexivity|reflexivity].
Qed.

Lemma rinv_lookup : forall re ci hist r key m, rinv re ci hist r -> (N.of_nat (List.length hist) < 65536)%N ->
  alookup key (r_matchers r) = Some m -> m_ci m = ci /\ tree_ok (m_trie m).
Proof.
  intros re ci hist r key m H Hl Hk. destruct (ri_some _ _ _ _ H _ _ Hk) as [pats [P1 _]].
  split; [apply (mi_ci _ _ _ _ _ P1)|eapply minv_tree_ok; eassumption].
Qed.

(** The same on trees of any width. *)
Definition wide_behind (re : engine) (ci : bool) (path : bytes) (m : matcher) (us : list useg) (D : dispatch) : Prop :=
  match us with
  | [] => D = match m_root m with Some p => calls p None [] | None => NotFound end
  | _ => match wdfs re ci path (m_trie m) 0 (map strip us) with
         | Found p ms => exists segs', D = calls p (Some p) segs' /\ map strip segs' = map strip us /\ types segs' = ms
         | Fail | Abort => D = NotFound
         | Panic => D = ServeCrash
         end
  end.

Lemma dispatch_wide : forall re ci r mth path buf us, r_ci r = ci ->
  parse_url_path path buf = Some us -> List.length us <= 19 ->
  (forall m, alookup (to_upper mth) (r_matchers r) = Some m -> m_ci m = ci /\ calm_tree (m_trie m)) ->
  exists k D, (forall f, dispatch_request (k + f) re r mth path buf = D) /\
    match alookup (to_upper mth) (r_matchers r) with
    | None => D = NotFound
    | Some m => wide_behind re ci path m us D
    end.
Proof.
  intros re ci r mth path buf us Hci Hp Hl Hm. unfold dispatch_request. rewrite Hp.
  destruct (alookup (to_upper mth) (r_matchers r)) as [m|]; [|exists 0, NotFound; auto].
  destruct (Hm m eq_refl) as [Hmc Ht]. destruct us as [|u us].
  - exists 1, (match m_root m with Some p => calls p None [] | None => NotFound end). split; [|reflexivity].
    intros f. cbn [Nat.add]. rewrite match_empty. destruct (m_root m); reflexivity.
  - destruct (match_is_wdfs re ci path m (u :: us) Hmc Ht Hl ltac:(discriminate)) as [k [res [H1 H2]]].
    exists k. unfold wide_behind. unfold of_outcome in H2. destruct (wdfs re ci path (m_trie m) 0 (map strip (u :: us))) as [p ms| | |].
    + destruct H2 as [segs' [-> [H3 H4]]]. eexists. split; [intros f; rewrite H1; reflexivity|].
      exists segs'. auto.
    + subst res. exists NotFound. split; [intros f; rewrite H1; reflexivity|reflexivity].
    + subst res. exists NotFound. split; [intros f; rewrite H1; reflexivity|reflexivity].
    + subst res. exists ServeCrash. split; [intros f; rewrite H1; reflexivity|reflexivity].
Qed.

Lemma rinv_calm : forall re ci hist r key m, rinv re ci hist r ->
  alookup key (r_matchers r) = Some m -> m_ci m = ci /\ calm_tree (m_trie m).
Proof.
  intros re ci hist r key m H Hk. destruct (ri_some _ _ _ _ H _ _ Hk) as [pats [P1 _]].
  split; [apply (mi_ci _ _ _ _ _ P1)|]. apply calm_every. destruct P1. assumption.
Qed.

(** C17: serving a request ends. *)
Lemma dispatch_ends : forall re ci hist r mth path buf, rinv re ci hist r ->
  List.length buf = 19 ->
  exists k D, D <> ServeRuns /\ forall f, dispatch_request (k + f) re r mth path buf = D.
Proof.
  intros re ci hist r mth path buf H Hb.
  destruct (parse_url_no_panic path buf Hb) as [us [Hu Hul]].
  destruct (dispatch_wide re ci r mth path buf us (ri_ci _ _ _ _ H) Hu Hul) as [k [D [H1 H2]]].
  { intros m Hk. eapply rinv_calm; eassumption. }
  exists k, D. split; [|assumption].
  destruct (alookup (to_upper mth) (r_matchers r)) as [m|]; [|subst; discriminate].
  unfold wide_behind in H2. destruct us.
  - subst D. destruct (m_root m) as [p|]; [unfold calls; destruct (p_att p); discriminate|discriminate].
  - destruct (wdfs re ci path (m_trie m) 0 (map strip (u :: us))) as [p ms| | |]; try (subst; discriminate).
    destruct H2 as [s [-> _]]. unfold calls. destruct (p_att p); discriminate.
Qed.

(** ** Soundness and path variables *)

Lemma records_rec1 : forall path us ts, (blen path < 65536)%N -> records path us ts ->
  Forall2 (rec1 path) us ts /\ map strip us = us.
Proof.
  intros path us ts Hs H. unfold records in H. induction H as [|u t us ts [H1 [H2 [H3 [H4 H5]]]] _ IH]; [split; [constructor|reflexivity]|].
  destruct IH as [I1 I2]. split.
  - constructor; [|assumption]. split; [assumption|]. unfold sub16.
    rewrite (N.mod_small (u_start u)) by lia. replace (u_end u + 65536 - u_start u)%N with (blen t + 1 * 65536)%N by lia.
    rewrite N.mod_add by discriminate. apply N.mod_small. lia.
  - cbn [map]. rewrite I2. f_equal. destruct u as [a b c]. cbn in *. subst. reflexivity.
Qed.

Lemma strip_rec1 : forall path us us' ts, map strip us' = map strip us -> Forall2 (rec1 path) us ts -> Forall2 (rec1 path) us' ts.
Proof.
  intros path us us' ts E H. revert us' E. induction H as [|u t us ts Hu _ IH]; intros us' E.
  - destruct us'; [constructor|discriminate].
  - destruct us' as [|u' us']; [discriminate|]. cbn in E. injection E as E1 E2. constructor; [|auto].
    destruct u, u'. unfold strip, with_mt in *. cbn in *. unfold rec1, useg_text in *. cbn in *. congruence.
Qed.

(** The pieces of a text hold no constraint that starts with a brace. *)
Definition plain_text (re : engine) (ci : bool) (t : bytes) : Prop :=
  forall ps ks, means (re_ok re) ci t ps ks -> Forall (plain_piece ci) ks.

Lemma in_registered : forall key hist rg, In rg (registered key hist) <->
  exists e, In (rg, e) hist /\ e = Registered /\ to_upper (reg_method rg) = key.
Proof.
  intros key hist rg. unfold registered. rewrite in_map_iff. split.
  - intros [[rg' e] [E H]]. cbn in E. subst rg'. apply filter_In in H. destruct H as [H1 H2]. cbn in H2.
    apply andb_true_iff in H2. destruct H2 as [H2 H3]. apply end_eqb_eq in H2. apply beqb_eq in H3. eauto.
  - intros [e [H1 [H2 H3]]]. exists (rg, e). split; [reflexivity|]. apply filter_In. split; [assumption|].
    cbn. subst e. cbn. apply beqb_eq. assumption.
Qed.

Lemma forall2_in_r : forall (A B : Type) (R : A -> B -> Prop) l l' b, Forall2 R l l' -> In b l' ->
  exists a, In a l /\ R a b.
Proof.
  intros A B R l l' b H. induction H as [|x y l l' Hxy H IH]; intros Hi; [destruct Hi|].
  destruct Hi as [->|Hi]; [exists x; split; [left; reflexivity|assumption]|].
  destruct (IH Hi) as [a [A1 A2]]. exists a. split; [right; assumption|assumption].
Qed.
Lemma forall2_in_l : forall (A B : Type) (R : A -> B -> Prop) l l' a, Forall2 R l l' -> In a l ->
  exists b, In b l' /\ R a b.
Proof.
  intros A B R l l' a H. induction H as [|x y l l' Hxy H IH]; intros Hi; [destruct Hi|].
  destruct Hi as [->|Hi]; [exists y; split; [left; reflexivity|assumption]|].
  destruct (IH Hi) as [b [A1 A2]]. exists b. split; [right; assumption|assumption].
Qed.

Lemma route_reads : forall re ci k pats m l p t ps ks path us ts ms, minv re ci k pats m ->
  In (l, p) (leaves (m_trie m)) -> parsed re ci p t ps ks -> Forall (plain_piece ci) ks ->
  covers re ci path l us ms -> Forall2 (rec1 path) us ts ->
  exists bs, reads_as ci (re_match re) ks ts bs /\ map fst bs = names ks /\ map snd bs = captured ms ts.
Proof.
  intros re ci k pats m l p t ps ks path us ts ms H Hl Hp Hpl Hc Hr.
  pose proof (mi_paths _ _ _ _ _ H) as Hpa. rewrite Forall_forall in Hpa.
  assert (Hin : In (l, p) (routes m)) by (unfold routes; apply in_or_app; right; assumption).
  specialize (Hpa _ Hin). cbn [fst snd] in Hpa.
  eapply covers_reads; [eassumption| |eassumption|apply (pd_shows _ _ _ _ _ _ Hp)| |assumption|assumption].
  - eapply leaves_below; [apply (mi_shown _ _ _ _ _ H)|eassumption].
  - apply (pd_means _ _ _ _ _ _ Hp).
Qed.

Lemma dispatch_sound : forall re ci hist r f mth path ts buf h rec segs,
  rinv re ci hist r ->
  Forall (fun x => plain_text re ci (reg_text (fst x))) hist ->
  (blen path < 65536)%N -> segments_of path ts -> List.length buf = 19 ->
  dispatch_request f re r mth path buf = Calls h rec segs ->
  exists rg ps ks bs, In rg (registered (to_upper mth) hist) /\ reg_handler rg = h /\
    means (re_ok re) ci (reg_text rg) ps ks /\ reads_as ci (re_match re) ks ts bs /\
    forall name, path_var rec path segs name = Some (match value_of name bs with Some v => v | None => [] end).
Proof.
  intros re ci hist r f mth path ts buf h rec segs H Hpl Hs Hseg Hb E.
  destruct (parse_url_segments path ts buf Hs Hseg Hb) as [us [Hu Hrec]].
  assert (Hul : List.length us <= 19).
  { rewrite (records_len _ _ _ Hrec). eapply walked_len; eassumption. }
  destruct (records_rec1 _ _ _ Hs Hrec) as [Hr1 Hst].
  destruct (dispatch_wide re ci r mth path buf us (ri_ci _ _ _ _ H) Hu Hul) as [k [D [H1 H2]]].
  { intros m Hk. eapply rinv_calm; eassumption. }
  assert (ED : Calls h rec segs = D) by (eapply dispatch_det; [eassumption|eassumption|discriminate]).
  destruct (alookup (to_upper mth) (r_matchers r)) as [m|] eqn:Ek; [|congruence].
  destruct (ri_some _ _ _ _ H _ _ Ek) as [pats [M1 M2]].
  assert (Hpat : forall l p, In (l, p) (routes m) -> calls p rec segs = Calls h rec segs ->
     exists rg ps ks, In rg (registered (to_upper mth) hist) /\ reg_handler rg = h /\
       parsed re ci p (reg_text rg) ps ks /\ Forall (plain_piece ci) ks).
  { intros l p Hin Hc. assert (Hp : In p pats) by (eapply minv_pats_in; eauto).
    destruct (forall2_in_r _ _ _ _ _ _ M2 Hp) as [rg [R1 [R2 [ps [ks R3]]]]].
    exists rg, ps, ks. split; [assumption|]. split.
    - unfold calls in Hc. rewrite R2 in Hc. congruence.
    - split; [assumption|]. apply in_registered in R1. destruct R1 as [e [R1 _]].
      rewrite Forall_forall in Hpl. specialize (Hpl _ R1). cbn in Hpl. eapply Hpl. apply (pd_means _ _ _ _ _ _ R3). }
  unfold wide_behind in H2. destruct us as [|u us].
  - inversion Hr1; subst ts. destruct (m_root m) as [p|] eqn:Er; [|congruence].
    assert (Hin : In ([], p) (routes m)) by (unfold routes; rewrite Er; left; reflexivity).
    assert (Hcl : calls p rec segs = Calls h rec segs).
    { rewrite H2 in ED. unfold calls in *. destruct (p_att p); [|discriminate]. injection ED as -> -> ->. reflexivity. }
    destruct (Hpat _ _ Hin Hcl) as [rg [ps [ks [R1 [R2 [R3 R4]]]]]].
    pose proof (mi_paths _ _ _ _ _ M1) as Hpa. rewrite Forall_forall in Hpa. specialize (Hpa _ Hin).
    cbn in Hpa. inversion Hpa as [Hsn|]. symmetry in H0. apply (proj1 (parsed_nil _ _ _ _ _ _ R3)) in H0. subst ks.
    exists rg, ps, [], []. split; [assumption|]. split; [assumption|]. split; [apply (pd_means _ _ _ _ _ _ R3)|].
    split; [constructor|]. intros name. cbn.
    assert (rec = None) by (unfold calls in H2; rewrite H2 in ED; destruct (p_att p); congruence). subst rec. reflexivity.
  - rewrite Hst in H2. destruct (wdfs re ci path (m_trie m) 0 (u :: us)) as [p ms| | |] eqn:Ed; try congruence.
    destruct H2 as [segs' [H3 [H4 H5]]]. rewrite H3 in ED.
    assert (Hrec' : rec = Some p /\ segs = segs') by (unfold calls in ED; destruct (p_att p); [injection ED; auto|discriminate]).
    destruct Hrec' as [-> ->].
    destruct (wdfs_sound _ _ _ _ _ _ _ _ Ed) as [l [L1 L2]].
    assert (Hin : In (l, p) (routes m)) by (unfold routes; apply in_or_app; right; assumption).
    destruct (Hpat _ _ Hin (eq_sym ED)) as [rg [ps [ks [R1 [R2 [R3 R4]]]]]].
    destruct (route_reads _ _ _ _ _ _ _ _ _ _ _ _ _ _ M1 L1 R3 R4 L2 Hr1) as [bs [B1 [B2 B3]]].
    exists rg, ps, ks, bs. split; [assumption|]. split; [assumption|]. split; [apply (pd_means _ _ _ _ _ _ R3)|].
    split; [assumption|]. intros name. eapply path_var_value.
    + apply (pd_shows _ _ _ _ _ _ R3).
    + apply (pd_caps _ _ _ _ _ _ R3).
    + eapply strip_rec1; [|exact Hr1]. rewrite H4. symmetry. assumption.
    + assumption.
    + rewrite H5. assumption.
Qed.
