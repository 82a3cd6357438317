(** * Routers with 65536 literal routes side by side *)
From Coq Require Import List NArith Ascii String Bool Lia Arith Permutation.
From Verif Require Import GoBase Sort_Model Sort_Proofs Glob_Model Pattern_Model Url_Model Match_Model Router_Model Glob_Spec Pattern_Spec Url_Spec Routing_Spec Priority_Spec
  Url_Proofs Pattern_Proofs Priority_Proofs Routes_Proofs Choice_Spec Witness_Proofs.
Import ListNotations.
Local Open Scope string_scope.
Local Open Scope list_scope.
Local Open Scope nat_scope.

Definition lit_seg (n : bytes) : segment := Seg n MTLiteral [] None.
Definition single (n : bytes) : Prop := reads n (Lit n) /\ ~ In "/"%char n.

Lemma single_parsed fuel re n : 0 < fuel -> single n ->
  exists prio, parse_pattern fuel re ("/"%char :: n) false = POk (Pat false 0 1 prio [lit_seg n] ("/"%char :: n) None).
Proof.
  intros F [R S]. pose proof (reads_nonempty _ _ R) as Ne. destruct (reads_validate _ _ R) as [V D].
  unfold parse_pattern. change (Ascii.eqb "/"%char slash) with true. cbn [negb]. destruct n as [|c n]; [congruence|].
  set (t := c :: n) in *.
  assert (L : List.length (filter (Ascii.eqb slash) ("/"%char :: t)) = 1).
  { cbn [filter]. change (Ascii.eqb slash "/") with true. cbn [List.length]. f_equal.
    clear - S. induction t as [|x t IH]; [reflexivity|]. cbn [filter]. destruct (Ascii.eqb slash x) eqn:E.
    - apply Ascii.eqb_eq in E. subst x. exfalso. apply S. now left.
    - apply IH. intros I. apply S. now right. }
  rewrite L. rewrite parse_loop_pieces, pieces_of_last by assumption. cbn [rev app add_all repeat].
  unfold add_piece. rewrite V. cbn [negb ps_last]. change (mt_eqb MTUnknown MTMulti) with false. cbn [andb ps_segs ps_count].
  unfold make_segment. rewrite D. cbn [mt_of]. cbn [update N.to_nat]. cbn [ps_caps ps_max].
  change (Pos.to_nat 1) with 1. change (u8 (0 + 1)) with 1%N. cbn [firstn all_some]. change (mt_code MTUnknown <? mt_code MTLiteral)%N with true.
  cbn [ps_count ps_segs N.to_nat]. change (Pos.to_nat 1) with 1. cbn [firstn all_some].
  fold (lit_seg t). rewrite rank_value; [|exact F|cbn; lia|intros s []]. eexists. reflexivity.
Qed.

(** The children after the registration of the names. *)
Definition holds (names : list bytes) (m : matcher) : Prop :=
  m_ci m = false /\ m_root m = None /\ Permutation (map n_seg (n_ch (m_trie m))) (map lit_seg names).

Lemma sort_perm l : Permutation (sort_children l) l.
Proof. apply stable_perm. Qed.

Lemma find_none n l : (forall c, In c l -> exists x, n_seg c = lit_seg x /\ x <> n) -> find_child false (lit_seg n) l = None.
Proof.
  induction l as [|c l IH]; intros H; [reflexivity|]. cbn [find_child].
  destruct (H c (or_introl eq_refl)) as [x [E N]]. rewrite E. unfold has_same_val, lit_seg at 1. cbn [s_mt s_val lit_seg].
  change (mt_eqb MTLiteral MTLiteral) with true. cbn [andb]. destruct (beqb n x) eqn:B; [apply beqb_eq in B; congruence|].
  rewrite IH; [reflexivity|]. intros c' I. apply H. now right.
Qed.

Lemma add_one names m n prio raw att : holds names m -> ~ In n names ->
  exists m', add_pattern m (Pat false 0 1 prio [lit_seg n] raw att) = (m', false) /\ holds (n :: names) m'.
Proof.
  intros (C & R & P) N. unfold add_pattern. cbn [p_segs add_segs]. rewrite C. rewrite find_none.
  - eexists. split; [reflexivity|]. split; [reflexivity|]. split; [exact R|]. cbn [m_trie set_children n_ch].
    rewrite (Permutation_map n_seg (sort_perm _)), map_app. cbn [map n_seg]. rewrite <- Permutation_cons_append. apply perm_skip. exact P.
  - intros c I. apply (in_map n_seg) in I. apply (Permutation_in _ P) in I. apply in_map_iff in I. destruct I as [x [E I]].
    exists x. split; [auto|]. intros ->. contradiction.
Qed.

Lemma many_registered fuel re mth h : 0 < fuel -> forall names old r,
  r_ci r = false -> (exists m, alookup (to_upper mth) (r_matchers r) = Some m /\ holds old m) \/ (old = [] /\ r_matchers r = []) ->
  (forall k m, alookup k (r_matchers r) = Some m -> k = to_upper mth) ->
  Forall single names -> NoDup (rev names ++ old) -> (names = [] -> old <> []) ->
  exists r' outs m, handle_all fuel re r (map (fun n => (mth, "/"%char :: n, h n)) names) = (r', outs) /\ Forall (eq Registered) outs /\
    alookup (to_upper mth) (r_matchers r') = Some m /\ holds (rev names ++ old) m /\
    forall k m, alookup k (r_matchers r') = Some m -> k = to_upper mth.
Proof.
  intros F. induction names as [|n names IH]; intros old r C O K S D Ne.
  - destruct O as [[m [A H]]|[-> _]]; [|exfalso; apply Ne; reflexivity]. exists r, [], m. cbn. auto.
  - inversion S as [|? ? Sn Ss]; subst. cbn [map handle_all rev] in *. destruct (single_parsed fuel re n F Sn) as [prio E].
    rewrite <- app_assoc in D. cbn [app] in D.
    assert (Nn : ~ In n old). { apply NoDup_remove_2 in D. intros I. apply D, in_or_app. now right. }
    assert (Hm : exists m, match alookup (to_upper mth) (r_matchers r) with Some m => m | None => new_matcher false end = m /\ holds old m).
    { destruct O as [[m [A H]]|[-> A]]; [rewrite A; eauto|]. rewrite A. cbn [alookup]. eexists. split; [reflexivity|]. repeat split; constructor. }
    destruct Hm as [m [Em H]]. destruct (add_one old m n prio ("/"%char :: n) (Some (h n)) H Nn) as [m' [Ea H']].
    unfold handle. rewrite C, E. rewrite Em. unfold attach. cbn [p_ci p_caps p_max p_prio p_segs p_raw]. rewrite Ea.
    set (r1 := Router false (aset (to_upper mth) m' (r_matchers r))).
    destruct (IH (n :: old) r1) as (r' & outs & mm & E1 & E2 & E3 & E4 & E5).
    + reflexivity.
    + left. exists m'. split; [|exact H']. cbn [r1 r_matchers]. rewrite alookup_aset. rewrite (proj2 (beqb_eq _ _) eq_refl). reflexivity.
    + intros k m0. cbn [r1 r_matchers]. rewrite alookup_aset. destruct (beqb k (to_upper mth)) eqn:B; [intros _; apply beqb_eq; exact B|apply K].
    + exact Ss.
    + exact D.
    + discriminate.
    + rewrite E1.
      exists r', (Registered :: outs), mm. split; [reflexivity|]. split; [constructor; [reflexivity|exact E2]|]. split; [exact E3|].
      rewrite <- app_assoc. cbn [app]. split; [exact E4|exact E5].
Qed.

(** No child is looked at. *)
Lemma none_served re r mth0 m names f mth path buf :
  alookup (to_upper mth0) (r_matchers r) = Some m -> holds names m ->
  (forall k m, alookup k (r_matchers r) = Some m -> k = to_upper mth0) ->
  (N.of_nat (List.length names) mod 65536 = 0)%N -> List.length buf = 19 ->
  dispatch_request (S f) re r mth path buf = NotFound.
Proof.
  intros A H K L B. unfold dispatch_request. pose proof (parse_url_total path buf B) as T.
  destruct (parse_url_path path buf) as [segs|]; [|congruence].
  destruct (alookup (to_upper mth) (r_matchers r)) as [m0|] eqn:A0; [|reflexivity].
  pose proof (K _ _ A0) as E. rewrite E, A in A0. injection A0 as <-. destruct H as (C & R & P).
  unfold match_path. destruct (Nat.ltb max_path_segments (List.length segs)) eqn:Lt; [reflexivity|].
  apply Nat.ltb_ge in Lt.
  assert (Le : List.length (n_ch (m_trie m)) = List.length names).
  { pose proof (Permutation_length P) as Q. rewrite !map_length in Q. exact Q. }
  assert (X : match_loop re (m_ci m) path (u8 (N.of_nat (List.length segs))) (S f)
     (MS 0 0 (m_trie m) [] (repeat (0%N, 0%N) max_path_segments) (repeat MTUnknown max_path_segments) segs) = MRet None segs).
  { cbn [match_loop]. unfold round. cbn [ms_idx ms_segs ms_mts ms_nstack ms_depth ms_cur ms_anc].
    destruct (0 <? u8 (N.of_nat (List.length segs)))%N eqn:Z; [|reflexivity]. cbn [negb].
    destruct segs as [|u segs]; [discriminate Z|]. cbn [N.to_nat nth_error]. change (repeat MTUnknown max_path_segments) with (MTUnknown :: repeat MTUnknown (max_path_segments - 1)).
    change (repeat (0%N, 0%N) max_path_segments) with ((0%N, 0%N) :: repeat (0%N, 0%N) (max_path_segments - 1)). cbn [nth_error].
    change (mt_eqb MTUnknown MTUnknown) with true. cbv iota.
    assert (Z0 : u16 (N.of_nat (List.length (n_ch (m_trie m)))) = 0%N) by (rewrite Le; exact L).
    rewrite Z0. cbn [N.to_nat firstn skipn first_match]. unfold round_failed. cbn [ms_anc ms_segs]. reflexivity. }
  destruct segs as [|u segs]; [rewrite R|]; rewrite X; reflexivity.
Qed.

Lemma many_lost : forall fuel re mth names (h : bytes -> nat), 0 < fuel -> NoDup names ->
  Forall (fun n => reads n (Lit n) /\ ~ In "/"%char n) names -> names <> [] ->
  (N.of_nat (List.length names) mod 65536 = 0)%N ->
  exists r outs, handle_all fuel re (new_router false) (map (fun n => (mth, "/"%char :: n, h n)) names) = (r, outs) /\
    Forall (eq Registered) outs /\
    forall mth' path buf f, List.length buf = 19 -> dispatch_request (S f) re r mth' path buf = NotFound.
Proof.
  intros fuel re mth names h F D S Ne L.
  destruct (many_registered fuel re mth h F names [] (new_router false)) as (r & outs & m & E1 & E2 & E3 & E4 & E5);
    [reflexivity|right; auto|intros k m H; discriminate H|exact S|rewrite app_nil_r; apply NoDup_rev; exact D|intros; contradiction|].
  rewrite app_nil_r in E4. exists r, outs. split; [exact E1|]. split; [exact E2|]. intros mth' path buf f B.
  refine (none_served re r mth m (rev names) f mth' path buf E3 E4 E5 _ B). rewrite rev_length. exact L.
Qed.

Lemma handle_all_outs fuel re : forall regs r r' outs, handle_all fuel re r regs = (r', outs) -> List.length outs = List.length regs.
Proof.
  induction regs as [|[[mth t] h] regs IH]; intros r r' outs E; cbn [handle_all] in E; [injection E as _ <-; reflexivity|].
  destruct (handle fuel re r mth t h) as [r1 e]. destruct (handle_all fuel re r1 regs) as [r2 es] eqn:E2. injection E as _ <-.
  cbn [List.length]. f_equal. exact (IH _ _ _ E2).
Qed.
Lemma combine_registered {A : Type} : forall (l : list A) outs x, Forall (eq Registered) outs -> List.length outs = List.length l -> In x l -> In (x, Registered) (combine l outs).
Proof.
  induction l as [|y l IH]; intros outs x F L I; [destruct I|]. destruct outs as [|o outs]; [discriminate L|]. inversion F; subst.
  cbn [combine]. destruct I as [->|I]; [now left|right]. apply IH; auto.
Qed.

Lemma many_routes : forall fuel re mth names (h : bytes -> nat), 0 < fuel -> NoDup names ->
  Forall (fun n => reads n (Lit n) /\ ~ In "/"%char n) names -> names <> [] ->
  (N.of_nat (List.length names) mod 65536 = 0)%N ->
  let regs := map (fun n => (mth, "/"%char :: n, h n)) names in
  exists r outs, handle_all fuel re (new_router false) regs = (r, outs) /\ Forall (eq Registered) outs /\
    (forall n, In n names -> route_of (re_ok re) false (combine regs outs) mth (mth, "/"%char :: n, h n) [Lit n] /\
       reads_as false (re_match re) [Lit n] [n] []) /\
    forall mth' path buf f, List.length buf = 19 -> dispatch_request (S f) re r mth' path buf = NotFound.
Proof.
  intros fuel re mth names h F D S Ne L regs. destruct (many_lost fuel re mth names h F D S Ne L) as (r & outs & E & R & X).
  exists r, outs. split; [exact E|]. split; [exact R|]. split; [|exact X]. intros n I. rewrite Forall_forall in S. destruct (S n I) as [Rn Sn]. split.
  - split; [|split; [reflexivity|]].
    + apply combine_registered; [exact R|exact (handle_all_outs _ _ _ _ _ _ E)|]. exact (in_map (fun n => (mth, "/"%char :: n, h n)) names n I).
    + exists [n]. split; [split; [repeat constructor; exact Sn|]|].
      * left. split; [|discriminate]. cbn [reg_text fst snd spelled]. rewrite app_nil_r. reflexivity.
      * split; [constructor; [exact Rn|constructor]|]. split; [constructor|]. intros x y [H|[]]. discriminate H.
  - repeat constructor.
Qed.

(** ** The words of a given length over two letters *)
Fixpoint words (k : nat) : list bytes :=
  match k with
  | O => [[]]
  | S k' => map (cons "a"%char) (words k') ++ map (cons "b"%char) (words k')
  end.
Lemma words_length k : List.length (words k) = 2 ^ k.
Proof. induction k as [|k IH]; [reflexivity|]. cbn [words Nat.pow]. rewrite app_length, !map_length, IH. lia. Qed.
Lemma words_letters k : forall w, In w (words k) -> List.length w = k /\ Forall (fun c => c = "a"%char \/ c = "b"%char) w.
Proof.
  induction k as [|k IH]; intros w I; cbn [words] in I.
  - destruct I as [<-|[]]. split; [reflexivity|constructor].
  - apply in_app_or in I. destruct I as [I|I]; apply in_map_iff in I; destruct I as [v [<- I]]; destruct (IH v I) as [E F]; cbn [List.length];
      (split; [f_equal; exact E|constructor; [auto|exact F]]).
Qed.
Lemma words_nodup k : NoDup (words k).
Proof.
  induction k as [|k IH]; cbn [words]; [repeat constructor; intros []|].
  assert (M : forall c, NoDup (map (cons c) (words k))).
  { intros c. induction IH as [|w l N _ IH]; cbn [map]; constructor; [|exact IH].
    intros I. apply in_map_iff in I. destruct I as [v [E I]]. injection E as ->. contradiction. }
  revert M. generalize (words k). clear. intros l M. pose proof (M "a"%char) as A. pose proof (M "b"%char) as B.
  assert (X : forall w, In w (map (cons "a"%char) l) -> ~ In w (map (cons "b"%char) l)).
  { intros w I J. apply in_map_iff in I. apply in_map_iff in J. destruct I as [v [<- _]]. destruct J as [v' [E _]]. discriminate E. }
  revert X A. generalize (map (cons "a"%char) l). intros la. induction la as [|w la IH]; intros X A; [exact B|].
  cbn [app]. inversion A; subst. constructor.
  - intros I. apply in_app_or in I. destruct I as [I|I]; [contradiction|]. exact (X w (or_introl eq_refl) I).
  - apply IH; [|assumption]. intros v I. apply X. now right.
Qed.
Lemma words_single k w : 0 < k -> In w (words k) -> reads w (Lit w) /\ ~ In "/"%char w.
Proof.
  intros K I. destruct (words_letters k w I) as [L F]. rewrite Forall_forall in F.
  assert (N : forall c, c <> "a"%char -> c <> "b"%char -> ~ In c w) by (intros c A B J; destruct (F c J); congruence).
  split; [|apply N; discriminate]. constructor.
  - intros ->. cbn in L. lia.
  - apply N; discriminate.
  - apply N; discriminate.
  - destruct w as [|c w]; [discriminate|]. cbn [hd]. destruct (F c (or_introl eq_refl)); subst c; discriminate.
  - destruct w as [|c w]; [discriminate|]. intros E. assert (J : In (last (c :: w) "a"%char) (c :: w)) by (clear; revert c; induction w as [|d w IH]; intros c; [now left|right; apply IH]).
    rewrite E in J. apply F in J. destruct J; discriminate.
Qed.

Lemma words_many : NoDup (words 16) /\ Forall (fun n => reads n (Lit n) /\ ~ In "/"%char n) (words 16) /\ words 16 <> [] /\
  (N.of_nat (List.length (words 16)) = 65536)%N.
Proof.
  split; [apply words_nodup|]. split; [apply Forall_forall; intros w; apply words_single; lia|].
  assert (E : (N.of_nat (List.length (words 16)) = 65536)%N) by (rewrite words_length, Nat2N.inj_pow; reflexivity).
  split; [|exact E]. intros X. rewrite X in E. discriminate E.
Qed.
Lemma words_path : In (str "abababababababab") (words 16) /\ segments_of (str "/abababababababab") [str "abababababababab"].
Proof.
  split.
  - assert (H : forall k, In (List.concat (repeat (str "ab") k)) (words (2 * k))).
    { induction k as [|k IH]; [now left|]. replace (2 * S k) with (S (S (2 * k))) by lia. cbn [repeat List.concat words].
      apply in_or_app. left. change (str "ab" ++ List.concat (repeat (str "ab") k)) with ("a"%char :: "b"%char :: List.concat (repeat (str "ab") k)).
      apply in_map, in_or_app. right. apply in_map, IH. }
    exact (H 8).
  - apply (segments_spelled (str "abababababababab") []); [repeat constructor; intros X; repeat (destruct X as [X|X]; [discriminate X|]); destruct X|].
    few.
Qed.
Lemma many_case : exists names, NoDup names /\ Forall (fun n => reads n (Lit n) /\ ~ In "/"%char n) names /\ names <> [] /\
  (N.of_nat (List.length names) = 65536)%N /\ In (str "abababababababab") names /\ segments_of (str "/abababababababab") [str "abababababababab"].
Proof.
  exists (words 16). destruct words_many as (A & B & C & D). split; [exact A|]. split; [exact B|]. split; [exact C|]. split; [exact D|]. exact words_path.
Qed.
