(** * Path variables while a request is handled: proofs *)
From Coq Require Import List NArith Ascii String Bool Lia Arith.
From Verif Require Import GoBase Glob_Model Pattern_Model Url_Model Match_Model Router_Model Pattern_Spec Url_Spec Routing_Spec Loose_Spec Loose_Proofs Witness_Proofs VarTime_Model VarTime_Spec.
Import ListNotations.
Local Open Scope string_scope.
Local Open Scope list_scope.
Local Open Scope nat_scope.

Lemma put_at_mark {A : Type} (l : list A) : forall i x, i < List.length l -> put_at i x l = mark i x l.
Proof.
  induction l as [|y l IH]; intros i x H; [cbn in H; lia|]. destruct i as [|i]; [reflexivity|]. cbn in H |- *. unfold put_at in *. cbn [firstn skipn List.app]. now rewrite <- IH by lia.
Qed.
Lemma mark_length {A : Type} (l : list A) : forall i x, List.length (mark i x l) = List.length l.
Proof. induction l as [|y l IH]; intros [|i] x; cbn; auto. Qed.
Lemma put_at_length {A : Type} (l : list A) i x : i < List.length l -> List.length (put_at i x l) = List.length l.
Proof. intro H. now rewrite put_at_mark, mark_length. Qed.
Lemma mark_same {A : Type} (l : list A) : forall i x, i < List.length l -> nth_error (mark i x l) i = Some x.
Proof. induction l as [|y l IH]; intros [|i] x H; cbn in *; try lia; [reflexivity|]. apply IH. lia. Qed.
Lemma mark_other {A : Type} (l : list A) : forall i j x, i <> j -> nth_error (mark i x l) j = nth_error l j.
Proof. induction l as [|y l IH]; intros [|i] [|j] x H; cbn; try reflexivity; try congruence. apply IH. congruence. Qed.

Section Kept.
Variable p : option pattern.
Variable path : bytes.
Variable segs rest : list useg.

(** The contexts and the traces go together. *)
Definition fits (m : memory) (t : traces) (c : mvalue) (x : nat * nat * bool) : Prop :=
  let '(r, s, cut) := x in
  mv_url c = r /\ mv_array c = s /\ mv_pattern c = p /\ r < List.length (me_urls m) /\ s < List.length (me_arrays m) /\
  (nth_error (tr_requests t) r = Some false -> nth_error (me_urls m) r = Some path) /\
  (cut = false -> nth_error (tr_segments t) s = Some false -> segments_at m c = segs).
Definition together (m : memory) (t : traces) : Prop :=
  List.length (tr_requests t) = List.length (me_urls m) /\ List.length (tr_segments t) = List.length (me_arrays m) /\
  Forall2 (fits m t) (me_contexts m) (tr_contexts t).

Lemma pair_at {A B : Type} (R : A -> B -> Prop) l l' i : Forall2 R l l' ->
  match nth_error l i, nth_error l' i with Some a, Some b => R a b | None, None => True | _, _ => False end.
Proof. intro F. revert i. induction F as [|a b l l' H F IH]; intros [|i]; cbn; auto. apply IH. Qed.

Lemma pairs_app {A B : Type} (R : A -> B -> Prop) l l' a b : Forall2 R l l' -> R a b -> Forall2 R (l ++ [a]) (l' ++ [b]).
Proof. intros F H. apply Forall2_app; [exact F|]. constructor; [exact H|constructor]. Qed.

Lemma pairs_mark {A B : Type} (R : A -> B -> Prop) l l' a b i : Forall2 R l l' -> R a b -> Forall2 R (mark i a l) (mark i b l').
Proof. intros F H. revert i. induction F as [|x y l l' K F IH]; intros [|i]; cbn; constructor; auto. Qed.

Lemma app_at {A : Type} (l : list A) y i : i < List.length l -> nth_error (l ++ [y]) i = nth_error l i.
Proof. intro H. now apply nth_error_app1. Qed.

Lemma segments_more m u c cs : mv_array c < List.length (me_arrays m) ->
  segments_at (Memory u (me_arrays m ++ cs) (me_contexts m)) c = segments_at m c.
Proof. intro H. unfold segments_at. cbn [me_arrays]. now rewrite app_nth1. Qed.

Lemma assign_contexts m c k u : me_contexts (assign_segment m c k u) = me_contexts m /\ me_urls (assign_segment m c k u) = me_urls m.
Proof. unfold assign_segment. destruct (_ <? _); split; reflexivity. Qed.

Lemma assign_together m t c k u s : together m t -> mv_array c = s -> s < List.length (me_arrays m) ->
  together (assign_segment m c k u) (Traces (tr_contexts t) (tr_requests t) (mark s true (tr_segments t))).
Proof.
  intros (H1 & H2 & F) E L. unfold assign_segment. destruct (k <? List.length (segments_at m c)) eqn:K.
  - split; [exact H1|]. split; [cbn; rewrite mark_length, put_at_length; lia|]. cbn [me_contexts tr_contexts].
    revert F. apply Forall2_impl_in || idtac.
    induction 1 as [|a b l l' H F IH]; constructor; [|exact IH].
    destruct b as [[r s'] cut]. destruct H as (A1 & A2 & A3 & A4 & A5 & A6 & A7). unfold fits. cbn [me_urls me_arrays tr_requests tr_segments].
    repeat split; auto; [rewrite put_at_length; lia|]. intros C X. destruct (Nat.eq_dec s s') as [->|N]; [rewrite mark_same in X by lia; discriminate X|].
    rewrite mark_other in X by exact N. rewrite <- (A7 C X). unfold segments_at. cbn [me_arrays]. f_equal. f_equal. rewrite A2, put_at_mark by lia.
    assert (G : forall (d : list useg), nth s' (mark (mv_array c) (put_at (mv_off c + k) u (nth (mv_array c) (me_arrays m) [])) (me_arrays m)) d = nth s' (me_arrays m) d).
    { intro d. rewrite <- !nth_default_eq. unfold nth_default. rewrite mark_other by congruence. reflexivity. }
    apply G.
  - split; [exact H1|]. split; [cbn; rewrite mark_length; exact H2|]. cbn [tr_contexts].
    induction F as [|a b l l' H F IH]; constructor; [|exact IH].
    destruct b as [[r s'] cut]. destruct H as (A1 & A2 & A3 & A4 & A5 & A6 & A7). unfold fits. cbn [tr_requests tr_segments].
    repeat split; auto. intros C X. apply A7; [exact C|]. destruct (Nat.eq_dec s s') as [->|N]; [rewrite mark_same in X by lia; discriminate X|].
    now rewrite mark_other in X.
Qed.

Lemma mark_self {A : Type} (l : list A) : forall i x, nth_error l i = Some x -> mark i x l = l.
Proof. induction l as [|y l IH]; intros [|i] x H; cbn in *; try discriminate H; [congruence|]. now rewrite IH. Qed.

Lemma deed_together m t d : together m t -> together (fst (do_deed m d)) (note t d).
Proof.
  intro TG. pose proof TG as (H1 & H2 & F).
  destruct d as [i|i|i x|i x|i lo hi|i k|i k j l|i name]; cbn [do_deed note]; pose proof (pair_at _ _ _ i F) as P;
    destruct (nth_error (me_contexts m) i) as [c|] eqn:EC; destruct (nth_error (tr_contexts t) i) as [[[r s] cut]|] eqn:ET; try (destruct P); try exact TG; cbn [fst].
  - split; [exact H1|]. split; [exact H2|]. cbn [me_contexts tr_contexts]. apply pairs_app.
    + exact F.
    + repeat split; tauto.
  - destruct H0 as (A2 & A3 & A4 & A5 & A6 & A7). rename H into A1.
    split; [exact H1|]. split; [cbn; rewrite !app_length; cbn; lia|]. cbn [me_contexts tr_contexts]. apply pairs_app.
    + clear EC ET. induction F as [|a b l l' H F IH]; constructor; [|exact IH]. destruct b as [[r' s'] cut']. destruct H as (B1 & B2 & B3 & B4 & B5 & B6 & B7).
      unfold fits. cbn [me_urls me_arrays tr_requests tr_segments]. repeat split; auto; [rewrite app_length; lia|]. intros C X. rewrite app_at in X by lia.
      rewrite <- (B7 C X). unfold segments_at. cbn [me_arrays]. now rewrite app_nth1 by lia.
    + unfold fits. cbn [mv_url mv_array mv_pattern me_urls me_arrays tr_requests tr_segments]. repeat split; auto; [rewrite app_length; cbn; lia|].
      intros _ X. rewrite nth_error_app2, Nat.sub_diag in X by lia. cbn in X. injection X as X. apply orb_false_iff in X. destruct X as [X ->].
      unfold segments_at at 1. cbn [mv_len mv_off mv_array me_arrays]. rewrite app_nth2, Nat.sub_diag by lia. cbn [nth skipn]. rewrite firstn_all. apply A7; [reflexivity|].
      rewrite (nth_error_nth' (tr_segments t) true) by lia. now rewrite X.
  - destruct H0 as (A2 & A3 & A4 & A5 & A6 & A7). rename H into A1.
    split; [cbn; rewrite !app_length; cbn; lia|]. split; [exact H2|]. cbn [me_contexts tr_contexts].
    rewrite put_at_mark by (apply nth_error_Some; congruence). apply pairs_mark.
    + clear EC ET. induction F as [|a b l l' H F IH]; constructor; [|exact IH]. destruct b as [[r' s'] cut']. destruct H as (B1 & B2 & B3 & B4 & B5 & B6 & B7).
      unfold fits. cbn [me_urls me_arrays tr_requests tr_segments]. repeat split; auto; [rewrite app_length; lia|]. intro X. rewrite app_at in X by lia. rewrite app_at by lia. auto.
    + unfold fits. cbn [mv_url mv_array mv_pattern me_urls me_arrays tr_requests tr_segments]. repeat split; auto; [rewrite app_length; cbn; lia|].
      intro X. rewrite nth_error_app2, Nat.sub_diag in X by lia. discriminate X.
  - destruct H0 as (A2 & A3 & A4 & A5 & A6 & A7). rename H into A1.
    split; [cbn; rewrite mark_length, put_at_length; lia|]. split; [exact H2|]. cbn [me_contexts tr_contexts].
    clear EC ET. induction F as [|a b l l' H F IH]; constructor; [|exact IH]. destruct b as [[r' s'] cut']. destruct H as (B1 & B2 & B3 & B4 & B5 & B6 & B7).
    unfold fits. cbn [me_urls me_arrays tr_requests tr_segments]. repeat split; auto; [rewrite put_at_length; lia|]. intro X.
    destruct (Nat.eq_dec r r') as [->|N]; [rewrite mark_same in X by lia; discriminate X|]. rewrite mark_other in X by exact N.
    rewrite put_at_mark, mark_other by congruence || lia. auto.
  - destruct H0 as (A2 & A3 & A4 & A5 & A6 & A7). rename H into A1.
    destruct (_ && _); cbn [fst].
    + split; [exact H1|]. split; [exact H2|]. cbn [me_contexts tr_contexts]. rewrite put_at_mark by (apply nth_error_Some; congruence). apply pairs_mark.
      * exact F.
      * unfold fits. cbn [mv_url mv_array mv_pattern]. repeat split; auto. discriminate.
    + split; [exact H1|]. split; [exact H2|]. cbn [tr_contexts]. rewrite <- (mark_self _ _ _ EC). apply pairs_mark; [exact F|].
      unfold fits. repeat split; auto. discriminate.
  - destruct H0 as (A2 & A3 & A4 & A5 & A6 & A7). now apply assign_together.
  - destruct H0 as (A2 & A3 & A4 & A5 & A6 & A7).
    assert (Z : together m (Traces (tr_contexts t) (tr_requests t) (mark s true (tr_segments t)))).
    { split; [exact H1|]. split; [cbn; rewrite mark_length; exact H2|]. cbn [tr_contexts]. clear EC ET.
      induction F as [|a b l1 l' H0 F IH]; constructor; [|exact IH]. destruct b as [[r' s'] cut']. destruct H0 as (B1 & B2 & B3 & B4 & B5 & B6 & B7).
      unfold fits. cbn [tr_requests tr_segments]. repeat split; auto. intros C X. apply B7; [exact C|].
      destruct (Nat.eq_dec s s') as [->|N]; [rewrite mark_same in X by lia; discriminate X|]. now rewrite mark_other in X. }
    destruct (nth_error (me_contexts m) j) as [c'|]; [|exact Z]. destruct (nth_error (segments_at m c') l) as [u|]; cbn [fst]; [|exact Z]. now apply assign_together.
Qed.

Lemma deeds_together l : forall m t, together m t -> together (do_deeds m l) (fold_left note l t).
Proof. induction l as [|d l IH]; intros m t H; [exact H|]. cbn. apply IH. now apply deed_together. Qed.

Lemma routed_together : together (routed p path segs rest) (Traces [(0, 0, false)] [false] [false]).
Proof.
  split; [reflexivity|]. split; [reflexivity|]. constructor; [|constructor]. unfold fits. cbn. repeat split; auto.
  intros _ _. unfold segments_at. cbn [mv_len mv_off mv_array me_arrays nth skipn]. rewrite firstn_app, firstn_all, Nat.sub_diag. cbn [firstn]. now rewrite app_nil_r.
Qed.

Lemma kept l i name : untouched l i ->
  snd (do_deed (do_deeds (routed p path segs rest) l) (Ask i name)) = Some (path_var p path segs name).
Proof.
  intros (r & s & E1 & E2 & E3). pose proof (deeds_together l _ _ routed_together) as (H1 & H2 & F). pose proof (pair_at _ _ _ i F) as P.
  rewrite E1 in P. cbn [do_deed]. destruct (nth_error (me_contexts _) i) as [c|]; [|destruct P]. destruct P as (A1 & A2 & A3 & A4 & A5 & A6 & A7).
  cbn [snd]. rewrite A3, A1, (A7 eq_refl E3). apply A6 in E2. now rewrite (nth_error_nth _ _ [] E2).
Qed.
End Kept.

(** ** Who changes what others read *)

Lemma var_end p path segs name v : path_var p path segs name = Some v -> v <> [] -> path_var p [] segs name = None.
Proof.
  unfold path_var. destruct p as [q|]; [|congruence]. destruct (p_caps q =? 0)%N; [congruence|]. destruct (find_capture name (p_segs q) 0) as [idx|]; [|congruence].
  destruct (nth_capture idx segs) as [s|]; [|congruence]. unfold useg_text, slice. destruct ((u_start s <=? u_end s)%N && (u_end s <=? blen path)%N) eqn:E; [|discriminate].
  intros H N. injection H as <-. apply andb_prop in E. destruct E as [E1 E2]. apply N.leb_le in E1, E2.
  assert (u_end s <> 0)%N. { intro Z. apply N. rewrite Z. assert (u_start s = 0)%N as -> by lia. reflexivity. }
  replace (u_end s <=? blen [])%N with false; [now rewrite andb_false_r|]. symmetry. apply N.leb_gt. unfold blen. cbn. lia.
Qed.

Lemma path_shared p path segs rest name v : path_var p path segs name = Some v -> v <> [] ->
  let m := routed p path segs rest in
  snd (do_deed (do_deeds m [Pass 0; SetPath 1 []]) (Ask 0 name)) = Some None /\
  snd (do_deed (do_deeds m [CloneOf 0; SetPath 0 []]) (Ask 1 name)) = Some None.
Proof.
  intros H N. pose proof (var_end _ _ _ _ _ H N) as E.
  assert (S1 : firstn (List.length segs) (segs ++ rest) = segs) by (rewrite firstn_app, firstn_all, Nat.sub_diag; cbn [firstn]; now rewrite app_nil_r).
  cbv zeta. split; cbn; unfold segments_at; cbn; rewrite S1; rewrite ?firstn_all; now rewrite E.
Qed.

(** All segments of a copy are reset. *)
Definition reset_all (i n : nat) : list deed := map (ResetAt i) (seq 0 n).

Lemma reset_deeds i n : forall u a a' b cs c, nth_error cs i = Some c -> mv_array c = 0 -> mv_off c = 0 -> mv_len c = List.length a + n -> List.length a' = n ->
  do_deeds (Memory u [a ++ a' ++ b] cs) (map (ResetAt i) (seq (List.length a) n)) = Memory u [a ++ repeat useg_zero n ++ b] cs.
Proof.
  induction n as [|n IH]; intros u a a' b cs c E A O L LA.
  - destruct a'; [reflexivity|discriminate LA].
  - destruct a' as [|x a']; [discriminate LA|]. cbn [seq map]. unfold do_deeds. cbn [fold_left do_deed]. cbn [me_contexts]. rewrite E. cbn [fst].
    assert (Q : assign_segment (Memory u [a ++ (x :: a') ++ b] cs) c (List.length a) useg_zero = Memory u [(a ++ [useg_zero]) ++ a' ++ b] cs).
    { unfold assign_segment. replace (_ <? _) with true.
      - cbn [me_urls me_arrays me_contexts]. rewrite A, O. cbn [nth Nat.add]. unfold put_at at 1. cbn [firstn skipn List.app]. unfold put_at.
        rewrite firstn_app, firstn_all, Nat.sub_diag. cbn [firstn]. rewrite app_nil_r. f_equal. f_equal.
        replace (S (List.length a)) with (List.length (a ++ [x])) by (rewrite app_length; cbn; lia).
        change (a ++ x :: a' ++ b) with (a ++ [x] ++ (a' ++ b)). rewrite (app_assoc a [x]). rewrite skipn_app, skipn_all, Nat.sub_diag. cbn [skipn List.app]. now rewrite <- app_assoc.
      - symmetry. apply Nat.ltb_lt. unfold segments_at. cbn [me_arrays]. rewrite A, O. cbn [nth skipn]. rewrite firstn_length, !app_length. cbn [List.length] in *. lia. }
    rewrite Q. specialize (IH u (a ++ [useg_zero]) a' b cs c E A O). rewrite app_length in IH. cbn [List.length] in IH. rewrite Nat.add_1_r in IH. fold (do_deeds (Memory u [(a ++ [useg_zero]) ++ a' ++ b] cs) (map (ResetAt i) (seq (S (List.length a)) n))).
    rewrite IH by (cbn [List.length] in *; lia). now rewrite <- app_assoc.
Qed.

Lemma zero_captures n : forall idx, nth_capture idx (repeat useg_zero n) = None.
Proof. induction n as [|n IH]; intro idx; cbn; auto. Qed.

Lemma segments_shared p path segs rest name v : path_var p path segs name = Some v -> v <> [] ->
  snd (do_deed (do_deeds (routed p path segs rest) (Pass 0 :: reset_all 1 (List.length segs))) (Ask 0 name)) = Some (Some []).
Proof.
  intros H N. unfold do_deeds, reset_all. cbn [fold_left do_deed routed me_contexts nth_error fst List.app me_urls me_arrays].
  fold (do_deeds (Memory [path] [segs ++ rest] [MValue 0 p 0 0 (List.length segs); MValue 0 p 0 0 (List.length segs)]) (map (ResetAt 1) (seq 0 (List.length segs)))).
  pose proof (reset_deeds 1 (List.length segs) [path] [] segs rest [MValue 0 p 0 0 (List.length segs); MValue 0 p 0 0 (List.length segs)] (MValue 0 p 0 0 (List.length segs)) eq_refl eq_refl eq_refl eq_refl eq_refl) as R.
  cbn [List.length List.app] in R. rewrite R. cbn [do_deed me_contexts nth_error snd mv_pattern mv_url me_urls nth]. unfold segments_at. cbn [mv_len mv_off mv_array me_arrays nth skipn].
  rewrite firstn_app, repeat_length, Nat.sub_diag. cbn [firstn]. rewrite app_nil_r, firstn_all2 by (rewrite repeat_length; lia).
  f_equal. unfold path_var in *. destruct p as [q|]; [|reflexivity]. destruct (p_caps q =? 0)%N; [reflexivity|]. destruct (find_capture name (p_segs q) 0) as [idx|]; [|reflexivity].
  now rewrite zero_captures.
Qed.

(** ** With the routing *)

Lemma kept_routed : forall fuel re ci regs r outs f mth path ts buf h rec segs,
  handle_all fuel re (new_router ci) regs = (r, outs) ->
  Forall (fun rg => countable (re_ok re) ci (reg_text rg)) regs ->
  (blen path < 65536)%N -> segments_of path ts -> List.length buf = 19 ->
  dispatch_request f re r mth path buf = Calls h rec segs ->
  exists mth' text ks bs, In ((mth', text, h), Registered) (combine regs outs) /\ same_method mth' mth /\
    pieces_of (re_ok re) ci text ks /\ reads_as ci (meets (re_match re)) ks ts bs /\
    forall rest l i name, untouched l i ->
      snd (do_deed (do_deeds (routed rec path segs rest) l) (Ask i name)) = Some (Some (match value_of name bs with Some v => v | None => [] end)).
Proof.
  intros fuel re ci regs r outs f mth path ts buf h rec segs H1 H3 H4 H5 H6 H7.
  destruct (routed_loose fuel re ci regs r outs f mth path ts buf h rec segs H1 H3 H4 H5 H6 H7) as (mth' & text & ks & bs & A & B & C & D & E).
  exists mth', text, ks, bs. split; [exact A|]. split; [exact B|]. split; [exact C|]. split; [exact D|]. intros rest l i name U. rewrite kept by exact U. now rewrite E.
Qed.

(** A middleware that passes a copy on and another one that works on a clone and gives it
    another request. *)
Definition two_hands : list deed :=
  [Pass 0; CloneOf 1; ResetAt 2 1; Cut 2 1 3; OtherRequest 2 (str "/other"); SetPath 2 (str "/"); Pass 1; CloneOf 3].

Lemma time_case : exists rec segs rest,
  dispatch_request 100 lit_engine shop_router (str "get") shop_path zeros = Calls 1 rec segs /\ rest <> [] /\
  let m := routed rec shop_path segs rest in
  untouched two_hands 0 /\ untouched two_hands 1 /\ ~ untouched two_hands 2 /\ untouched two_hands 3 /\ untouched two_hands 4 /\
  map (fun i => snd (do_deed (do_deeds m two_hands) (Ask i (str "id")))) [0; 1; 2; 3; 4] =
    [Some (Some (str "42")); Some (Some (str "42")); Some (Some []); Some (Some (str "42")); Some (Some (str "42"))] /\
  snd (do_deed (do_deeds m [Pass 0; SetPath 1 (str "/orders/a7b")]) (Ask 0 (str "id"))) = Some (Some (str "a7")).
Proof.
  eexists. eexists. exists (repeat useg_zero 15). split; [vm_compute; reflexivity|]. split; [discriminate|]. cbv zeta.
  split; [exists 0, 0; vm_compute; auto|]. split; [exists 0, 0; vm_compute; auto|].
  split; [intros (r & s & A & _); vm_compute in A; discriminate A|].
  split; [exists 0, 0; vm_compute; auto|]. split; [exists 0, 2; vm_compute; auto|]. split; vm_compute; reflexivity.
Qed.

(** ** Other bounds *)

Lemma cut_twice p path segs rest a b c d name : a <= b -> b <= List.length (segs ++ rest) -> c <= d -> a + d <= List.length (segs ++ rest) ->
  snd (do_deed (do_deeds (routed p path segs rest) [Cut 0 a b; Cut 0 c d]) (Ask 0 name)) =
    Some (path_var p path (firstn (d - c) (skipn (a + c) (segs ++ rest))) name).
Proof.
  intros L1 L2 L3 L4. unfold do_deeds, routed. cbn [fold_left do_deed me_contexts nth_error mv_array mv_off me_arrays nth fst].
  rewrite (proj2 (Nat.leb_le a b) L1). rewrite (proj2 (Nat.leb_le b _)) by lia. cbn [andb fst me_contexts put_at firstn List.app skipn nth_error mv_array mv_off me_arrays nth].
  rewrite (proj2 (Nat.leb_le c d) L3), (proj2 (Nat.leb_le d _)) by lia. cbn [andb fst me_contexts put_at firstn List.app skipn nth_error mv_array mv_off mv_url mv_pattern me_urls me_arrays nth snd].
  reflexivity.
Qed.

Lemma cut_case : exists rec segs rest,
  dispatch_request 100 lit_engine shop_router (str "get") shop_path zeros = Calls 1 rec segs /\ rest <> [] /\ List.length segs = 4 /\
  let m := routed rec shop_path segs rest in
  snd (do_deed (do_deeds m [Cut 0 1 2; Cut 0 0 1]) (Ask 0 (str "id"))) = Some (Some (str "42")) /\
  snd (do_deed (do_deeds m [Cut 0 0 1; Cut 0 0 1]) (Ask 0 (str "id"))) = Some (Some []) /\
  snd (do_deed (do_deeds m [Cut 0 0 1; Cut 0 0 2]) (Ask 0 (str "id"))) = Some (Some (str "42")).
Proof.
  eexists. eexists. exists (repeat useg_zero 15). split; [vm_compute; reflexivity|]. split; [discriminate|]. split; [reflexivity|]. vm_compute. repeat split.
Qed.
