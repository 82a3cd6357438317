(** * Calls of [Handle] and requests that run at the same time *)
From Coq Require Import List NArith ZArith Ascii String Bool Lia Arith.
From Verif Require Import GoBase Pattern_Model Url_Model Match_Model Router_Model Pattern_Proofs Url_Proofs Routes_Proofs AppWire_Proofs Witness_Proofs HandleRace_Model HandleRace_Spec.
Import ListNotations.
Local Open Scope string_scope.
Local Open Scope list_scope.
Local Open Scope nat_scope.

Lemma put_same {A : Type} : forall (l : list A) i x, i < List.length l -> nth_error (put_nth i x l) i = Some x.
Proof. unfold put_nth. induction l as [|a l IH]; intros [|i] x H; cbn in *; try lia; [reflexivity|]. apply IH. lia. Qed.

Lemma put_other {A : Type} : forall (l : list A) i j x, i < List.length l -> j <> i -> nth_error (put_nth i x l) j = nth_error l j.
Proof. unfold put_nth. induction l as [|a l IH]; intros [|i] [|j] x H N; cbn in *; try lia; try congruence. apply IH; lia. Qed.

Lemma put_length {A : Type} (l : list A) i x : i < List.length l -> List.length (put_nth i x l) = List.length l.
Proof. intro H. unfold put_nth. rewrite app_length, firstn_length. cbn [List.length]. rewrite skipn_length. lia. Qed.

Lemma some_below {A : Type} (l : list A) i x : nth_error l i = Some x -> i < List.length l.
Proof. intro H. apply nth_error_Some. congruence. Qed.

Lemma put_cases {A : Type} (l : list A) i j x y z : nth_error l i = Some z -> nth_error (put_nth i x l) j = Some y -> (j = i /\ y = x) \/ (j <> i /\ nth_error l j = Some y).
Proof.
  intros H E. apply some_below in H. destruct (Nat.eq_dec j i) as [->|N].
  - rewrite put_same in E by assumption. left. split; congruence.
  - rewrite put_other in E by assumption. auto.
Qed.

(** A matcher without patterns matches nothing. *)
Lemma empty_match f re ci path segs : 1 <= f -> match_path f re (new_matcher ci) path segs = NoMatch.
Proof.
  intro F. unfold match_path. destruct (Nat.ltb max_path_segments (List.length segs)) eqn:L; [reflexivity|]. apply Nat.ltb_ge in L.
  change max_path_segments with 19 in L.
  destruct f as [|f]; [lia|]. cbn [new_matcher m_root m_ci m_trie].
  assert (R : exists s, round re ci path (u8 (N.of_nat (List.length segs))) (MS 0 0 (Node 0 0 root_segment None []) [] (repeat (0%N, 0%N) max_path_segments) (repeat MTUnknown max_path_segments) segs) = inr (MRet None s)).
  { unfold round. cbn [ms_idx]. destruct segs as [|s segs]; [eexists; reflexivity|].
    replace (u8 (N.of_nat (List.length (s :: segs)))) with (N.of_nat (List.length (s :: segs))).
    2: { unfold u8. rewrite N.mod_small; [reflexivity|lia]. }
    cbn [List.length]. replace (0 <? N.of_nat (S (List.length segs)))%N with true by (symmetry; apply N.ltb_lt; lia). cbn. eexists. reflexivity. }
  destruct R as (s & R). cbn [match_loop]. rewrite R. destruct segs; reflexivity.
Qed.

Section Race.
Variable fuel : nat.
Variable re : engine.
Variable ci : bool.
Hypothesis enough : 1 <= fuel.

Notation step := (world_step fuel re ci).
Notation run := (world_run fuel re ci).

Definition key_of (reg : bytes * bytes * nat) : bytes := to_upper (fst (fst reg)).

Definition parsed (reg : bytes * bytes * nat) (p : pattern) : Prop :=
  exists p0, parse_pattern fuel re (snd (fst reg)) ci = POk p0 /\ p = attach p0 (snd reg).

(** The steps one by one. *)
Inductive moved (w : world) (i : nat) : world -> Prop :=
| mv_idle : moved w i w
| mv_bad : forall reg e, nth_error (hw_routines w) i = Some (Handling reg HBegin) ->
    (forall r, r_ci r = ci -> handle fuel re r (fst (fst reg)) (snd (fst reg)) (snd reg) = (r, e)) ->
    moved w i (World (hw_heap w) (hw_map w) (hw_writing w) (put_nth i (Handling reg (HEnd e)) (hw_routines w)))
| mv_found : forall reg p a, nth_error (hw_routines w) i = Some (Handling reg HBegin) -> parsed reg p ->
    alookup (key_of reg) (hw_map w) = Some a ->
    moved w i (World (hw_heap w) (hw_map w) (hw_writing w) (put_nth i (Handling reg (HAdd p a)) (hw_routines w)))
| mv_new : forall reg p, nth_error (hw_routines w) i = Some (Handling reg HBegin) -> parsed reg p ->
    alookup (key_of reg) (hw_map w) = None ->
    moved w i (World (hw_heap w ++ [new_matcher ci]) (hw_map w) (hw_writing w) (put_nth i (Handling reg (HAssign p (List.length (hw_heap w)))) (hw_routines w)))
| mv_assign : forall reg p a, nth_error (hw_routines w) i = Some (Handling reg (HAssign p a)) -> hw_writing w = false ->
    moved w i (World (hw_heap w) (hw_map w) true (put_nth i (Handling reg (HAssigning p a)) (hw_routines w)))
| mv_assigned : forall reg p a, nth_error (hw_routines w) i = Some (Handling reg (HAssigning p a)) -> hw_writing w = true ->
    moved w i (World (hw_heap w) (aset (key_of reg) a (hw_map w)) false (put_nth i (Handling reg (HAdd p a)) (hw_routines w)))
| mv_add : forall reg p a m dup, nth_error (hw_routines w) i = Some (Handling reg (HAdd p a)) ->
    add_pattern (nth a (hw_heap w) (new_matcher ci)) p = (m, dup) ->
    moved w i (World (put_nth a m (hw_heap w)) (hw_map w) (hw_writing w) (put_nth i (Handling reg (HEnd (if dup then Duplicate else Registered))) (hw_routines w)))
| mv_crash : forall mth path buf, nth_error (hw_routines w) i = Some (request mth path buf) -> parse_url_path path buf = None ->
    moved w i (World (hw_heap w) (hw_map w) (hw_writing w) (put_nth i (Asking mth path buf (QEnd ServeCrash)) (hw_routines w)))
| mv_none : forall mth path buf segs, nth_error (hw_routines w) i = Some (request mth path buf) -> parse_url_path path buf = Some segs ->
    alookup (to_upper mth) (hw_map w) = None ->
    moved w i (World (hw_heap w) (hw_map w) (hw_writing w) (put_nth i (Asking mth path buf (QEnd NotFound)) (hw_routines w)))
| mv_match : forall mth path buf segs a, nth_error (hw_routines w) i = Some (request mth path buf) -> parse_url_path path buf = Some segs ->
    alookup (to_upper mth) (hw_map w) = Some a ->
    moved w i (World (hw_heap w) (hw_map w) (hw_writing w) (put_nth i (Asking mth path buf (QMatch a segs)) (hw_routines w)))
| mv_answer : forall mth path buf segs a, nth_error (hw_routines w) i = Some (Asking mth path buf (QMatch a segs)) ->
    moved w i (World (hw_heap w) (hw_map w) (hw_writing w)
      (put_nth i (Asking mth path buf (QEnd (matched_end (match_path fuel re (nth a (hw_heap w) (new_matcher ci)) path segs)))) (hw_routines w))).

Lemma read_some w key o : map_read w key = Some o -> o = alookup key (hw_map w).
Proof. unfold map_read. destruct (hw_map w) as [|x l]; [intro H; injection H as <-; reflexivity|]. destruct (hw_writing w); [discriminate|]. congruence. Qed.

Lemma read_none w key : map_read w key = None <-> hw_map w <> [] /\ hw_writing w = true.
Proof. unfold map_read. destruct (hw_map w) as [|x l]; [split; [discriminate|intros [H _]; congruence]|]. destruct (hw_writing w); split; intros H; try discriminate; auto; try (split; [discriminate|reflexivity]). destruct H; discriminate. Qed.

Lemma step_moved w i w' : step w i = Alive w' -> moved w i w'.
Proof.
  unfold world_step. destruct (nth_error (hw_routines w) i) as [[[[mth text] h] pc|mth path buf pc]|] eqn:R; [| |intro H; injection H as <-; constructor].
  - destruct pc as [|p a|p a|p a|e].
    + destruct (parse_pattern fuel re text ci) as [| | |p0] eqn:P.
      1-3: intro H; injection H as <-; eapply mv_bad; [exact R|]; intros rr CI; unfold handle; cbn [fst snd]; rewrite CI, P; reflexivity.
      destruct (map_read w (to_upper mth)) as [[a|]|] eqn:M; [| |discriminate]; apply read_some in M; intro H; injection H as <-.
      * eapply mv_found; [exact R| |symmetry; exact M]. exists p0. auto.
      * apply mv_new; [exact R| |symmetry; exact M]. exists p0. auto.
    + destruct (hw_writing w) eqn:W; [discriminate|]. intro H; injection H as <-. apply mv_assign; assumption.
    + destruct (hw_writing w) eqn:W; [|discriminate]. intro H; injection H as <-. apply (mv_assigned w i (mth, text, h) p a); assumption.
    + destruct (add_pattern _ _) as [m dup] eqn:A. intro H; injection H as <-. apply mv_add with (p := p) (a := a); assumption.
    + intro H; injection H as <-. constructor.
  - destruct pc as [|a segs|d].
    + destruct (parse_url_path path buf) as [segs|] eqn:P; [|intro H; injection H as <-; now apply mv_crash].
      destruct (map_read w (to_upper mth)) as [[a|]|] eqn:M; [| |discriminate]; apply read_some in M; symmetry in M; intro H; injection H as <-.
      * eapply mv_match; eassumption.
      * eapply mv_none; eassumption.
    + intro H; injection H as <-. now apply mv_answer.
    + intro H; injection H as <-. constructor.
Qed.

Lemma step_dead w i : step w i = Dead <->
  (hw_writing w = true /\ uses_map fuel re ci w i) \/ (hw_writing w = false /\ adds_method w i).
Proof.
  unfold world_step, uses_map, adds_method, call, request. split.
  - destruct (nth_error (hw_routines w) i) as [[[[mth text] h] pc|mth path buf pc]|] eqn:R; [| |discriminate].
    + destruct pc as [|p a|p a|p a|e].
      * destruct (parse_pattern fuel re text ci) as [| | |p0] eqn:P; try discriminate.
        destruct (map_read w (to_upper mth)) as [[a|]|] eqn:M; try discriminate. apply read_none in M. intros _. left. split; [tauto|]. right. split; [tauto|]. left. eauto 8.
      * destruct (hw_writing w) eqn:W; [|discriminate]. intros _. left. split; [reflexivity|]. left. eauto.
      * destruct (hw_writing w) eqn:W; [discriminate|]. intros _. right. split; [reflexivity|]. eauto.
      * destruct (add_pattern _ _). discriminate.
      * discriminate.
    + destruct pc as [|a segs|d]; [|discriminate|discriminate].
      destruct (parse_url_path path buf) as [segs|] eqn:P; [|discriminate].
      destruct (map_read w (to_upper mth)) as [[a|]|] eqn:M; try discriminate. apply read_none in M. intros _. left. split; [tauto|]. right. split; [tauto|]. right. eauto 8.
  - intros [[W [(reg & p & a & R)|[NM [(mth & text & h & p & R & P)|(mth & path & buf & segs & R & P)]]]]|[W (reg & p & a & R)]].
    + rewrite R. destruct reg as [[mth text] h]. now rewrite W.
    + rewrite R, P. now rewrite (proj2 (read_none w (to_upper mth)) (conj NM W)).
    + rewrite R, P. now rewrite (proj2 (read_none w (to_upper mth)) (conj NM W)).
    + rewrite R. destruct reg as [[mth text] h]. now rewrite W.
Qed.

(** The flag is set by the one that is assigning. *)
Definition flagged (w : world) : Prop :=
  (hw_writing w = true <-> exists j, adds_method w j) /\ (forall i j, adds_method w i -> adds_method w j -> i = j).

Lemma adds_put w i x z heap mp f : nth_error (hw_routines w) i = Some z ->
  (forall reg p a, x <> Handling reg (HAssigning p a)) ->
  forall j, adds_method (World heap mp f (put_nth i x (hw_routines w))) j <-> j <> i /\ adds_method w j.
Proof.
  intros R N j. unfold adds_method. cbn [hw_routines]. split.
  - intros (reg & p & a & E). destruct (put_cases _ _ _ _ _ _ R E) as [[-> E']|[J E']]; [exfalso; now apply (N reg p a)|]. split; [exact J|]. eauto.
  - intros (J & reg & p & a & E). exists reg, p, a. rewrite put_other; [exact E|eapply some_below; exact R|exact J].
Qed.

Lemma flagged_put w i x z heap mp : flagged w -> nth_error (hw_routines w) i = Some z ->
  (forall reg p a, x <> Handling reg (HAssigning p a)) -> (forall reg p a, z <> Handling reg (HAssigning p a)) ->
  flagged (World heap mp (hw_writing w) (put_nth i x (hw_routines w))).
Proof.
  intros [F U] R NX NZ. pose proof (adds_put w i x z heap mp (hw_writing w) R NX) as A.
  assert (NI : ~ adds_method w i) by (intros (reg & p & a & E); rewrite R in E; injection E as E; now apply (NZ reg p a)).
  split; cbn [hw_writing].
  - rewrite F. split; intros (j & J); exists j; [apply A; split; [congruence|exact J]|apply A in J; tauto].
  - intros j k J K. apply A in J, K. now apply U.
Qed.

Lemma step_flagged w i w' : flagged w -> step w i = Alive w' -> flagged w'.
Proof.
  intros F H. apply step_moved in H. destruct H as [|reg e R B|reg p a R P L|reg p R P L|reg p a R W|reg p a R W|reg p a m dup R A|mth path buf R P|mth path buf segs R P L|mth path buf segs a R P L|mth path buf segs a R]; [exact F|..].
  5: { destruct F as [F U]. assert (A : forall j, adds_method (World (hw_heap w) (aset (key_of reg) a (hw_map w)) false (put_nth i (Handling reg (HAdd p a)) (hw_routines w))) j <-> j <> i /\ adds_method w j) by (eapply adds_put; [exact R|discriminate]).
       assert (I : adds_method w i) by (exists reg, p, a; exact R). split; cbn [hw_writing].
       - split; [discriminate|]. intros (j & J). apply A in J. destruct J as [J1 J2]. exfalso. apply J1. now apply U.
       - intros j k J K. apply A in J, K. destruct J as [J1 J2]. exfalso. apply J1. now apply U. }
  4: { destruct F as [F U]. assert (NO : forall j, ~ adds_method w j) by (intros j J; assert (X : hw_writing w = true) by (apply F; eauto); congruence).
       assert (ONLY : forall j, adds_method (World (hw_heap w) (hw_map w) true (put_nth i (Handling reg (HAssigning p a)) (hw_routines w))) j -> j = i).
       { intros j (reg' & p' & a' & E). destruct (put_cases _ _ _ _ _ _ R E) as [[-> _]|[_ E']]; [reflexivity|]. exfalso. apply (NO j). exists reg', p', a'. exact E'. }
       split; cbn [hw_writing].
       - split; [|reflexivity]. intros _. exists i, reg, p, a. cbn [hw_routines]. apply put_same. eapply some_below; exact R.
       - intros j k J K. apply ONLY in J, K. congruence. }
  all: eapply flagged_put; [exact F|exact R|discriminate|discriminate].
Qed.

Lemma run_flagged sched : forall w w', flagged w -> run w sched = Alive w' -> flagged w'.
Proof.
  induction sched as [|i sched IH]; intros w w' F H; cbn [world_run] in H; [injection H as <-; exact F|].
  destruct (step w i) as [w1|] eqn:S1; [|discriminate H]. apply (IH w1); [eapply step_flagged; eauto|exact H].
Qed.

Lemma dead_clash w i : flagged w -> (step w i = Dead <-> map_clash fuel re ci w i).
Proof.
  intros [F U]. rewrite step_dead. unfold map_clash. split.
  - intros [[W UM]|[W A]]; [|exfalso; assert (X : hw_writing w = true) by (apply F; eauto); congruence].
    split; [exact UM|]. apply F in W. destruct W as (j & J). exists j. split; [|exact J]. intros ->. destruct J as (reg & p & a & E).
    destruct UM as [(reg' & p' & a' & E')|[_ [(mth & text & h & p' & E' & _)|(mth & path & buf & segs & E' & _)]]]; rewrite E in E'; discriminate.
  - intros (UM & j & _ & J). left. split; [|exact UM]. apply F. eauto.
Qed.

Lemma dead_iff sched : forall w, flagged w ->
  (run w sched = Dead <-> exists before i after w', sched = before ++ i :: after /\ run w before = Alive w' /\ map_clash fuel re ci w' i).
Proof.
  induction sched as [|i sched IH]; intros w F; cbn [world_run].
  - split; [discriminate|]. intros ([|? ?] & ? & ? & ? & E & _); discriminate.
  - destruct (step w i) as [w1|] eqn:S1.
    + rewrite (IH w1) by (eapply step_flagged; eauto). split.
      * intros (b & j & a & w' & -> & R & C). exists (i :: b), j, a, w'. cbn [world_run List.app]. rewrite S1. auto.
      * intros (b & j & a & w' & E & R & C). destruct b as [|i' b].
        -- injection E as -> ->. cbn in R. injection R as <-. apply dead_clash in C; [congruence|exact F].
        -- injection E as <- ->. cbn [world_run] in R. rewrite S1 in R. exists b, j, a, w'. auto.
    + split; [|reflexivity]. intros _. exists [], i, sched, w. split; [reflexivity|]. split; [reflexivity|]. now apply dead_clash.
Qed.

(** ** What the goroutines know *)

Definition pending (pc : hpc) : option nat := match pc with HAssign _ a | HAssigning _ a => Some a | _ => None end.

Definition knowing (heap : list matcher) (mp : list (bytes * nat)) (x : routine) : Prop :=
  match x with
  | Handling reg (HAdd p a) => alookup (key_of reg) mp = Some a /\ parsed reg p
  | Handling reg (HAssign p a) | Handling reg (HAssigning p a) =>
      alookup (key_of reg) mp = None /\ nth_error heap a = Some (new_matcher ci) /\ (forall k, alookup k mp <> Some a) /\ parsed reg p
  | Asking mth path buf (QMatch a segs) => alookup (to_upper mth) mp = Some a /\ parse_url_path path buf = Some segs
  | _ => True
  end.

Definition apart (mp : list (bytes * nat)) (x y : routine) : Prop :=
  match x, y with
  | Handling r1 p1, Handling r2 p2 =>
      (key_of r1 = key_of r2 -> alookup (key_of r1) mp <> None) /\
      (forall a, pending p1 = Some a -> pending p2 <> Some a)
  | _, _ => True
  end.

Definition the_matcher {A : Type} (f : A -> matcher) (l : list (bytes * A)) (k : bytes) : matcher :=
  match alookup k l with Some x => f x | None => new_matcher ci end.

Record sound (w : world) (r : router) : Prop := {
  so_range : forall k a, alookup k (hw_map w) = Some a -> a < List.length (hw_heap w);
  so_apart : forall k l a, alookup k (hw_map w) = Some a -> alookup l (hw_map w) = Some a -> k = l;
  so_know : forall i x, nth_error (hw_routines w) i = Some x -> knowing (hw_heap w) (hw_map w) x;
  so_pairs : forall i j x y, i <> j -> nth_error (hw_routines w) i = Some x -> nth_error (hw_routines w) j = Some y -> apart (hw_map w) x y;
  so_ci : r_ci r = ci;
  so_view : forall k, the_matcher (fun a => nth a (hw_heap w) (new_matcher ci)) (hw_map w) k = the_matcher (fun m => m) (r_matchers r) k
}.

Lemma apart_sym mp x y : apart mp x y -> apart mp y x.
Proof.
  destruct x as [r1 p1|], y as [r2 p2|]; cbn; auto. intros [A B]. split; [intro E; rewrite E; apply A; congruence|]. intros a H1 H2. exact (B a H2 H1).
Qed.

(** One goroutine has changed, heap and map are as before. *)
Lemma sound_put w r i z x f : sound w r -> nth_error (hw_routines w) i = Some z ->
  knowing (hw_heap w) (hw_map w) x -> (forall y, apart (hw_map w) z y -> apart (hw_map w) x y) ->
  sound (World (hw_heap w) (hw_map w) f (put_nth i x (hw_routines w))) r.
Proof.
  intros [A B C D E V] R K P. split; cbn [hw_heap hw_map hw_routines]; auto.
  - intros j y J. destruct (put_cases _ _ _ _ _ _ R J) as [[_ ->]|[_ J']]; eauto.
  - intros j k y y' N J J'. destruct (put_cases _ _ _ _ _ _ R J) as [[-> ->]|[NJ J1]]; destruct (put_cases _ _ _ _ _ _ R J') as [[-> ->]|[NK J2]]; [congruence| | |eauto].
    + apply P. eauto.
    + apply apart_sym, P, apart_sym. eauto.
Qed.

Lemma dispatch_view r w mth path buf segs : sound w r -> parse_url_path path buf = Some segs ->
  dispatch_request fuel re r mth path buf =
  matched_end (match_path fuel re (the_matcher (fun a => nth a (hw_heap w) (new_matcher ci)) (hw_map w) (to_upper mth)) path segs).
Proof.
  intros S P. rewrite (so_view w r S). unfold dispatch_request, the_matcher. rewrite P. destruct (alookup (to_upper mth) (r_matchers r)) as [m|]; [reflexivity|].
  now rewrite empty_match.
Qed.

(** What a step does to the router that the world stands for: nothing, or what a call of [Handle]
    does. *)
Lemma step_sound w r i w' : sound w r -> step w i = Alive w' ->
  (sound w' r /\
   (forall j e, ended w' j e <-> ended w j e) /\
   (forall j mth path buf d, got w' j mth path buf d -> got w j mth path buf d \/ d = dispatch_request fuel re r mth path buf)) \/
  (exists reg r' e, nth_error (hw_routines w) i <> None /\ handle fuel re r (fst (fst reg)) (snd (fst reg)) (snd reg) = (r', e) /\ sound w' r' /\
   (exists pc, nth_error (hw_routines w) i = Some (Handling reg pc)) /\ (forall e', ~ ended w i e') /\
   (forall j e', ended w' j e' <-> ended w j e' \/ (j = i /\ e' = e)) /\
   (forall j mth path buf d, got w' j mth path buf d -> got w j mth path buf d)).
Proof.
  intros S H. apply step_moved in H.
  assert (EN : forall x z heap mp f, nth_error (hw_routines w) i = Some z -> (forall reg e, z <> Handling reg (HEnd e)) -> (forall reg e, x <> Handling reg (HEnd e)) ->
     forall j e, ended (World heap mp f (put_nth i x (hw_routines w))) j e <-> ended w j e).
  { intros x z heap mp f R NZ NX j e. unfold ended. cbn [hw_routines]. split; intros (reg & E).
    - destruct (put_cases _ _ _ _ _ _ R E) as [[-> E']|[J E']]; [exfalso; now apply (NX reg e)|eauto].
    - exists reg. rewrite put_other; [exact E|eapply some_below; exact R|]. intros ->. rewrite R in E. injection E as E. now apply (NZ reg e). }
  assert (GO : forall x z heap mp f, nth_error (hw_routines w) i = Some z -> (forall a b c d, x <> Asking a b c (QEnd d)) ->
     forall j mth path buf d, got (World heap mp f (put_nth i x (hw_routines w))) j mth path buf d -> got w j mth path buf d).
  { intros x z heap mp f R NX j mth path buf d E. unfold got in *. cbn [hw_routines] in E. destruct (put_cases _ _ _ _ _ _ R E) as [[-> E']|[J E']]; [exfalso; now apply (NX mth path buf d)|exact E']. }
  assert (EN2 : forall reg pc e heap mp f, nth_error (hw_routines w) i = Some (Handling reg pc) -> (forall e', pc <> HEnd e') ->
     (forall e', ~ ended w i e') /\ forall j e', ended (World heap mp f (put_nth i (Handling reg (HEnd e)) (hw_routines w))) j e' <-> ended w j e' \/ (j = i /\ e' = e)).
  { intros reg pc e heap mp f R NZ. split; [intros e' (reg' & E); rewrite R in E; injection E as _ E; now apply (NZ e')|].
    intros j e'. unfold ended. cbn [hw_routines]. split.
    - intros (reg' & E). destruct (put_cases _ _ _ _ _ _ R E) as [[-> E']|[J E']]; [injection E' as _ ->; auto|left; eauto].
    - intros [(reg' & E)|[-> ->]].
      + exists reg'. rewrite put_other; [exact E|eapply some_below; exact R|]. intros ->. rewrite R in E. injection E as _ E. now apply (NZ e').
      + exists reg. apply put_same. eapply some_below; exact R. }
  assert (SA : forall reg pc x, nth_error (hw_routines w) i = Some (Handling reg pc) -> pending x = pending pc \/ pending x = None ->
     forall y, apart (hw_map w) (Handling reg pc) y -> apart (hw_map w) (Handling reg x) y).
  { intros reg pc x _ HP [r2 p2|]; cbn [apart]; [|auto]. intros [A B]. split; [exact A|]. intros a E. apply B. destruct HP as [HP|HP]; congruence. }
  assert (AA : forall mth path buf a b y, apart (hw_map w) (Asking mth path buf a) y -> apart (hw_map w) (Asking mth path buf b) y) by (intros; destruct y; exact I).
  destruct H as [|reg e R B|reg p a R P L|reg p R P L|reg p a R W|reg p a R W|reg p a m dup R A|mth path buf R P|mth path buf segs R P L|mth path buf segs a R P L|mth path buf segs a R].
  - left. split; [exact S|]. split; [reflexivity|]. auto.
  - right. exists reg, r, e. split; [congruence|]. split; [apply B; exact (so_ci w r S)|]. destruct (EN2 reg HBegin e (hw_heap w) (hw_map w) (hw_writing w) R) as [Q1 Q2]; [discriminate|].
    split; [|split; [eauto|split; [exact Q1|split; [exact Q2|]]]].
    + eapply sound_put; [exact S|exact R|exact I|]. eapply SA; [exact R|auto].
    + eapply GO; [exact R|discriminate].
  - left. split; [|split].
    + eapply sound_put; [exact S|exact R|split; assumption|]. eapply SA; [exact R|auto].
    + eapply EN; [exact R|discriminate|discriminate].
    + intros j mth path buf d G. left. eapply GO; [exact R| |exact G]. discriminate.
  - left. split; [|split].
    + destruct S as [S1 S2 S3 S4 S5 S6]. split; cbn [hw_heap hw_map hw_routines]; auto.
      * intros k a E. rewrite app_length. cbn. apply S1 in E. lia.
      * intros j y J. destruct (put_cases _ _ _ _ _ _ R J) as [[_ ->]|[_ J']].
        -- cbn [knowing]. split; [exact L|]. split; [rewrite nth_error_app2, Nat.sub_diag by lia; reflexivity|]. split; [|exact P]. intros k E. apply S1 in E. lia.
        -- specialize (S3 j y J'). destruct y as [r2 [|p2 a2|p2 a2|p2 a2|e2]|mth path buf [|a2 segs2|d2]]; cbn [knowing] in *; auto;
             destruct S3 as (X1 & X2 & X3 & X4); (split; [exact X1|split; [rewrite nth_error_app1; [exact X2|eapply some_below; exact X2]|auto]]).
      * assert (PW : forall j y, j <> i -> nth_error (hw_routines w) j = Some y -> apart (hw_map w) (Handling reg (HAssign p (List.length (hw_heap w)))) y).
        { intros j y N J. pose proof (S4 i j _ y ltac:(congruence) R J) as A4. destruct y as [r2 p2|]; [|exact I]. cbn [apart] in *. split; [apply A4|].
          cbn [pending]. intros a E E2. injection E as <-. specialize (S3 j _ J). destruct p2; cbn in E2; try discriminate E2; injection E2 as ->; cbn [knowing] in S3; destruct S3 as (_ & X2 & _); apply some_below in X2; lia. }
        intros j k y y' N J J'. destruct (put_cases _ _ _ _ _ _ R J) as [[-> ->]|[NJ J1]]; destruct (put_cases _ _ _ _ _ _ R J') as [[-> ->]|[NK J2]]; [congruence| | |eauto].
        -- eapply PW; eauto.
        -- apply apart_sym. eapply PW; eauto.
      * intro k. rewrite <- S6. unfold the_matcher. destruct (alookup k (hw_map w)) as [a|] eqn:E; [|reflexivity]. apply app_nth1. eauto.
    + eapply EN; [exact R|discriminate|discriminate].
    + intros j mth path buf d G. left. eapply GO; [exact R| |exact G]. discriminate.
  - left. split; [|split].
    + eapply sound_put; [exact S|exact R|exact (so_know w r S i _ R)|]. eapply SA; [exact R|auto].
    + eapply EN; [exact R|discriminate|discriminate].
    + intros j mth path buf d G. left. eapply GO; [exact R| |exact G]. discriminate.
  - left. split; [|split].
    + pose proof (so_know w r S i _ R) as K. cbn [knowing] in K. destruct K as (K1 & K2 & K3 & K4). destruct S as [S1 S2 S3 S4 S5 S6].
      assert (MONO : forall k b, alookup k (hw_map w) = Some b -> alookup k (aset (key_of reg) a (hw_map w)) = Some b).
      { intros k b E. rewrite alookup_aset. destruct (beqb k (key_of reg)) eqn:EQ; [|exact E]. apply beqb_eq in EQ. congruence. }
      split; cbn [hw_heap hw_map hw_routines]; auto.
      * intros k b E. rewrite alookup_aset in E. destruct (beqb k (key_of reg)); [injection E as <-; eapply some_below; exact K2|eauto].
      * intros k l b E F. rewrite alookup_aset in E, F. destruct (beqb k (key_of reg)) eqn:E1; destruct (beqb l (key_of reg)) eqn:E2.
        -- apply beqb_eq in E1, E2. congruence.
        -- injection E as <-. now apply K3 in F.
        -- injection F as <-. now apply K3 in E.
        -- eauto.
      * intros j y J. destruct (put_cases _ _ _ _ _ _ R J) as [[_ ->]|[NJ J']].
        -- cbn [knowing]. split; [|exact K4]. rewrite alookup_aset, beqb_refl. reflexivity.
        -- pose proof (S3 j y J') as K. pose proof (S4 i j _ y ltac:(congruence) R J') as AP.
           assert (PEND : forall r2 pc2 p2 a2, y = Handling r2 pc2 -> pending pc2 = Some a2 -> 
              alookup (key_of r2) (hw_map w) = None /\ nth_error (hw_heap w) a2 = Some (new_matcher ci) /\ (forall k, alookup k (hw_map w) <> Some a2) /\ parsed r2 p2 ->
              alookup (key_of r2) (aset (key_of reg) a (hw_map w)) = None /\ nth_error (hw_heap w) a2 = Some (new_matcher ci) /\ (forall k, alookup k (aset (key_of reg) a (hw_map w)) <> Some a2) /\ parsed r2 p2).
           { intros r2 pc2 p2 a2 -> PE (X1 & X2 & X3 & X4). cbn [apart pending] in AP. destruct AP as [AP1 AP2]. split; [|split; [exact X2|split; [|exact X4]]].
             - rewrite alookup_aset. destruct (beqb (key_of r2) (key_of reg)) eqn:EQ; [|exact X1]. apply beqb_eq in EQ. exfalso. apply AP1; congruence.
             - intros k E. rewrite alookup_aset in E. destruct (beqb k (key_of reg)); [injection E as ->; now apply (AP2 a2)|now apply (X3 k)]. }
           destruct y as [r2 [|p2 a2|p2 a2|p2 a2|e2]|mth path buf [|a2 segs2|d2]]; cbn [knowing] in *; auto.
           ++ eapply PEND; [reflexivity|reflexivity|exact K].
           ++ eapply PEND; [reflexivity|reflexivity|exact K].
           ++ destruct K. auto.
           ++ destruct K. auto.
      * assert (WK : forall x y, apart (hw_map w) x y -> apart (aset (key_of reg) a (hw_map w)) x y).
        { intros [r1 p1|] [r2 p2|]; cbn [apart]; auto. intros [A1 A2]. split; [|exact A2]. intros E N. specialize (A1 E). destruct (alookup (key_of r1) (hw_map w)) as [b|] eqn:EE; [|congruence]. apply MONO in EE. congruence. }
        intros j k y y' N J J'. apply WK. destruct (put_cases _ _ _ _ _ _ R J) as [[-> ->]|[NJ J1]]; destruct (put_cases _ _ _ _ _ _ R J') as [[-> ->]|[NK J2]]; [congruence| | |eauto].
        -- eapply SA; [exact R|right; reflexivity|eauto].
        -- apply apart_sym. eapply SA; [exact R|right; reflexivity|]. apply apart_sym. eauto.
      * intro k. rewrite <- S6. unfold the_matcher. rewrite alookup_aset. destruct (beqb k (key_of reg)) eqn:EQ; [|reflexivity]. apply beqb_eq in EQ. subst k. rewrite K1. now apply nth_error_nth.
    + eapply EN; [exact R|discriminate|discriminate].
    + intros j mth path buf d G. left. eapply GO; [exact R| |exact G]. discriminate.
  - right. pose proof (so_know w r S i _ R) as K. cbn [knowing] in K. destruct K as (K1 & p0 & K2 & ->).
    pose proof (so_view w r S (key_of reg)) as V. unfold the_matcher at 1 in V. rewrite K1 in V. pose proof (so_ci w r S) as CI.
    set (e := if dup then Duplicate else Registered).
    destruct (EN2 reg (HAdd (attach p0 (snd reg)) a) e (put_nth a m (hw_heap w)) (hw_map w) (hw_writing w) R) as [Q1 Q2]; [discriminate|].
    exists reg, (Router ci (aset (key_of reg) m (r_matchers r))), e. split; [congruence|]. split; [|split; [|split; [eauto|split; [exact Q1|split; [exact Q2|]]]]].
    + unfold handle. rewrite CI, K2. cbv zeta. unfold the_matcher in V. unfold key_of in *. rewrite <- V, A. reflexivity.
    + destruct S as [S1 S2 S3 S4 S5 S6]. assert (LA : a < List.length (hw_heap w)) by eauto.
      split; cbn [hw_heap hw_map hw_routines r_ci r_matchers]; auto.
      * intros k b E. rewrite put_length by exact LA. eauto.
      * intros j y J. destruct (put_cases _ _ _ _ _ _ R J) as [[_ ->]|[NJ J']]; [exact I|]. pose proof (S3 j y J') as K.
        destruct y as [r2 [|p2 a2|p2 a2|p2 a2|e2]|mth path buf [|a2 segs2|d2]]; cbn [knowing] in *; auto;
          destruct K as (X1 & X2 & X3 & X4); (split; [exact X1|split; [rewrite put_other; [exact X2|exact LA|intros ->; now apply (X3 (key_of reg))]|auto]]).
      * intros j k y y' N J J'. destruct (put_cases _ _ _ _ _ _ R J) as [[-> ->]|[NJ J1]]; destruct (put_cases _ _ _ _ _ _ R J') as [[-> ->]|[NK J2]]; [congruence| | |eauto].
        -- eapply SA; [exact R|right; reflexivity|eauto].
        -- apply apart_sym. eapply SA; [exact R|right; reflexivity|]. apply apart_sym. eauto.
      * intro k. unfold the_matcher. rewrite alookup_aset. destruct (beqb k (key_of reg)) eqn:EQ.
        -- apply beqb_eq in EQ. subst k. rewrite K1. apply nth_error_nth. now apply put_same.
        -- specialize (S6 k). unfold the_matcher in S6. rewrite <- S6. destruct (alookup k (hw_map w)) as [b|] eqn:E; [|reflexivity].
           assert (NB : b <> a) by (intros ->; assert (k = key_of reg) by eauto; subst k; rewrite beqb_refl in EQ; discriminate).
           pose proof (put_other (hw_heap w) a b m LA NB) as PO. destruct (nth_error (hw_heap w) b) as [mb|] eqn:EB.
           ++ rewrite (nth_error_nth _ _ _ PO), (nth_error_nth _ _ _ EB). reflexivity.
           ++ apply nth_error_None in EB. specialize (S1 k b E). lia.
    + eapply GO; [exact R|discriminate].
  - left. split; [|split].
    + eapply sound_put; [exact S|exact R|exact I|]. intros y. apply AA.
    + eapply EN; [exact R|discriminate|discriminate].
    + intros j mth' path' buf' d G. unfold got in *. cbn [hw_routines] in G. destruct (put_cases _ _ _ _ _ _ R G) as [[-> E']|[J E']]; [|left; exact E'].
      right. injection E' as -> -> -> ->. unfold dispatch_request. now rewrite P.
  - left. split; [|split].
    + eapply sound_put; [exact S|exact R|exact I|]. intros y. apply AA.
    + eapply EN; [exact R|discriminate|discriminate].
    + intros j mth' path' buf' d G. unfold got in *. cbn [hw_routines] in G. destruct (put_cases _ _ _ _ _ _ R G) as [[-> E']|[J E']]; [|left; exact E'].
      right. injection E' as -> -> -> ->. rewrite (dispatch_view r w mth path buf segs S P). unfold the_matcher. rewrite L. now rewrite empty_match.
  - left. split; [|split].
    + eapply sound_put; [exact S|exact R|split; assumption|]. intros y. apply AA.
    + eapply EN; [exact R|discriminate|discriminate].
    + intros j mth' path' buf' d G. left. eapply GO; [exact R| |exact G]. discriminate.
  - left. split; [|split].
    + eapply sound_put; [exact S|exact R|exact I|]. intros y. apply AA.
    + eapply EN; [exact R|discriminate|discriminate].
    + intros j mth' path' buf' d G. unfold got in *. cbn [hw_routines] in G. destruct (put_cases _ _ _ _ _ _ R G) as [[-> E']|[J E']]; [|left; exact E'].
      right. injection E' as -> -> -> ->. destruct (so_know w r S i _ R) as [K1 K2]. rewrite (dispatch_view r w mth path buf segs S K2). unfold the_matcher. now rewrite K1.
Qed.

(** ** The start *)

Lemma start_lookup : forall (l : list (bytes * matcher)) n k,
  match alookup k (combine (map fst l) (seq n (List.length l))) with
  | Some a => n <= a /\ a < n + List.length l /\ exists v, nth_error l (a - n) = Some (k, v) /\ alookup k l = Some v
  | None => alookup k l = None
  end.
Proof.
  clear enough. induction l as [|[k' v] l IH]; intros n k; [reflexivity|]. cbn [map fst List.length seq combine alookup].
  destruct (beqb k k') eqn:E.
  - apply beqb_eq in E. subst k'. split; [lia|]. split; [lia|]. exists v. rewrite Nat.sub_diag. auto.
  - specialize (IH (S n) k). destruct (alookup k (combine (map fst l) (seq (S n) (List.length l)))) as [a|]; [|exact IH].
    destruct IH as (A & B & v' & C & D). split; [lia|]. split; [lia|]. exists v'. split; [|exact D]. replace (a - n) with (S (a - S n)) by lia. exact C.
Qed.

Lemma start_sound r rs : r_ci r = ci -> all_begin rs -> (forall i j, ~ both_new r rs i j) -> sound (world_start r rs) r.
Proof.
  intros CI AB NB. unfold world_start. split; cbn [hw_heap hw_map hw_routines]; auto.
  - intros k a E. pose proof (start_lookup (r_matchers r) 0 k) as L. rewrite E in L. rewrite map_length. lia.
  - intros k l a E F. pose proof (start_lookup (r_matchers r) 0 k) as L1. pose proof (start_lookup (r_matchers r) 0 l) as L2. rewrite E in L1. rewrite F in L2.
    destruct L1 as (_ & _ & v1 & A1 & _). destruct L2 as (_ & _ & v2 & A2 & _). congruence.
  - intros i x E. apply nth_error_In in E. destruct (AB x E) as [(reg & ->)|(mth & path & buf & ->)]; exact I.
  - intros i j x y N X Y. pose proof (AB x (nth_error_In _ _ X)) as BX. pose proof (AB y (nth_error_In _ _ Y)) as BY.
    destruct BX as [([[m1 t1] h1] & ->)|(? & ? & ? & ->)]; [|exact I]. destruct BY as [([[m2 t2] h2] & ->)|(? & ? & ? & ->)]; [|exact I].
    cbn [apart call pending]. split; [|discriminate]. unfold key_of. cbn [fst]. intros E L. apply (NB i j). exists m1, t1, h1, m2, t2, h2. split; [exact N|]. split; [exact X|]. split; [exact Y|]. split; [exact E|].
    unfold knows. intro K. apply K. pose proof (start_lookup (r_matchers r) 0 (to_upper m1)) as L1. rewrite L in L1. exact L1.
  - intro k. unfold the_matcher. pose proof (start_lookup (r_matchers r) 0 k) as L. destruct (alookup k (combine (map fst (r_matchers r)) (seq 0 (List.length (r_matchers r))))) as [a|].
    + destruct L as (_ & _ & v & A & B). rewrite B. rewrite Nat.sub_0_r in A. apply nth_error_nth. erewrite map_nth_error; [|exact A]. reflexivity.
    + rewrite L. reflexivity.
Qed.

Lemma start_flagged r rs : all_begin rs -> flagged (world_start r rs).
Proof.
  intro AB. assert (N : forall j, ~ adds_method (world_start r rs) j).
  { intros j (reg & p & a & E). apply nth_error_In in E. destruct (AB _ E) as [(reg' & X)|(mth & path & buf & X)]; discriminate. }
  split; [split; [discriminate|intros (j & J); now apply N in J]|]. intros i j J _. now apply N in J.
Qed.

(** ** The order *)

(** The calls of the goroutines [order], made one after the other, have led to the world. *)
Definition ordered (r : router) (rs : list routine) (w : world) (order : list nat) (regs : list (bytes * bytes * nat)) : Prop :=
  sound w (fst (handle_all fuel re r regs)) /\ NoDup order /\
  Forall2 (fun i reg => nth_error rs i = Some (call reg)) order regs /\
  (forall i e, ended w i e <-> exists n, nth_error order n = Some i /\ nth_error (snd (handle_all fuel re r regs)) n = Some e) /\
  (forall i reg pc, nth_error (hw_routines w) i = Some (Handling reg pc) -> nth_error rs i = Some (call reg)).

Lemma ends_length : forall regs r, List.length (snd (handle_all fuel re r regs)) = List.length regs.
Proof.
  induction regs as [|[[m t] h] regs IH]; intro r; cbn [handle_all]; [reflexivity|]. destruct (handle fuel re r m t h) as [r1 e]. specialize (IH r1). destruct (handle_all fuel re r1 regs). cbn in *. now rewrite IH.
Qed.

Lemma Forall2_len {A B : Type} (P : A -> B -> Prop) l l' : Forall2 P l l' -> List.length l = List.length l'.
Proof. induction 1; cbn; congruence. Qed.

Lemma step_regs w i w' : step w i = Alive w' -> forall j reg pc, nth_error (hw_routines w') j = Some (Handling reg pc) -> exists pc0, nth_error (hw_routines w) j = Some (Handling reg pc0).
Proof.
  intros H j reg0 pc0 E. apply step_moved in H.
  destruct H as [|reg e R B|reg p a R P L|reg p R P L|reg p a R W|reg p a R W|reg p a m dup R A|mth path buf R P|mth path buf segs R P L|mth path buf segs a R P L|mth path buf segs a R]; [eauto|..];
    cbn [hw_routines] in E; destruct (put_cases _ _ _ _ _ _ R E) as [[-> X]|[_ X]]; eauto; try discriminate X; injection X as -> _; eauto.
Qed.

Lemma step_ordered r rs w i w' order regs : ordered r rs w order regs -> step w i = Alive w' ->
  (ordered r rs w' order regs /\
   (forall j mth path buf d, got w' j mth path buf d -> got w j mth path buf d \/ d = dispatch_request fuel re (fst (handle_all fuel re r regs)) mth path buf)) \/
  (exists reg, ordered r rs w' (order ++ [i]) (regs ++ [reg]) /\ (forall j mth path buf d, got w' j mth path buf d -> got w j mth path buf d)).
Proof.
  intros (S & ND & F2 & EN & RG) H. pose proof (step_regs w i w' H) as SR.
  assert (RG' : forall j reg pc, nth_error (hw_routines w') j = Some (Handling reg pc) -> nth_error rs j = Some (call reg)) by (intros j reg pc E; destruct (SR j reg pc E) as (pc0 & E0); eauto).
  destruct (step_sound w _ i w' S H) as [(S' & E' & G')|(reg & r' & e & _ & HA & S' & (pc & R) & NE & E' & G')].
  - left. split; [|exact G']. split; [exact S'|]. split; [exact ND|]. split; [exact F2|]. split; [|exact RG']. intros j e. rewrite E'. apply EN.
  - right. exists reg. split; [|exact G'].
    assert (HH : handle_all fuel re r (regs ++ [reg]) = (r', snd (handle_all fuel re r regs) ++ [e])).
    { rewrite handle_all_app. destruct reg as [[m t] h]. cbn [fst snd] in HA. cbn [handle_all]. rewrite HA. reflexivity. }
    assert (LEN : List.length order = List.length (snd (handle_all fuel re r regs))) by (rewrite ends_length; eapply Forall2_len; exact F2).
    unfold ordered. rewrite HH. cbn [fst snd]. split; [exact S'|]. split; [|split; [|split; [|exact RG']]].
    + apply (NoDup_Add (Add_app i order [])). rewrite app_nil_r. split; [exact ND|]. intro IN. destruct (In_nth_error _ _ IN) as (n & N).
      destruct (nth_error (snd (handle_all fuel re r regs)) n) as [e0|] eqn:E0; [apply (NE e0); apply EN; eauto|]. apply nth_error_None in E0. apply some_below in N. lia.
    + apply Forall2_app; [exact F2|]. constructor; [|constructor]. eauto.
    + intros j e0. rewrite E', EN. split.
      * intros [(n & N1 & N2)|[-> ->]].
        -- exists n. split; rewrite nth_error_app1; auto; eapply some_below; eassumption.
        -- exists (List.length order). split; [rewrite nth_error_app2, Nat.sub_diag by lia; reflexivity|]. rewrite LEN, nth_error_app2, Nat.sub_diag by lia. reflexivity.
      * intros (n & N1 & N2). destruct (Nat.lt_ge_cases n (List.length order)) as [LT|GE].
        -- rewrite nth_error_app1 in N1 by lia. rewrite nth_error_app1 in N2 by lia. left. eauto.
        -- pose proof (some_below _ _ _ N1) as B. rewrite app_length in B. cbn in B. assert (n = List.length order) by lia. subst n.
           rewrite nth_error_app2, Nat.sub_diag in N1 by lia. cbn in N1. rewrite LEN, nth_error_app2, Nat.sub_diag in N2 by lia. cbn in N2. right. split; congruence.
Qed.

Lemma run_ordered r rs sched : forall w w' order regs, ordered r rs w order regs -> run w sched = Alive w' ->
  exists order2 regs2, ordered r rs w' (order ++ order2) (regs ++ regs2) /\
    forall j mth path buf d, got w' j mth path buf d -> got w j mth path buf d \/
      exists early late, regs2 = early ++ late /\ d = dispatch_request fuel re (fst (handle_all fuel re r (regs ++ early))) mth path buf.
Proof.
  induction sched as [|i sched IH]; intros w w' order regs O H; cbn [world_run] in H.
  - injection H as <-. exists [], []. rewrite !app_nil_r. auto.
  - destruct (step w i) as [w1|] eqn:S1; [|discriminate H]. destruct (step_ordered r rs w i w1 order regs O S1) as [(O1 & G1)|(reg & O1 & G1)].
    + destruct (IH w1 w' order regs O1 H) as (o2 & r2 & O2 & G2). exists o2, r2. split; [exact O2|]. intros j mth path buf d G. destruct (G2 j mth path buf d G) as [G'|E]; [|auto].
      destruct (G1 j mth path buf d G') as [|E]; [auto|]. right. exists [], r2. rewrite app_nil_r. auto.
    + destruct (IH w1 w' _ _ O1 H) as (o2 & r2 & O2 & G2). exists (i :: o2), (reg :: r2). split; [rewrite <- !app_assoc in O2; exact O2|].
      intros j mth path buf d G. destruct (G2 j mth path buf d G) as [G'|(early & late & -> & E)]; [left; eauto|].
      right. exists (reg :: early), late. split; [reflexivity|]. rewrite <- app_assoc in E. exact E.
Qed.

Lemma start_ordered r rs : r_ci r = ci -> all_begin rs -> (forall i j, ~ both_new r rs i j) -> ordered r rs (world_start r rs) [] [].
Proof.
  intros CI AB NB. split; [now apply start_sound|]. split; [constructor|]. split; [constructor|]. split.
  - intros i e. split; [|intros ([|n] & N & _); discriminate]. intros (reg & E). apply nth_error_In in E. destruct (AB _ E) as [(reg' & X)|(mth & path & buf & X)]; discriminate.
  - intros i reg pc E. cbn [world_start hw_routines] in E. pose proof (AB _ (nth_error_In _ _ E)) as [(reg' & X)|(mth & path & buf & X)]; [|discriminate X]. injection X as -> ->. exact E.
Qed.

(** ** Methods that are known *)

Definition calm (w : world) : Prop :=
  hw_writing w = false /\
  forall i reg pc, nth_error (hw_routines w) i = Some (Handling reg pc) -> pending pc = None /\ alookup (key_of reg) (hw_map w) <> None.

Lemma calm_step w i : calm w -> exists w', step w i = Alive w' /\ calm w'.
Proof.
  intros [W C]. destruct (step w i) as [w'|] eqn:H.
  - exists w'. split; [reflexivity|]. apply step_moved in H.
    destruct H as [|reg e R B|reg p a R P L|reg p R P L|reg p a R W'|reg p a R W'|reg p a m dup R A|mth path buf R P|mth path buf segs R P L|mth path buf segs a R P L|mth path buf segs a R].
    1: split; assumption.
    3: { destruct (C _ _ _ R) as [_ K]. contradiction. }
    3: { destruct (C _ _ _ R) as [K _]. discriminate K. }
    3: congruence.
    all: split; [exact W|]; cbn [hw_map hw_routines]; intros j reg0 pc0 E; destruct (put_cases _ _ _ _ _ _ R E) as [[-> X]|[_ X]]; [|now apply C in X];
      first [discriminate X|injection X as -> ->; destruct (C _ _ _ R) as [_ K]; split; [reflexivity|exact K]].
  - exfalso. apply step_dead in H. destruct H as [[X _]|[_ (reg & p & a & E)]]; [congruence|]. destruct (C _ _ _ E) as [K _]. discriminate K.
Qed.

Lemma calm_run sched : forall w, calm w -> exists w', run w sched = Alive w'.
Proof.
  induction sched as [|i sched IH]; intros w C; cbn [world_run]; [eauto|]. destruct (calm_step w i C) as (w1 & E & C1). rewrite E. now apply IH.
Qed.

Lemma start_calm r rs : all_begin rs -> (forall m t h, In (call (m, t, h)) rs -> knows r m) -> calm (world_start r rs).
Proof.
  intros AB K. split; [reflexivity|]. intros i reg pc E. cbn [world_start hw_routines hw_map] in *. apply nth_error_In in E.
  destruct (AB _ E) as [(reg' & X)|(mth & path & buf & X)]; [|discriminate X]. injection X as -> ->. split; [reflexivity|]. destruct reg' as [[m t] h]. unfold key_of. cbn [fst].
  specialize (K m t h E). unfold knows in K. pose proof (start_lookup (r_matchers r) 0 (to_upper m)) as L. destruct (alookup (to_upper m) (combine _ _)); [discriminate|contradiction].
Qed.

Lemma start_none r rs m : ~ knows r m -> alookup (to_upper m) (hw_map (world_start r rs)) = None.
Proof.
  intro K. pose proof (start_lookup (r_matchers r) 0 (to_upper m)) as L. cbn [world_start hw_map]. destruct (alookup (to_upper m) (combine _ _)) as [a|]; [|reflexivity].
  exfalso. apply K. destruct L as (_ & _ & v & _ & E). unfold knows. congruence.
Qed.

Lemma read_calm w k : hw_writing w = false -> map_read w k = Some (alookup k (hw_map w)).
Proof. intro W. unfold map_read. destruct (hw_map w); [reflexivity|]. now rewrite W. Qed.

Ltac len := repeat (rewrite put_length by len); assumption.
Ltac look := repeat first [rewrite put_same by len | rewrite put_other by (first [len | congruence])].

Lemma begin_step w i m t h p : nth_error (hw_routines w) i = Some (call (m, t, h)) -> parse_pattern fuel re t ci = POk p ->
  hw_writing w = false -> alookup (to_upper m) (hw_map w) = None ->
  step w i = Alive (World (hw_heap w ++ [new_matcher ci]) (hw_map w) false (put_nth i (Handling (m, t, h) (HAssign (attach p h) (List.length (hw_heap w)))) (hw_routines w))).
Proof. intros R P W L. unfold world_step, call in *. rewrite R, P, read_calm, L by exact W. now rewrite W. Qed.

Lemma crash_run r rs i j m t h p mth path buf : r_matchers r <> [] -> i <> j ->
  nth_error rs i = Some (call (m, t, h)) -> parse_pattern fuel re t ci = POk p -> ~ knows r m ->
  nth_error rs j = Some (request mth path buf) -> List.length buf = 19 ->
  run (world_start r rs) [i; i; j] = Dead.
Proof.
  intros NE N RI P K RJ LB. destruct (parse_url_path path buf) as [segs|] eqn:PU; [|exfalso; revert PU; now apply parse_url_total].
  pose proof (some_below _ _ _ RI) as BI. cbn [world_run]. rewrite (begin_step (world_start r rs) i m t h p RI P eq_refl (start_none r rs m K)).
  cbn [world_start hw_routines hw_heap hw_map].
  match goal with |- context [World ?hp ?mp false ?l] => assert (S2 : step (World hp mp false l) i = Alive (World hp mp true (put_nth i (Handling (m, t, h) (HAssigning (attach p h) (List.length (map snd (r_matchers r))))) l))) end.
  { unfold world_step. cbn [hw_routines hw_writing]. look. reflexivity. }
  rewrite S2. match goal with |- match ?s with _ => _ end = _ => assert (S3 : s = Dead) end; [|now rewrite S3].
  apply step_dead. left. split; [reflexivity|]. right. split.
  - cbn [hw_map]. destruct (r_matchers r); [congruence|discriminate].
  - right. exists mth, path, buf, segs. split; [|exact PU]. cbn [hw_routines]. look. exact RJ.
Qed.

Lemma two_run r rs i j m1 t1 h1 p1 m2 t2 h2 p2 : i <> j ->
  nth_error rs i = Some (call (m1, t1, h1)) -> parse_pattern fuel re t1 ci = POk p1 -> ~ knows r m1 ->
  nth_error rs j = Some (call (m2, t2, h2)) -> parse_pattern fuel re t2 ci = POk p2 -> ~ knows r m2 ->
  run (world_start r rs) [i; j; i; j] = Dead.
Proof.
  intros N RI P1 K1 RJ P2 K2. pose proof (some_below _ _ _ RI) as BI. pose proof (some_below _ _ _ RJ) as BJ.
  cbn [world_run]. rewrite (begin_step (world_start r rs) i m1 t1 h1 p1 RI P1 eq_refl (start_none r rs m1 K1)).
  cbn [hw_routines hw_heap hw_map world_start].
  rewrite (begin_step (World _ _ false _) j m2 t2 h2 p2); [|cbn [hw_routines]; look; exact RJ|exact P2|reflexivity|exact (start_none r rs m2 K2)].
  cbn [hw_routines hw_heap hw_map].
  match goal with |- context [World ?hp ?mp false ?l] => assert (S2 : step (World hp mp false l) i = Alive (World hp mp true (put_nth i (Handling (m1, t1, h1) (HAssigning (attach p1 h1) (List.length (map snd (r_matchers r))))) l))) end.
  { unfold world_step. cbn [hw_routines hw_writing]. look. reflexivity. }
  rewrite S2. match goal with |- match ?s with _ => _ end = _ => assert (S3 : s = Dead) end; [|now rewrite S3].
  apply step_dead. left. split; [reflexivity|]. left. do 3 eexists. cbn [hw_routines]. look. reflexivity.
Qed.
Lemma lost_run r rs i j m1 t1 h1 m2 t2 h2 : r_ci r = ci -> i <> j ->
  nth_error rs i = Some (call (m1, t1, h1)) -> nth_error rs j = Some (call (m2, t2, h2)) ->
  to_upper m1 = to_upper m2 -> ~ knows r m1 ->
  snd (handle fuel re r m1 t1 h1) = Registered -> snd (handle fuel re r m2 t2 h2) = Registered ->
  exists w, run (world_start r rs) [i; j; i; i; i; j; j; j] = Alive w /\ ended w i Registered /\ ended w j Registered /\
    (forall k mth path buf, k <> i -> k <> j -> nth_error rs k = Some (request mth path buf) ->
     exists w', run w [k; k] = Alive w' /\ got w' k mth path buf (dispatch_request fuel re (fst (handle fuel re r m2 t2 h2)) mth path buf)).
Proof.
  clear enough. intros CI N RI RJ EM K H1 H2.
  pose proof (some_below _ _ _ RI) as BI. pose proof (some_below _ _ _ RJ) as BJ.
  assert (K2 : ~ knows r m2) by (unfold knows in *; rewrite <- EM; exact K).
  assert (HN : forall t h, (forall m, to_upper m = to_upper m1 -> snd (handle fuel re r m t h) = Registered ->
     exists p mm, parse_pattern fuel re t ci = POk p /\ add_pattern (new_matcher ci) (attach p h) = (mm, false) /\ handle fuel re r m t h = (Router ci (aset (to_upper m1) mm (r_matchers r)), Registered))).
  { intros t h m E HR. unfold handle in *. rewrite CI in *. destruct (parse_pattern fuel re t ci) as [| | |p]; try discriminate HR. cbv zeta in *. rewrite E in *.
    unfold knows in K. destruct (alookup (to_upper m1) (r_matchers r)) as [x|]; [exfalso; apply K; discriminate|].
    destruct (add_pattern (new_matcher ci) (attach p h)) as [mm [|]] eqn:A; [discriminate HR|]. exists p, mm. auto. }
  destruct (HN t1 h1 m1 eq_refl H1) as (p1 & mm1 & P1 & A1 & _). destruct (HN t2 h2 m2 (eq_sym EM) H2) as (p2 & mm2 & P2 & A2 & HA2). rewrite HA2. cbn [fst].
  set (hp := map snd (r_matchers r)). set (n := List.length hp).
  set (mp := combine (map fst (r_matchers r)) (seq 0 (List.length (r_matchers r)))).
  set (key := to_upper m1) in *.
  assert (L1 : alookup key mp = None) by exact (start_none r rs m1 K).
  assert (NN : nth n (hp ++ [new_matcher ci; new_matcher ci]) (new_matcher ci) = new_matcher ci) by (rewrite app_nth2 by (unfold n; lia); unfold n; rewrite Nat.sub_diag; reflexivity).
  set (heap2 := hp ++ [new_matcher ci; new_matcher ci]) in *.
  assert (LH : n < List.length heap2) by (unfold heap2, n; rewrite app_length; cbn; lia).
  assert (LH2 : S n < List.length heap2) by (unfold heap2, n; rewrite app_length; cbn; lia).
  set (heap3 := put_nth n mm1 heap2). set (heap4 := put_nth (S n) mm2 heap3).
  set (mp1 := aset key n mp). set (mp2 := aset key (S n) mp1).
  set (l1 := put_nth i (Handling (m1, t1, h1) (HAssign (attach p1 h1) n)) rs).
  set (l2 := put_nth j (Handling (m2, t2, h2) (HAssign (attach p2 h2) (S n))) l1).
  set (l3 := put_nth i (Handling (m1, t1, h1) (HAssigning (attach p1 h1) n)) l2).
  set (l4 := put_nth i (Handling (m1, t1, h1) (HAdd (attach p1 h1) n)) l3).
  set (l5 := put_nth i (Handling (m1, t1, h1) (HEnd Registered)) l4).
  set (l6 := put_nth j (Handling (m2, t2, h2) (HAssigning (attach p2 h2) (S n))) l5).
  set (l7 := put_nth j (Handling (m2, t2, h2) (HAdd (attach p2 h2) (S n))) l6).
  set (l8 := put_nth j (Handling (m2, t2, h2) (HEnd Registered)) l7).
  assert (Q1 : step (world_start r rs) i = Alive (World (hp ++ [new_matcher ci]) mp false l1)) by (apply begin_step; [exact RI|exact P1|reflexivity|exact L1]).
  assert (Q2 : step (World (hp ++ [new_matcher ci]) mp false l1) j = Alive (World heap2 mp false l2)).
  { rewrite (begin_step _ j m2 t2 h2 p2); cbn [hw_heap hw_map hw_routines hw_writing]; [| |exact P2|reflexivity|rewrite <- EM; exact L1].
    - rewrite <- app_assoc. rewrite app_length. cbn [List.length List.app]. rewrite Nat.add_1_r. reflexivity.
    - unfold l1. look. exact RJ. }
  assert (Q3 : step (World heap2 mp false l2) i = Alive (World heap2 mp true l3)).
  { unfold world_step. cbn [hw_routines hw_writing hw_heap hw_map]. unfold l2 at 1. look. unfold l1 at 1. look. reflexivity. }
  assert (Q4 : step (World heap2 mp true l3) i = Alive (World heap2 mp1 false l4)).
  { unfold world_step. cbn [hw_routines hw_writing hw_heap hw_map]. unfold l3 at 1, l2, l1. look. reflexivity. }
  assert (Q5 : step (World heap2 mp1 false l4) i = Alive (World heap3 mp1 false l5)).
  { unfold world_step. cbn [hw_routines hw_writing hw_heap hw_map]. unfold l4 at 1, l3, l2, l1. look. rewrite NN, A1. reflexivity. }
  assert (Q6 : step (World heap3 mp1 false l5) j = Alive (World heap3 mp1 true l6)).
  { unfold world_step. cbn [hw_routines hw_writing hw_heap hw_map]. unfold l5 at 1, l4, l3, l2, l1. look. reflexivity. }
  assert (Q7 : step (World heap3 mp1 true l6) j = Alive (World heap3 mp2 false l7)).
  { unfold world_step. cbn [hw_routines hw_writing hw_heap hw_map]. unfold l6 at 1, l5, l4, l3, l2, l1. look. rewrite <- EM. reflexivity. }
  assert (NS : nth_error heap3 (S n) = Some (new_matcher ci)).
  { unfold heap3. rewrite put_other by (assumption || lia). unfold heap2. rewrite nth_error_app2 by (unfold n; lia). replace (S n - List.length hp) with 1 by (unfold n; lia). reflexivity. }
  assert (Q8 : step (World heap3 mp2 false l7) j = Alive (World heap4 mp2 false l8)).
  { unfold world_step. cbn [hw_routines hw_writing hw_heap hw_map]. unfold l7 at 1, l6, l5, l4, l3, l2, l1. look. rewrite (nth_error_nth _ _ _ NS), A2. reflexivity. }
  exists (World heap4 mp2 false l8). split; [|split; [|split]].
  - cbn [world_run]. rewrite Q1, Q2, Q3, Q4, Q5, Q6, Q7, Q8. reflexivity.
  - exists (m1, t1, h1). cbn [hw_routines]. unfold l8, l7, l6, l5, l4, l3, l2, l1. look. reflexivity.
  - exists (m2, t2, h2). cbn [hw_routines]. unfold l8, l7, l6, l5, l4, l3, l2, l1. look. reflexivity.
  - intros k mth path buf NI NJ RK. pose proof (some_below _ _ _ RK) as BK.
    assert (RK8 : nth_error l8 k = Some (request mth path buf)) by (unfold l8, l7, l6, l5, l4, l3, l2, l1; look; exact RK).
    assert (BK8 : k < List.length l8) by (eapply some_below; exact RK8).
    cbn [world_run]. unfold world_step at 1. cbn [hw_routines]. rewrite RK8. unfold request. unfold dispatch_request. destruct (parse_url_path path buf) as [segs|] eqn:PU.
    + rewrite read_calm by reflexivity. cbn [hw_map hw_heap hw_writing r_matchers]. unfold mp2, mp1. rewrite !alookup_aset.
      assert (ANS : forall a mm, nth a heap4 (new_matcher ci) = mm ->
        exists w', match step (World heap4 mp2 false (put_nth k (Asking mth path buf (QMatch a segs)) l8)) k with Alive w1 => Alive w1 | Dead => Dead end = Alive w' /\ got w' k mth path buf (matched_end (match_path fuel re mm path segs))).
      { intros a mm E. unfold world_step. cbn [hw_routines hw_heap hw_map hw_writing]. look. rewrite E. eexists. split; [reflexivity|]. unfold got. cbn [hw_routines]. look. reflexivity. }
      destruct (beqb (to_upper mth) key) eqn:EK.
      * apply ANS. apply nth_error_nth. unfold heap4. apply put_same. unfold heap3. rewrite put_length; assumption.
      * pose proof (start_lookup (r_matchers r) 0 (to_upper mth)) as SL. fold mp in SL. destruct (alookup (to_upper mth) mp) as [a|].
        -- destruct SL as (_ & LA & v & NV & AV). rewrite AV. apply ANS. rewrite Nat.sub_0_r in NV. cbn in LA. assert (a < n) by (unfold n, hp; rewrite map_length; exact LA).
           apply nth_error_nth. unfold heap4. rewrite put_other; [|unfold heap3; rewrite put_length; assumption|lia]. unfold heap3. rewrite put_other by (assumption || lia).
           unfold heap2. rewrite nth_error_app1 by assumption. unfold hp. erewrite map_nth_error; [|exact NV]. reflexivity.
        -- rewrite SL. unfold world_step. cbn [hw_routines hw_heap hw_map hw_writing]. look. eexists. split; [reflexivity|]. unfold got. cbn [hw_routines]. look. reflexivity.
    + unfold world_step. cbn [hw_routines hw_heap hw_map hw_writing]. look. eexists. split; [reflexivity|]. unfold got. cbn [hw_routines]. look. reflexivity.
Qed.
End Race.

(** ** The theorems *)

Lemma race_crash : forall fuel re r rs i j m t h p mth path buf, r_matchers r <> [] -> i <> j ->
  nth_error rs i = Some (call (m, t, h)) -> parse_pattern fuel re t (r_ci r) = POk p -> ~ knows r m ->
  nth_error rs j = Some (request mth path buf) -> List.length buf = 19 ->
  world_run fuel re (r_ci r) (world_start r rs) [i; i; j] = Dead.
Proof. intros fuel re r rs i j m t h p mth path buf. exact (crash_run fuel re (r_ci r) r rs i j m t h p mth path buf). Qed.

Lemma race_two : forall fuel re r rs i j m1 t1 h1 p1 m2 t2 h2 p2, i <> j ->
  nth_error rs i = Some (call (m1, t1, h1)) -> parse_pattern fuel re t1 (r_ci r) = POk p1 -> ~ knows r m1 ->
  nth_error rs j = Some (call (m2, t2, h2)) -> parse_pattern fuel re t2 (r_ci r) = POk p2 -> ~ knows r m2 ->
  world_run fuel re (r_ci r) (world_start r rs) [i; j; i; j] = Dead.
Proof. intros fuel re r rs i j m1 t1 h1 p1 m2 t2 h2 p2. exact (two_run fuel re (r_ci r) r rs i j m1 t1 h1 p1 m2 t2 h2 p2). Qed.

Lemma race_lost : forall fuel re r rs i j m1 t1 h1 m2 t2 h2, i <> j ->
  nth_error rs i = Some (call (m1, t1, h1)) -> nth_error rs j = Some (call (m2, t2, h2)) ->
  to_upper m1 = to_upper m2 -> ~ knows r m1 ->
  snd (handle fuel re r m1 t1 h1) = Registered -> snd (handle fuel re r m2 t2 h2) = Registered ->
  exists schedule w, world_run fuel re (r_ci r) (world_start r rs) schedule = Alive w /\ ended w i Registered /\ ended w j Registered /\
    (forall k mth path buf, k <> i -> k <> j -> nth_error rs k = Some (request mth path buf) ->
     exists w', world_run fuel re (r_ci r) w [k; k] = Alive w' /\ got w' k mth path buf (dispatch_request fuel re (fst (handle fuel re r m2 t2 h2)) mth path buf)).
Proof. intros fuel re r rs i j m1 t1 h1 m2 t2 h2 N RI RJ E K H1 H2. eexists. exact (lost_run fuel re (r_ci r) r rs i j m1 t1 h1 m2 t2 h2 eq_refl N RI RJ E K H1 H2). Qed.

Lemma race_exactly : forall fuel re r rs schedule, all_begin rs ->
  (world_run fuel re (r_ci r) (world_start r rs) schedule = Dead <->
   exists before i after w, schedule = before ++ i :: after /\
     world_run fuel re (r_ci r) (world_start r rs) before = Alive w /\ map_clash fuel re (r_ci r) w i).
Proof. intros. apply dead_iff. now apply start_flagged. Qed.

Lemma race_known : forall fuel re r rs schedule, all_begin rs -> (forall m t h, In (call (m, t, h)) rs -> knows r m) ->
  exists w, world_run fuel re (r_ci r) (world_start r rs) schedule = Alive w.
Proof. intros. apply calm_run. now apply start_calm. Qed.

Lemma race_order : forall fuel re r rs s1 s2 w1 w2, 1 <= fuel -> all_begin rs -> (forall i j, ~ both_new r rs i j) ->
  world_run fuel re (r_ci r) (world_start r rs) s1 = Alive w1 -> world_run fuel re (r_ci r) w1 s2 = Alive w2 ->
  exists order1 order2 regs1 regs2, NoDup (order1 ++ order2) /\
    Forall2 (fun i reg => nth_error rs i = Some (call reg)) (order1 ++ order2) (regs1 ++ regs2) /\
    (forall i e, ended w1 i e <-> exists n, nth_error order1 n = Some i /\ nth_error (snd (handle_all fuel re r regs1)) n = Some e) /\
    (forall i e, ended w2 i e <-> exists n, nth_error (order1 ++ order2) n = Some i /\ nth_error (snd (handle_all fuel re r (regs1 ++ regs2))) n = Some e) /\
    (forall k mth path buf d, got w2 k mth path buf d -> got w1 k mth path buf d \/
       exists early late, regs2 = early ++ late /\ d = dispatch_request fuel re (fst (handle_all fuel re r (regs1 ++ early))) mth path buf).
Proof.
  intros fuel re r rs s1 s2 w1 w2 F AB NB R1 R2.
  destruct (run_ordered fuel re (r_ci r) F r rs s1 _ w1 [] [] (start_ordered fuel re (r_ci r) F r rs eq_refl AB NB) R1) as (o1 & g1 & O1 & _). cbn [List.app] in O1.
  destruct (run_ordered fuel re (r_ci r) F r rs s2 w1 w2 o1 g1 O1 R2) as (o2 & g2 & O2 & G2).
  exists o1, o2, g1, g2. destruct O1 as (_ & _ & _ & E1 & _). destruct O2 as (_ & ND & F2 & E2 & _). auto.
Qed.

(** ** Cases *)

Definition POST := str "POST".
Definition one_route : router := fst (handle 20 lit_engine (new_router false) GET (str "/a") 7).
Definition busy : list routine :=
  [call (POST, str "/x", 1); call (POST, str "/y", 2); request POST (str "/x") zeros; request POST (str "/y") zeros;
   call (GET, str "/b", 3); request GET (str "/b") zeros; call (GET, str "/a", 4)].
Definition hit (x : routine) : option nat := match x with Asking _ _ _ (QEnd (Calls h _ _)) => Some h | _ => None end.
Definition hits (o : outcome) : option (list (option nat)) := match o with Alive w => Some (map hit (hw_routines w)) | Dead => None end.
Definition ends (o : outcome) : option (list (option handle_end)) :=
  match o with Alive w => Some (map (fun x => match x with Handling _ (HEnd e) => Some e | _ => None end) (hw_routines w)) | Dead => None end.
Definition busy_run := world_run 20 lit_engine false (world_start one_route busy).

Lemma busy_facts : r_matchers one_route <> [] /\ ~ knows one_route POST /\ knows one_route GET /\
  snd (handle 20 lit_engine one_route POST (str "/x") 1) = Registered /\ snd (handle 20 lit_engine one_route POST (str "/y") 2) = Registered.
Proof.
  unfold one_route. vm_compute (fst _). unfold knows. vm_compute. repeat split; try discriminate. intro H. now apply H.
Qed.

Lemma busy_runs :
  busy_run [0; 0; 2] = Dead /\ busy_run [0; 1; 0; 1] = Dead /\
  ends (busy_run [0; 1; 0; 0; 0; 1; 1; 1; 2; 2; 3; 3]) = Some [Some Registered; Some Registered; None; None; None; None; None] /\
  hits (busy_run [0; 1; 0; 0; 0; 1; 1; 1; 2; 2; 3; 3]) = Some [None; None; None; Some 2; None; None; None] /\
  hits (busy_run [0; 0; 0; 1; 0; 1; 2; 2; 3; 3]) = Some [None; None; Some 1; Some 2; None; None; None].
Proof. vm_compute. repeat split. Qed.

Definition calm_busy : list routine := [call (GET, str "/b", 3); request GET (str "/b") zeros; call (GET, str "/a", 4); request GET (str "/b") zeros; call (POST, str "/x", 1)].
Lemma calm_facts : all_begin calm_busy /\ (forall i j, ~ both_new one_route calm_busy i j).
Proof.
  split.
  - intros x [<-|[<-|[<-|[<-|[<-|[]]]]]]; unfold call, request; eauto 6.
  - destruct busy_facts as (_ & NP & KG & _). intros i j (m1 & t1 & h1 & m2 & t2 & h2 & N & E1 & E2 & EM & NK).
    assert (POSTonly : forall k m t h, nth_error calm_busy k = Some (call (m, t, h)) -> k = 4 /\ m = POST \/ m = GET).
    { intros k m t h E. do 5 (destruct k as [|k]; [cbn in E; first [discriminate E|injection E as <- _ _; auto]|]). destruct k; discriminate E. }
    destruct (POSTonly _ _ _ _ E1) as [[-> ->]| ->]; [|contradiction]. destruct (POSTonly _ _ _ _ E2) as [[-> ->]| ->]; [congruence|]. vm_compute in EM. discriminate.
Qed.
Lemma calm_runs :
  ends (world_run 20 lit_engine false (world_start one_route calm_busy) [2; 0; 1; 2; 1; 0; 3; 3]) = Some [Some Registered; None; Some Duplicate; None; None] /\
  hits (world_run 20 lit_engine false (world_start one_route calm_busy) [2; 0; 1; 2; 1; 0; 3; 3]) = Some [None; None; None; Some 3; None].
Proof. vm_compute. repeat split. Qed.
