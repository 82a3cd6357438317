(** * Proofs about path prefixes and common middlewares. *)
From Coq Require Import List NArith ZArith Ascii String Bool Lia Arith.
From Verif Require Import GoBase Auth_Proofs Mux_Model Mux_Spec.
Import ListNotations.
Local Open Scope string_scope.
Local Open Scope list_scope.
Local Open Scope nat_scope.

(** ** Joining *)

Lemma ascii_eqb_false a b : Ascii.eqb a b = false <-> a <> b.
Proof. split; intros H. - intros ->. rewrite Ascii.eqb_refl in H. discriminate. - apply Ascii.eqb_neq. exact H. Qed.

Lemma split_last (a : bytes) : a <> [] -> exists b, a = b ++ [last a "a"%char].
Proof. intros H. exists (removelast a). apply app_removelast_last. exact H. Qed.

Lemma resolve_joined : forall a b, joined a b (resolve_path a b).
Proof.
  intros a b. destruct a as [|x a]; [apply jn_left|]. destruct b as [|c b]; [apply jn_right|].
  cbn [resolve_path]. set (p := x :: a). assert (Hp : p <> []) by discriminate. clearbody p. clear x a.
  destruct (Ascii.eqb (last p "a"%char) "/"%char) eqn:E; destruct (Ascii.eqb c "/"%char) eqn:S; cbn [andb negb].
  - apply Ascii.eqb_eq in E, S. subst c. destruct (split_last p Hp) as [q Q]. rewrite E in Q. rewrite Q, <- app_assoc.
    apply jn_both.
  - apply Ascii.eqb_eq in E. apply ascii_eqb_false in S. destruct (split_last p Hp) as [q Q]. rewrite E in Q.
    rewrite Q, <- app_assoc. apply jn_end; [discriminate|exact S].
  - apply Ascii.eqb_eq in S. apply ascii_eqb_false in E. subst c. apply jn_start; assumption.
  - apply ascii_eqb_false in E, S. apply jn_none; try assumption. discriminate.
Qed.

Lemma last_snoc (a : bytes) c d : last (a ++ [c]) d = c.
Proof. apply last_last. Qed.

Lemma joined_resolve : forall a b r, joined a b r -> r = resolve_path a b.
Proof.
  intros a b r J.
  assert (NE : forall (a : bytes) c, exists x y, a ++ [c] = x :: y).
  { intros a0 c. destruct a0; cbn; eexists _, _; reflexivity. }
  destruct J as [b|a|a b Ha Hb E S|a b Hb S|a b Ha E|a b].
  - reflexivity.
  - destruct a; reflexivity.
  - destruct a as [|x a]; [congruence|]. destruct b as [|c b]; [congruence|]. cbn [resolve_path].
    apply ascii_eqb_false in E. cbn [hd] in S. apply ascii_eqb_false in S. rewrite E, S. reflexivity.
  - destruct b as [|c b]; [congruence|]. unfold resolve_path. destruct (NE a "/"%char) as (x & y & Q). rewrite Q, <- Q.
    rewrite last_snoc. cbn [hd] in S. apply ascii_eqb_false in S. rewrite S. cbn. rewrite <- app_assoc. reflexivity.
  - destruct a as [|x a]; [congruence|]. cbn [resolve_path]. apply ascii_eqb_false in E. rewrite E. reflexivity.
  - unfold resolve_path. destruct (NE a "/"%char) as (x & y & Q). rewrite Q, <- Q. rewrite last_snoc. cbn.
    rewrite <- app_assoc. reflexivity.
Qed.

Lemma joined_unique a b r1 r2 : joined a b r1 -> joined a b r2 -> r1 = r2.
Proof. intros A B. apply joined_resolve in A, B. congruence. Qed.

(** ** Slices *)

Definition valid (h : mheap) (s : mslice) : Prop :=
  match sl_arr s with
  | None => sl_len s = 0
  | Some a => a < List.length h /\ sl_len s <= List.length (nth a h [])
  end.

Lemma set_nth_length {A} (l : list A) i x : List.length (set_nth l i x) = List.length l.
Proof. revert i. induction l as [|y l IH]; intros [|i]; cbn; auto. Qed.
Lemma set_nth_same {A} (l : list A) i x d : i < List.length l -> nth i (set_nth l i x) d = x.
Proof. revert i. induction l as [|y l IH]; intros [|i] H; cbn in *; try lia; [reflexivity|]. apply IH. lia. Qed.
Lemma set_nth_other {A} (l : list A) i j x d : i <> j -> nth j (set_nth l i x) d = nth j l d.
Proof. revert i j. induction l as [|y l IH]; intros [|i] [|j] H; cbn; auto; try congruence. Qed.
Lemma set_nth_error_same {A} (l : list A) i x : i < List.length l -> nth_error (set_nth l i x) i = Some x.
Proof. revert i. induction l as [|y l IH]; intros [|i] H; cbn in *; try lia; [reflexivity|]. apply IH. lia. Qed.
Lemma set_nth_error_other {A} (l : list A) i j x : i <> j -> nth_error (set_nth l i x) j = nth_error l j.
Proof. revert i j. induction l as [|y l IH]; intros [|i] [|j] H; cbn; auto; try congruence. Qed.

(** What [append] does to the slice and to the others. *)
Lemma append_spec grow h s xs h' s' :
  valid h s -> append grow h s xs = (h', s') ->
  valid h' s' /\ elems h' s' = elems h s ++ xs /\ List.length h <= List.length h' /\
  (sl_arr s' = sl_arr s \/ sl_arr s' = Some (List.length h)) /\
  (forall t, valid h t -> (sl_arr t <> None -> sl_arr t <> sl_arr s) -> valid h' t /\ elems h' t = elems h t).
Proof.
  intros V. unfold append. destruct (Nat.eqb_spec (List.length xs) 0) as [Z|Z].
  { intros E. injection E as <- <-. destruct xs; [|discriminate]. rewrite app_nil_r.
    repeat split; auto. }
  destruct s as [[a|] n]; unfold valid in V; cbn [sl_arr sl_len] in *; unfold array_of; cbn [sl_arr].
  - destruct V as [Va Vn]. destruct (Nat.leb_spec (n + List.length xs) (List.length (nth a h []))) as [L|L];
      intros E; injection E as <- <-.
    + assert (LEN : List.length (firstn n (nth a h []) ++ xs ++ skipn (n + List.length xs) (nth a h [])) = List.length (nth a h [])).
      { rewrite !app_length, firstn_length, skipn_length. lia. }
      repeat split; cbn [sl_arr sl_len].
      * rewrite set_nth_length. exact Va.
      * rewrite set_nth_same by exact Va. rewrite LEN. exact L.
      * unfold elems, array_of. cbn [sl_arr sl_len]. rewrite set_nth_same by exact Va.
        rewrite app_assoc, firstn_app, firstn_all2.
        2:{ rewrite app_length, firstn_length. lia. }
        rewrite app_length, firstn_length, Nat.min_l by lia. rewrite Nat.sub_diag. cbn [firstn]. apply app_nil_r.
      * rewrite set_nth_length. lia.
      * left. reflexivity.
      * intros. unfold valid in *. destruct (sl_arr t) as [b|]; [|assumption].
        rewrite set_nth_length, set_nth_other; [assumption|]. intros ->. apply H0; congruence.
      * unfold elems, array_of. destruct (sl_arr t) as [b|]; [|reflexivity].
        rewrite set_nth_other; [reflexivity|]. intros ->. apply H0; congruence.
    + assert (EL : List.length (elems h (MSlice (Some a) n)) = n).
      { unfold elems, array_of. cbn. rewrite firstn_length. lia. }
      repeat split; cbn [sl_arr sl_len].
      * rewrite app_length. cbn. lia.
      * rewrite app_nth2, Nat.sub_diag by lia. cbn [nth]. rewrite !app_length, EL. lia.
      * unfold elems at 1, array_of. cbn [sl_arr sl_len]. rewrite app_nth2, Nat.sub_diag by lia. cbn [nth].
        rewrite app_assoc, firstn_app, firstn_all2.
        2:{ rewrite app_length, EL. lia. }
        rewrite app_length, EL, Nat.sub_diag. cbn [firstn]. apply app_nil_r.
      * rewrite app_length. lia.
      * right. reflexivity.
      * intros. unfold valid in *. destruct (sl_arr t) as [b|]; [|assumption].
        rewrite app_length, app_nth1 by tauto. split; [lia|tauto].
      * unfold elems, array_of, valid in *. destruct (sl_arr t) as [b|]; [|reflexivity].
        rewrite app_nth1 by tauto. reflexivity.
  - subst n. intros E. injection E as <- <-.
    repeat split; cbn [sl_arr sl_len].
    + rewrite app_length. cbn. lia.
    + rewrite app_nth2, Nat.sub_diag by lia. cbn [nth]. rewrite !app_length. lia.
    + unfold elems at 1, array_of. cbn [sl_arr sl_len]. rewrite app_nth2, Nat.sub_diag by lia. cbn [nth].
      cbn [Nat.add]. rewrite firstn_app, firstn_all2, Nat.sub_diag by lia. cbn [firstn]. rewrite app_nil_r. reflexivity.
    + rewrite app_length. lia.
    + right. reflexivity.
    + intros. unfold valid in *. destruct (sl_arr t) as [b|]; [|assumption].
      rewrite app_length, app_nth1 by tauto. split; [lia|tauto].
    + unfold elems, array_of, valid in *. destruct (sl_arr t) as [b|]; [|reflexivity].
      rewrite app_nth1 by tauto. reflexivity.
Qed.

(** ** Refinement *)

Definition mux_ok (h : mheap) (x : mux) (v : vmux) : Prop :=
  mx_prefix x = vm_prefix v /\ valid h (mx_common x) /\ elems h (mx_common x) = vm_common v.

Record refines (st : mstate) (vs : list vmux) : Prop := {
  rf_len : List.length (ms_muxes st) = List.length vs;
  rf_ok : forall i x v, nth_error (ms_muxes st) i = Some x -> nth_error vs i = Some v -> mux_ok (ms_heap st) x v;
  rf_apart : forall i j x y a, nth_error (ms_muxes st) i = Some x -> nth_error (ms_muxes st) j = Some y ->
    sl_arr (mx_common x) = Some a -> sl_arr (mx_common y) = Some a -> i = j
}.

Lemma refines_init : refines new_mux [VMux [] []].
Proof.
  constructor.
  - reflexivity.
  - intros [|[|i]] x v A B; try discriminate. injection A as <-. injection B as <-. repeat split.
  - intros [|[|i]] [|[|j]] x y a A B; try discriminate. reflexivity.
Qed.

Lemma refines_nth st vs m v : refines st vs -> nth_error vs m = Some v ->
  exists x, nth_error (ms_muxes st) m = Some x /\ mux_ok (ms_heap st) x v.
Proof.
  intros R V. destruct (nth_error (ms_muxes st) m) as [x|] eqn:E.
  - exists x. split; [reflexivity|]. eapply rf_ok; eassumption.
  - apply nth_error_None in E. rewrite (rf_len _ _ R) in E. apply nth_error_None in E. congruence.
Qed.

(** A new mux with a copy of the middlewares of [x]. *)
Lemma refines_new grow st vs m x v h s pre :
  refines st vs -> nth_error (ms_muxes st) m = Some x -> mux_ok (ms_heap st) x v ->
  append grow (ms_heap st) nil_slice (elems (ms_heap st) (mx_common x)) = (h, s) ->
  refines (MState (ms_muxes st ++ [Mux pre s]) h) (vs ++ [VMux pre (vm_common v)]).
Proof.
  intros R X (P & V & E) A.
  assert (V0 : valid (ms_heap st) nil_slice) by reflexivity.
  destruct (append_spec _ _ _ _ _ _ V0 A) as (V' & E' & _ & B & O).
  assert (KEEP : forall t, valid (ms_heap st) t -> valid h t /\ elems h t = elems (ms_heap st) t).
  { intros t Vt. apply O; [exact Vt|]. intros N. exact N. }
  constructor; cbn [ms_muxes ms_heap].
  - rewrite !app_length, (rf_len _ _ R). reflexivity.
  - intros i y w A1 A2. destruct (Nat.lt_ge_cases i (List.length (ms_muxes st))) as [L|L].
    + rewrite nth_error_app1 in A1 by exact L. rewrite nth_error_app1 in A2 by (rewrite <- (rf_len _ _ R); exact L).
      destruct (rf_ok _ _ R _ _ _ A1 A2) as (P1 & V1 & E1). destruct (KEEP _ V1) as [K1 K2].
      split; [exact P1|]. split; [exact K1|]. congruence.
    + rewrite nth_error_app2 in A1 by exact L. rewrite nth_error_app2 in A2 by (rewrite <- (rf_len _ _ R); exact L).
      rewrite <- (rf_len _ _ R) in A2. destruct (i - List.length (ms_muxes st)) as [|[|k]]; try discriminate.
      injection A1 as <-. injection A2 as <-. split; [reflexivity|]. split; [exact V'|]. cbn [mx_common vm_common].
      rewrite E', <- E. reflexivity.
  - intros i j y z a A1 A2 S1 S2.
    assert (FRESH : forall k y, nth_error (ms_muxes st) k = Some y -> sl_arr (mx_common y) = Some a -> sl_arr s <> Some a).
    { intros k y' N S S'. destruct B as [B|B]; [cbn in B; congruence|].
      destruct (nth_error vs k) as [w|] eqn:W.
      - destruct (rf_ok _ _ R _ _ _ N W) as (_ & Vy & _). unfold valid in Vy. rewrite S in Vy. destruct Vy.
        rewrite S' in B. injection B as ->. lia.
      - apply nth_error_None in W. rewrite <- (rf_len _ _ R) in W. apply nth_error_None in W. congruence. }
    destruct (Nat.lt_ge_cases i (List.length (ms_muxes st))) as [L|L];
    destruct (Nat.lt_ge_cases j (List.length (ms_muxes st))) as [L'|L'].
    + rewrite nth_error_app1 in A1 by exact L. rewrite nth_error_app1 in A2 by exact L'. eapply rf_apart; eassumption.
    + rewrite nth_error_app1 in A1 by exact L. rewrite nth_error_app2 in A2 by exact L'.
      destruct (j - List.length (ms_muxes st)) as [|[|k]]; try discriminate. injection A2 as <-.
      destruct (FRESH _ _ A1 S1 S2).
    + rewrite nth_error_app2 in A1 by exact L. rewrite nth_error_app1 in A2 by exact L'.
      destruct (i - List.length (ms_muxes st)) as [|[|k]]; try discriminate. injection A1 as <-.
      destruct (FRESH _ _ A2 S2 S1).
    + assert (BB : forall k, List.length (ms_muxes st) <= k -> nth_error (ms_muxes st ++ [Mux pre s]) k <> None -> k = List.length (ms_muxes st)).
      { intros k Lk N. apply nth_error_Some in N. rewrite app_length in N. cbn in N. lia. }
      rewrite (BB i L) by congruence. rewrite (BB j L') by congruence. reflexivity.
Qed.

Lemma refines_common grow st before v after x xs h s :
  refines st (before ++ v :: after) -> nth_error (ms_muxes st) (List.length before) = Some x ->
  append grow (ms_heap st) (mx_common x) xs = (h, s) ->
  refines (MState (set_nth (ms_muxes st) (List.length before) (Mux (mx_prefix x) s)) h)
    (before ++ VMux (vm_prefix v) (vm_common v ++ xs) :: after).
Proof.
  intros R X A. set (m := List.length before) in *.
  assert (NV : nth_error (before ++ v :: after) m = Some v).
  { unfold m. rewrite nth_error_app2, Nat.sub_diag by lia. reflexivity. }
  destruct (rf_ok _ _ R _ _ _ X NV) as (P & V & E).
  destruct (append_spec _ _ _ _ _ _ V A) as (V' & E' & _ & B & O).
  assert (OTHER : forall k y, k <> m -> nth_error (ms_muxes st) k = Some y ->
            sl_arr (mx_common y) <> None -> sl_arr (mx_common y) <> sl_arr (mx_common x)).
  { intros k y Hk Y NN S. apply Hk. destruct (sl_arr (mx_common y)) as [a|] eqn:S'; [|congruence].
    eapply (rf_apart _ _ R); eauto. }
  assert (ML : m < List.length (ms_muxes st)).
  { apply nth_error_Some. congruence. }
  constructor; cbn [ms_muxes ms_heap].
  - rewrite set_nth_length, (rf_len _ _ R), !app_length. reflexivity.
  - intros i y w A1 A2. destruct (Nat.eq_dec i m) as [->|N].
    + rewrite set_nth_error_same in A1 by exact ML. injection A1 as <-.
      unfold m in A2. rewrite nth_error_app2, Nat.sub_diag in A2 by lia. injection A2 as <-.
      split; [exact P|]. split; [exact V'|]. cbn [mx_common vm_common]. rewrite E', E. reflexivity.
    + rewrite set_nth_error_other in A1 by congruence.
      assert (A3 : nth_error (before ++ v :: after) i = Some w).
      { rewrite <- A2. destruct (Nat.lt_ge_cases i m) as [L|L].
        - rewrite !nth_error_app1 by exact L. reflexivity.
        - rewrite !nth_error_app2 by exact L. unfold m in *. destruct (i - List.length before) as [|k] eqn:D; [lia|]. reflexivity. }
      destruct (rf_ok _ _ R _ _ _ A1 A3) as (P1 & V1 & E1).
      destruct (O (mx_common y) V1 (OTHER i y N A1)) as [K1 K2].
      split; [exact P1|]. split; [exact K1|]. congruence.
  - assert (BR : forall k y a, k <> m -> nth_error (ms_muxes st) k = Some y -> sl_arr (mx_common y) = Some a -> sl_arr s <> Some a).
    { intros k y a Hk Y S S'. destruct B as [B|B].
      - apply (OTHER k y Hk Y); congruence.
      - destruct (nth_error (before ++ v :: after) k) as [w|] eqn:W.
        + destruct (rf_ok _ _ R _ _ _ Y W) as (_ & Vy & _). unfold valid in Vy. rewrite S in Vy. destruct Vy.
          rewrite S' in B. injection B as ->. lia.
        + apply nth_error_None in W. rewrite <- (rf_len _ _ R) in W. apply nth_error_None in W. congruence. }
    intros i j y z a A1 A2 S1 S2. destruct (Nat.eq_dec i m) as [->|Ni]; destruct (Nat.eq_dec j m) as [->|Nj].
    + reflexivity.
    + rewrite set_nth_error_same in A1 by exact ML. injection A1 as <-. rewrite set_nth_error_other in A2 by congruence.
      destruct (BR _ _ _ Nj A2 S2 S1).
    + rewrite set_nth_error_same in A2 by exact ML. injection A2 as <-. rewrite set_nth_error_other in A1 by congruence.
      destruct (BR _ _ _ Ni A1 S1 S2).
    + rewrite set_nth_error_other in A1, A2 by congruence. eapply rf_apart; eassumption.
Qed.

Lemma beqb_false a b : beqb a b = false <-> a <> b.
Proof.
  destruct (beqb a b) eqn:E.
  - apply beqb_iff in E. subst. split; [discriminate|congruence].
  - split; [|reflexivity]. intros _ ->. rewrite (proj2 (beqb_iff b b) eq_refl) in E. discriminate.
Qed.

Lemma step_refines grow st vs c vs' g :
  refines st vs -> value_step vs c vs' g -> ~ idle_prefix vs c ->
  exists st', mcall_step grow st c = (st', g) /\ refines st' vs'.
Proof.
  intros R V N. destruct V as [ms m v X|ms m v p r X J|before v after xs|ms m v method path r own h X J]; cbn [mcall_step].
  - destruct (refines_nth _ _ _ _ R X) as (x & Nx & Ok). rewrite Nx.
    destruct (append grow (ms_heap st) nil_slice (elems (ms_heap st) (mx_common x))) as [h s] eqn:A.
    eexists. split; [unfold add_mux; rewrite (rf_len _ _ R); reflexivity|].
    destruct v as [vp vc]. destruct Ok as (P & Ok'). cbn [vm_prefix] in P. rewrite P.
    exact (refines_new grow st ms m x (VMux vp vc) h s vp R Nx (conj P Ok') A).
  - destruct (refines_nth _ _ _ _ R X) as (x & Nx & Ok). rewrite Nx.
    assert (I1 : p <> []) by (intros ->; apply N; left; reflexivity).
    assert (I2 : vm_prefix v <> p) by (intros Q; apply N; right; exists v; split; assumption).
    destruct Ok as (P & Ok').
    replace (Nat.eqb (List.length p) 0 || beqb p (mx_prefix x)) with false.
    2:{ symmetry. apply orb_false_iff. split; [destruct p; [congruence|reflexivity]|]. apply beqb_false. congruence. }
    destruct (append grow (ms_heap st) nil_slice (elems (ms_heap st) (mx_common x))) as [h s] eqn:A.
    eexists. split; [unfold add_mux; rewrite (rf_len _ _ R); reflexivity|].
    rewrite P, <- (joined_resolve _ _ _ J). eapply refines_new; try eassumption. split; assumption.
  - assert (NV : nth_error (before ++ v :: after) (List.length before) = Some v).
    { rewrite nth_error_app2, Nat.sub_diag by lia. reflexivity. }
    destruct (refines_nth _ _ _ _ R NV) as (x & Nx & Ok). rewrite Nx.
    destruct xs as [|y ys].
    + cbn [List.length Nat.ltb Nat.leb]. eexists. split; [reflexivity|]. rewrite app_nil_r. destruct v; exact R.
    + cbn [List.length Nat.ltb Nat.leb].
      destruct (append grow (ms_heap st) (mx_common x) (y :: ys)) as [h s] eqn:A.
      eexists. split; [reflexivity|]. eapply refines_common; eassumption.
  - destruct (refines_nth _ _ _ _ R X) as (x & Nx & P & _ & E). rewrite Nx.
    exists st. split; [|exact R]. rewrite P, E, <- (joined_resolve _ _ _ J). reflexivity.
Qed.

Lemma value_run_snoc vs cs vs1 gs c vs2 g :
  value_run vs cs vs1 gs -> value_step vs1 c vs2 g -> value_run vs (cs ++ [c]) vs2 (gs ++ [g]).
Proof.
  intros R S. induction R as [ms|ms c0 ms1 g0 cs ms2 gs S0 R IH]; cbn.
  - econstructor; [exact S|constructor].
  - econstructor; [exact S0|apply IH; exact S].
Qed.

Lemma run_refines grow cs vs vs' gs : value_run vs cs vs' gs ->
  forall st done dg, refines st vs -> value_run [VMux [] []] done vs dg -> never_idle (done ++ cs) ->
  snd (mcalls grow st cs) = gs /\ refines (fst (mcalls grow st cs)) vs'.
Proof.
  intros V. induction V as [ms|ms c ms1 g cs ms2 gs S V IH]; intros st done dg R D N.
  - split; [reflexivity|exact R].
  - destruct (step_refines grow st ms c ms1 g R S (N done c cs ms dg eq_refl D)) as (st' & E & R').
    cbn [mcalls]. rewrite E.
    destruct (IH st' (done ++ [c]) (dg ++ [g]) R') as [A B].
    + eapply value_run_snoc; eassumption.
    + rewrite <- app_assoc. exact N.
    + destruct (mcalls grow st' cs) as [st2 gs2]. cbn [fst snd] in *. subst gs2. split; [reflexivity|exact B].
Qed.

Lemma muxes_are_values grow cs ms gs :
  value_run [VMux [] []] cs ms gs -> never_idle cs -> snd (mcalls grow new_mux cs) = gs.
Proof.
  intros V N. eapply (run_refines grow cs _ _ _ V new_mux [] []); [apply refines_init|constructor|exact N].
Qed.

(** ** Isolation *)

Record alike (known : list nat) (vs ws : list vmux) : Prop := {
  al_len : List.length vs = List.length ws;
  al_prefix : forall k v w, nth_error vs k = Some v -> nth_error ws k = Some w -> vm_prefix v = vm_prefix w;
  al_same : forall k, ~ In k known -> nth_error vs k = nth_error ws k
}.

Lemma alike_sym known vs ws : alike known vs ws -> alike known ws vs.
Proof.
  intros [A B C]. constructor; [auto| |].
  - intros k v w V W. symmetry. eauto.
  - intros k N. symmetry. auto.
Qed.

Lemma alike_nth known vs ws k v : alike known vs ws -> nth_error vs k = Some v ->
  exists w, nth_error ws k = Some w /\ vm_prefix v = vm_prefix w.
Proof.
  intros A V. destruct (nth_error ws k) as [w|] eqn:W.
  - exists w. split; [reflexivity|]. eapply al_prefix; eassumption.
  - apply nth_error_None in W. rewrite <- (al_len _ _ _ A) in W. apply nth_error_None in W. congruence.
Qed.

Lemma alike_new known known' vs ws a b :
  alike known vs ws -> vm_prefix a = vm_prefix b -> incl known known' ->
  (a = b \/ In (List.length vs) known') -> alike known' (vs ++ [a]) (ws ++ [b]).
Proof.
  intros A P I E. pose proof (al_len _ _ _ A) as L. constructor.
  - rewrite !app_length. cbn. lia.
  - intros k v w V W. destruct (Nat.lt_ge_cases k (List.length vs)) as [H|H].
    + rewrite nth_error_app1 in V by exact H. rewrite nth_error_app1 in W by lia. eapply al_prefix; eassumption.
    + rewrite nth_error_app2 in V by exact H. rewrite nth_error_app2 in W by lia. rewrite <- L in W.
      destruct (k - List.length vs) as [|[|d]]; try discriminate. injection V as <-. injection W as <-. exact P.
  - intros k N. destruct (Nat.lt_ge_cases k (List.length vs)) as [H|H].
    + rewrite !nth_error_app1 by lia. apply (al_same _ _ _ A). intros K. apply N, I, K.
    + rewrite !nth_error_app2 by lia. rewrite <- L. destruct (k - List.length vs) as [|[|d]] eqn:D; try reflexivity.
      destruct E as [->|E]; [reflexivity|]. destruct N. replace k with (List.length vs) by lia. exact E.
Qed.

Lemma nth_error_parts {A} (l : list A) m x : nth_error l m = Some x ->
  exists l1 l2, l = l1 ++ x :: l2 /\ List.length l1 = m.
Proof. apply nth_error_split. Qed.

Lemma step_alike known vs ws c vs' g :
  alike known vs ws -> value_step vs c vs' g ->
  exists ws' g', value_step ws c ws' g' /\ alike (heirs (List.length vs) known [c]) vs' ws' /\
    (forall k method path own h, c = CHandle k method path own h -> ~ In k known -> g = g').
Proof.
  intros A V. destruct V as [ms m v X|ms m v p r X J|before v after xs|ms m v method path r own h X J]; cbn [heirs].
  - destruct (alike_nth _ _ _ _ _ A X) as (w & W & P).
    exists (ws ++ [w]), (GMux (List.length ws)). split; [constructor; exact W|]. split; [|discriminate].
    destruct (in_dec Nat.eq_dec m known) as [I|I].
    + apply (alike_new known); auto; [apply incl_tl, incl_refl|right; left; reflexivity].
    + apply (alike_new known); auto; [apply incl_refl|]. left. rewrite (al_same _ _ _ A m I) in X. congruence.
  - destruct (alike_nth _ _ _ _ _ A X) as (w & W & P).
    exists (ws ++ [VMux r (vm_common w)]), (GMux (List.length ws)). split; [econstructor; [exact W|rewrite <- P; exact J]|].
    split; [|discriminate].
    destruct (in_dec Nat.eq_dec m known) as [I|I].
    + apply (alike_new known); auto; [apply incl_tl, incl_refl|right; left; reflexivity].
    + apply (alike_new known); auto; [apply incl_refl|]. left. rewrite (al_same _ _ _ A m I) in X. congruence.
  - assert (NV : nth_error (before ++ v :: after) (List.length before) = Some v).
    { rewrite nth_error_app2, Nat.sub_diag by lia. reflexivity. }
    destruct (alike_nth _ _ _ _ _ A NV) as (w & W & P).
    destruct (nth_error_parts _ _ _ W) as (b2 & a2 & -> & L2).
    exists (b2 ++ VMux (vm_prefix w) (vm_common w ++ xs) :: a2), GNothing. split; [rewrite <- L2; constructor|].
    split; [|discriminate].
    assert (AT : forall (b a : list vmux) (z : vmux) k, k <> List.length b -> forall z', nth_error (b ++ z :: a) k = nth_error (b ++ z' :: a) k).
    { intros b a z k Hk z'. destruct (Nat.lt_ge_cases k (List.length b)) as [H|H].
      - rewrite !nth_error_app1 by exact H. reflexivity.
      - rewrite !nth_error_app2 by exact H. destruct (k - List.length b) as [|d] eqn:D; [lia|]. reflexivity. }
    assert (HERE : forall (b a : list vmux) (z : vmux), nth_error (b ++ z :: a) (List.length b) = Some z).
    { intros. rewrite nth_error_app2, Nat.sub_diag by lia. reflexivity. }
    constructor.
    + pose proof (al_len _ _ _ A) as L. rewrite !app_length in *. cbn in *. lia.
    + intros k v' w' V' W'. destruct (Nat.eq_dec k (List.length before)) as [->|N].
      * rewrite HERE in V'. rewrite <- L2, HERE in W'. injection V' as <-. injection W' as <-. exact P.
      * rewrite (AT _ _ _ _ N v) in V'. rewrite (AT b2 a2 _ k ltac:(congruence) w) in W'. eapply al_prefix; eassumption.
    + intros k NI. destruct (Nat.eq_dec k (List.length before)) as [->|N].
      * rewrite HERE, <- L2, HERE. rewrite (al_same _ _ _ A _ NI), W in NV. congruence.
      * rewrite (AT _ _ _ _ N v), (AT b2 a2 _ k ltac:(congruence) w). apply (al_same _ _ _ A k NI).
  - destruct (alike_nth _ _ _ _ _ A X) as (w & W & P).
    exists ws, (GReg method r (vm_common w) own h). split; [econstructor; [exact W|rewrite <- P; exact J]|].
    split; [exact A|]. intros k method' path' own' h' Q NI. injection Q as <- <- <- <- <-.
    rewrite (al_same _ _ _ A m NI) in X. congruence.
Qed.

Lemma heirs_cons n known c cs : heirs n known (c :: cs) =
  heirs (match c with CClone _ | CRoute _ _ => S n | _ => n end) (heirs n known [c]) cs.
Proof. destruct c; reflexivity. Qed.

Lemma step_length vs c vs' g : value_step vs c vs' g ->
  List.length vs' = match c with CClone _ | CRoute _ _ => S (List.length vs) | _ => List.length vs end.
Proof. intros V. destruct V; rewrite ?app_length; cbn; lia. Qed.

Lemma run_alike cs vs vs' gs : value_run vs cs vs' gs -> forall known ws, alike known vs ws ->
  exists ws' gs', value_run ws cs ws' gs' /\ alike (heirs (List.length vs) known cs) vs' ws' /\
    List.length gs = List.length gs' /\
    forall i k method path own h, nth_error cs i = Some (CHandle k method path own h) ->
      ~ In k (heirs (List.length vs) known (firstn i cs)) -> nth_error gs i = nth_error gs' i.
Proof.
  intros V. induction V as [ms|ms c ms1 g cs ms2 gs S V IH]; intros known ws A.
  - exists ws, []. split; [constructor|]. split; [exact A|]. split; [reflexivity|]. intros [|i]; discriminate.
  - destruct (step_alike _ _ _ _ _ _ A S) as (ws1 & g' & S' & A' & G).
    destruct (IH _ _ A') as (ws2 & gs2 & R & A2 & L & G2).
    exists ws2, (g' :: gs2). split; [econstructor; eassumption|]. rewrite (step_length _ _ _ _ S) in *.
    rewrite heirs_cons. split; [exact A2|]. split; [cbn; lia|].
    intros [|i] k method path own h E N.
    + cbn in *. injection E as ->. f_equal. eapply G; [reflexivity|exact N].
    + cbn [firstn nth_error] in *. rewrite heirs_cons in N. eapply G2; eassumption.
Qed.

Lemma value_run_app vs a vs' gs : forall b, value_run vs (a ++ b) vs' gs ->
  exists mid g1 g2, value_run vs a mid g1 /\ value_run mid b vs' g2 /\ gs = g1 ++ g2.
Proof.
  revert vs gs. induction a as [|c a IH]; intros vs gs b R.
  - exists vs, [], gs. split; [constructor|]. split; [exact R|reflexivity].
  - cbn in R. inversion R as [|? ? ms1 g ? ? gs' S R']; subst. destruct (IH _ _ _ R') as (mid & g1 & g2 & R1 & R2 & ->).
    exists mid, (g :: g1), g2. split; [econstructor; eassumption|]. split; [exact R2|reflexivity].
Qed.
Lemma value_run_join vs a mid g1 b vs' g2 : value_run vs a mid g1 -> value_run mid b vs' g2 ->
  value_run vs (a ++ b) vs' (g1 ++ g2).
Proof. intros R. induction R; intros R2; cbn; [exact R2|econstructor; eauto]. Qed.

Lemma app_same_length {A} (a a2 b b2 : list A) : List.length a2 = List.length a -> a2 ++ b2 = a ++ b -> a2 = a /\ b2 = b.
Proof.
  revert a2. induction a as [|x a IH]; intros [|y a2] L E; try discriminate; [auto|].
  cbn in *. injection E as -> E. destruct (IH a2 ltac:(lia) E) as [-> ->]. auto.
Qed.

Lemma step_unique vs c a g b g' : value_step vs c a g -> value_step vs c b g' -> a = b /\ g = g'.
Proof.
  intros A B. destruct A as [ms m v X|ms m v p r X J|before v after xs|ms m v method path r own h X J].
  - inversion B; subst. split; congruence.
  - inversion B as [|? ? x2 ? r2 X2 J2| |]; subst. assert (x2 = v) by congruence. subst.
    rewrite (joined_unique _ _ _ _ J J2). auto.
  - remember (before ++ v :: after) as l eqn:L. remember (CCommon (List.length before) xs) as c eqn:C.
    destruct B as [| |b2 v2 a2 xs2|]; try discriminate. injection C as LL ->.
    assert (b2 = before /\ v2 :: a2 = v :: after) as [-> Q].
    { apply app_same_length; congruence. }
    injection Q as -> ->. auto.
  - inversion B as [| | |? ? x2 ? ? r2 ? ? X2 J2]; subst. assert (x2 = v) by congruence. subst.
    rewrite (joined_unique _ _ _ _ J J2). auto.
Qed.

Lemma run_unique cs : forall vs a gs b gs', value_run vs cs a gs -> value_run vs cs b gs' -> a = b /\ gs = gs'.
Proof.
  induction cs as [|c cs IH]; intros vs a gs b gs' A B; inversion A; inversion B; subst; [auto|].
  match goal with
  | H1 : value_step vs c ?m1 ?g1, H2 : value_step vs c ?m2 ?g2 |- _ =>
      destruct (step_unique _ _ _ _ _ _ H1 H2) as [E1 E2]; subst
  end.
  match goal with
  | H1 : value_run ?m cs a ?g1, H2 : value_run ?m cs b ?g2 |- _ => destruct (IH _ _ _ _ _ H1 H2); subst; auto
  end.
Qed.

Lemma alike_common before v after xs :
  alike [List.length before] (before ++ v :: after) (before ++ VMux (vm_prefix v) (vm_common v ++ xs) :: after).
Proof.
  constructor.
  - rewrite !app_length. reflexivity.
  - intros k a b A B. destruct (Nat.lt_ge_cases k (List.length before)) as [H|H].
    + rewrite nth_error_app1 in A, B by exact H. congruence.
    + rewrite nth_error_app2 in A, B by exact H. destruct (k - List.length before) as [|d]; cbn in A, B.
      * injection A as <-. injection B as <-. reflexivity.
      * congruence.
  - intros k N. destruct (Nat.lt_ge_cases k (List.length before)) as [H|H].
    + rewrite !nth_error_app1 by exact H. reflexivity.
    + rewrite !nth_error_app2 by exact H. destruct (k - List.length before) as [|d] eqn:D; [|reflexivity].
      destruct N. left. lia.
Qed.

(** Leaving out a call that adds middlewares keeps a history free of idle prefixes. *)
Lemma never_idle_without pre m xs post ms gs :
  value_run [VMux [] []] (pre ++ CCommon m xs :: post) ms gs ->
  never_idle (pre ++ CCommon m xs :: post) -> never_idle (pre ++ post).
Proof.
  intros R N before c after ms' gs' E R' I.
  destruct (Nat.lt_ge_cases (List.length before) (List.length pre)) as [L|L].
  - (* the call is in [pre] *)
    assert (P : exists rest, pre = before ++ c :: rest).
    { exists (skipn (S (List.length before)) pre).
      assert (F : firstn (S (List.length before)) pre = before ++ [c]).
      { replace (firstn (S (List.length before)) pre) with (firstn (S (List.length before)) (pre ++ post)).
        - rewrite E. replace (S (List.length before)) with (List.length (before ++ [c])) by (rewrite app_length; cbn; lia).
          replace (before ++ c :: after) with ((before ++ [c]) ++ after) by (rewrite <- app_assoc; reflexivity).
          rewrite firstn_app, firstn_all, Nat.sub_diag. cbn. apply app_nil_r.
        - rewrite firstn_app. replace (S (List.length before) - List.length pre) with 0 by lia. cbn. apply app_nil_r. }
      rewrite <- (firstn_skipn (S (List.length before)) pre) at 1. rewrite F, <- app_assoc. reflexivity. }
    destruct P as [rest ->]. apply (N before c (rest ++ CCommon m xs :: post) ms' gs'); auto.
    rewrite <- app_assoc. reflexivity.
  - assert (P : exists b2, before = pre ++ b2 /\ post = b2 ++ c :: after).
    { exists (skipn (List.length pre) before).
      assert (F : firstn (List.length pre) before = pre).
      { transitivity (firstn (List.length pre) (before ++ c :: after)).
        - rewrite firstn_app. replace (List.length pre - List.length before) with 0 by lia. cbn. rewrite app_nil_r. reflexivity.
        - rewrite <- E, firstn_app, firstn_all, Nat.sub_diag. cbn. apply app_nil_r. }
      assert (B : before = pre ++ skipn (List.length pre) before).
      { rewrite <- F at 1. symmetry. apply firstn_skipn. }
      split; [exact B|]. rewrite B, <- app_assoc in E. apply app_inv_head in E. exact E. }
    destruct P as (b2 & -> & ->).
    destruct (value_run_app _ _ _ _ _ R') as (mid & g1 & g2 & R1 & R2 & ->).
    destruct (value_run_app _ _ _ _ _ R) as (mid' & g1' & g2' & R1' & R2' & ->).
    destruct (run_unique _ _ _ _ _ _ R1 R1') as [<- _].
    inversion R2' as [|? ? msa ga ? ? gsa Sa Ra]; subst.
    inversion Sa as [| |b v a xs' |]; subst.
    destruct (run_alike _ _ _ _ R2 _ _ (alike_common b v a xs)) as (ws & gw & Rw & Aw & _).
    eapply (N (pre ++ CCommon (List.length b) xs :: b2) c after ws).
    + rewrite <- app_assoc. reflexivity.
    + eapply value_run_join; [exact R1|]. econstructor; [constructor|exact Rw].
    + destruct c as [|k p| |]; cbn in *; try exact I. destruct I as [I|(x & X & P)]; [left; exact I|right].
      destruct (alike_nth _ _ _ _ _ Aw X) as (w & W & Q). exists w. split; [exact W|congruence].
Qed.

(** Adding middlewares to a mux changes nothing for the muxes that are not made from
    it afterwards. *)
Lemma middlewares_isolated grow pre m xs post ms gs :
  value_run [VMux [] []] (pre ++ CCommon m xs :: post) ms gs ->
  never_idle (pre ++ CCommon m xs :: post) ->
  forall i k method path own h,
    nth_error post i = Some (CHandle k method path own h) ->
    ~ In k (heirs (List.length (ms_muxes (fst (mcalls grow new_mux pre)))) [m] (firstn i post)) ->
    nth_error (snd (mcalls grow new_mux (pre ++ CCommon m xs :: post))) (List.length pre + 1 + i) =
    nth_error (snd (mcalls grow new_mux (pre ++ post))) (List.length pre + i).
Proof.
  intros R N i k method path own h E NI.
  pose proof (never_idle_without _ _ _ _ _ _ R N) as N'.
  rewrite (muxes_are_values _ _ _ _ R N).
  destruct (value_run_app _ _ _ _ _ R) as (mid & g1 & g2 & R1 & R2 & ->).
  inversion R2 as [|? ? msa ga ? ? gsa Sa Ra]; subst. inversion Sa as [| |b v a xs' |]; subst.
  assert (LEN : List.length (ms_muxes (fst (mcalls grow new_mux pre))) = List.length (b ++ v :: a)).
  { assert (NP : never_idle pre).
    { intros before c after ms0 gs0 -> R0. eapply (N before c (after ++ _)); [|exact R0].
      rewrite <- app_assoc. reflexivity. }
    destruct (run_refines grow _ _ _ _ R1 new_mux [] [] refines_init (vr_end _) NP) as [_ RF].
    apply (rf_len _ _ RF). }
  rewrite LEN in NI.
  destruct (run_alike _ _ _ _ Ra _ _ (alike_sym _ _ _ (alike_common b v a xs))) as (ws & gw & Rw & _ & Lw & Gw).
  rewrite (muxes_are_values grow (pre ++ post) ws (g1 ++ gw)).
  2:{ eapply value_run_join; eassumption. }
  2:{ exact N'. }
  assert (LG : forall vs cs vs' gs, value_run vs cs vs' gs -> List.length gs = List.length cs).
  { intros vs cs vs' gs V. induction V; cbn; auto. }
  pose proof (LG _ _ _ _ R1) as L1.
  rewrite !nth_error_app2 by lia. rewrite L1.
  replace (List.length pre + 1 + i - List.length pre) with (S i) by lia.
  replace (List.length pre + i - List.length pre) with i by lia. cbn [nth_error].
  eapply Gw; [exact E|]. replace (List.length (b ++ VMux (vm_prefix v) (vm_common v ++ xs) :: a)) with (List.length (b ++ v :: a))
    by (rewrite !app_length; reflexivity). exact NI.
Qed.

(** ** Prefixes *)

Lemma step_route grow st m x p st' g : nth_error (ms_muxes st) m = Some x ->
  (p = [] \/ p <> mx_prefix x) -> mcall_step grow st (CRoute m p) = (st', g) ->
  exists m' y, g = GMux m' /\ nth_error (ms_muxes st') m' = Some y /\ joined (mx_prefix x) p (mx_prefix y).
Proof.
  intros X H. cbn [mcall_step]. rewrite X. destruct H as [->|H].
  - cbn. intros E. injection E as <- <-. exists m, x. repeat split; auto. constructor.
  - rewrite (proj2 (beqb_false _ _) H), orb_false_r. destruct (Nat.eqb_spec (List.length p) 0) as [Z|Z].
    + destruct p; [|discriminate]. intros E. injection E as <- <-. exists m, x. repeat split; auto. constructor.
    + destruct (append grow (ms_heap st) nil_slice (elems (ms_heap st) (mx_common x))) as [h s].
      unfold add_mux. intros E. injection E as <- <-. eexists _, _. split; [reflexivity|]. cbn [ms_muxes].
      split; [rewrite nth_error_app2, Nat.sub_diag by lia; reflexivity|]. cbn [mx_prefix]. apply resolve_joined.
Qed.

Lemma nested_prefixes grow ps : forall st m x done,
  nth_error (ms_muxes st) m = Some x -> prefixed done (mx_prefix x) ->
  (forall ps1 p ps2 a, ps = ps1 ++ p :: ps2 -> prefixed (done ++ ps1) a -> p <> [] -> p <> a) ->
  exists st' m' y, nest grow st m ps = Some (st', m') /\ nth_error (ms_muxes st') m' = Some y /\
    prefixed (done ++ ps) (mx_prefix y).
Proof.
  induction ps as [|p ps IH]; intros st m x done X P D.
  - exists st, m, x. rewrite app_nil_r. repeat split; auto.
  - assert (H : p = [] \/ p <> mx_prefix x).
    { destruct p as [|c p]; [left; reflexivity|right]. eapply (D [] (c :: p) ps); [reflexivity| |discriminate].
      rewrite app_nil_r. exact P. }
    cbn [nest]. destruct (mcall_step grow st (CRoute m p)) as [st1 g] eqn:E.
    destruct (step_route _ _ _ _ _ _ _ X H E) as (m' & y & -> & Y & J).
    destruct (IH st1 m' y (done ++ [p]) Y) as (st2 & m2 & z & A & B & C).
    + econstructor; eassumption.
    + intros ps1 q ps2 a Q F. eapply (D (p :: ps1) q ps2); [rewrite Q; reflexivity|]. rewrite <- app_assoc in F. exact F.
    + exists st2, m2, z. rewrite <- app_assoc in C. auto.
Qed.

Lemma prefixes_joined grow ps method path own h :
  (forall ps1 p ps2 a, ps = ps1 ++ p :: ps2 -> prefixed ps1 a -> p <> [] -> p <> a) ->
  exists st m r common, nest grow new_mux 0 ps = Some (st, m) /\ prefixed (ps ++ [path]) r /\
    snd (mcall_step grow st (CHandle m method path own h)) = GReg method r common own h.
Proof.
  intros D. destruct (nested_prefixes grow ps new_mux 0 (Mux [] nil_slice) [] eq_refl pf_none D) as (st & m & y & A & B & C).
  exists st, m, (resolve_path (mx_prefix y) path), (elems (ms_heap st) (mx_common y)). split; [exact A|].
  split; [econstructor; [exact C|apply resolve_joined]|]. cbn [mcall_step]. rewrite B. reflexivity.
Qed.

Lemma prefixed_unique ps : forall a b, prefixed ps a -> prefixed ps b -> a = b.
Proof.
  intros a b A. revert b. induction A as [|ps a p r A IH J]; intros b B; inversion B as [Q|ps' a' p' r' A' J' Q]; subst; auto.
  - destruct ps'; discriminate.
  - destruct ps; discriminate.
  - apply app_inj_tail in Q. destruct Q as [-> ->]. rewrite <- (IH _ A') in J'. eapply joined_unique; eassumption.
Qed.

(** Asking twice for the same prefix loses one of them. *)
Lemma same_prefix_lost : forall grow, exists ps path method own h st m r common r',
  nest grow new_mux 0 ps = Some (st, m) /\
  snd (mcall_step grow st (CHandle m method path own h)) = GReg method r common own h /\
  prefixed (ps ++ [path]) r' /\ r <> r'.
Proof.
  intros grow. exists [str "/v1"; str "/v1"], (str "/x"), (str "GET"), [], 1. eexists _, _, _, _, (str "/v1/v1/x").
  split; [reflexivity|]. split; [reflexivity|]. split.
  - apply (pf_more [str "/v1"; str "/v1"] (str "/v1/v1") (str "/x")).
    + apply (pf_more [str "/v1"] (str "/v1")).
      * apply (pf_more [] []); constructor.
      * apply (jn_start (str "/v1") (str "v1")); discriminate.
    + apply (jn_start (str "/v1/v1") (str "x")); discriminate.
  - discriminate.
Qed.

Lemma prefixes_case : forall ps1 p ps2 a, [str "/api/"; str "/v1"; str "users"] = ps1 ++ p :: ps2 -> prefixed ps1 a -> p <> [] -> p <> a.
Proof.
  intros ps1 p ps2 a E P N ->. 
  assert (Q : prefixed [str "/api/"] (str "/api/")).
  { apply (pf_more [] []); constructor. }
  assert (Q2 : prefixed [str "/api/"; str "/v1"] (str "/api/v1")).
  { apply (pf_more [str "/api/"] _ _ _ Q). apply (jn_both (str "/api") (str "v1")). }
  destruct ps1 as [|q1 [|q2 [|q3 ps1]]]; cbn [app] in E.
  - apply N. exact (prefixed_unique _ _ [] P pf_none).
  - assert (E1 : q1 = str "/api/") by congruence. assert (E2 : a = str "/v1") by congruence. subst.
    pose proof (prefixed_unique _ _ _ P Q) as C. discriminate C.
  - assert (E1 : q1 = str "/api/") by congruence. assert (E2 : q2 = str "/v1") by congruence.
    assert (E3 : a = str "users") by congruence. subst.
    pose proof (prefixed_unique _ _ _ P Q2) as C. discriminate C.
  - assert (C : @List.length bytes [] = List.length (ps1 ++ a :: ps2)) by congruence.
    rewrite app_length in C. cbn in C. lia.
Qed.
Lemma prefixes_case_path : exists st m common,
  nest (fun _ n => n) new_mux 0 [str "/api/"; str "/v1"; str "users"] = Some (st, m) /\
  snd (mcall_step (fun _ n => n) st (CHandle m (str "GET") [] [] 1)) = GReg (str "GET") (str "/api/v1/users") common [] 1.
Proof. eexists _, _, _. split; reflexivity. Qed.

(** An empty prefix gives the same mux, so that adding to it adds to the parent. *)
Lemma empty_prefix_shared : forall grow, exists cs ms gs,
  value_run [VMux [] []] cs ms gs /\ snd (mcalls grow new_mux cs) <> gs.
Proof.
  intros grow. exists [CRoute 0 []; CCommon 0 [Some 7]; CHandle 1 (str "GET") (str "/x") [] 1].
  eexists _, _. split.
  - econstructor; [eapply (vs_route _ 0); [reflexivity|constructor]|].
    econstructor; [apply (vs_common [] _ _ [Some 7])|].
    econstructor; [eapply (vs_handle _ 1); [reflexivity|constructor]|]. constructor.
  - discriminate.
Qed.
Lemma same_prefix_shared : forall grow, exists cs m1 m2 path common own h,
  cs = [CRoute 0 (str "/v1"); CRoute 1 (str "/v1"); CCommon m2 [Some 7]; CHandle m1 (str "GET") path own h] /\
  snd (mcalls grow new_mux cs) = [GMux m1; GMux m2; GNothing; GReg (str "GET") (str "/v1/x") common own h] /\
  In (Some 7) common.
Proof.
  intros grow. eexists _, 1, 1, (str "/x"), _, [], 1. split; [reflexivity|]. split; [reflexivity|]. left. reflexivity.
Qed.

Definition mux_history : list mcall :=
  [CCommon 0 [Some 1]; CClone 0; CRoute 0 (str "/v1"); CCommon 2 [Some 2; None]; CCommon 0 [Some 3];
   CHandle 2 (str "GET") (str "/x") [Some 9] 5; CHandle 1 (str "GET") (str "/x") [] 6].
Lemma mux_history_run : exists ms, value_run [VMux [] []] mux_history ms
  [GNothing; GMux 1; GMux 2; GNothing; GNothing; GReg (str "GET") (str "/v1/x") [Some 1; Some 2; None] [Some 9] 5;
   GReg (str "GET") (str "/x") [Some 1] [] 6].
Proof.
  eexists. unfold mux_history.
  set (r := VMux [] [Some 1]). set (v := VMux (str "/v1") [Some 1]).
  eapply vr_more; [apply (vs_common [] (VMux [] []) [] [Some 1])|].
  eapply vr_more; [apply (vs_clone [r] 0 r eq_refl)|].
  eapply vr_more; [apply (vs_route [r; r] 0 r (str "/v1") (str "/v1") eq_refl); constructor|].
  eapply vr_more; [apply (vs_common [r; r] v [] [Some 2; None])|].
  eapply vr_more; [apply (vs_common [] r [r; VMux (str "/v1") [Some 1; Some 2; None]] [Some 3])|].
  eapply vr_more; [apply (vs_handle _ 2 (VMux (str "/v1") [Some 1; Some 2; None])); [reflexivity|]|].
  { apply (jn_start (str "/v1") (str "x")); discriminate. }
  eapply vr_more; [apply (vs_handle _ 1 r); [reflexivity|constructor]|]. constructor.
Qed.
Lemma mux_history_calm : never_idle mux_history.
Proof.
  intros before c after ms gs E R I. destruct c as [|m p| |]; try exact I.
  assert (Q : before = [CCommon 0 [Some 1]; CClone 0] /\ m = 0 /\ p = str "/v1").
  { assert (F : nth_error mux_history (List.length before) = Some (CRoute m p)).
    { rewrite E, nth_error_app2, Nat.sub_diag by lia. reflexivity. }
    assert (B : before = firstn (List.length before) mux_history).
    { rewrite E, firstn_app, firstn_all, Nat.sub_diag. symmetry. apply app_nil_r. }
    destruct (List.length before) as [|[|[|[|[|[|[|k]]]]]]]; cbn in F; try discriminate F;
      [|destruct k; discriminate F].
    injection F as <- <-. auto. }
  destruct Q as (-> & -> & ->). cbn in I. destruct I as [I|(x & X & P)]; [discriminate|].
  inversion R as [|? ? m1 ? ? ? ? S1 R1]; subst. inversion R1 as [|? ? m2 ? ? ? ? S2 R2]; subst.
  inversion R2; subst. inversion S2 as [? ? y Y| | |]; subst.
  remember (CCommon 0 [Some 1]) as c0 eqn:C0. remember [VMux [] []] as s0 eqn:S0.
  destruct S1 as [| |b v a xs|]; try discriminate. injection C0 as L ->. destruct b; [|discriminate].
  cbn in S0. injection S0 as -> ->. cbn in X, Y. injection X as <-. discriminate.
Qed.

(** ** Context path *)

Lemma context_path_ignored : forall grow, exists c path mapping method own h r common r',
  snd (mcall_step grow (fst (new_mux_handler c mapping)) (CHandle 0 method path own h)) = GReg method r common own h /\
  prefixed [c; path] r' /\ r <> r'.
Proof.
  intros grow. exists (str "/app"), (str "/x"), None, (str "GET"), [], 1. eexists _, _, (str "/app/x").
  split; [reflexivity|]. split.
  - apply (pf_more [str "/app"] (str "/app")).
    + apply (pf_more [] []); constructor.
    + apply (jn_start (str "/app") (str "x")); discriminate.
  - discriminate.
Qed.

Lemma snoc_cases (l : bytes) : l = [] \/ exists a c, l = a ++ [c].
Proof. destruct l as [|x l]; [left; reflexivity|right]. exists (removelast (x :: l)), (last (x :: l) "a"%char). apply app_removelast_last. discriminate. Qed.

(** The static resources are below the context path. *)
Lemma assets_below : forall c a st p,
  c <> [] -> a <> [] -> hd "a"%char a <> "/"%char -> last a "a"%char <> "/"%char ->
  (c = str "/" \/ last c "a"%char <> "/"%char) ->
  new_mux_handler c (Some a) = (st, Some p) -> prefixed [c; a; str "**"] p.
Proof.
  intros c a st p Hc Ha S E D H. unfold new_mux_handler in H.
  replace (Nat.eqb (List.length c) 0) with false in H by (destruct c; [congruence|reflexivity]).
  replace (Nat.eqb (List.length a) 0) with false in H by (destruct a; [congruence|reflexivity]).
  assert (Hp : p = (if beqb c (str "/") then [] else c) ++ str "/" ++ a ++ str "/**") by congruence.
  subst p. clear H.
  assert (LA : forall q, last (q ++ "/"%char :: a) "a"%char = last a "a"%char).
  { intros q. destruct (snoc_cases a) as [->|(b & x & ->)]; [congruence|].
    change (q ++ "/"%char :: b ++ [x]) with (q ++ ("/"%char :: b) ++ [x]). rewrite app_assoc, !last_last. reflexivity. }
  destruct (beqb c (str "/")) eqn:B.
  - apply beqb_iff in B. subst c. apply (pf_more [str "/"; a] ("/"%char :: a)).
    + apply (pf_more [str "/"] (str "/")); [apply (pf_more [] []); constructor|].
      apply (jn_end [] a); assumption.
    + change ([] ++ str "/" ++ a ++ str "/**") with (("/"%char :: a) ++ "/"%char :: str "**").
      apply (jn_none ("/"%char :: a) (str "**")); try discriminate. pose proof (LA []) as L0. cbn [app] in L0. rewrite L0. exact E.
  - destruct D as [->|D]; [discriminate B|]. apply (pf_more [c; a] (c ++ "/"%char :: a)).
    + apply (pf_more [c] c); [apply (pf_more [] []); constructor|]. apply jn_none; assumption.
    + replace (c ++ str "/" ++ a ++ str "/**") with ((c ++ "/"%char :: a) ++ "/"%char :: str "**").
      2:{ rewrite <- app_assoc. reflexivity. }
      apply (jn_none (c ++ "/"%char :: a) (str "**")); try discriminate.
      * destruct c; discriminate.
      * rewrite LA. exact E.
Qed.
Lemma assets_case : exists st, new_mux_handler (str "/app") (Some (str "files")) = (st, Some (str "/app/files/**")).
Proof. eexists. reflexivity. Qed.
