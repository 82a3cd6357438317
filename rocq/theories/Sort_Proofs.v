(** * Sorting keeps the elements and puts them in order *)
From Coq Require Import List Arith Bool Lia Permutation Sorted.
From Verif Require Import Sort_Model.
Import ListNotations.

Lemma search_between : forall fuel g i j, i <= j -> j - i <= fuel ->
  let s := search fuel g i j in
  i <= s <= j /\ (s = i \/ g (s - 1) = true) /\ (s = j \/ g s = false).
Proof.
  induction fuel as [|f IH]; intros g i j Hij Hf.
  - cbn. assert (i = j) by lia. subst. auto.
  - cbn [search]. destruct (i <? j) eqn:E.
    + apply Nat.ltb_lt in E.
      assert (Hh : i <= Nat.div2 (i + j) < j).
      { rewrite Nat.div2_div. split; [apply Nat.div_le_lower_bound; lia|apply Nat.div_lt_upper_bound; lia]. }
      set (h := Nat.div2 (i + j)) in *. destruct (g h) eqn:G.
      * specialize (IH g (S h) j ltac:(lia) ltac:(lia)). cbn zeta in *. set (s := search f g (S h) j) in *.
        destruct IH as (B & L & U). repeat split; try lia.
        -- right. destruct L as [-> | L]; [|assumption]. replace (S h - 1) with h by lia. assumption.
        -- assumption.
      * specialize (IH g i h ltac:(lia) ltac:(lia)). cbn zeta in *. set (s := search f g i h) in *.
        destruct IH as (B & L & U). repeat split; try lia; [assumption|].
        right. destruct U as [-> | U]; assumption.
    + apply Nat.ltb_ge in E. assert (i = j) by lia. subst. auto.
Qed.

Section Sorting.
Context {A : Type}.
Variable less : A -> A -> bool.

(** ** Nothing is lost *)

Lemma insert_left_perm : forall x l, Permutation (insert_left less x l) (x :: l).
Proof.
  induction l as [|y l IH]; cbn [insert_left]; [reflexivity|].
  destruct (less x y); [|reflexivity].
  rewrite IH. apply perm_swap.
Qed.

Lemma insertion_sort_perm : forall l, Permutation (insertion_sort less l) l.
Proof.
  intros l. unfold insertion_sort. rewrite <- Permutation_rev.
  assert (H : forall l acc, Permutation (fold_left (fun acc x => insert_left less x acc) l acc) (rev l ++ acc)).
  { induction l0 as [|x l0 IH]; intros acc; [reflexivity|]. cbn [fold_left rev].
    rewrite IH. rewrite insert_left_perm. rewrite <- app_assoc. reflexivity. }
  rewrite H, app_nil_r. symmetry. apply Permutation_rev.
Qed.

Lemma blocks_concat : forall fuel (l : list A), length l <= fuel -> concat (blocks fuel l) = l.
Proof.
  induction fuel as [|f IH]; intros l H.
  - destruct l; [reflexivity|cbn in H; lia].
  - destruct l as [|a l]; [reflexivity|].
    change (blocks (S f) (a :: l)) with (firstn 20 (a :: l) :: blocks f (skipn 20 (a :: l))).
    cbn [concat]. rewrite IH; [apply firstn_skipn|]. rewrite skipn_length. cbn [length] in *. lia.
Qed.

Lemma blocks_nonempty : forall fuel (l : list A), Forall (fun b => 1 <= length b) (blocks fuel l).
Proof.
  induction fuel as [|f IH]; intros l; [constructor|].
  destruct l as [|a l]; [constructor|].
  change (blocks (S f) (a :: l)) with (firstn 20 (a :: l) :: blocks f (skipn 20 (a :: l))).
  constructor; [cbn [firstn length]; lia|apply IH].
Qed.

(** ** Parts of two runs *)

Lemma part_split : forall i j (l : list A), part i j l = firstn (j - i) (skipn i l).
Proof. reflexivity. Qed.

Lemma firstn_app_le : forall k (l q : list A), k <= length l -> firstn k (l ++ q) = firstn k l.
Proof. intros. rewrite firstn_app. replace (k - length l) with 0 by lia. rewrite firstn_O, app_nil_r. reflexivity. Qed.
Lemma skipn_app_le : forall k (l q : list A), k <= length l -> skipn k (l ++ q) = skipn k l ++ q.
Proof. intros. rewrite skipn_app. replace (k - length l) with 0 by lia. reflexivity. Qed.
Lemma firstn_app_ge : forall k (l q : list A), length l <= k -> firstn k (l ++ q) = l ++ firstn (k - length l) q.
Proof. intros. rewrite firstn_app. rewrite firstn_all2 by lia. reflexivity. Qed.
Lemma skipn_app_ge : forall k (l q : list A), length l <= k -> skipn k (l ++ q) = skipn (k - length l) q.
Proof. intros. rewrite skipn_app. rewrite skipn_all2 by lia. reflexivity. Qed.

(** The exchange of the two inner blocks. *)
Lemma rotate_runs : forall s k (L Q : list A), s <= length L -> k <= length Q ->
  rotate s (length L) (length L + k) (L ++ Q) = (firstn s L ++ firstn k Q) ++ (skipn s L ++ skipn k Q).
Proof.
  intros s k L Q Hs Hk. unfold rotate, part.
  rewrite Nat.sub_0_r. cbn [skipn]. rewrite firstn_app_le by lia.
  rewrite (skipn_app_ge (length L)) by lia. rewrite Nat.sub_diag. cbn [skipn].
  replace (length L + k - length L) with k by lia.
  rewrite (skipn_app_le s) by lia.
  rewrite (firstn_app_le (length L - s)) by (rewrite skipn_length; lia).
  rewrite (firstn_all2 (n := length L - s) (skipn s L)) by (rewrite skipn_length; lia).
  rewrite (skipn_app_ge (length L + k)) by lia. replace (length L + k - length L) with k by lia.
  rewrite (firstn_all2 (skipn k Q)) by (rewrite skipn_length, app_length; lia).
  rewrite <- !app_assoc. reflexivity.
Qed.

Lemma part_left : forall (x y : list A), part 0 (length x) (x ++ y) = x.
Proof. intros. unfold part. rewrite Nat.sub_0_r. cbn [skipn]. rewrite firstn_app_le by lia. apply firstn_all. Qed.
Lemma part_right : forall b (x y : list A), b = length x + length y -> part (length x) b (x ++ y) = y.
Proof.
  intros b x y ->. unfold part. rewrite skipn_app_ge by lia. rewrite Nat.sub_diag. cbn [skipn].
  apply firstn_all2. lia.
Qed.

(** ** Order *)

Variable R : A -> A -> Prop.
Hypothesis R_trans : forall x y z, R x y -> R y z -> R x z.
Hypothesis less_true : forall x y, less x y = true -> R x y.
Hypothesis less_false : forall x y, less x y = false -> R y x.

Lemma R_refl : forall x, R x x.
Proof. intros x. destruct (less x x) eqn:E; auto. Qed.

Lemma sorted_app : forall l q, StronglySorted R l -> StronglySorted R q ->
  (forall x y, In x l -> In y q -> R x y) -> StronglySorted R (l ++ q).
Proof.
  intros l q Hl Hq. induction Hl as [|x l Hl IH Hx]; intros H; [assumption|]. cbn [app]. constructor.
  - apply IH. intros; apply H; [right|]; assumption.
  - apply Forall_app. split; [assumption|]. apply Forall_forall. intros y Hy. apply H; [left; reflexivity|assumption].
Qed.

Lemma sorted_app_inv : forall l q, StronglySorted R (l ++ q) ->
  StronglySorted R l /\ StronglySorted R q /\ (forall x y, In x l -> In y q -> R x y).
Proof.
  induction l as [|a l IH]; intros q H; cbn [app] in H.
  - split; [constructor|]. split; [assumption|]. intros x y [].
  - inversion H as [|? ? H1 H2]; subst. apply IH in H1. destruct H1 as (H1 & H3 & H4).
    apply Forall_app in H2. destruct H2 as [H2 H5]. split; [constructor; assumption|]. split; [assumption|].
    intros x y [<- | Hx] Hy; [|apply H4; assumption]. rewrite Forall_forall in H5. apply H5. assumption.
Qed.

Lemma sorted_nth : forall l, StronglySorted R l -> forall i j x y, i <= j -> nth_error l i = Some x -> nth_error l j = Some y -> R x y.
Proof.
  intros l H. induction H as [|a l H IH Ha]; intros i j x y Hij Hx Hy.
  - destruct i; discriminate.
  - destruct i as [|i], j as [|j]; cbn [nth_error] in *.
    + injection Hx as <-. injection Hy as <-. apply R_refl.
    + injection Hx as <-. rewrite Forall_forall in Ha. apply Ha. eapply nth_error_In; eassumption.
    + lia.
    + eapply IH; [|eassumption|eassumption]. lia.
Qed.

Lemma sorted_firstn : forall k l, StronglySorted R l -> StronglySorted R (firstn k l).
Proof. intros k l H. rewrite <- (firstn_skipn k l) in H. apply sorted_app_inv in H. apply H. Qed.
Lemma sorted_skipn : forall k l, StronglySorted R l -> StronglySorted R (skipn k l).
Proof. intros k l H. rewrite <- (firstn_skipn k l) in H. apply sorted_app_inv in H. apply H. Qed.

Lemma in_firstn : forall k (l : list A) x, In x (firstn k l) -> exists i, i < k /\ nth_error l i = Some x.
Proof.
  induction k as [|k IH]; intros [|a l] x H; cbn [firstn] in H; try contradiction.
  destruct H as [<- | H]; [exists 0; split; [lia|reflexivity]|].
  apply IH in H. destruct H as (i & Hi & E). exists (S i). split; [lia|assumption].
Qed.
Lemma in_skipn : forall k (l : list A) x, In x (skipn k l) -> exists i, k <= i /\ nth_error l i = Some x.
Proof.
  induction k as [|k IH]; intros l x H.
  - cbn [skipn] in H. apply In_nth_error in H. destruct H as [i E]. exists i. split; [lia|assumption].
  - destruct l as [|a l]; cbn [skipn] in H; [contradiction|]. apply IH in H. destruct H as (i & Hi & E).
    exists (S i). split; [lia|assumption].
Qed.

(** The beginning of a run comes before the end of another run when the elements
    at the borders do. *)
Lemma cross : forall L Q i j, StronglySorted R L -> StronglySorted R Q -> i <= length L ->
  (forall x y, 0 < i -> nth_error L (i - 1) = Some x -> nth_error Q j = Some y -> R x y) ->
  forall x y, In x (firstn i L) -> In y (skipn j Q) -> R x y.
Proof.
  intros L Q i j HL HQ Hi H x y Hx Hy.
  apply in_firstn in Hx. destruct Hx as (k & Hk & Ex). apply in_skipn in Hy. destruct Hy as (k' & Hk' & Ey).
  destruct (nth_error L (i - 1)) as [x'|] eqn:Ex'; [|apply nth_error_None in Ex'; lia].
  destruct (nth_error Q j) as [y'|] eqn:Ey'.
  - apply R_trans with x'; [eapply sorted_nth; [exact HL| |eassumption|eassumption]; lia|].
    apply R_trans with y'; [apply H; [lia|reflexivity|reflexivity]|].
    eapply sorted_nth; [exact HQ| |eassumption|eassumption]; lia.
  - apply nth_error_None in Ey'. assert (k' < length Q) by (apply nth_error_Some; rewrite Ey; discriminate). lia.
Qed.

Lemma less_at_true : forall l i j x y, less_at less l i j = true -> nth_error l i = Some x -> nth_error l j = Some y -> R x y.
Proof. unfold less_at. intros l i j x y H Ex Ey. rewrite Ex, Ey in H. auto. Qed.
Lemma less_at_false : forall l i j x y, less_at less l i j = false -> nth_error l i = Some x -> nth_error l j = Some y -> R y x.
Proof. unfold less_at. intros l i j x y H Ex Ey. rewrite Ex, Ey in H. auto. Qed.

Lemma nth_left : forall (L Q : list A) i, i < length L -> nth_error (L ++ Q) i = nth_error L i.
Proof. intros. apply nth_error_app1. assumption. Qed.
Lemma nth_right : forall (L Q : list A) i, nth_error (L ++ Q) (length L + i) = nth_error Q i.
Proof. intros. rewrite nth_error_app2 by lia. f_equal. lia. Qed.

(** ** Insertion sort *)

Definition R' (x y : A) : Prop := R y x.

Lemma insert_left_sorted : forall x l, StronglySorted R' l -> StronglySorted R' (insert_left less x l).
Proof.
  intros x l H. induction H as [|y l H IH Hy]; [repeat constructor|]. cbn [insert_left].
  destruct (less x y) eqn:E.
  - constructor; [assumption|]. apply (Permutation_Forall (Permutation_sym (insert_left_perm x l))).
    constructor; [apply less_true; assumption|assumption].
  - apply less_false in E. constructor; [constructor; assumption|]. constructor; [exact E|].
    rewrite Forall_forall in *. intros z Hz. specialize (Hy z Hz). unfold R' in *. apply R_trans with y; assumption.
Qed.

Lemma sorted_rev : forall l, StronglySorted R' l -> StronglySorted R (rev l).
Proof.
  intros l H. induction H as [|y l H IH Hy]; [constructor|]. cbn [rev]. apply sorted_app; [assumption|repeat constructor|].
  intros a b Ha [<- | []]. rewrite <- in_rev in Ha. rewrite Forall_forall in Hy. apply Hy. assumption.
Qed.

Lemma insertion_sort_sorted : forall l, StronglySorted R (insertion_sort less l).
Proof.
  intros l. unfold insertion_sort. apply sorted_rev.
  assert (H : forall l acc, StronglySorted R' acc -> StronglySorted R' (fold_left (fun acc x => insert_left less x acc) l acc)).
  { clear l. induction l as [|x l IH]; intros acc H; [assumption|]. cbn [fold_left]. apply IH. apply insert_left_sorted. assumption. }
  apply H. constructor.
Qed.

(** ** Merging *)

Lemma merge_one_left : forall x Q i, StronglySorted R Q -> i <= length Q ->
  (i = 0 \/ less_at less (x :: Q) i 0 = true) -> (i = length Q \/ less_at less (x :: Q) (S i) 0 = false) ->
  StronglySorted R (firstn i Q ++ [x] ++ skipn i Q).
Proof.
  intros x Q i HQ Hi Hl Hu.
  assert (Sx : StronglySorted R [x]) by (repeat constructor).
  assert (H2 : forall y, In y (skipn i Q) -> R x y).
  { intros y Hy. apply (cross [x] Q 1 i Sx HQ); [cbn; lia| |left; reflexivity|assumption].
    intros a b _ Ea Eb. cbn in Ea. injection Ea as <-. destruct Hu as [-> | Hu].
    - assert (length Q < length Q) by (apply nth_error_Some; rewrite Eb; discriminate). lia.
    - eapply less_at_false; [exact Hu|exact Eb|reflexivity]. }
  assert (H1 : forall y, In y (firstn i Q) -> R y x).
  { intros y Hy. apply (cross Q [x] i 0 HQ Sx); [assumption| |assumption|left; reflexivity].
    intros a b Hp Ea Eb. cbn in Eb. injection Eb as <-. destruct Hl as [-> | Hl]; [lia|].
    eapply less_at_true; [exact Hl| |reflexivity]. destruct i as [|i]; [lia|]. replace (S i - 1) with i in Ea by lia. exact Ea. }
  apply sorted_app; [apply sorted_firstn; assumption| |].
  - cbn [app]. constructor; [apply sorted_skipn; assumption|]. apply Forall_forall. assumption.
  - intros a b Ha [<- | Hb]; [auto|]. eapply R_trans; [apply H1; assumption|apply H2; assumption].
Qed.

Lemma merge_one_right : forall x L i, StronglySorted R L -> i <= length L ->
  (i = 0 \/ less_at less (L ++ [x]) (length L) (i - 1) = false) -> (i = length L \/ less_at less (L ++ [x]) (length L) i = true) ->
  StronglySorted R (firstn i L ++ [x] ++ skipn i L).
Proof.
  intros x L i HL Hi Hl Hu.
  assert (Sx : StronglySorted R [x]) by (repeat constructor).
  assert (En : nth_error (L ++ [x]) (length L) = Some x).
  { replace (length L) with (length L + 0) by lia. rewrite nth_right. reflexivity. }
  assert (H2 : forall y, In y (skipn i L) -> R x y).
  { intros y Hy. apply (cross [x] L 1 i Sx HL); [cbn; lia| |left; reflexivity|assumption].
    intros a b _ Ea Eb. cbn in Ea. injection Ea as <-. assert (i < length L) by (apply nth_error_Some; rewrite Eb; discriminate).
    destruct Hu as [-> | Hu]; [lia|]. eapply less_at_true; [exact Hu|exact En|]. rewrite nth_left by lia. assumption. }
  assert (H1 : forall y, In y (firstn i L) -> R y x).
  { intros y Hy. apply (cross L [x] i 0 HL Sx); [assumption| |assumption|left; reflexivity].
    intros a b Hp Ea Eb. cbn in Eb. injection Eb as <-. destruct Hl as [-> | Hl]; [lia|].
    eapply less_at_false; [exact Hl|exact En|]. rewrite nth_left by lia. assumption. }
  apply sorted_app; [apply sorted_firstn; assumption| |].
  - cbn [app]. constructor; [apply sorted_skipn; assumption|]. apply Forall_forall. assumption.
  - intros a b Ha [<- | Hb]; [auto|]. eapply R_trans; [apply H1; assumption|apply H2; assumption].
Qed.

Lemma perm_insert : forall (x : A) l i, Permutation (firstn i l ++ [x] ++ skipn i l) (x :: l).
Proof.
  intros. rewrite <- (firstn_skipn i l) at 3. cbn [app]. symmetry. apply Permutation_middle.
Qed.

Lemma perm_runs : forall s k (L Q : list A),
  Permutation ((firstn s L ++ firstn k Q) ++ (skipn s L ++ skipn k Q)) (L ++ Q).
Proof.
  intros. rewrite <- (firstn_skipn s L) at 3. rewrite <- (firstn_skipn k Q) at 3. rewrite <- !app_assoc.
  apply Permutation_app_head. rewrite !app_assoc. apply Permutation_app_tail. apply Permutation_app_comm.
Qed.

Definition merges (f : nat) : Prop := forall L Q, length (L ++ Q) <= f -> 1 <= length L -> 1 <= length Q ->
  StronglySorted R L -> StronglySorted R Q ->
  Permutation (sym_merge less f (length L) (L ++ Q)) (L ++ Q) /\ StronglySorted R (sym_merge less f (length L) (L ++ Q)).

(** Two runs of which one may be empty. *)
Lemma sub_merge : forall f (L Q : list A) (t : bool), merges f -> length (L ++ Q) <= f ->
  (t = true <-> 1 <= length L /\ 1 <= length Q) -> StronglySorted R L -> StronglySorted R Q ->
  let r := if t then sym_merge less f (length L) (L ++ Q) else L ++ Q in
  Permutation r (L ++ Q) /\ StronglySorted R r.
Proof.
  intros f L Q t Hm Hf Ht HL HQ. cbn zeta. destruct t.
  - apply Hm; try assumption; apply Ht; reflexivity.
  - split; [reflexivity|]. destruct L as [|a L]; [assumption|]. destruct Q as [|b Q]; [rewrite app_nil_r; assumption|].
    exfalso. assert (false = true) by (apply Ht; cbn [length]; lia). discriminate.
Qed.

Lemma sym_merge_ok : forall f, merges f.
Proof.
  induction f as [|f IH]; intros L Q Hf HnL HnQ HL HQ; [rewrite app_length in Hf; lia|].
  cbn [sym_merge]. set (b := length (L ++ Q)) in *. assert (Eb : b = length L + length Q) by apply app_length.
  destruct (length L =? 1) eqn:E1.
  { apply Nat.eqb_eq in E1. destruct L as [|x [|x' L]]; [cbn in E1; lia| |cbn in E1; lia]. clear E1 HnL.
    cbn [length app] in *.
    destruct (search_between b (fun h => less_at less (x :: Q) h 0) 1 b ltac:(lia) ltac:(lia)) as (Bd & Lo & Up).
    set (i := search b (fun h => less_at less (x :: Q) h 0) 1 b) in *. destruct i as [|i]; [lia|].
    replace (part 1 (S i) (x :: Q)) with (firstn i Q) by (unfold part; cbn [skipn]; f_equal; lia).
    replace (part 0 1 (x :: Q)) with [x] by reflexivity.
    replace (part (S i) b (x :: Q)) with (skipn i Q)
      by (unfold part; cbn [skipn]; symmetry; apply firstn_all2; rewrite skipn_length; lia).
    split; [apply perm_insert|]. apply merge_one_left; try assumption; try lia.
    - destruct Lo as [Lo | Lo]; [left; lia|right]. replace (S i - 1) with i in Lo by lia. assumption.
    - destruct Up as [Up | Up]; [left; lia|right; assumption]. }
  apply Nat.eqb_neq in E1. destruct (b - length L =? 1) eqn:E2.
  { apply Nat.eqb_eq in E2. destruct Q as [|x [|x' Q]]; [cbn in HnQ; lia| |cbn [length] in Eb; lia]. cbn [length] in Eb. clear E2 HnQ.
    destruct (search_between (length L) (fun h => negb (less_at less (L ++ [x]) (length L) h)) 0 (length L) ltac:(lia) ltac:(lia)) as (Bd & Lo & Up).
    set (i := search (length L) (fun h => negb (less_at less (L ++ [x]) (length L) h)) 0 (length L)) in *.
    replace (part 0 i (L ++ [x])) with (firstn i L)
      by (unfold part; rewrite Nat.sub_0_r; cbn [skipn]; rewrite firstn_app_le by lia; reflexivity).
    replace (part (length L) b (L ++ [x])) with [x] by (symmetry; apply part_right; cbn [length]; lia).
    replace (part i (length L) (L ++ [x])) with (skipn i L).
    2:{ unfold part. rewrite skipn_app_le by lia. rewrite firstn_app_le by (rewrite skipn_length; lia).
        symmetry. apply firstn_all2. rewrite skipn_length. lia. }
    split; [rewrite perm_insert; apply Permutation_cons_append|]. apply merge_one_right; try assumption; try lia.
    - destruct Lo as [Lo | Lo]; [left; assumption|right; apply negb_true_iff; assumption].
    - destruct Up as [Up | Up]; [left; assumption|right; apply negb_false_iff; assumption]. }
  apply Nat.eqb_neq in E2.
  assert (Hmid : 2 * Nat.div2 b <= b <= 2 * Nat.div2 b + 1).
  { pose proof (Nat.div2_odd b) as Ho. destruct (Nat.odd b); cbn [Nat.b2n] in Ho; lia. }
  set (mid := Nat.div2 b) in *.
  set (start0 := if mid <? length L then mid + length L - b else 0).
  set (r0 := if mid <? length L then mid else length L).
  assert (H0 : start0 <= r0 <= b /\ r0 <= mid /\ r0 <= length L /\ mid <= start0 + length Q /\
               (start0 = 0 \/ start0 = mid + length L - b /\ mid < length L) /\ (r0 = mid \/ r0 = length L)).
  { unfold start0, r0. destruct (mid <? length L) eqn:E; [apply Nat.ltb_lt in E|apply Nat.ltb_ge in E]; lia. }
  destruct H0 as (H0 & Hrm & HrL & Hsq & Hs0 & Hr0). clearbody start0 r0.
  set (p := mid + length L - 1).
  destruct (search_between b (fun c => negb (less_at less (L ++ Q) (p - c) c)) start0 r0 ltac:(lia) ltac:(lia)) as (Bd & Lo & Up).
  set (s := search b (fun c => negb (less_at less (L ++ Q) (p - c) c)) start0 r0) in *. clearbody s.
  set (k := mid - s). assert (Hk : k <= length Q) by lia. assert (Hs : s <= length L) by lia.
  assert (Ee : mid + length L - s = length L + k) by lia.
  set (x := firstn s L ++ firstn k Q). set (y := skipn s L ++ skipn k Q).
  assert (Lx : length x = mid) by (unfold x; rewrite app_length, !firstn_length; lia).
  assert (Ly : length y = b - mid) by (unfold y; rewrite app_length, !skipn_length; lia).
  assert (Ed : (if (s <? length L) && (length L <? mid + length L - s) then rotate s (length L) (mid + length L - s) (L ++ Q) else L ++ Q) = x ++ y).
  { rewrite Ee. destruct (s <? length L) eqn:Ea; cbn [andb]; [destruct (length L <? length L + k) eqn:Ec|].
    - apply rotate_runs; assumption.
    - apply Nat.ltb_ge in Ec. unfold x, y. assert (k = 0) as -> by lia. cbn [firstn skipn]. rewrite app_nil_r, app_assoc, firstn_skipn. reflexivity.
    - apply Nat.ltb_ge in Ea. unfold x, y. assert (s = length L) as Es by lia. rewrite Es, firstn_all, skipn_all. cbn [app].
      rewrite <- app_assoc, firstn_skipn. reflexivity. }
  rewrite Ed. replace (part 0 mid (x ++ y)) with x by (rewrite <- Lx; symmetry; apply part_left).
  replace (part mid b (x ++ y)) with y by (rewrite <- Lx; symmetry; apply part_right; lia).
  (* everything on the left comes before everything on the right *)
  assert (Hxy : forall u v, In u x -> In v y -> R u v).
  { intros u v Hu Hv. unfold x in Hu. unfold y in Hv. apply in_app_or in Hu. apply in_app_or in Hv.
    destruct Hu as [Hu | Hu], Hv as [Hv | Hv].
    - pose proof HL as HL'. rewrite <- (firstn_skipn s L) in HL'. apply sorted_app_inv in HL'. apply HL'; assumption.
    - revert u v Hu Hv. apply cross; try assumption. intros u v Hp Eu Ev.
      assert (Hkq : k < length Q) by (apply nth_error_Some; rewrite Ev; discriminate).
      destruct Lo as [Lo | Lo]; [lia|]. apply negb_true_iff in Lo.
      eapply less_at_false; [exact Lo| |rewrite nth_left by lia; exact Eu].
      replace (p - (s - 1)) with (length L + k) by lia. rewrite nth_right. exact Ev.
    - revert u v Hu Hv. apply cross; try assumption. intros u v Hp Eu Ev.
      assert (Hsl : s < length L) by (apply nth_error_Some; rewrite Ev; discriminate).
      destruct Up as [Up | Up]; [lia|]. apply negb_false_iff in Up.
      eapply less_at_true; [exact Up| |rewrite nth_left by lia; exact Ev].
      replace (p - s) with (length L + (k - 1)) by lia. rewrite nth_right. exact Eu.
    - pose proof HQ as HQ'. rewrite <- (firstn_skipn k Q) in HQ'. apply sorted_app_inv in HQ'. apply HQ'; assumption. }
  assert (Lsx : length (firstn s L) = s) by (rewrite firstn_length; lia).
  assert (Lsy : length (skipn s L) = mid + length L - s - mid) by (rewrite skipn_length; lia).
  destruct (sub_merge f (firstn s L) (firstn k Q) ((0 <? s) && (s <? mid)) IH) as [Px Sx].
  { fold x. lia. }
  { rewrite Lsx, firstn_length. rewrite andb_true_iff, !Nat.ltb_lt. lia. }
  { apply sorted_firstn; assumption. }
  { apply sorted_firstn; assumption. }
  destruct (sub_merge f (skipn s L) (skipn k Q) ((mid <? mid + length L - s) && (mid + length L - s <? b)) IH) as [Py Sy].
  { fold y. lia. }
  { rewrite Lsy, skipn_length. rewrite andb_true_iff, !Nat.ltb_lt. lia. }
  { apply sorted_skipn; assumption. }
  { apply sorted_skipn; assumption. }
  rewrite Lsx in Px, Sx. rewrite Lsy in Py, Sy. fold x in Px, Sx. fold y in Py, Sy. cbn zeta in *.
  split.
  - rewrite Px, Py. unfold x, y. apply perm_runs.
  - apply sorted_app; [assumption|assumption|]. intros u v Hu Hv. apply Hxy.
    + eapply Permutation_in; [exact Px|assumption].
    + eapply Permutation_in; [exact Py|assumption].
Qed.

Definition runs (bs : list (list A)) : Prop := Forall (fun b => 1 <= length b /\ StronglySorted R b) bs.

Lemma pair_ind : forall (P : list (list A) -> Prop), P [] -> (forall x, P [x]) ->
  (forall x y l, P l -> P (x :: y :: l)) -> forall l, P l.
Proof.
  intros P H0 H1 H2. fix IH 1. intros [|x [|y l]]; [exact H0|apply H1|apply H2; apply IH].
Qed.

Lemma merge_round_ok : forall bs, runs bs ->
  runs (merge_round less bs) /\ Permutation (concat (merge_round less bs)) (concat bs) /\
  (2 <= length bs -> length (merge_round less bs) < length bs) /\ length (merge_round less bs) <= length bs.
Proof.
  intros bs. induction bs as [|x|x y bs IH] using pair_ind; intros H.
  - repeat split; [constructor|constructor|cbn; lia|cbn; lia].
  - repeat split; [assumption|reflexivity|cbn; lia|cbn; lia].
  - inversion H as [|? ? [Hx1 Hx2] H']; subst. inversion H' as [|? ? [Hy1 Hy2] H'']; subst.
    destruct (IH H'') as (I1 & I2 & I3 & I4).
    destruct (sym_merge_ok (length (x ++ y)) x y (le_n _) Hx1 Hy1 Hx2 Hy2) as [P S0].
    cbn [merge_round]. repeat split.
    + constructor; [split; [rewrite (Permutation_length P), app_length; lia|assumption]|assumption].
    + cbn [concat]. rewrite P, I2, app_assoc. reflexivity.
    + cbn [length]. lia.
    + cbn [length]. lia.
Qed.

Lemma merge_all_ok : forall f bs, runs bs -> length bs <= f ->
  Permutation (merge_all less f bs) (concat bs) /\ StronglySorted R (merge_all less f bs).
Proof.
  induction f as [|f IH]; intros bs H Hf.
  - destruct bs; [|cbn in Hf; lia]. split; [reflexivity|constructor].
  - destruct bs as [|x [|y bs]].
    + split; [reflexivity|constructor].
    + cbn [merge_all concat]. rewrite app_nil_r. split; [reflexivity|]. inversion H as [|? ? [_ Hx] _]. assumption.
    + change (merge_all less (S f) (x :: y :: bs)) with (merge_all less f (merge_round less (x :: y :: bs))).
      destruct (merge_round_ok (x :: y :: bs) H) as (I1 & I2 & I3 & _).
      destruct (IH (merge_round less (x :: y :: bs)) I1) as [J1 J2].
      { specialize (I3 ltac:(cbn; lia)). lia. }
      split; [rewrite J1; assumption|assumption].
Qed.

Lemma concat_map_perm : forall g (bs : list (list A)), (forall b, Permutation (g b) b) -> Permutation (concat (map g bs)) (concat bs).
Proof. intros g bs H. induction bs as [|b bs IH]; [reflexivity|]. cbn [map concat]. rewrite H, IH. reflexivity. Qed.

Lemma stable_ok : forall l, Permutation (stable less l) l /\ StronglySorted R (stable less l).
Proof.
  intros l. unfold stable. set (bs := map (insertion_sort less) (blocks (length l) l)). cbn zeta.
  destruct (merge_all_ok (length bs) bs) as [P S0]; [| lia |].
  - unfold runs, bs. apply Forall_map. eapply Forall_impl; [|apply blocks_nonempty]. intros b Hb. split.
    + rewrite (Permutation_length (insertion_sort_perm b)). assumption.
    + apply insertion_sort_sorted.
  - split; [|assumption]. rewrite P. unfold bs. rewrite concat_map_perm by apply insertion_sort_perm.
    rewrite blocks_concat by lia. reflexivity.
Qed.

End Sorting.

Lemma stable_perm : forall (A : Type) (less : A -> A -> bool) l, Permutation (stable less l) l.
Proof.
  intros A less l. apply (stable_ok less (fun _ _ => True)); auto.
Qed.
