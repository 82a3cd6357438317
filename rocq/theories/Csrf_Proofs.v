(** * Proofs about the cache, nonces and the CSRF middleware. *)
From Coq Require Import List NArith ZArith Ascii String Bool Arith Lia.
From Verif Require Import GoBase Http_Model Cache_Model Auth_Model Auth_Proofs Chain_Model Csrf_Model Csrf_Spec.
Import ListNotations.
Local Open Scope string_scope.
Local Open Scope list_scope.
Local Open Scope nat_scope.

(** ** Maps *)

Lemma lookup_remove {V : Type} k k' (m : list (bytes * V)) :
  alookup k' (aremove k m) = if beqb k' k then None else alookup k' m.
Proof.
  induction m as [|[x v] m IH]; [cbn; destruct (beqb k' k); reflexivity|].
  cbn [aremove alookup]. destruct (beqb k x) eqn:E.
  - apply beqb_iff in E. subst x. rewrite IH. destruct (beqb k' k); reflexivity.
  - cbn [alookup]. rewrite IH. destruct (beqb k' x) eqn:E2; [|reflexivity].
    apply beqb_iff in E2. subst x.
    destruct (beqb k' k) eqn:E3; [|reflexivity].
    apply beqb_iff in E3. subst. apply beqb_no in E. congruence.
Qed.

Lemma lookup_set {V : Type} k k' (v : V) m :
  alookup k' (aset k v m) = if beqb k' k then Some v else alookup k' m.
Proof.
  unfold aset. cbn [alookup].
  destruct (beqb k' k) eqn:E; [reflexivity|]. rewrite lookup_remove, E. reflexivity.
Qed.

Lemma beqb_same a : beqb a a = true.
Proof. apply beqb_iff. reflexivity. Qed.

(** ** The cache *)

Lemma live_snoc ops op now k : live (ops ++ [op]) now k <->
  match op with
  | CAdd t k' d => if beqb k' k then (now < t + d)%Z else live ops now k
  | CRemove k' => if beqb k' k then False else live ops now k
  | CContains _ _ => live ops now k
  end.
Proof.
  assert (L : forall x, ~ touches k x -> (live (ops ++ [x]) now k <-> live ops now k)).
  { intros x N. split.
    - intros (b & t & d & a & E & H & Lt).
      destruct (@exists_last _ (CAdd t k d :: a)) as (a' & y & Ea); [discriminate|].
      rewrite Ea, app_assoc in E. apply app_inj_tail in E as [E1 E2]. subst y.
      destruct a' as [|z a']; cbn in Ea; injection Ea as Ez Ea.
      + subst x. cbn in N. congruence.
      + subst z a. exists b, t, d, a'. split; [exact E1|]. split; [|exact Lt].
        intros op0 I. apply H. apply in_or_app. left; exact I.
    - intros (b & t & d & a & E & H & Lt). exists b, t, d, (a ++ [x]). split; [|split; [|exact Lt]].
      + rewrite E, <- app_assoc. reflexivity.
      + intros y I. apply in_app_or in I as [I|[I|[]]]; [apply H, I|subst y; exact N]. }
  destruct op as [t k' d|k'|t k'].
  - destruct (beqb k' k) eqn:E.
    + apply beqb_iff in E. subst k'. split.
      * intros (b & t' & d' & a & E & H & Lt).
        destruct a as [|y a].
        { apply app_inj_tail in E as [_ E]. injection E as -> ->. exact Lt. }
        exfalso. destruct (@exists_last _ (y :: a)) as (a' & z & Ea); [discriminate|].
        rewrite Ea in E, H. change (CAdd t' k d' :: a' ++ [z]) with ((CAdd t' k d' :: a') ++ [z]) in E.
        rewrite app_assoc in E. apply app_inj_tail in E as [_ E]. subst z.
        apply (H (CAdd t k d)); [apply in_or_app; right; left; reflexivity|reflexivity].
      * intros Lt. exists ops, t, d, []. split; [reflexivity|]. split; [intros ? []|exact Lt].
    + apply L. cbn. apply beqb_no in E. exact E.
  - destruct (beqb k' k) eqn:E.
    + apply beqb_iff in E. subst k'. split; [|tauto].
      intros (b & t' & d' & a & E & H & Lt).
      destruct (@exists_last _ (CAdd t' k d' :: a)) as (a' & z & Ea); [discriminate|].
      rewrite Ea, app_assoc in E. apply app_inj_tail in E as [_ E]. subst z.
      destruct a' as [|z a']; cbn in Ea; injection Ea as Ez Ea; [discriminate|].
      subst a. apply (H (CRemove k)); [apply in_or_app; right; left; reflexivity|reflexivity].
    + apply L. cbn. apply beqb_no in E. exact E.
  - apply L. cbn. tauto.
Qed.

Lemma cache_reports_live ops now k :
  cache_contains (cache_after ops) now k = true <-> live ops now k.
Proof.
  unfold cache_after. induction ops as [|op ops IH] using rev_ind.
  - cbn. split; [discriminate|]. intros (b & t & d & a & E & _). destruct b; discriminate.
  - rewrite live_snoc, fold_left_app. cbn [fold_left].
    unfold cache_contains in *. destruct op as [t k' d|k'|t k']; cbn [cache_step].
    + unfold cache_add. rewrite lookup_set. destruct (beqb k' k) eqn:E.
      * apply beqb_iff in E. subst. rewrite beqb_same. apply Z.ltb_lt.
      * apply beqb_no in E. destruct (beqb k k') eqn:E'; [apply beqb_iff in E'; congruence|exact IH].
    + unfold cache_remove. rewrite lookup_remove. destruct (beqb k' k) eqn:E.
      * apply beqb_iff in E. subst. rewrite beqb_same. split; [discriminate|tauto].
      * apply beqb_no in E. destruct (beqb k k') eqn:E'; [apply beqb_iff in E'; congruence|exact IH].
    + exact IH.
Qed.

Lemma cache_case : let ops := [CAdd 5 (str "a") 10; CAdd 6 (str "b") 10; CContains 7 (str "a"); CRemove (str "b"); CAdd 8 (str "c") 1] in
  live ops 14 (str "a") /\ ~ live ops 15 (str "a") /\ ~ live ops 7 (str "b") /\ ~ live ops 9 (str "c").
Proof.
  cbv zeta. rewrite <- !cache_reports_live. repeat split; vm_compute; congruence.
Qed.

(** ** Nonces *)

Lemma hex_digit_value n : (n < 16)%N -> hex_value (hex_digit n) = Some n.
Proof.
  intros L. assert (In n [0;1;2;3;4;5;6;7;8;9;10;11;12;13;14;15]%N) as I.
  { cbn. lia. }
  cbn in I. repeat (destruct I as [<-|I]; [reflexivity|]). destruct I.
Qed.

Lemma high_low b : (N.shiftr (N.land (code b) 240) 4 < 16)%N /\ (N.land (code b) 15 < 16)%N /\
  ascii_of_N (16 * N.shiftr (N.land (code b) 240) 4 + N.land (code b) 15) = b.
Proof.
  destruct b as [b0 b1 b2 b3 b4 b5 b6 b7].
  destruct b0, b1, b2, b3, b4, b5, b6, b7; vm_compute; repeat split.
Qed.

Lemma nonce_decodes rnd : hex_decode (nonce_of rnd) = Some rnd.
Proof.
  induction rnd as [|b rnd IH]; [reflexivity|].
  cbn [nonce_of hex_decode]. destruct (high_low b) as (H & L & E).
  rewrite (hex_digit_value _ H), (hex_digit_value _ L), IH, E. reflexivity.
Qed.

Lemma hex_value_digit c n : hex_value c = Some n -> (n < 16)%N /\ c = hex_digit n.
Proof.
  destruct c as [b0 b1 b2 b3 b4 b5 b6 b7].
  destruct b0, b1, b2, b3, b4, b5, b6, b7; vm_compute; intros E; try discriminate;
    injection E as <-; vm_compute; split; reflexivity.
Qed.

Lemma digits_of a b : (a < 16)%N -> (b < 16)%N ->
  N.shiftr (N.land (code (ascii_of_N (16 * a + b))) 240) 4 = a /\ N.land (code (ascii_of_N (16 * a + b))) 15 = b.
Proof.
  intros A B.
  assert (In a [0;1;2;3;4;5;6;7;8;9;10;11;12;13;14;15]%N) as I by (cbn; lia).
  assert (In b [0;1;2;3;4;5;6;7;8;9;10;11;12;13;14;15]%N) as J by (cbn; lia).
  clear A B. cbn in I, J.
  repeat (destruct I as [<-|I]; [repeat (destruct J as [<-|J]; [vm_compute; split; reflexivity|]); destruct J|]).
  destruct I.
Qed.

Lemma decoded_is_nonce n : forall rnd, hex_decode n = Some rnd -> n = nonce_of rnd.
Proof.
  assert (H : forall k s rnd, List.length s <= k -> hex_decode s = Some rnd -> s = nonce_of rnd).
  { induction k as [|k IH]; intros s rnd L E.
    - destruct s; [|cbn in L; lia]. injection E as <-. reflexivity.
    - destruct s as [|x [|y s]]; [injection E as <-; reflexivity|discriminate|].
      cbn [hex_decode] in E.
      destruct (hex_value x) as [a|] eqn:Ea; [|discriminate].
      destruct (hex_value y) as [b|] eqn:Eb; [|discriminate].
      destruct (hex_decode s) as [r|] eqn:Er; [|discriminate].
      assert (rnd = ascii_of_N (16 * a + b) :: r) as -> by congruence. cbn [nonce_of].
      apply hex_value_digit in Ea as [A ->]. apply hex_value_digit in Eb as [B ->].
      destruct (digits_of a b A B) as [D1 D2]. rewrite D1, D2.
      rewrite (IH s r); [reflexivity|cbn in L; lia|exact Er]. }
  intros rnd E. apply (H (List.length n)); [lia|exact E].
Qed.

Lemma nonce_length rnd : List.length (nonce_of rnd) = 2 * List.length rnd.
Proof. induction rnd as [|b rnd IH]; [reflexivity|]. cbn [nonce_of List.length]. rewrite IH. lia. Qed.

Lemma nonce_alphabet rnd c : In c (nonce_of rnd) -> In c (str "0123456789ABCDEF").
Proof.
  assert (D : forall n, (n < 16)%N -> In (hex_digit n) (str "0123456789ABCDEF")).
  { intros n L. assert (In n [0;1;2;3;4;5;6;7;8;9;10;11;12;13;14;15]%N) as I by (cbn; lia).
    cbn in I. repeat (destruct I as [<-|I]; [vm_compute; tauto|]). destruct I. }
  induction rnd as [|b rnd IH]; [intros []|].
  cbn [nonce_of]. destruct (high_low b) as (H & L & _).
  intros [<-|[<-|I]]; [apply D, H|apply D, L|apply IH, I].
Qed.

Lemma nonces_encode rnd n : generate_nonce (Some rnd) = Some n -> List.length rnd = 16 ->
  List.length n = 32 /\ (forall c, In c n -> In c (str "0123456789ABCDEF")) /\ hex_decode n = Some rnd.
Proof.
  intros E L. cbn in E. assert (n = nonce_of rnd) by congruence. subst n. split; [|split].
  - rewrite nonce_length, L. reflexivity.
  - intros c. apply nonce_alphabet.
  - apply nonce_decodes.
Qed.

Lemma nonces_differ r1 r2 n : generate_nonce (Some r1) = Some n -> generate_nonce (Some r2) = Some n -> r1 = r2.
Proof.
  cbn. intros E1 E2. assert (nonce_of r1 = nonce_of r2) as E by congruence.
  pose proof (nonce_decodes r1) as D1. rewrite E, nonce_decodes in D1. congruence.
Qed.

Lemma nonce_case : generate_nonce (Some (map ascii_of_N [0;255;16;1;171;205;239;18;52;86;120;154;188;222;240;9]%N))
  = Some (str "00FF1001ABCDEF123456789ABCDEF009").
Proof. vm_compute. reflexivity. Qed.

(** ** The middleware *)

Lemma skip_iff m : skip_check m = true <-> safe_method m.
Proof.
  unfold skip_check, safe_method. rewrite !orb_true_iff, !beqb_iff. tauto.
Qed.

Lemma skip_not m : skip_check m = false <-> ~ safe_method m.
Proof. rewrite <- skip_iff. destruct (skip_check m); split; intros; congruence. Qed.

Lemma carries_iff param header q tok :
  carries param header q tok <-> tok <> [] /\ previous_nonce param header q = tok.
Proof.
  unfold carries, previous_nonce. cbv zeta.
  destruct (beqb (hget (cq_headers q) header) []) eqn:E.
  - apply beqb_iff in E. rewrite E. split.
    + intros [N [H|(_ & form & vs & F & A)]]; [congruence|].
      split; [exact N|]. rewrite F. cbn. rewrite A. reflexivity.
    + intros [N H]. split; [exact N|]. right. split; [reflexivity|].
      destruct (cq_form q) as [form|]; [|cbn in H; congruence].
      exists form. cbn in H. destruct (alookup param form) as [[|v vs]|]; try congruence.
      exists vs. subst. tauto.
  - apply beqb_no in E. split; intros [N H]; split; try exact N; tauto.
Qed.

Lemma carries_same param header q t1 t2 : carries param header q t1 -> carries param header q t2 -> t1 = t2.
Proof. rewrite !carries_iff. intros [_ A] [_ B]. congruence. Qed.

Definition ev_of (g : cgate) : cevent :=
  match g with Refused => EvRefused | NoNonce => EvNoNonce | Issued n => EvRan n end.

Fixpoint gates (param header : bytes) (c : cache) (qs : list creq) : cache * list cevent :=
  match qs with
  | [] => (c, [])
  | q :: qs' =>
      let (c1, g) := csrf_gate param header c q in
      let (c2, es) := gates param header c1 qs' in
      (c2, ev_of g :: es)
  end.

Lemma gates_snoc param header q : forall qs c, gates param header c (qs ++ [q]) =
  let (c1, es) := gates param header c qs in
  let (c2, g) := csrf_gate param header c1 q in
  (c2, es ++ [ev_of g]).
Proof.
  induction qs as [|q' qs IH]; intros c.
  - cbn. destruct (csrf_gate param header c q). reflexivity.
  - cbn [app gates]. destruct (csrf_gate param header c q') as [c1 g].
    rewrite IH. destruct (gates param header c1 qs) as [c2 es].
    destruct (csrf_gate param header c2 q). reflexivity.
Qed.

Lemma serve_events {Req Resp World : Type} (view : Req -> creq) param header (h : handler Req Resp World) c : forall qs k w,
  let (cw, os) := serve_in_turn (csrf view param header (beside_cache h)) c qs (k, w) in
  let (k', es) := gates param header k (map view qs) in
  fst cw = k' /\ run_events h c qs es w = (snd cw, os).
Proof.
  induction qs as [|q qs IH]; intros k w; [cbn; split; reflexivity|].
  cbn [serve_in_turn map gates]. unfold csrf at 1. cbn [fst snd].
  destruct (csrf_gate param header k (view q)) as [k1 g].
  destruct g as [| |n]; cbn [ev_of run_events].
  - specialize (IH k1 w).
    destruct (serve_in_turn _ c qs (k1, w)) as [cw os].
    destruct (gates param header k1 (map view qs)) as [k' es].
    destruct IH as [E1 E2]. split; [exact E1|]. cbn [run_events]. rewrite E2. reflexivity.
  - specialize (IH k1 w).
    destruct (serve_in_turn _ c qs (k1, w)) as [cw os].
    destruct (gates param header k1 (map view qs)) as [k' es].
    destruct IH as [E1 E2]. split; [exact E1|]. cbn [run_events]. rewrite E2. reflexivity.
  - unfold beside_cache at 1. cbn [fst snd].
    destruct (h (with_nonce c n) q w) as [o w1] eqn:Eh. specialize (IH k1 w1).
    destruct (serve_in_turn _ c qs (k1, w1)) as [cw os].
    destruct (gates param header k1 (map view qs)) as [k' es].
    destruct IH as [E1 E2]. split; [exact E1|]. cbn [run_events]. unfold with_nonce in Eh. rewrite Eh, E2. reflexivity.
Qed.

(** Only earlier requests matter. *)
Lemma uses_more param header qs evs q e k tok : List.length evs = List.length qs -> k < List.length qs ->
  (uses param header (qs ++ [q]) (evs ++ [e]) k tok <-> uses param header qs evs k tok).
Proof.
  intros L K. unfold uses. rewrite !nth_error_app1 by lia. tauto.
Qed.

Lemma fresh_more param header qs evs q e i now tok : List.length evs = List.length qs -> i <= List.length qs ->
  (fresh param header (qs ++ [q]) (evs ++ [e]) i now tok <-> fresh param header qs evs i now tok).
Proof.
  intros L K. split; intros (j & qj & J & Q & E & T & H); exists j, qj.
  - rewrite nth_error_app1 in Q by lia. rewrite nth_error_app1 in E by lia.
    do 4 (split; [assumption|]). intros k Hk. destruct (H k Hk) as [H1 H2].
    rewrite nth_error_app1 in H1 by lia. rewrite uses_more in H2 by lia. split; assumption.
  - rewrite !nth_error_app1 by lia. do 4 (split; [assumption|]).
    intros k Hk. rewrite nth_error_app1 by lia. rewrite uses_more by lia. apply H, Hk.
Qed.

Lemma admitted_more param header qs evs q e i q' : List.length evs = List.length qs -> i <= List.length qs ->
  (admitted param header (qs ++ [q]) (evs ++ [e]) i q' <-> admitted param header qs evs i q').
Proof.
  intros L K. unfold admitted. split; (intros [H|(t & C & F)]; [left; exact H|right; exists t; split; [exact C|]]).
  - rewrite fresh_more in F by assumption. exact F.
  - apply fresh_more; assumption.
Qed.

(** The cache holds exactly the fresh nonces. *)
Definition tracks (param header : bytes) (qs : list creq) (evs : list cevent) (c : cache) : Prop :=
  forall now tok, cache_contains c now tok = true <-> fresh param header qs evs (List.length qs) now tok.

Lemma fresh_snoc param header qs evs q e now tok : List.length evs = List.length qs ->
  (fresh param header (qs ++ [q]) (evs ++ [e]) (S (List.length qs)) now tok <->
   (e = EvRan tok /\ (now < cq_add q + 3600000000000)%Z) \/
   (e <> EvRan tok /\ ~ (e <> EvRefused /\ ~ safe_method (cq_method q) /\ carries param header q tok) /\
    fresh param header qs evs (List.length qs) now tok)).
Proof.
  intros L.
  assert (Nq : nth_error (qs ++ [q]) (List.length qs) = Some q).
  { rewrite nth_error_app2 by lia. rewrite Nat.sub_diag. reflexivity. }
  assert (Ne : nth_error (evs ++ [e]) (List.length qs) = Some e).
  { rewrite nth_error_app2 by lia. rewrite L, Nat.sub_diag. reflexivity. }
  split.
  - intros (j & qj & J & Q & E & T & H).
    destruct (Nat.eq_dec j (List.length qs)) as [->|Nj].
    + left. rewrite Nq in Q. rewrite Ne in E. split; congruence.
    + right. destruct (H (List.length qs)) as [H1 H2]; [lia|].
      split; [|split].
      * rewrite Ne in H1. congruence.
      * intros (R1 & R2 & R3). apply H2. exists q, e. tauto.
      * apply (fresh_more param header qs evs q e); [exact L|lia|].
        exists j, qj. do 4 (split; [first [assumption|lia]|]). intros k Hk. apply H. lia.
  - intros [[-> T]|(R1 & R2 & F)].
    + exists (List.length qs), q. do 4 (split; [first [assumption|lia]|]). intros k Hk. lia.
    + apply (fresh_more param header qs evs q e) in F; [|exact L|lia].
      destruct F as (j & qj & J & Q & E & T & H).
      exists j, qj. do 4 (split; [first [assumption|lia]|]).
      intros k Hk. destruct (Nat.eq_dec k (List.length qs)) as [->|Nk]; [|apply H; lia].
      split; [rewrite Ne; congruence|].
      intros (q1 & e1 & A & B & C & D & F). rewrite Nq in A. rewrite Ne in B.
      assert (q1 = q) by congruence. assert (e1 = e) by congruence. subst. tauto.
Qed.

Lemma contains_remove c k now tok :
  cache_contains (cache_remove c k) now tok = true <-> tok <> k /\ cache_contains c now tok = true.
Proof.
  unfold cache_contains, cache_remove. rewrite lookup_remove. destruct (beqb tok k) eqn:E.
  - apply beqb_iff in E. split; [discriminate|tauto].
  - apply beqb_no in E. tauto.
Qed.

Lemma contains_add c t k d now tok :
  cache_contains (cache_add c t k d) now tok = true <->
  tok = k /\ (now < t + d)%Z \/ tok <> k /\ cache_contains c now tok = true.
Proof.
  unfold cache_contains, cache_add. rewrite lookup_set. destruct (beqb tok k) eqn:E.
  - apply beqb_iff in E. rewrite Z.ltb_lt. tauto.
  - apply beqb_no in E. tauto.
Qed.

Lemma gate_event param header qs evs c q : List.length evs = List.length qs -> tracks param header qs evs c ->
  let (c', g) := csrf_gate param header c q in
  match g with
  | Refused => ~ admitted param header qs evs (List.length qs) q
  | NoNonce => admitted param header qs evs (List.length qs) q /\ cq_random q = None
  | Issued n => admitted param header qs evs (List.length qs) q /\ exists rnd, cq_random q = Some rnd /\ hex_decode n = Some rnd
  end /\
  tracks param header (qs ++ [q]) (evs ++ [ev_of g]) c'.
Proof.
  intros L T. unfold csrf_gate.
  assert (Len : List.length (qs ++ [q]) = S (List.length qs)) by (rewrite app_length; cbn; lia).
  unfold tracks. rewrite Len.
  destruct (skip_check (cq_method q)) eqn:Sk.
  - assert (A : admitted param header qs evs (List.length qs) q) by (left; apply skip_iff; exact Sk).
    apply skip_iff in Sk.
    unfold generate_nonce. destruct (cq_random q) as [rnd|] eqn:R; cbn [option_map ev_of].
    + split; [split; [exact A|exists rnd; split; [reflexivity|apply nonce_decodes]]|].
      intros now tok. rewrite contains_add, fresh_snoc, (T now tok) by exact L.
      split; (intros [[E X]|(E & X)]; [left; split; [congruence|exact X]|right]).
      * split; [congruence|]. split; [tauto|exact X].
      * split; [congruence|tauto].
    + split; [split; [exact A|reflexivity]|].
      intros now tok. rewrite fresh_snoc, (T now tok) by exact L. split.
      * intros F. right. split; [discriminate|]. tauto.
      * intros [[E _]|(_ & _ & F)]; [discriminate|exact F].
  - apply skip_not in Sk. set (n := previous_nonce param header q).
    destruct (beqb n [] || negb (cache_contains c (cq_check q) n)) eqn:B; cbn [ev_of].
    + split.
      * intros [A|(tok & C & F)]; [tauto|].
        apply carries_iff in C as [N C]. apply T in F. fold n in C. subst tok.
        rewrite F in B. cbn in B. rewrite orb_false_r in B. apply beqb_iff in B. tauto.
      * intros now tok. rewrite fresh_snoc, (T now tok) by exact L. split.
        { intros F. right. split; [discriminate|]. tauto. }
        { intros [[E _]|(_ & _ & F)]; [discriminate|exact F]. }
    + apply orb_false_iff in B as [B1 B2]. apply beqb_no in B1. apply negb_false_iff in B2.
      assert (C : carries param header q n) by (apply carries_iff; split; [exact B1|reflexivity]).
      assert (A : admitted param header qs evs (List.length qs) q).
      { right. exists n. split; [exact C|]. apply T. exact B2. }
      assert (U : forall tok, carries param header q tok <-> tok = n).
      { intros tok. split; [intros H; exact (carries_same _ _ _ _ _ H C)|intros ->; exact C]. }
      unfold generate_nonce. destruct (cq_random q) as [rnd|] eqn:R; cbn [option_map ev_of].
      * split; [split; [exact A|exists rnd; split; [reflexivity|apply nonce_decodes]]|].
        intros now tok. rewrite contains_add, contains_remove, fresh_snoc, (T now tok), U by exact L.
        split; (intros [[E X]|(E & X)]; [left; split; [congruence|exact X]|right]).
        { split; [congruence|]. split; [|tauto]. intros (_ & _ & X2). tauto. }
        { split; [congruence|]. destruct X as [X1 X2]. split; [|exact X2].
          intros ->. apply X1. repeat split; [discriminate|exact Sk]. }
      * split; [split; [exact A|reflexivity]|].
        intros now tok. rewrite contains_remove, fresh_snoc, (T now tok), U by exact L. split.
        { intros [N F]. right. split; [discriminate|]. tauto. }
        { intros [[E _]|(_ & X1 & F)]; [discriminate|]. split; [|exact F].
          intros ->. apply X1. repeat split; [discriminate|exact Sk]. }
Qed.

Lemma gates_history param header qs :
  let (c, evs) := gates param header new_cache qs in
  csrf_history param header qs evs /\ tracks param header qs evs c.
Proof.
  induction qs as [|q qs IH] using rev_ind.
  - cbn. split; [split; [reflexivity|intros [|i] ? ? H; discriminate H]|].
    intros now tok. cbn. split; [discriminate|]. intros (j & qj & J & _). lia.
  - rewrite gates_snoc. destruct (gates param header new_cache qs) as [c evs].
    destruct IH as [[L H] T].
    pose proof (gate_event param header qs evs c q L T) as G.
    destruct (csrf_gate param header c q) as [c2 g]. destruct G as [G1 G2].
    split; [|exact G2]. split; [rewrite !app_length, L; reflexivity|].
    intros i q' e' Q E.
    assert (i <= List.length qs) as I.
    { apply Nat.lt_succ_r. rewrite <- Nat.add_1_r.
      change 1 with (List.length [q]). rewrite <- app_length. apply nth_error_Some. congruence. }
    assert (A : forall P, (admitted param header (qs ++ [q]) (evs ++ [ev_of g]) i P <-> admitted param header qs evs i P)).
    { intros P. apply admitted_more; assumption. }
    destruct (Nat.eq_dec i (List.length qs)) as [->|Ni].
    + rewrite nth_error_app2, Nat.sub_diag in Q by lia. rewrite nth_error_app2, L, Nat.sub_diag in E by lia.
      assert (q' = q) by (cbn in Q; congruence). assert (e' = ev_of g) by (cbn in E; congruence). subst q' e'.
      destruct g; cbn [ev_of] in *; rewrite A; exact G1.
    + rewrite nth_error_app1 in Q by lia. rewrite nth_error_app1 in E by lia.
      specialize (H i q' e' Q E). destruct e'; rewrite A; exact H.
Qed.

Lemma csrf_in_turn {Req Resp World : Type} (view : Req -> creq) param header (h : handler Req Resp World) c qs w :
  exists evs, csrf_history param header (map view qs) evs /\
    run_events h c qs evs w =
    (snd (fst (serve_in_turn (csrf view param header (beside_cache h)) c qs (new_cache, w))),
     snd (serve_in_turn (csrf view param header (beside_cache h)) c qs (new_cache, w))).
Proof.
  pose proof (gates_history param header (map view qs)) as G.
  pose proof (serve_events view param header h c qs new_cache w) as S.
  destruct (serve_in_turn (csrf view param header (beside_cache h)) c qs (new_cache, w)) as [cw os].
  destruct (gates param header new_cache (map view qs)) as [k evs].
  exists evs. split; [apply G|]. cbn [fst snd]. apply S.
Qed.

Lemma history_unique param header qs : forall e1 e2,
  csrf_history param header qs e1 -> csrf_history param header qs e2 -> e1 = e2.
Proof.
  assert (P : forall qs q e1 x1, List.length e1 = List.length qs ->
    csrf_history param header (qs ++ [q]) (e1 ++ [x1]) -> csrf_history param header qs e1).
  { clear. intros qs q e1 x1 L [_ H]. split; [exact L|]. intros i q' e' Q E.
    assert (i < List.length qs) as I by (apply nth_error_Some; congruence).
    specialize (H i q' e'). rewrite !nth_error_app1 in H by lia. specialize (H Q E).
    destruct e'; rewrite admitted_more in H by lia; exact H. }
  induction qs as [|q qs IH] using rev_ind; intros e1 e2 H1 H2.
  - destruct H1 as [L1 _]. destruct H2 as [L2 _]. destruct e1; [|discriminate]. destruct e2; [|discriminate]. reflexivity.
  - assert (N : forall e, csrf_history param header (qs ++ [q]) e -> exists e' x, e = e' ++ [x] /\ List.length e' = List.length qs).
    { intros e [L _]. rewrite app_length in L. cbn in L.
      destruct (@exists_last _ e) as (e' & x & E); [intros ->; cbn in L; lia|].
      exists e', x. split; [exact E|]. subst e. rewrite app_length in L. cbn in L. lia. }
    destruct (N e1 H1) as (a & x & -> & La). destruct (N e2 H2) as (b & y & -> & Lb).
    assert (a = b). { apply IH; [apply (P qs q a x La H1)|apply (P qs q b y Lb H2)]. }
    subst b. f_equal. f_equal.
    assert (Nq : nth_error (qs ++ [q]) (List.length qs) = Some q).
    { rewrite nth_error_app2, Nat.sub_diag by lia. reflexivity. }
    assert (Ne : forall e, nth_error (a ++ [e]) (List.length qs) = Some e).
    { intros e. rewrite nth_error_app2, La, Nat.sub_diag by lia. reflexivity. }
    destruct H1 as [_ H1]. destruct H2 as [_ H2].
    specialize (H1 _ q x Nq (Ne x)). specialize (H2 _ q y Nq (Ne y)).
    destruct x as [| |n], y as [| |n']; rewrite admitted_more in H1, H2 by lia; try reflexivity; try tauto.
    + destruct H1 as [_ R1]. destruct H2 as [_ (r & R2 & _)]. congruence.
    + destruct H2 as [_ R1]. destruct H1 as [_ (r & R2 & _)]. congruence.
    + destruct H1 as [_ (r1 & R1 & D1)]. destruct H2 as [_ (r2 & R2 & D2)].
      apply decoded_is_nonce in D1. apply decoded_is_nonce in D2. congruence.
Qed.

Lemma single_use param header qs evs : csrf_history param header qs evs ->
  forall i k tok, i < k -> uses param header qs evs i tok -> uses param header qs evs k tok ->
  exists j, i <= j < k /\ nth_error evs j = Some (EvRan tok).
Proof.
  intros [L H] i k tok I U1 (q & e & Q & E & R & Ns & C).
  specialize (H k q e Q E).
  assert (admitted param header qs evs k q) as A by (destruct e; tauto).
  destruct A as [A|(t & C' & (j & qj & J & Qj & Ej & _ & F))]; [tauto|].
  assert (t = tok) by (eapply carries_same; eassumption). subst t.
  exists j. split; [|exact Ej]. split; [|exact J].
  destruct (Nat.le_gt_cases i j) as [G|G]; [exact G|].
  exfalso. apply (proj2 (F i ltac:(lia))). exact U1.
Qed.

(** Case: a GET issues a nonce, a POST uses it, a second POST with it is refused, and
    one with the new nonce but too late is refused. *)
Definition rnd_of (n : N) : bytes := repeat (ascii_of_N n) 16.
Definition tok_of (n : N) : bytes := nonce_of (rnd_of n).
Definition get_req (n : N) (t : Z) : creq := CReq (str "GET") [] None t t (Some (rnd_of n)).
Definition post_req (tok : bytes) (n : N) (t : Z) : creq :=
  CReq (str "POST") [(str "X-Csrf-Token", [tok])] None t t (Some (rnd_of n)).

Lemma csrf_case : csrf_history (str "_csrf") (str "X-Csrf-Token")
  [get_req 1 0; post_req (tok_of 1) 2 5; post_req (tok_of 1) 3 6; post_req (tok_of 2) 4 3600000000005]
  [EvRan (tok_of 1); EvRan (tok_of 2); EvRefused; EvRefused].
Proof.
  pose proof (gates_history (str "_csrf") (str "X-Csrf-Token")
    [get_req 1 0; post_req (tok_of 1) 2 5; post_req (tok_of 1) 3 6; post_req (tok_of 2) 4 3600000000005]) as G.
  remember (gates _ _ _ _) as g eqn:E. vm_compute in E. subst g. destruct G as [G _]. exact G.
Qed.
