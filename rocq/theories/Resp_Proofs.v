(** * Proofs about responses *)
From Coq Require Import List NArith ZArith Ascii String Bool Lia Arith Permutation.
From Verif Require Import GoBase Http_Model Auth_Model Auth_Proofs Csrf_Spec Csrf_Proofs Chain_Model Serve_Model Resp_Model Resp_Spec.
Import ListNotations.
Local Open Scope string_scope.
Local Open Scope list_scope.
Local Open Scope nat_scope.

(** ** Header maps *)

Lemma beqb_swap a b : beqb a b = beqb b a.
Proof.
  destruct (beqb a b) eqn:E.
  - apply beqb_iff in E. subst b. now rewrite beqb_same.
  - symmetry. apply beqb_no. intro Q. subst b. rewrite beqb_same in E. discriminate.
Qed.

Lemma hvalues_set h k v k' : hvalues (hset h k v) k' = if beqb (canonical k) (canonical k') then [v] else hvalues h k'.
Proof.
  unfold hvalues, hset. rewrite lookup_set, beqb_swap. destruct (beqb (canonical k) (canonical k')); reflexivity.
Qed.

Lemma hvalues_add h k v k' :
  hvalues (hadd h k v) k' = if beqb (canonical k) (canonical k') then hvalues h k' ++ [v] else hvalues h k'.
Proof.
  unfold hadd. unfold hvalues at 1. rewrite lookup_set, beqb_swap. destruct (beqb (canonical k) (canonical k')) eqn:E.
  - apply beqb_iff in E. unfold hvalues. rewrite E. reflexivity.
  - reflexivity.
Qed.

(** ** Writers *)

Section W.
Variable k : compressor.

Lemma base_map f (w : rw k) : rw_base (rw_map f w) = f (rw_base w).
Proof. induction w as [b|s e w IH]; cbn; auto. Qed.

Lemma map_map f g (w : rw k) : rw_map f (rw_map g w) = rw_map (fun b => f (g b)) w.
Proof. induction w as [b|s e w IH]; cbn; [reflexivity|now rewrite IH]. Qed.

Lemma map_ext f g (w : rw k) : (forall b, f b = g b) -> rw_map f w = rw_map g w.
Proof. intro E. induction w as [b|s e w IH]; cbn; [now rewrite E|now rewrite IH]. Qed.

Lemma map_at f g (w : rw k) : f (rw_base w) = g (rw_base w) -> rw_map f w = rw_map g w.
Proof. induction w as [b|s e w IH]; cbn; intro E; [now rewrite E|now rewrite IH]. Qed.

Lemma map_same f (w : rw k) : f (rw_base w) = rw_base w -> rw_map f w = w.
Proof. induction w as [b|s e w IH]; cbn; intro E; [now rewrite E|now rewrite IH]. Qed.

(** A change of the header map only. *)
Definition with_headers (w : rw k) (h : hmap) : rw k := rw_map (fun b => base_set b h) w.

Lemma with_headers_headers w h : rw_headers (with_headers w h) = h.
Proof. unfold rw_headers, with_headers. rewrite base_map. reflexivity. Qed.

Lemma with_headers_twice w h h' : with_headers (with_headers w h) h' = with_headers w h'.
Proof. unfold with_headers. rewrite map_map. apply map_ext. reflexivity. Qed.

Lemma with_headers_same w : with_headers w (rw_headers w) = w.
Proof. unfold with_headers. apply map_same. unfold rw_headers. destruct (rw_base w). reflexivity. Qed.

Lemma rw_set_with w key v : rw_set w key v = with_headers w (hset (rw_headers w) key v).
Proof. unfold rw_set, with_headers. apply map_at. reflexivity. Qed.

Lemma rw_add_with w key v : rw_add w key v = with_headers w (hadd (rw_headers w) key v).
Proof. unfold rw_add, with_headers. apply map_at. reflexivity. Qed.

Section O.
Variable oh : headers -> headers.
Variable oc : cookies -> cookies.
Variable render : cookie -> bytes.

Definition add_texts (h : hmap) (ts : list bytes) : hmap := fold_left (fun h t => hadd h sc t) ts h.
Definition set_pairs (h : hmap) (hs : headers) : hmap := fold_left (fun h kv => hset h (fst kv) (snd kv)) hs h.

Lemma put_cookies_eq w cs :
  put_cookies oc render w cs =
  with_headers w (add_texts (rw_headers w) (texts_of render (match cs with Some m => map snd (oc m) | None => [] end))).
Proof.
  destruct cs as [m|]; cbn.
  2: { symmetry. apply with_headers_same. }
  unfold texts_of. revert w. induction (oc m) as [|[i c] l IH]; intro w; cbn.
  - symmetry. apply with_headers_same.
  - rewrite IH. unfold set_cookie. destruct (render c) as [|x t] eqn:E; cbn; [reflexivity|].
    rewrite rw_add_with. rewrite with_headers_headers. rewrite with_headers_twice. reflexivity.
Qed.

Lemma put_headers_eq w hs :
  put_headers oh w hs = with_headers w (set_pairs (rw_headers w) (match hs with Some m => oh m | None => [] end)).
Proof.
  destruct hs as [m|]; cbn.
  2: { symmetry. apply with_headers_same. }
  revert w. induction (oh m) as [|[i v] l IH]; intro w; cbn.
  - symmetry. apply with_headers_same.
  - rewrite IH. rewrite rw_set_with. rewrite with_headers_headers. rewrite with_headers_twice. reflexivity.
Qed.

(** The header map that is sent. *)
Definition default_type (ctype : bytes) (h : hmap) : hmap :=
  if beqb (hget h ct) [] && negb (beqb ctype []) then hset h ct ctype else h.
Definition default_sniff (h : hmap) : hmap :=
  if beqb (hget h xcto) [] then hset h xcto (str "nosniff") else h.
Definition sent_map (r : hresp) (h : hmap) : hmap :=
  default_sniff (default_type (hr_ctype r)
    (set_pairs (add_texts h (texts_of render (match hr_cookies r with Some m => map snd (oc m) | None => [] end)))
       (match hr_headers r with Some m => oh m | None => [] end))).

Lemma write_headers_ok r (w : rw k) : (100 <= hr_code r <= 999)%Z ->
  write_headers oh oc render r w =
  (None, rw_map (fun b => base_write_header (base_set b (sent_map r (rw_headers w))) (hr_code r)) w).
Proof.
  intro S. unfold write_headers.
  replace ((hr_code r <? 100) || (999 <? hr_code r))%Z with false by lia.
  rewrite put_cookies_eq, put_headers_eq. rewrite with_headers_twice.
  set (h1 := set_pairs _ _). apply f_equal.
  assert (A : forall h, (if beqb (hget (rw_headers (with_headers w h)) (str "Content-Type")) [] && negb (beqb (hr_ctype r) [])
              then rw_set (with_headers w h) (str "Content-Type") (hr_ctype r) else with_headers w h) =
              with_headers w (default_type (hr_ctype r) h)).
  { intro h. unfold default_type. rewrite with_headers_headers. fold ct. destruct (_ && _); [|reflexivity].
    rewrite rw_set_with, with_headers_headers, with_headers_twice. reflexivity. }
  rewrite A.
  assert (B : forall h, (if beqb (hget (rw_headers (with_headers w h)) (str "X-Content-Type-Options")) []
              then rw_set (with_headers w h) (str "X-Content-Type-Options") (str "nosniff") else with_headers w h) =
              with_headers w (default_sniff h)).
  { intro h. unfold default_sniff. rewrite with_headers_headers. fold xcto. destruct (beqb (hget h xcto) []); [|reflexivity].
    rewrite rw_set_with, with_headers_headers, with_headers_twice. reflexivity. }
  rewrite B. unfold h1. rewrite with_headers_headers. unfold with_headers. rewrite map_map. reflexivity.
Qed.

Lemma write_headers_bad r (w : rw k) : ~ (100 <= hr_code r <= 999)%Z -> write_headers oh oc render r w = (Some status_error, w).
Proof. intro S. unfold write_headers. replace ((hr_code r <? 100) || (999 <? hr_code r))%Z with true by lia. reflexivity. Qed.

End O.

(** ** What stays once the status is sent *)

Lemma base_header_stays b st x : b_final b = Some x -> base_write_header b st = b.
Proof. unfold base_write_header. intros ->. reflexivity. Qed.

Lemma base_write_stays b bs x : b_final b = Some x -> b_final (fst (base_write b bs)) = Some x.
Proof.
  intro F. unfold base_write. rewrite (base_header_stays b 200 x F). rewrite F. destruct x as [st h].
  destruct bs; [exact F|]. destruct (body_allowed st); cbn; auto.
Qed.

Lemma write_stays (w : rw k) x : forall bs, b_final (rw_base w) = Some x -> b_final (rw_base (fst (rw_write w bs))) = Some x.
Proof.
  induction w as [b|s e w IH]; intros bs F.
  - cbn. pose proof (base_write_stays b bs x F) as A. destruct (base_write b bs). exact A.
  - cbn. destruct e; [exact F|]. destruct (zwrite k s bs) as [s' out]. destruct out as [|c out]; [exact F|].
    specialize (IH (c :: out) F). destruct (rw_write w (c :: out)). exact IH.
Qed.

Lemma flush_stays (w : rw k) x : b_final (rw_base w) = Some x -> b_final (rw_base (rw_flush w)) = Some x.
Proof.
  intro F. destruct w as [b|s e w]; cbn.
  - cbn in F. rewrite (base_header_stays b 200 x F). exact F.
  - destruct e; [exact F|]. destruct (zflush k s) as [s' out]. destruct out as [|c out]; [exact F|].
    pose proof (write_stays w x (c :: out) F) as A. destruct (rw_write w (c :: out)). exact A.
Qed.

Lemma close_stays (w : rw k) x : b_final (rw_base w) = Some x -> b_final (rw_base (rw_close w)) = Some x.
Proof.
  intro F. destruct w as [b|s e w]; cbn; [exact F|].
  destruct e; [exact F|]. destruct (zclose k s) as [|c out] eqn:E; [exact F|]. apply write_stays. exact F.
Qed.

Lemma set_stays (w : rw k) key v x : b_final (rw_base w) = Some x -> b_final (rw_base (rw_set w key v)) = Some x.
Proof. intro F. unfold rw_set. rewrite base_map. exact F. Qed.

Lemma pieces_stay x l : forall e (w : rw k), b_final (rw_base w) = Some x -> b_final (rw_base (snd (write_pieces l e w))) = Some x.
Proof.
  induction l as [|p l IH]; intros e w F; cbn; [exact F|].
  pose proof (write_stays w x p F) as A. destruct (rw_write w p) as [w1 ok]. destruct ok; [apply IH|]; exact A.
Qed.

Lemma text_stays x p (w : rw k) : b_final (rw_base w) = Some x -> b_final (rw_base (fst (write_text w p))) = Some x.
Proof. intro F. destruct p; [exact F|]. apply write_stays, F. Qed.

Lemma events_stay x l : forall (w : rw k), b_final (rw_base w) = Some x -> b_final (rw_base (write_events l w)) = Some x.
Proof.
  induction l as [|e l IH]; intros w F; cbn; [exact F|].
  pose proof (text_stays x (event_string e) w F) as A. destruct (write_text w (event_string e)) as [w1 ok].
  destruct ok; [apply IH, flush_stays|]; exact A.
Qed.

End W.

(** ** The headers that are sent *)

Lemma hget_first h n : hget h n = first_value h n.
Proof. reflexivity. Qed.

Lemma texts_values h ts n : hvalues (add_texts h ts) n = if beqb (canonical sc) (canonical n) then hvalues h n ++ ts else hvalues h n.
Proof.
  unfold add_texts. revert h. induction ts as [|t ts IH]; intro h; cbn [fold_left].
  - rewrite app_nil_r. now destruct (beqb _ _).
  - rewrite IH, hvalues_add. destruct (beqb _ _); [now rewrite <- app_assoc|reflexivity].
Qed.

Lemma pairs_other hs : forall h n, ~ given hs n -> hvalues (set_pairs h hs) n = hvalues h n.
Proof.
  unfold set_pairs. induction hs as [|[a v] hs IH]; intros h n G; cbn [fold_left]; [reflexivity|].
  rewrite IH.
  - cbn. rewrite hvalues_set. destruct (beqb (canonical a) (canonical n)) eqn:E; [|reflexivity].
    exfalso. apply G. exists a, v. split; [now left|]. now apply beqb_iff.
  - intros (a' & v' & I1 & I2). apply G. exists a', v'. split; [now right|exact I2].
Qed.

Lemma pairs_given hs : forall h a v n, one_spelling hs -> In (a, v) hs -> same_name a n -> hvalues (set_pairs h hs) n = [v].
Proof.
  unfold set_pairs. induction hs as [|[a' v'] hs IH]; intros h a v n [ND OS] I1 N; [destruct I1|]. cbn [fold_left fst snd].
  inversion ND as [|x l NI ND' E]; subst.
  assert (OS' : one_spelling hs).
  { split; [exact ND'|]. intros k1 v1 k2 v2 A B. apply (OS k1 v1 k2 v2); now right. }
  destruct I1 as [I1|I1].
  - inversion I1; subst. clear I1. fold (set_pairs (hset h a v) hs). rewrite pairs_other.
    + rewrite hvalues_set. unfold same_name in N. rewrite N, beqb_same. reflexivity.
    + intros (b & u & B1 & B2). apply NI. assert (a = b).
      { apply (OS a v b u); [now left|now right|]. unfold same_name in *. congruence. }
      subst b. now apply (in_map fst) in B1.
  - apply (IH _ a v n OS' I1 N).
Qed.

Lemma given_perm hs hs' n : Permutation hs hs' -> given hs n -> given hs' n.
Proof. intros P (a & v & I1 & I2). exists a, v. split; [eapply Permutation_in; eauto|exact I2]. Qed.

Lemma spelling_perm hs hs' : Permutation hs hs' -> one_spelling hs -> one_spelling hs'.
Proof.
  intros P [ND OS]. split.
  - eapply Permutation_NoDup; [|exact ND]. now apply Permutation_map.
  - intros k1 v1 k2 v2 A B. apply Permutation_sym in P. apply (OS k1 v1 k2 v2); eapply Permutation_in; eauto.
Qed.

Lemma type_values ctype h n : hvalues (default_type ctype h) n =
  if beqb (canonical ct) (canonical n) then
    (if beqb (first_value h ct) [] && negb (beqb ctype []) then [ctype] else hvalues h n) else hvalues h n.
Proof.
  unfold default_type. rewrite hget_first. destruct (_ && _).
  - apply hvalues_set.
  - now destruct (beqb _ _).
Qed.

Lemma sniff_values h n : hvalues (default_sniff h) n =
  if beqb (canonical xcto) (canonical n) then
    (if beqb (first_value h xcto) [] then [str "nosniff"] else hvalues h n) else hvalues h n.
Proof.
  unfold default_sniff. rewrite hget_first. destruct (beqb (first_value h xcto) []).
  - apply hvalues_set.
  - now destruct (beqb _ _).
Qed.

Lemma given_dec hs n : {given hs n} + {~ given hs n}.
Proof.
  induction hs as [|[a v] hs IH].
  - right. intros (a & v & [] & _).
  - destruct (beqb (canonical a) (canonical n)) eqn:E.
    + left. exists a, v. split; [now left|]. now apply beqb_iff.
    + destruct IH as [G|G].
      * left. destruct G as (b & u & B1 & B2). exists b, u. split; [now right|exact B2].
      * right. intros (b & u & [B1|B1] & B2).
        -- inversion B1; subst. unfold same_name in B2. rewrite B2, beqb_same in E. discriminate.
        -- apply G. now exists b, u.
Qed.

Lemma same_beqb a b : same_name a b -> beqb (canonical a) (canonical b) = true.
Proof. intro E. now apply beqb_iff. Qed.
Lemma diff_beqb a b : ~ same_name a b -> beqb (canonical a) (canonical b) = false.
Proof. intro E. apply beqb_no. exact E. Qed.

Lemma first_congr h h' n : hvalues h n = hvalues h' n -> first_value h n = first_value h' n.
Proof. unfold first_value. now intros ->. Qed.

Lemma hvalues_same h a b : same_name a b -> hvalues h a = hvalues h b.
Proof. unfold hvalues, same_name. now intros ->. Qed.

Lemma beqb_nil s : beqb s [] = true <-> s = [].
Proof. apply beqb_iff. Qed.

Lemma sent_map_as h0 hs ts ctype : one_spelling hs ->
  sent_as h0 (default_sniff (default_type ctype (set_pairs (add_texts h0 ts) hs))) hs ts ctype.
Proof.
  intro OS. set (h1 := set_pairs (add_texts h0 ts) hs).
  assert (CX : beqb (canonical ct) (canonical xcto) = false) by reflexivity.
  assert (CS : beqb (canonical ct) (canonical sc) = false) by reflexivity.
  assert (XS : beqb (canonical xcto) (canonical sc) = false) by reflexivity.
  assert (SX : beqb (canonical sc) (canonical xcto) = false) by reflexivity.
  assert (SC : beqb (canonical sc) (canonical ct) = false) by reflexivity.
  assert (FX : first_value (default_type ctype h1) xcto = first_value h1 xcto).
  { apply first_congr. rewrite type_values, CX. reflexivity. }
  assert (V : forall n, hvalues (default_sniff (default_type ctype h1)) n =
    if beqb (canonical xcto) (canonical n) then (if beqb (first_value h1 xcto) [] then [str "nosniff"] else hvalues h1 n)
    else if beqb (canonical ct) (canonical n) then
      (if beqb (first_value h1 ct) [] && negb (beqb ctype []) then [ctype] else hvalues h1 n)
    else hvalues h1 n).
  { intro n. rewrite sniff_values, FX, type_values.
    destruct (beqb (canonical xcto) (canonical n)) eqn:X; [|reflexivity].
    apply beqb_iff in X. rewrite <- X, CX. reflexivity. }
  assert (G : forall a v n, In (a, v) hs -> same_name a n -> hvalues h1 n = [v]).
  { intros a v n I1 N. apply (pairs_given hs (add_texts h0 ts) a v n OS I1 N). }
  assert (NG : forall n, ~ given hs n -> hvalues h1 n = if beqb (canonical sc) (canonical n) then hvalues h0 n ++ ts else hvalues h0 n).
  { intros n N. unfold h1. rewrite pairs_other by exact N. apply texts_values. }
  split.
  - intros n v I1 NE. rewrite V. rewrite (G n v n I1 eq_refl).
    destruct (beqb (canonical xcto) (canonical n)) eqn:X.
    + apply beqb_iff in X. unfold first_value. rewrite (G n v xcto I1 (eq_sym X)).
      destruct v; [congruence|]. reflexivity.
    + destruct (beqb (canonical ct) (canonical n)) eqn:C; [|reflexivity].
      apply beqb_iff in C. unfold first_value. rewrite (G n v ct I1 (eq_sym C)).
      destruct v; [congruence|]. reflexivity.
  - intros n I1 N1 N2. rewrite V. rewrite (G n [] n I1 eq_refl).
    rewrite (diff_beqb xcto n) by (unfold same_name in *; congruence).
    rewrite (diff_beqb ct n) by (unfold same_name in *; congruence). reflexivity.
  - intros N. rewrite V, XS, CS, NG by exact N. rewrite beqb_same. reflexivity.
  - intros N F. rewrite V. change (beqb (canonical xcto) (canonical ct)) with false. cbv iota. rewrite beqb_same.
    assert (E : hvalues h1 ct = hvalues h0 ct) by (rewrite NG by exact N; rewrite SC; reflexivity).
    rewrite (first_congr h1 h0 ct E). destruct (first_value h0 ct) as [|c l] eqn:Q; [congruence|]. cbn. exact E.
  - intros A B NE. rewrite V. change (beqb (canonical xcto) (canonical ct)) with false. cbv iota. rewrite beqb_same.
    assert (first_value h1 ct = []) as ->.
    { destruct (given_dec hs ct) as [Gv|Gv].
      - destruct Gv as (a & v & I1 & I2). pose proof (A a v I1 I2) as ->. unfold first_value. now rewrite (G a [] ct I1 I2).
      - rewrite <- (B Gv). apply first_congr. rewrite NG by exact Gv. rewrite SC. reflexivity. }
    destruct ctype; [congruence|]. reflexivity.
  - intros N F ->. rewrite V. change (beqb (canonical xcto) (canonical ct)) with false. cbv iota. rewrite beqb_same.
    rewrite andb_false_r. rewrite NG by exact N. now rewrite SC.
  - intros N F. rewrite V, beqb_same.
    assert (E : hvalues h1 xcto = hvalues h0 xcto) by (rewrite NG by exact N; rewrite SX; reflexivity).
    rewrite (first_congr h1 h0 xcto E). destruct (first_value h0 xcto) as [|c l] eqn:Q; [congruence|]. cbn. exact E.
  - intros A B. rewrite V, beqb_same.
    assert (first_value h1 xcto = []) as ->; [|reflexivity].
    destruct (given_dec hs xcto) as [Gv|Gv].
    + destruct Gv as (a & v & I1 & I2). pose proof (A a v I1 I2) as ->. unfold first_value. now rewrite (G a [] xcto I1 I2).
    + rewrite <- (B Gv). apply first_congr. rewrite NG by exact Gv. rewrite SX. reflexivity.
  - intros n N N1 N2 N3. rewrite V, NG by exact N.
    rewrite (diff_beqb xcto n) by (unfold same_name in *; congruence).
    rewrite (diff_beqb ct n) by (unfold same_name in *; congruence).
    rewrite (diff_beqb sc n) by (unfold same_name in *; congruence). reflexivity.
Qed.

Lemma sent_as_perm h0 h hs hs' ts ctype : Permutation hs hs' -> sent_as h0 h hs ts ctype -> sent_as h0 h hs' ts ctype.
Proof.
  intros P [A1 A2 A3 A4 A5 A6 A7 A8 A9]. pose proof (Permutation_sym P) as P'.
  assert (GP : forall n, ~ given hs' n -> ~ given hs n) by (intros n N G; apply N; eapply given_perm; eauto).
  assert (GP' : forall n, ~ given hs n -> ~ given hs' n) by (intros n N G; apply N; eapply given_perm; eauto).
  assert (IP : forall x, In x hs -> In x hs') by (intros x; eapply Permutation_in; eauto).
  assert (IP' : forall x, In x hs' -> In x hs) by (intros x; eapply Permutation_in; eauto).
  split; auto.
  - intros B C. apply A5; [intros a v I1; apply B; auto|auto].
  - intros B C. apply A8; [intros a v I1; apply B; auto|auto].
Qed.

Lemma texts_perm render l l' : Permutation l l' -> Permutation (texts_of render l) (texts_of render l').
Proof.
  intro P. unfold texts_of. induction P as [|x l l' P IH|x y l|l l' l'' P1 IH1 P2 IH2].
  - constructor.
  - cbn. destruct (render x); [exact IH|now constructor].
  - cbn. destruct (render x), (render y); try apply Permutation_refl. constructor.
  - eapply Permutation_trans; eauto.
Qed.

(** ** Written responses *)

Lemma meant_code h st : meant_status h st <-> hr_code h = st.
Proof. unfold meant_status, hr_code. destruct (Z.eqb_spec (hr_status h) 0); split; intros A; intuition congruence. Qed.

Section Written.
Variable k : compressor.
Variable oh : headers -> headers.
Variable oc : cookies -> cookies.
Variable render : cookie -> bytes.
Variable location : wreq -> bytes -> bytes.
Variable redirect_body : Z -> bytes -> bytes.
Hypothesis OH : forall m, Permutation (oh m) m.
Hypothesis OC : forall m, Permutation (oc m) m.

Notation write := (@Resp_Model.write k oh oc render location redirect_body).
Notation write_cut := (@Resp_Model.write_cut k oh oc render location redirect_body).

(** What the part after the headers does not touch. *)
Lemma after_final h (w : rw k) body x : (100 <= hr_code h <= 999)%Z ->
  (forall w1, b_final (rw_base w1) = Some x -> b_final (rw_base (snd (body w1))) = Some x) ->
  b_final (base_write_header (base_set (rw_base w) (sent_map oh oc render h (rw_headers w))) (hr_code h)) = Some x ->
  b_final (rw_base (snd (after_headers oh oc render h w body))) = Some x.
Proof.
  intros S B F. unfold after_headers. rewrite write_headers_ok by exact S.
  set (w1 := rw_map _ w). specialize (B w1). destruct (body w1) as [e w2]. cbn in *. apply B.
  unfold w1. rewrite base_map. exact F.
Qed.

Lemma fields_final cut r q h (w : rw k) x : fields r = Some h -> right_protocol r q -> (100 <= hr_code h <= 999)%Z ->
  b_final (base_write_header (base_set (rw_base w) (sent_map oh oc render (hr_cut cut h) (rw_headers w))) (hr_code h)) = Some x ->
  b_final (rw_base (snd (write_cut cut r q w))) = Some x.
Proof.
  intros F P S B.
  assert (C : hr_code (hr_cut cut h) = hr_code h) by (destruct cut; reflexivity).
  rewrite <- C in S, B.
  destruct r as [r|r p|r p|r f|r f|r f|r evs live|r u| |hs cs acts|l r|l]; cbn in F; try discriminate F;
    injection F as ->; cbn [Resp_Model.write_cut].
  - apply after_final; auto.
  - apply after_final; auto. intros w1 E. pose proof (text_stays k x p w1 E) as A.
    destruct (write_text w1 p). exact A.
  - apply after_final; auto. intros w1 E. destruct p as [[bs|]|]; try (apply pieces_stay; exact E). exact E.
  - destruct f as [[l e]|]; apply after_final; auto. intros w1 E. now apply pieces_stay.
  - destruct f as [[l e]|]; apply after_final; auto. intros w1 E. now apply pieces_stay.
  - destruct f as [l e]; apply after_final; auto. intros w1 E. now apply pieces_stay.
  - cbn in P. rewrite P. change (2 =? 2)%N with true. cbv iota. apply after_final; auto.
    intros w1 E. cbn [snd]. apply flush_stays, events_stay, set_stays, set_stays. exact E.
Qed.

Lemma written_final r q h st (w : rw k) :
  fields r = Some h -> right_protocol r q -> meant_status h st -> (200 <= st <= 999)%Z ->
  b_final (rw_base w) = None -> one_spelling (custom_headers h) ->
  exists hs ts, b_final (rw_base (snd (write r q w))) = Some (st, hs) /\
    Permutation ts (texts_of render (custom_cookies h)) /\
    sent_as (rw_headers w) hs (custom_headers h) ts (hr_ctype h).
Proof.
  intros F P M S N OS. apply meant_code in M.
  exists (sent_map oh oc render h (rw_headers w)), (texts_of render (match hr_cookies h with Some m => map snd (oc m) | None => [] end)).
  split; [|split].
  - unfold Resp_Model.write. apply (fields_final false r q h); auto; [rewrite M; lia|].
    cbn [hr_cut]. unfold base_write_header, base_set. cbn. rewrite N, M.
    replace ((100 <=? st) && (st <=? 199))%Z with false by lia. reflexivity.
  - apply texts_perm. unfold custom_cookies. destruct (hr_cookies h) as [m|]; [|apply Permutation_refl].
    apply Permutation_map, OC.
  - unfold sent_map, custom_headers in *. destruct (hr_headers h) as [m|].
    + eapply sent_as_perm; [apply OH|]. apply sent_map_as. eapply spelling_perm; [apply Permutation_sym, OH|exact OS].
    + apply sent_map_as. exact OS.
Qed.

Lemma bad_status_nothing r q h (w : rw k) : fields r = Some h -> right_protocol r q ->
  ~ (100 <= hr_code h <= 999)%Z -> write r q w = (Wrote (Some status_error), w).
Proof.
  intros F P S. unfold Resp_Model.write.
  destruct r as [r|r p|r p|r f|r f|r f|r evs live|r u| |hs cs acts|l r|l]; cbn in F; try discriminate F;
    injection F as ->; cbn [Resp_Model.write_cut hr_cut]; unfold after_headers;
    try (rewrite write_headers_bad by exact S; reflexivity).
  - destruct f as [[l e]|]; rewrite write_headers_bad by exact S; reflexivity.
  - destruct f as [[l e]|]; rewrite write_headers_bad by exact S; reflexivity.
  - destruct f as [l e]; rewrite write_headers_bad by exact S; reflexivity.
  - cbn in P. rewrite P. change (2 =? 2)%N with true. cbv iota. rewrite write_headers_bad by exact S. reflexivity.
Qed.

End Written.
