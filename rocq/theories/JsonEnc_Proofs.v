(** * The encoder writes JSON that says what it was given. *)
From Coq Require Import List NArith ZArith Ascii String Bool Lia Arith Permutation.
From Verif Require Import GoBase Json_Model Json_Spec JsonUtf8_Proofs.
Import ListNotations.
Local Open Scope string_scope.
Local Open Scope list_scope.
Local Open Scope N_scope.

(** A string body one character at a time. *)
Lemma body_ascii : forall b s, code b < 128 -> string_body (b :: s) = escape_byte b ++ string_body s.
Proof. intros b s H. cbn [string_body]. apply N.ltb_lt in H. rewrite H. reflexivity. Qed.

Definition is_sep (c : N) : bool := (8232 <=? c) && (c <=? 8233).
Definition body_char (c : N) : bytes := if is_sep c then str "\u202" ++ [hex_digit (c mod 16)] else utf8 c.

Lemma body_wide : forall c s, scalar c -> 128 <= c -> string_body (utf8 c ++ s) = body_char c ++ string_body s.
Proof.
  intros c s H Hc. pose proof (rune_bytes_complete c s H Hc) as R.
  destruct (utf8_cases c H) as [[X _]|[[X [b0 [b1 [U [C0 C1]]]]]|[[X [b0 [b1 [b2 [U [C0 [C1 C2]]]]]]]|[X [b0 [b1 [b2 [b3 [U [C0 [C1 [C2 C3]]]]]]]]]]]]; [lia| | |];
  unfold body_char; rewrite U in *; cbn [app List.length] in *; cbn [string_body];
  (replace (code b0 <? 128) with false by (symmetry; apply N.ltb_ge; nlia)); rewrite R.
  - replace (is_sep c) with false by (symmetry; unfold is_sep; apply andb_false_iff; left; apply N.leb_gt; lia). reflexivity.
  - f_equal. unfold separator, is_sep.
    destruct ((8232 <=? c) && (c <=? 8233)) eqn:E.
    + apply andb_true_iff in E. destruct E as [E1 E2]. apply N.leb_le in E1. apply N.leb_le in E2.
      replace (code b0 =? 226) with true by (symmetry; apply N.eqb_eq; nlia).
      replace (code b1 =? 128) with true by (symmetry; apply N.eqb_eq; nlia).
      replace (between 168 169 b2) with true by (symmetry; apply btw; nlia). cbn [andb].
      assert (Q : code b2 mod 16 = c mod 16); [|rewrite Q; reflexivity].
      assert (c = 8232 \/ c = 8233) as [-> | ->] by lia; rewrite C2; reflexivity.
    + assert (F : (code b0 =? 226) && (code b1 =? 128) && between 168 169 b2 = false); [|rewrite F; reflexivity].
      apply not_true_iff_false. intros T. apply andb_true_iff in T. destruct T as [T T3]. apply andb_true_iff in T. destruct T as [T1 T2].
      apply N.eqb_eq in T1. apply N.eqb_eq in T2. apply btw in T3.
      assert (8232 <= c <= 8233) by nlia. apply andb_false_iff in E. rewrite !N.leb_gt in E. lia.
  - replace (is_sep c) with false by (symmetry; unfold is_sep; apply andb_false_iff; right; apply N.leb_gt; lia). reflexivity.
Qed.

Lemma body_bad : forall b s, (forall c s', scalar c -> b :: s <> utf8 c ++ s') -> string_body (b :: s) = str "\ufffd" ++ string_body s.
Proof.
  intros b s H. cbn [string_body]. destruct (N.ltb_spec (code b) 128) as [L|L].
  { exfalso. apply (H (code b) s); [left; lia|]. rewrite utf8_ascii by assumption. reflexivity. }
  destruct (rune_bytes (b :: s)) as [|n] eqn:E; [reflexivity|].
  destruct (rune_bytes_sound (b :: s)) as [c [r [A [_ [B _]]]]]; [rewrite E; discriminate|]. exfalso. apply (H c r); assumption.
Qed.

(** Escapes of bytes below 128. *)
Definition all_bytes : list byte := map (fun n => ascii_of_N (N.of_nat n)) (seq 0 128).
Lemma below : forall (f : byte -> bool), forallb f all_bytes = true -> forall b, code b < 128 -> f b = true.
Proof.
  intros f H b L. rewrite forallb_forall in H. apply H. unfold all_bytes. rewrite in_map_iff.
  exists (N.to_nat (code b)). rewrite N2Nat.id, of_code. split; [reflexivity|]. apply in_seq. lia.
Qed.

Lemma escape_chars : forall b t cs, code b < 128 -> string_chars t cs -> string_chars (escape_byte b ++ t) (code b :: cs).
Proof.
  intros b t cs L S. pose proof (code_lt b) as L2. unfold escape_byte.
  destruct (html_safe b) eqn:E.
  { unfold html_safe in E. apply andb_true_iff in E. destruct E as [E1 E2]. apply N.leb_le in E1.
    rewrite <- (utf8_ascii b L). apply sc_plain; try assumption; [left; lia| |];
    intros X; rewrite X in E2; discriminate. }
  destruct ((code b =? 34) || (code b =? 92)) eqn:E2.
  { apply orb_true_iff in E2. rewrite !N.eqb_eq in E2. cbn [app]. rewrite <- (of_code b) at 1.
    apply sc_short; [|assumption]. destruct E2 as [-> | ->]; cbn; tauto. }
  destruct (code b =? 10) eqn:E3; [apply N.eqb_eq in E3; rewrite E3; apply (sc_short 110 10); [cbn; tauto|assumption]|].
  destruct (code b =? 13) eqn:E4; [apply N.eqb_eq in E4; rewrite E4; apply (sc_short 114 13); [cbn; tauto|assumption]|].
  destruct (code b =? 9) eqn:E5; [apply N.eqb_eq in E5; rewrite E5; apply (sc_short 116 9); [cbn; tauto|assumption]|].
  rewrite <- app_assoc. cbn [app].
  change (string_chars (str "\u" ++ [ascii_of_N 48; ascii_of_N 48; hex_digit (code b / 16); hex_digit (code b mod 16)] ++ t) (code b :: cs)).
  apply sc_hex; [|left; lia|assumption].
  pose proof (below (fun b => match hex4 [ascii_of_N 48; ascii_of_N 48; hex_digit (code b / 16); hex_digit (code b mod 16)] with
    Some n => n =? code b | None => false end) ltac:(vm_compute; reflexivity) b L) as Q. cbv beta in Q.
  destruct (hex4 [ascii_of_N 48; ascii_of_N 48; hex_digit (code b / 16); hex_digit (code b mod 16)]); [|discriminate].
  apply N.eqb_eq in Q. rewrite Q. reflexivity.
Qed.

Lemma wide_chars : forall c t cs, scalar c -> 128 <= c -> string_chars t cs -> string_chars (body_char c ++ t) (c :: cs).
Proof.
  intros c t cs H Hc S. unfold body_char. destruct (is_sep c) eqn:E.
  - unfold is_sep in E. apply andb_true_iff in E. rewrite !N.leb_le in E.
    assert (c = 8232 \/ c = 8233) as [-> | ->] by lia.
    + apply (sc_hex (str "2028") 8232); [reflexivity|assumption|assumption].
    + apply (sc_hex (str "2029") 8233); [reflexivity|assumption|assumption].
  - apply sc_plain; try assumption; lia.
Qed.

Lemma body_chars : forall s cs, text_of s cs -> string_chars (string_body s) cs.
Proof.
  intros s cs H. induction H as [|c s cs Hc H IH|b s cs Hb H IH].
  - constructor.
  - destruct (N.ltb_spec c 128) as [L|L].
    + destruct (utf8_cons c Hc) as [b [r E]]. destruct (utf8_first c b r Hc E) as [[_ [A ->]]|[A _]]; [|lia].
      rewrite E. cbn [app]. rewrite body_ascii by lia. rewrite <- A. apply escape_chars; [lia|assumption].
    + rewrite body_wide by assumption. apply wide_chars; assumption.
  - rewrite body_bad by assumption. apply (sc_hex (str "fffd") 65533); [reflexivity|right; lia|assumption].
Qed.

(** The bytes the encoder writes inside strings. *)
Definition tame (b : byte) : Prop := 32 <= code b /\ code b <> 60 /\ code b <> 62 /\ code b <> 38.

Definition tameb (b : byte) : bool := (32 <=? code b) && negb (existsb (N.eqb (code b)) [60; 62; 38]).
Lemma tameb_tame : forall l, forallb tameb l = true -> Forall tame l.
Proof.
  intros l H. rewrite forallb_forall in H. apply Forall_forall. intros b Hb. specialize (H b Hb). unfold tameb in H.
  apply andb_true_iff in H. destruct H as [H1 H2]. apply N.leb_le in H1. split; [assumption|].
  repeat split; intros X; rewrite X in H2; discriminate.
Qed.

Lemma body_tame : forall s, Forall tame (string_body s).
Proof.
  assert (A : forall b, code b < 128 -> Forall tame (escape_byte b)).
  { intros b L. apply tameb_tame. apply (below (fun b => forallb tameb (escape_byte b))); [vm_compute; reflexivity|assumption]. }
  assert (W : forall b, 128 <= code b -> tame b) by (intros b L; unfold tame; lia).
  intros s. destruct (text_of_total s) as [cs H]. induction H as [|c s cs Hc H IH|b s cs Hb H IH].
  - constructor.
  - destruct (N.ltb_spec c 128) as [L|L].
    + destruct (utf8_cons c Hc) as [b [r E]]. destruct (utf8_first c b r Hc E) as [[_ [B ->]]|[B _]]; [|lia].
      rewrite E. cbn [app]. rewrite body_ascii by lia. apply Forall_app. split; [apply A; lia|assumption].
    + rewrite body_wide by assumption. apply Forall_app. split; [|assumption]. unfold body_char. destruct (is_sep c) eqn:E.
      * unfold is_sep in E. apply andb_true_iff in E. rewrite !N.leb_le in E.
        assert (c = 8232 \/ c = 8233) as [-> | ->] by lia; apply tameb_tame; reflexivity.
      * chars Hc; match goal with U : utf8 c = _ |- _ => rewrite U end; [lia| | |]; (repeat constructor; unfold tame; nlia).
  - rewrite body_bad by assumption. apply Forall_app. split; [|assumption]. apply tameb_tame; reflexivity.
Qed.

(** Numbers. *)
Lemma digit_digit : forall d, d < 10 -> digit_value (digit d) = Some d.
Proof.
  intros d H. unfold digit_value, digit. rewrite code_of by lia.
  replace (48 <=? 48 + d) with true by (symmetry; apply N.leb_le; lia).
  replace (48 + d <=? 57) with true by (symmetry; apply N.leb_le; lia). cbn [andb]. f_equal. lia.
Qed.
Lemma itoa_fuel_digits : forall f n acc, n < 2 ^ N.of_nat f -> 0 < n ->
  exists ds, itoa_fuel f n acc = ds ++ acc /\ digits ds n.
Proof.
  induction f as [|f IH]; intros n acc H Hn; [cbn in H; lia|]. cbn [itoa_fuel].
  destruct (N.ltb_spec n 10) as [L|L].
  - exists [digit (n mod 10)]. split; [reflexivity|]. rewrite N.mod_small by assumption. apply dg_first; [apply digit_digit|]; assumption.
  - destruct (IH (n / 10) (digit (n mod 10) :: acc)) as [ds [E M]].
    + rewrite Nat2N.inj_succ, N.pow_succ_r' in H. apply N.div_lt_upper_bound; lia.
    + apply N.div_str_pos. lia.
    + exists (ds ++ [digit (n mod 10)]). split; [rewrite E, <- app_assoc; reflexivity|].
      rewrite (N.div_mod n 10) at 2 by lia. rewrite N.mul_comm. apply dg_next; [assumption|]. apply digit_digit. apply N.mod_lt. lia.
Qed.
Lemma itoa_digits : forall n, 0 < n -> digits (itoa n) n.
Proof.
  intros n H. unfold itoa. destruct (itoa_fuel_digits (S (N.to_nat (N.log2 n))) n []) as [ds [E M]]; [|assumption|].
  - rewrite Nat2N.inj_succ, N2Nat.id. apply N.log2_spec. assumption.
  - rewrite E, app_nil_r. assumption.
Qed.
Lemma itoa_whole : forall z, whole (itoa_z z) z.
Proof.
  intros [|p|p]; cbn [itoa_z].
  - apply wh_zero.
  - apply (wh_pos _ (Npos p)). apply itoa_digits. lia.
  - apply (wh_neg _ (Npos p)). apply itoa_digits. lia.
Qed.

(** Induction on values of the program. *)
Lemma gval_rec' : forall P : gval -> Prop, P GNil -> (forall b, P (GBool b)) -> (forall z, P (GInt z)) -> (forall s, P (GStr s)) ->
  (forall l, Forall P l -> P (GSlice l)) -> (forall m, Forall (fun kv => P (snd kv)) m -> P (GMap m)) ->
  (forall m, Forall (fun kv => P (snd kv)) m -> P (GStruct m)) -> forall v, P v.
Proof.
  intros P H1 H2 H3 H4 H5 H6 H7. fix IH 1. intros [|b|z|s|l|m|m].
  - exact H1.
  - apply H2.
  - apply H3.
  - apply H4.
  - apply H5. induction l as [|x l IHl]; constructor; [apply IH|assumption].
  - apply H6. induction m as [|[k x] m IHm]; constructor; [apply IH|assumption].
  - apply H7. induction m as [|[k x] m IHm]; constructor; [apply IH|assumption].
Qed.

Lemma insert_key_map : forall (A B : Type) (f : A -> B) (x : bytes * A) l,
  map (fun kv => (fst kv, f (snd kv))) (insert_key x l) = insert_key (fst x, f (snd x)) (map (fun kv => (fst kv, f (snd kv))) l).
Proof.
  intros A B f x l. induction l as [|y l IH]; [reflexivity|]. cbn [insert_key map fst snd].
  destruct (bcompare (fst x) (fst y)); cbn [map]; [reflexivity|reflexivity|]. rewrite IH. reflexivity.
Qed.
Lemma sort_keys_map : forall (A B : Type) (f : A -> B) l,
  map (fun kv => (fst kv, f (snd kv))) (sort_keys l) = sort_keys (map (fun kv => (fst kv, f (snd kv))) l).
Proof.
  intros A B f l. induction l as [|x l IH]; [reflexivity|]. cbn [sort_keys map]. rewrite insert_key_map, IH. reflexivity.
Qed.
Lemma insert_key_perm : forall (A : Type) (x : bytes * A) l, Permutation (x :: l) (insert_key x l).
Proof.
  intros A x l. induction l as [|y l IH]; [constructor; constructor|]. cbn [insert_key].
  destruct (bcompare (fst x) (fst y)); try reflexivity.
  eapply perm_trans; [apply perm_swap|]. constructor. assumption.
Qed.
Lemma sort_keys_perm : forall (A : Type) (l : list (bytes * A)), Permutation l (sort_keys l).
Proof.
  intros A l. induction l as [|x l IH]; [constructor|]. cbn [sort_keys]. eapply perm_trans; [|apply insert_key_perm].
  constructor. assumption.
Qed.

Definition member (kv : bytes * gval) : bytes := json_string (fst kv) ++ str ":" ++ marshal (snd kv).
Lemma marshal_map : forall m, marshal (GMap m) = str "{" ++ join (str ",") (map member (sort_keys m)) ++ str "}".
Proof.
  intros m. cbn [marshal]. rewrite <- (sort_keys_map _ _ marshal m), map_map. reflexivity.
Qed.

Lemma no_white : white [].
Proof. constructor. Qed.

Lemma slice_json : forall l, Forall (fun v => exists w, stands_for v w /\ json (marshal v) w) l -> l <> [] ->
  exists vs, Forall2 stands_for l vs /\ elements (join (str ",") (map marshal l)) vs.
Proof.
  intros l H. induction H as [|v l [w [A B]] H IH]; intros Hn; [congruence|]. destruct l as [|v' l].
  - exists [w]. split; [repeat constructor; assumption|]. cbn [map join].
    pose proof (el_one [] (marshal v) [] w no_white no_white B) as E. rewrite app_nil_r in E. exact E.
  - destruct IH as [vs [C D]]; [discriminate|]. exists (w :: vs). split; [constructor; assumption|].
    exact (el_more [] (marshal v) [] w _ vs no_white no_white B D).
Qed.

Lemma map_json : forall m, Forall (fun kv => exists w, stands_for (snd kv) w /\ json (marshal (snd kv)) w) m -> m <> [] ->
  exists vs, Forall2 (fun kv cv => text_of (fst kv) (fst cv) /\ stands_for (snd kv) (snd cv)) m vs /\
    members (join (str ",") (map member m)) vs.
Proof.
  intros m H. induction H as [|[k v] m [w [A B]] H IH]; intros Hn; [congruence|].
  destruct (text_of_total k) as [cs K]. pose proof (body_chars _ _ K) as K'. cbn [fst snd] in *. destruct m as [|[k' v'] m].
  - exists [(cs, w)]. split; [repeat constructor; assumption|]. cbn [map join]. unfold member, json_string, quote. cbn [fst snd].
    pose proof (mb_one [] _ cs [] [] (marshal v) [] w no_white no_white no_white no_white K' B) as E. rewrite app_nil_r in E. exact E.
  - destruct IH as [vs [C D]]; [discriminate|]. exists ((cs, w) :: vs). split; [constructor; [split; assumption|assumption]|].
    pose proof (mb_more [] _ cs [] [] (marshal v) [] w _ vs no_white no_white no_white no_white K' B D) as E. 
    cbn [map join]. unfold member at 1, json_string, quote. cbn [fst snd]. cbn [app] in *. rewrite <- !app_assoc in *. cbn [app] in *.
    rewrite <- ?app_assoc. exact E.
Qed.

Lemma marshal_json : forall v, exists w, stands_for v w /\ json (marshal v) w.
Proof.
  apply gval_rec'.
  - exists VNull. split; constructor.
  - intros b. exists (VBool b). split; [constructor|]. destruct b; constructor.
  - intros z. exists (VNum z). split; constructor. apply itoa_whole.
  - intros s. destruct (text_of_total s) as [cs H]. exists (VStr cs). split; [constructor; assumption|].
    apply js_str. apply body_chars. assumption.
  - intros l H. destruct l as [|v l].
    + exists (VArr []). split; [repeat constructor|]. apply (js_arr0 []). constructor.
    + destruct (slice_json (v :: l) H) as [vs [A B]]; [discriminate|]. exists (VArr vs). split; [constructor; assumption|].
      inversion A; subst. apply js_arr. exact B.
  - intros m H. rewrite marshal_map. pose proof (sort_keys_perm _ m) as P.
    assert (H' : Forall (fun kv => exists w, stands_for (snd kv) w /\ json (marshal (snd kv)) w) (sort_keys m)).
    { apply Forall_forall. intros x Hx. rewrite Forall_forall in H. apply H. eapply Permutation_in; [apply Permutation_sym; exact P|assumption]. }
    destruct (sort_keys m) as [|x l] eqn:E.
    + exists (VObj []). split; [apply (sf_map _ []); [assumption|constructor]|]. apply (js_obj0 []). constructor.
    + destruct (map_json (x :: l) H') as [vs [A B]]; [discriminate|]. exists (VObj vs). split; [eapply sf_map; eassumption|].
      inversion A; subst. apply js_obj. exact B.
  - intros m H. change (marshal (GStruct m)) with (str "{" ++ join (str ",") (map member m) ++ str "}"). destruct m as [|x l].
    + exists (VObj []). split; [repeat constructor|]. apply (js_obj0 []). constructor.
    + destruct (map_json (x :: l) H) as [vs [A B]]; [discriminate|]. exists (VObj vs). split; [constructor; exact A|].
      inversion A; subst. apply js_obj. exact B.
Qed.

(** No control characters and none of the three characters that HTML gives a meaning. *)
Lemma digits_tame : forall t n, digits t n -> Forall tame t.
Proof.
  assert (D : forall b d, digit_value b = Some d -> tame b).
  { intros b d H. unfold digit_value in H. destruct ((48 <=? code b) && (code b <=? 57)) eqn:E; [|discriminate].
    apply andb_true_iff in E. rewrite !N.leb_le in E. unfold tame. lia. }
  intros t n H. induction H as [b d H _|t n b d _ IH H].
  - repeat constructor; eapply D; eassumption.
  - apply Forall_app. split; [assumption|]. repeat constructor; eapply D; eassumption.
Qed.
Lemma join_forall : forall (P : byte -> Prop) sep l, Forall P sep -> Forall (Forall P) l -> Forall P (join sep l).
Proof.
  intros P sep l Hs H. induction H as [|x l Hx H IH]; [constructor|]. destruct l; [assumption|].
  cbn [join] in *. apply Forall_app. split; [assumption|]. apply Forall_app. split; assumption.
Qed.
Lemma string_tame : forall s, Forall tame (json_string s).
Proof.
  intros s. unfold json_string, quote. constructor; [unfold tame; rewrite code_of; lia|]. apply Forall_app. split; [apply body_tame|].
  apply tameb_tame. reflexivity.
Qed.
Lemma marshal_tame : forall v, Forall tame (marshal v).
Proof.
  apply gval_rec'.
  - apply tameb_tame. reflexivity.
  - intros []; apply tameb_tame; reflexivity.
  - intros z. cbn [marshal]. destruct (itoa_whole z) as [|t n H|t n H].
    + apply tameb_tame. reflexivity.
    + eapply digits_tame. eassumption.
    + apply Forall_app. split; [apply tameb_tame; reflexivity|eapply digits_tame; eassumption].
  - intros s. apply string_tame.
  - intros l H. cbn [marshal]. apply Forall_app. split; [apply tameb_tame; reflexivity|]. apply Forall_app. split; [|apply tameb_tame; reflexivity].
    apply join_forall; [apply tameb_tame; reflexivity|]. apply Forall_map. assumption.
  - intros m H. rewrite marshal_map. apply Forall_app. split; [apply tameb_tame; reflexivity|]. apply Forall_app. split; [|apply tameb_tame; reflexivity].
    apply join_forall; [apply tameb_tame; reflexivity|]. apply Forall_map. apply Forall_forall. intros x Hx. rewrite Forall_forall in H.
    unfold member. apply Forall_app. split; [apply string_tame|]. apply Forall_app. split; [apply tameb_tame; reflexivity|].
    apply H. eapply Permutation_in; [apply Permutation_sym; apply sort_keys_perm|assumption].
  - intros m H. change (marshal (GStruct m)) with (str "{" ++ join (str ",") (map member m) ++ str "}").
    apply Forall_app. split; [apply tameb_tame; reflexivity|]. apply Forall_app. split; [|apply tameb_tame; reflexivity].
    apply join_forall; [apply tameb_tame; reflexivity|]. apply Forall_map. apply Forall_forall. intros x Hx. rewrite Forall_forall in H.
    unfold member. apply Forall_app. split; [apply string_tame|]. apply Forall_app. split; [apply tameb_tame; reflexivity|]. apply H, Hx.
Qed.
