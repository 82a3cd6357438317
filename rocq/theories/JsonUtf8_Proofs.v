(** * UTF-8: characters and the bytes the decoder accepts. *)
From Coq Require Import List NArith ZArith Ascii String Bool Lia Arith.
From Verif Require Import GoBase Json_Model Json_Spec.
Import ListNotations.
Local Open Scope string_scope.
Local Open Scope list_scope.
Local Open Scope N_scope.

Ltac nlia := zify; Z.to_euclidean_division_equations; lia.

Lemma code_of : forall n, n < 256 -> code (ascii_of_N n) = n.
Proof. intros n H. unfold code. apply N_ascii_embedding. assumption. Qed.
Lemma of_code : forall b, ascii_of_N (code b) = b.
Proof. intros b. unfold code. apply ascii_N_embedding. Qed.
Lemma code_lt : forall b, code b < 256.
Proof. intros b. unfold code. destruct b as [[] [] [] [] [] [] [] []]; vm_compute; reflexivity. Qed.
Lemma code_inj : forall a b, code a = code b -> a = b.
Proof. intros a b H. rewrite <- (of_code a), <- (of_code b), H. reflexivity. Qed.

(** The codes of the bytes of a character. *)
Lemma utf8_cases : forall c, scalar c ->
  (c < 128 /\ exists b0, utf8 c = [b0] /\ code b0 = c) \/
  (128 <= c < 2048 /\ exists b0 b1, utf8 c = [b0; b1] /\ code b0 = 192 + c / 64 /\ code b1 = 128 + c mod 64) \/
  (2048 <= c < 65536 /\ exists b0 b1 b2, utf8 c = [b0; b1; b2] /\ code b0 = 224 + c / 4096 /\
     code b1 = 128 + c / 64 mod 64 /\ code b2 = 128 + c mod 64) \/
  (65536 <= c < 1114112 /\ exists b0 b1 b2 b3, utf8 c = [b0; b1; b2; b3] /\ code b0 = 240 + c / 262144 /\
     code b1 = 128 + c / 4096 mod 64 /\ code b2 = 128 + c / 64 mod 64 /\ code b3 = 128 + c mod 64).
Proof.
  intros c H. unfold utf8, scalar in *.
  destruct (c <? 128) eqn:E1; [apply N.ltb_lt in E1|apply N.ltb_ge in E1].
  { left. split; [assumption|]. eexists. split; [reflexivity|]. rewrite code_of by lia. reflexivity. }
  right. destruct (c <? 2048) eqn:E2; [apply N.ltb_lt in E2|apply N.ltb_ge in E2].
  { left. split; [lia|]. eexists. eexists. split; [reflexivity|]. rewrite !code_of by nlia. split; reflexivity. }
  right. destruct (c <? 65536) eqn:E3; [apply N.ltb_lt in E3|apply N.ltb_ge in E3].
  { left. split; [lia|]. eexists. eexists. eexists. split; [reflexivity|]. rewrite !code_of by nlia. repeat split. }
  right. split; [lia|]. eexists. eexists. eexists. eexists. split; [reflexivity|]. rewrite !code_of by nlia. repeat split.
Qed.

(** The same without existentials. *)
Ltac chars H := let K := fresh in pose proof (utf8_cases _ H) as K;
  destruct K as [[? [? [? ?]]]|[[? [? [? [? [? ?]]]]]|[[? [? [? [? [? [? [? ?]]]]]]]|[? [? [? [? [? [? [? [? [? ?]]]]]]]]]]]].

(** No character begins another one. *)
Lemma utf8_prefix : forall c d x y, scalar c -> scalar d -> utf8 c ++ x = utf8 d ++ y -> c = d /\ x = y.
Proof.
  intros c d x y Hc Hd E.
  assert (Ec : c = d).
  { pose proof E as M. chars Hc; chars Hd;
    repeat match goal with U : utf8 _ = _ |- _ => rewrite U in M; clear U end; cbn [app] in M;
    injection M; clear M; intros; subst; unfold scalar in *; nlia. }
  subst d. split; [reflexivity|]. apply app_inv_head in E. assumption.
Qed.

Lemma utf8_cons : forall c, scalar c -> exists b r, utf8 c = b :: r.
Proof. intros c H. chars H; eauto. Qed.

(** The first byte of a character tells whether it is ASCII. *)
Lemma utf8_first : forall c b r, scalar c -> utf8 c = b :: r -> (c < 128 /\ code b = c /\ r = []) \/ (128 <= c /\ 194 <= code b).
Proof.
  intros c b r H E. chars H; match goal with U : utf8 _ = _ :: _, V : utf8 _ = _ |- _ => rewrite U in V; injection V as V; subst end.
  - left. auto.
  - right. nlia.
  - right. nlia.
  - right. nlia.
Qed.

Lemma utf8_ascii : forall b, code b < 128 -> utf8 (code b) = [b].
Proof.
  intros b H. unfold utf8. apply N.ltb_lt in H. rewrite H, of_code. reflexivity.
Qed.
Lemma scalar_small : forall c, c < 55296 -> scalar c.
Proof. intros c H. left. assumption. Qed.

Lemma btw : forall lo hi b, between lo hi b = true <-> lo <= code b <= hi.
Proof. intros. unfold between. rewrite andb_true_iff, !N.leb_le. reflexivity. Qed.
Lemma btw_no : forall lo hi b, between lo hi b = false <-> code b < lo \/ hi < code b.
Proof. intros. unfold between. rewrite andb_false_iff, !N.leb_gt. reflexivity. Qed.

(** The table of the decoder and the definition of UTF-8 agree. *)
Lemma rune_bytes_sound : forall s, rune_bytes s <> 0%nat -> exists c r, scalar c /\ 128 <= c /\ s = utf8 c ++ r /\ List.length (utf8 c) = rune_bytes s.
Proof.
  intros s H. unfold rune_bytes in *. destruct s as [|b [|c s2]]; try congruence.
  destruct (second_ok b c) eqn:E2; cbn [negb] in *; [|congruence].
  assert (X : (code b = 224 /\ 160 <= code c <= 191) \/ (code b = 237 /\ 128 <= code c <= 159) \/
     (code b = 240 /\ 144 <= code c <= 191) \/ (code b = 244 /\ 128 <= code c <= 143) \/
     (code b <> 224 /\ code b <> 237 /\ code b <> 240 /\ code b <> 244 /\ 128 <= code c <= 191)).
  { unfold second_ok, cont in E2.
    destruct (code b =? 224) eqn:A1; [apply N.eqb_eq in A1; apply btw in E2; lia|apply N.eqb_neq in A1].
    destruct (code b =? 237) eqn:A2; [apply N.eqb_eq in A2; apply btw in E2; lia|apply N.eqb_neq in A2].
    destruct (code b =? 240) eqn:A3; [apply N.eqb_eq in A3; apply btw in E2; lia|apply N.eqb_neq in A3].
    destruct (code b =? 244) eqn:A4; [apply N.eqb_eq in A4; apply btw in E2; lia|apply N.eqb_neq in A4].
    apply btw in E2. lia. }
  clear E2. pose proof (code_lt b) as Lb. pose proof (code_lt c) as Lc.
  destruct (between 194 223 b) eqn:E3.
  { apply btw in E3. set (v := (code b - 192) * 64 + (code c - 128)).
    assert (R : 128 <= v < 2048) by (unfold v; lia).
    assert (Q : utf8 v = [b; c]).
    { assert (Hv : scalar v) by (left; lia). chars Hv; try lia. match goal with U : utf8 v = _ |- _ => rewrite U end. unfold v in *. f_equal; [apply code_inj; nlia|]. f_equal. apply code_inj. nlia. }
    exists v, s2. rewrite Q. split; [left; lia|]. split; [lia|]. split; reflexivity. }
  apply btw_no in E3. destruct s2 as [|d s3]; [congruence|].
  destruct (cont d) eqn:Ed; cbn [negb] in *; [|congruence]. apply btw in Ed.
  destruct (between 224 239 b) eqn:E4.
  { apply btw in E4. set (v := (code b - 224) * 4096 + (code c - 128) * 64 + (code d - 128)).
    assert (R : 2048 <= v < 65536) by (unfold v; lia).
    assert (Hv : scalar v) by (unfold scalar, v in *; lia).
    assert (Q : utf8 v = [b; c; d]).
    { chars Hv; try lia. match goal with U : utf8 v = _ |- _ => rewrite U end. unfold v in *. f_equal; [apply code_inj; nlia|]. f_equal; [apply code_inj; nlia|]. f_equal. apply code_inj. nlia. }
    exists v, s3. rewrite Q. split; [assumption|]. split; [lia|]. split; reflexivity. }
  apply btw_no in E4. destruct s3 as [|e s4]; [congruence|].
  destruct (cont e) eqn:Ee; cbn [negb] in *; [|congruence]. apply btw in Ee.
  destruct (between 240 244 b) eqn:E5; [|congruence].
  apply btw in E5. set (v := (code b - 240) * 262144 + (code c - 128) * 4096 + (code d - 128) * 64 + (code e - 128)).
  assert (R : 65536 <= v < 1114112) by (unfold v; lia).
  assert (Hv : scalar v) by (right; lia).
  assert (Q : utf8 v = [b; c; d; e]).
  { chars Hv; try lia. match goal with U : utf8 v = _ |- _ => rewrite U end. unfold v in *. f_equal; [apply code_inj; nlia|]. f_equal; [apply code_inj; nlia|]. f_equal; [apply code_inj; nlia|]. f_equal. apply code_inj. nlia. }
  exists v, s4. rewrite Q. split; [assumption|]. split; [lia|]. split; reflexivity.
Qed.

Lemma rune_bytes_complete : forall c r, scalar c -> 128 <= c -> rune_bytes (utf8 c ++ r) = List.length (utf8 c).
Proof.
  intros c r H Hc. destruct (utf8_cases c H) as [[R _]|[[R [b0 [b1 [U [C0 C1]]]]]|[[R [b0 [b1 [b2 [U [C0 [C1 C2]]]]]]]|[R [b0 [b1 [b2 [b3 [U [C0 [C1 [C2 C3]]]]]]]]]]]]; [lia| | |]; rewrite U; cbn [app List.length].
  - unfold rune_bytes, second_ok, cont.
    replace (code b0 =? 224) with false by (symmetry; apply N.eqb_neq; nlia).
    replace (code b0 =? 237) with false by (symmetry; apply N.eqb_neq; nlia).
    replace (code b0 =? 240) with false by (symmetry; apply N.eqb_neq; nlia).
    replace (code b0 =? 244) with false by (symmetry; apply N.eqb_neq; nlia).
    replace (between 128 191 b1) with true by (symmetry; apply btw; nlia). cbn [negb].
    replace (between 194 223 b0) with true by (symmetry; apply btw; nlia). reflexivity.
  - unfold rune_bytes.
    assert (K : second_ok b0 b1 = true).
    { unfold second_ok, cont.
      destruct (code b0 =? 224) eqn:A1; [apply N.eqb_eq in A1; apply btw; nlia|].
      destruct (code b0 =? 237) eqn:A2; [apply N.eqb_eq in A2; apply btw; unfold scalar in H; nlia|].
      replace (code b0 =? 240) with false by (symmetry; apply N.eqb_neq; nlia).
      replace (code b0 =? 244) with false by (symmetry; apply N.eqb_neq; nlia). apply btw. nlia. }
    rewrite K. cbn [negb]. replace (between 194 223 b0) with false by (symmetry; apply btw_no; nlia).
    unfold cont. replace (between 128 191 b2) with true by (symmetry; apply btw; nlia). cbn [negb].
    replace (between 224 239 b0) with true by (symmetry; apply btw; nlia). reflexivity.
  - unfold rune_bytes.
    assert (K : second_ok b0 b1 = true).
    { unfold second_ok, cont.
      replace (code b0 =? 224) with false by (symmetry; apply N.eqb_neq; nlia).
      replace (code b0 =? 237) with false by (symmetry; apply N.eqb_neq; nlia).
      destruct (code b0 =? 240) eqn:A1; [apply N.eqb_eq in A1; apply btw; nlia|].
      destruct (code b0 =? 244) eqn:A2; [apply N.eqb_eq in A2; apply btw; nlia|]. apply btw. nlia. }
    rewrite K. cbn [negb]. replace (between 194 223 b0) with false by (symmetry; apply btw_no; nlia).
    unfold cont. replace (between 128 191 b2) with true by (symmetry; apply btw; nlia). cbn [negb].
    replace (between 224 239 b0) with false by (symmetry; apply btw_no; nlia).
    replace (between 128 191 b3) with true by (symmetry; apply btw; nlia). cbn [negb].
    replace (between 240 244 b0) with true by (symmetry; apply btw; nlia). reflexivity.
Qed.

(** The characters of a text are determined, and every text has some. *)
Lemma text_of_fun : forall s cs, text_of s cs -> forall ds, text_of s ds -> cs = ds.
Proof.
  intros s cs H. induction H as [|c s cs Hc H IH|b s cs Hb H IH]; intros ds D.
  - inversion D as [|c s ds' Hc D' E| ]; [reflexivity|]. destruct (utf8_cons c Hc) as [b [r Eb]]. rewrite Eb in E. discriminate.
  - remember (utf8 c ++ s) as u eqn:E. destruct D as [|d s' ds Hd D|b s' ds Hb D].
    + destruct (utf8_cons c Hc) as [b [r Eb]]. rewrite Eb in E. discriminate.
    + destruct (utf8_prefix _ _ _ _ Hd Hc E) as [-> ->]. f_equal. apply IH. assumption.
    + exfalso. eapply Hb; eauto.
  - remember (b :: s) as u eqn:E. destruct D as [|d s' ds Hd D|b' s' ds Hb' D].
    + discriminate.
    + exfalso. eapply Hb; eauto.
    + injection E as -> ->. f_equal. apply IH. assumption.
Qed.

Lemma char_or_not : forall b s, (exists c s', scalar c /\ b :: s = utf8 c ++ s') \/ (forall c s', scalar c -> b :: s <> utf8 c ++ s').
Proof.
  intros b s. destruct (N.ltb_spec (code b) 128) as [L|L].
  - left. exists (code b), s. split; [left; lia|]. rewrite utf8_ascii by assumption. reflexivity.
  - destruct (Nat.eq_dec (rune_bytes (b :: s)) 0) as [Z|Z].
    + right. intros c s' Hc E. destruct (N.ltb_spec c 128) as [L2|L2].
      * destruct (utf8_cons c Hc) as [b' [r Eb]]. destruct (utf8_first c b' r Hc Eb) as [[A1 [A2 A3]]|[A1 A2]]; [|lia].
        rewrite Eb in E. injection E as -> _. lia.
      * rewrite E, rune_bytes_complete in Z by assumption. destruct (utf8_cons c Hc) as [b' [r Eb]]. rewrite Eb in Z. discriminate.
    + left. destruct (rune_bytes_sound _ Z) as [c [r [A [_ [B _]]]]]. eauto.
Qed.

Lemma text_of_total : forall s, exists cs, text_of s cs.
Proof.
  intros s. remember (List.length s) as n eqn:En. revert s En. induction n as [n IH] using lt_wf_ind. intros s En.
  destruct s as [|b s]; [exists []; constructor|]. destruct (char_or_not b s) as [[c [s' [Hc E]]]|H].
  - destruct (IH (List.length s')) with (s := s') as [cs D]; [|reflexivity|].
    + destruct (utf8_cons c Hc) as [b' [r Eb]]. rewrite E, Eb, app_length in En. cbn in En. lia.
    + exists (c :: cs). rewrite E. apply to_char; assumption.
  - destruct (IH (List.length s)) with (s := s) as [cs D]; [cbn in En; lia|reflexivity|].
    exists (65533 :: cs). apply to_bad; assumption.
Qed.

Lemma text_of_well : forall s cs, well_encoded s cs -> text_of s cs.
Proof.
  intros s cs [H ->]. induction H as [|c cs Hc H IH]; [constructor|]. cbn. apply to_char; assumption.
Qed.
