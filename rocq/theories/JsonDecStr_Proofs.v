(** * The decoder reads strings and numbers as the grammar says. *)
From Coq Require Import List NArith ZArith Ascii String Bool Lia Arith.
From Verif Require Import GoBase Json_Model Json_Spec JsonUtf8_Proofs JsonRead_Proofs OAuthWire_Model JsonDec_Model JsonDec_Spec.
Import ListNotations.
Local Open Scope string_scope.
Local Open Scope list_scope.
Local Open Scope N_scope.

Local Notation q34 := (ascii_of_N 34).

(** ** White space and words *)
Lemma is_blank_spec b : is_blank b = true <-> blank b.
Proof.
  unfold is_blank, blank. rewrite existsb_exists. split.
  - intros [x [I E]]. apply N.eqb_eq in E. subst x. cbn in *. tauto.
  - intros I. exists (code b). split; [cbn in *; tauto|apply N.eqb_refl].
Qed.
Lemma skip_white w b x : white w -> ~ blank b -> skip_blank (w ++ b :: x) = b :: x.
Proof.
  intros W B. induction W as [|y w Y W IH]; cbn [app skip_blank].
  - destruct (is_blank b) eqn:E; [apply is_blank_spec in E; contradiction|reflexivity].
  - assert (E : is_blank y = true) by (apply is_blank_spec; exact Y). rewrite E. assumption.
Qed.
Lemma skip_split s : exists w, white w /\ s = w ++ skip_blank s /\ forall b r, skip_blank s = b :: r -> ~ blank b.
Proof.
  induction s as [|a s [w [W [E K]]]]; cbn [skip_blank].
  - exists []. split; [constructor|]. split; [reflexivity|discriminate].
  - destruct (is_blank a) eqn:B.
    + exists (a :: w). split; [constructor; [apply is_blank_spec; assumption|assumption]|]. split; [cbn [app]; congruence|assumption].
    + exists []. split; [constructor|]. split; [reflexivity|]. intros b r H X. injection H as -> _. apply is_blank_spec in X. congruence.
Qed.
Lemma after_sound w s r : after w s = Some r -> s = w ++ r.
Proof.
  revert s. induction w as [|a w IH]; intros [|b s] H; cbn in H; cbn [app]; try congruence.
  destruct (code a =? code b) eqn:E; [|discriminate]. apply N.eqb_eq, code_inj in E. subst b. cbn. f_equal. apply IH. assumption.
Qed.
Lemma after_app w r : after w (w ++ r) = Some r.
Proof. induction w as [|a w IH]; [reflexivity|]. cbn. rewrite N.eqb_refl. assumption. Qed.

(** ** Strings *)
Lemma encode_is_utf8 c : encode_rune c = utf8 c.
Proof. reflexivity. Qed.
Lemma hex_num_is b : hex_num b = hex_value b.
Proof. reflexivity. Qed.
Lemma u4_is a b c d : u4 a b c d = hex4 [a; b; c; d].
Proof.
  unfold u4, hex4. change hex_num with hex_value. destruct (hex_value a), (hex_value b), (hex_value c), (hex_value d); try reflexivity. apply f_equal. lia.
Qed.
Lemma hex_quote b n : hex_value b = Some n -> code b <> 34.
Proof.
  unfold hex_value. intros H E. rewrite E in H. discriminate.
Qed.
Lemma hex_bound b n : hex_value b = Some n -> n < 16.
Proof.
  unfold hex_value. destruct ((48 <=? code b) && (code b <=? 57)) eqn:E1; [|destruct ((97 <=? code b) && (code b <=? 102)) eqn:E2; [|destruct ((65 <=? code b) && (code b <=? 70)) eqn:E3; [|discriminate]]];
  intros H; injection H as <-; rewrite ?andb_true_iff, ?N.leb_le in *; lia.
Qed.
Lemma hex4_inv h c : hex4 h = Some c -> exists x y z u, h = [x; y; z; u] /\ code x <> 34 /\ code y <> 34 /\ code z <> 34 /\ code u <> 34 /\ c < 65536.
Proof.
  destruct h as [|x [|y [|z [|u [|]]]]]; try discriminate. intros H. exists x, y, z, u. split; [reflexivity|]. cbn in H.
  destruct (hex_value x) eqn:A; [|discriminate]. destruct (hex_value y) eqn:B; [|discriminate].
  destruct (hex_value z) eqn:C; [|discriminate]. destruct (hex_value u) eqn:D; [|discriminate].
  injection H as <-. repeat (split; [eapply hex_quote; eassumption|]).
  apply hex_bound in A, B, C, D. lia.
Qed.
Lemma low_half_spec s n : low_half s = Some n -> exists h t', s = str "\u" ++ h ++ t' /\ hex4 h = Some n /\ 56320 <= n < 57344.
Proof.
  destruct s as [|x [|y [|a [|b [|c [|d t']]]]]]; try discriminate. cbn [low_half]. rewrite u4_is.
  destruct ((code x =? 92) && (code y =? 117)) eqn:E; [|discriminate]. apply andb_true_iff in E. rewrite !N.eqb_eq in E. destruct E as [E1 E2].
  destruct (hex4 [a; b; c; d]) as [m|] eqn:H; [|discriminate]. destruct ((56320 <=? m) && (m <? 57344)) eqn:R; [|discriminate].
  apply andb_true_iff in R. rewrite N.leb_le, N.ltb_lt in R. intros K. injection K as ->.
  exists [a; b; c; d], t'. split; [|auto]. cbn [app str list_ascii_of_string].
  rewrite (code_inj x "\"%char) by (rewrite E1; reflexivity). rewrite (code_inj y "u"%char) by (rewrite E2; reflexivity). reflexivity.
Qed.
Lemma low_half_at h n t : hex4 h = Some n -> 56320 <= n < 57344 -> low_half (str "\u" ++ h ++ t) = Some n.
Proof.
  intros H R. destruct (hex4_inv _ _ H) as [x [y [z [u [-> _]]]]]. cbn [app str list_ascii_of_string low_half]. rewrite u4_is, H.
  replace (56320 <=? n) with true by (symmetry; apply N.leb_le; lia). replace (n <? 57344) with true by (symmetry; apply N.ltb_lt; lia). reflexivity.
Qed.
(** A second half before a quote stands before the quote. *)
Lemma low_half_before t r n : low_half (t ++ q34 :: r) = Some n -> low_next t.
Proof.
  intros H. destruct (low_half_spec _ _ H) as [h [t' [E [Hh R]]]]. destruct (hex4_inv _ _ Hh) as [x [y [z [u [-> [X [Y [Z [U _]]]]]]]]].
  cbn [app str list_ascii_of_string] in E.
  assert (Q : code q34 = 34) by reflexivity.
  destruct t as [|a t]; [discriminate E|]. destruct t as [|b t]; [discriminate E|].
  destruct t as [|c t]; [cbn in E; injection E; intros; subst; exfalso; first [apply X; reflexivity|apply Y; reflexivity|apply Z; reflexivity|apply U; reflexivity]|].
  destruct t as [|d t]; [cbn in E; injection E; intros; subst; exfalso; first [apply X; reflexivity|apply Y; reflexivity|apply Z; reflexivity|apply U; reflexivity]|].
  destruct t as [|e t]; [cbn in E; injection E; intros; subst; exfalso; first [apply X; reflexivity|apply Y; reflexivity|apply Z; reflexivity|apply U; reflexivity]|].
  destruct t as [|g t]; [cbn in E; injection E; intros; subst; exfalso; first [apply X; reflexivity|apply Y; reflexivity|apply Z; reflexivity|apply U; reflexivity]|].
  cbn [app] in E. injection E as -> -> -> -> -> -> E. exists [x; y; z; u], n, t. auto.
Qed.

(** The bytes of a character beyond ASCII. *)
Lemma wide_bytes c : scalar c -> 128 <= c -> Forall (fun b => 128 <= code b) (utf8 c).
Proof.
  intros H L. chars H; [lia| | |]; match goal with U : utf8 _ = _ |- _ => rewrite U end; repeat constructor; nlia.
Qed.
Lemma char_before t r c x : scalar c -> 128 <= c -> t ++ q34 :: r = utf8 c ++ x -> exists t', t = utf8 c ++ t'.
Proof.
  intros H L. pose proof (wide_bytes c H L) as W. revert t. induction W as [|b l B W IH]; intros t E.
  - exists t. reflexivity.
  - destruct t as [|a t]; cbn [app] in E.
    + injection E as E _. rewrite <- E in B. cbn in B. lia.
    + injection E as -> E. destruct (IH t E) as [t' ->]. exists t'. reflexivity.
Qed.
Lemma no_rune t r : (forall c t', scalar c -> t <> utf8 c ++ t') -> rune_bytes (t ++ q34 :: r) = 0%nat.
Proof.
  intros H. destruct (Nat.eq_dec (rune_bytes (t ++ q34 :: r)) 0) as [Z|Z]; [assumption|exfalso].
  destruct (rune_bytes_sound _ Z) as [c [x [Hc [L [E _]]]]]. destruct (char_before _ _ _ _ Hc L E) as [t' E']. eapply H; eassumption.
Qed.
Lemma rune_none b s : 128 <= code b -> rune_bytes (b :: s) = 0%nat -> forall c t', scalar c -> b :: s <> utf8 c ++ t'.
Proof.
  intros B Z c t' Hc E. destruct (N.ltb_spec c 128) as [L|L].
  - chars Hc; try lia. match goal with U : utf8 _ = _ |- _ => rewrite U in E end. cbn in E. injection E as E _. subst. lia.
  - rewrite E, rune_bytes_complete in Z by assumption. destruct (utf8_cons c Hc) as [x [y U]]. rewrite U in Z. discriminate.
Qed.

(** One step of the reader. *)
Lemma step_plain b s : code b <> 34 -> code b <> 92 -> 32 <= code b < 128 -> read_string (b :: s) = emit [b] (read_string s).
Proof.
  intros A B C. cbn [read_string].
  replace (code b =? 34) with false by (symmetry; apply N.eqb_neq; assumption). replace (code b =? 92) with false by (symmetry; apply N.eqb_neq; assumption).
  replace (code b <? 32) with false by (symmetry; apply N.ltb_ge; lia). replace (code b <? 128) with true by (symmetry; apply N.ltb_lt; lia). reflexivity.
Qed.
Lemma step_high b s : 128 <= code b -> read_string (b :: s) =
  match rune_bytes (b :: s), s with
  | 2%nat, c :: s2 => emit [b; c] (read_string s2)
  | 3%nat, c :: d :: s3 => emit [b; c; d] (read_string s3)
  | 4%nat, c :: d :: e :: s4 => emit [b; c; d; e] (read_string s4)
  | _, _ => emit replacement (read_string s)
  end.
Proof.
  intros C. cbn [read_string].
  replace (code b =? 34) with false by (symmetry; apply N.eqb_neq; lia). replace (code b =? 92) with false by (symmetry; apply N.eqb_neq; lia).
  replace (code b <? 32) with false by (symmetry; apply N.ltb_ge; lia). replace (code b <? 128) with false by (symmetry; apply N.ltb_ge; lia). reflexivity.
Qed.
Lemma step_wide c s : scalar c -> 128 <= c -> read_string (utf8 c ++ s) = emit (utf8 c) (read_string s).
Proof.
  intros H L. pose proof (rune_bytes_complete c s H L) as R. pose proof (wide_bytes c H L) as W.
  chars H; [lia| | |]; match goal with U : utf8 _ = _ |- _ => rewrite U in * end; cbn [app List.length] in *;
  apply Forall_inv in W; rewrite step_high by assumption; rewrite R; reflexivity.
Qed.
Lemma step_bad b s : 128 <= code b -> rune_bytes (b :: s) = 0%nat -> read_string (b :: s) = emit (utf8 65533) (read_string s).
Proof. intros L Z. rewrite step_high by assumption. rewrite Z. reflexivity. Qed.
Lemma step_short e s : code e <> 117 -> read_string (ascii_of_N 92 :: e :: s) = match short_escape e with Some c => emit [c] (read_string s) | None => None end.
Proof.
  intros E. cbn [read_string]. replace (code e =? 117) with false by (symmetry; apply N.eqb_neq; assumption). reflexivity.
Qed.
Lemma step_hex h n s : hex4 h = Some n -> read_string (str "\u" ++ h ++ s) =
  if (55296 <=? n) && (n <? 57344) then
    match (if n <? 56320 then low_half s else None), s with
    | Some m, _ :: _ :: _ :: _ :: _ :: _ :: s4 => emit (encode_rune (65536 + (n - 55296) * 1024 + (m - 56320))) (read_string s4)
    | _, _ => emit replacement (read_string s)
    end
  else emit (encode_rune n) (read_string s).
Proof.
  intros H. destruct (hex4_inv _ _ H) as [x [y [z [u [-> _]]]]]. rewrite <- u4_is in H. cbn [app str list_ascii_of_string].
  change (read_string ("\"%char :: "u"%char :: x :: y :: z :: u :: s)) with
    (match u4 x y z u with
     | None => None
     | Some n =>
         if (55296 <=? n) && (n <? 57344) then
           match (if n <? 56320 then low_half s else None), s with
           | Some m, _ :: _ :: _ :: _ :: _ :: _ :: s4 => emit (encode_rune (65536 + (n - 55296) * 1024 + (m - 56320))) (read_string s4)
           | _, _ => emit replacement (read_string s)
           end
         else emit (encode_rune n) (read_string s)
     end). rewrite H. reflexivity.
Qed.
Lemma step_hex_none x y z u s : hex4 [x; y; z; u] = None -> read_string ("\"%char :: "u"%char :: x :: y :: z :: u :: s) = None.
Proof.
  intros H. rewrite <- u4_is in H.
  change (read_string ("\"%char :: "u"%char :: x :: y :: z :: u :: s)) with
    (match u4 x y z u with
     | None => None
     | Some n =>
         if (55296 <=? n) && (n <? 57344) then
           match (if n <? 56320 then low_half s else None), s with
           | Some m, _ :: _ :: _ :: _ :: _ :: _ :: s4 => emit (encode_rune (65536 + (n - 55296) * 1024 + (m - 56320))) (read_string s4)
           | _, _ => emit replacement (read_string s)
           end
         else emit (encode_rune n) (read_string s)
     end). rewrite H. reflexivity.
Qed.
Lemma short_complete e c : In (e, c) short_escapes -> short_escape (ascii_of_N e) = Some (ascii_of_N c) /\ code (ascii_of_N e) <> 117 /\ utf8 c = [ascii_of_N c].
Proof. intros H. cbn in H. repeat (destruct H as [H|H]; [injection H as <- <-; split; [reflexivity|split; [cbn; lia|reflexivity]]|]). destruct H. Qed.
Lemma short_sound e x : short_escape e = Some x -> exists n c, In (n, c) short_escapes /\ e = ascii_of_N n /\ x = ascii_of_N c /\ utf8 c = [x].
Proof.
  assert (K : forall n c, In (n, c) short_escapes -> code e = n -> x = ascii_of_N c ->
                exists n c, In (n, c) short_escapes /\ e = ascii_of_N n /\ x = ascii_of_N c /\ utf8 c = [x]).
  { intros n c I E X. exists n, c. split; [assumption|]. split; [rewrite <- E, of_code; reflexivity|]. split; [assumption|]. subst x. apply short_complete in I. apply I. }
  unfold short_escape. cbn [existsb].
  destruct (code e =? 34) eqn:E1; [apply N.eqb_eq in E1; cbn; intros H; injection H as <-; apply (K 34 34); [cbn; tauto|assumption|rewrite <- E1, of_code; reflexivity]|].
  destruct (code e =? 92) eqn:E2; [apply N.eqb_eq in E2; cbn; intros H; injection H as <-; apply (K 92 92); [cbn; tauto|assumption|rewrite <- E2, of_code; reflexivity]|].
  destruct (code e =? 47) eqn:E3; [apply N.eqb_eq in E3; cbn; intros H; injection H as <-; apply (K 47 47); [cbn; tauto|assumption|rewrite <- E3, of_code; reflexivity]|].
  cbn [orb].
  destruct (code e =? 98) eqn:E4; [apply N.eqb_eq in E4; intros H; injection H as <-; apply (K 98 8); [cbn; tauto|assumption|reflexivity]|].
  destruct (code e =? 102) eqn:E5; [apply N.eqb_eq in E5; intros H; injection H as <-; apply (K 102 12); [cbn; tauto|assumption|reflexivity]|].
  destruct (code e =? 110) eqn:E6; [apply N.eqb_eq in E6; intros H; injection H as <-; apply (K 110 10); [cbn; tauto|assumption|reflexivity]|].
  destruct (code e =? 114) eqn:E7; [apply N.eqb_eq in E7; intros H; injection H as <-; apply (K 114 13); [cbn; tauto|assumption|reflexivity]|].
  destruct (code e =? 116) eqn:E8; [apply N.eqb_eq in E8; intros H; injection H as <-; apply (K 116 9); [cbn; tauto|assumption|reflexivity]|].
  discriminate.
Qed.

Lemma string_complete t cs : string_reads t cs -> forall r, read_string (t ++ q34 :: r) = Some (List.concat (map utf8 cs), r).
Proof.
  intros H. induction H as [|c t cs Hc A B C H IH|b t cs L Hb H IH|e c t cs He H IH|h c t cs Hh Hc H IH|h1 h2 c1 c2 t cs H1 H2 R1 R2 H IH|h c t cs Hh R Hl H IH];
  intros r; cbn [map List.concat].
  - reflexivity.
  - rewrite <- app_assoc. destruct (N.ltb_spec c 128) as [L|L].
    + chars Hc; try lia. match goal with U : utf8 _ = _ |- _ => rewrite U end. cbn [app]. rewrite step_plain by lia. rewrite IH. reflexivity.
    + rewrite step_wide by assumption. rewrite IH. reflexivity.
  - cbn [app]. rewrite step_bad; [|assumption|apply (no_rune (b :: t)); assumption]. rewrite IH. reflexivity.
  - destruct (short_complete _ _ He) as [S [E U]]. cbn [app]. rewrite step_short by assumption. rewrite S, IH, U. reflexivity.
  - rewrite <- app_assoc. cbn [app]. rewrite <- app_assoc. rewrite (step_hex h c) by assumption.
    replace ((55296 <=? c) && (c <? 57344)) with false by (symmetry; apply andb_false_iff; rewrite N.leb_gt, N.ltb_ge; unfold scalar in Hc; lia).
    rewrite IH. reflexivity.
  - rewrite <- app_assoc, <- app_assoc, <- app_assoc, <- app_assoc. rewrite (step_hex h1 c1) by assumption.
    replace (55296 <=? c1) with true by (symmetry; apply N.leb_le; lia). replace (c1 <? 57344) with true by (symmetry; apply N.ltb_lt; lia).
    replace (c1 <? 56320) with true by (symmetry; apply N.ltb_lt; lia). cbn [andb]. rewrite (low_half_at h2 c2) by assumption.
    destruct (hex4_inv _ _ H2) as [x [y [z [u [-> _]]]]]. cbn [app str list_ascii_of_string]. rewrite IH. reflexivity.
  - rewrite <- app_assoc. cbn [app]. rewrite <- app_assoc. rewrite (step_hex h c) by assumption.
    replace (55296 <=? c) with true by (symmetry; apply N.leb_le; lia). replace (c <? 57344) with true by (symmetry; apply N.ltb_lt; lia). cbn [andb].
    replace (if c <? 56320 then low_half (t ++ q34 :: r) else None) with (@None N).
    2:{ destruct (N.ltb_spec c 56320) as [L|L]; [|reflexivity]. destruct (low_half (t ++ q34 :: r)) as [n|] eqn:E; [|reflexivity].
        exfalso. apply (Hl L). apply (low_half_before _ _ _ E). }
    rewrite IH. destruct (t ++ q34 :: r) as [|? [|? [|? [|? [|? [|]]]]]]; reflexivity.
Qed.

Lemma emit_some out r v rest : emit out r = Some (v, rest) -> exists v', r = Some (v', rest) /\ v = out ++ v'.
Proof. destruct r as [[v' rest']|]; cbn; intros H; [|discriminate]. injection H as <- <-. eauto. Qed.

Lemma string_sound n : forall s v r, (List.length s <= n)%nat -> read_string s = Some (v, r) -> exists t, string_is t v /\ s = t ++ q34 :: r.
Proof.
  induction n as [|n IH]; intros s v r L H; (destruct s as [|b s]; [discriminate H|]); [cbn in L; lia|]. cbn [List.length] in L.
  destruct (N.eq_dec (code b) 34) as [Q|Q].
  { cbn in H. rewrite Q in H. injection H as <- <-. exists []. split; [exists []; split; [constructor|reflexivity]|].
    cbn. f_equal. apply code_inj. rewrite Q. reflexivity. }
  destruct (N.eq_dec (code b) 92) as [Z|Z].
  { assert (b = "\"%char) as -> by (apply code_inj; rewrite Z; reflexivity). clear Z Q. destruct s as [|e s]; [discriminate H|]. cbn [List.length] in L.
    destruct (N.eq_dec (code e) 117) as [U|U].
    - assert (e = "u"%char) as -> by (apply code_inj; rewrite U; reflexivity). clear U.
      destruct s as [|x [|y [|z [|u s]]]]; try discriminate H. cbn [List.length] in L.
      destruct (hex4 [x; y; z; u]) as [c|] eqn:Hh.
      2:{ exfalso. rewrite step_hex_none in H by assumption. discriminate H. }
      change ("\"%char :: "u"%char :: x :: y :: z :: u :: s) with (str "\u" ++ [x; y; z; u] ++ s) in *. rewrite (step_hex _ c) in H by assumption.
      destruct ((55296 <=? c) && (c <? 57344)) eqn:R.
      + apply andb_true_iff in R. rewrite N.leb_le, N.ltb_lt in R.
        assert (Lone : (c < 56320 -> low_half s = None) -> emit replacement (read_string s) = Some (v, r) -> exists t, string_is t v /\ str "\u" ++ [x; y; z; u] ++ s = t ++ q34 :: r).
        { intros N E. apply emit_some in E. destruct E as [v' [E ->]]. apply IH in E; [|lia]. destruct E as [t [[cs [T ->]] ->]].
          exists (str "\u" ++ [x; y; z; u] ++ t). split; [|cbn [app]; reflexivity].
          exists (65533 :: cs). split; [|reflexivity]. apply sr_lone with (c := c); [assumption|lia| |assumption].
          intros K [h [d [t' [-> [Hd Rd]]]]]. specialize (N K). rewrite <- app_assoc, <- app_assoc in N. rewrite (low_half_at h d) in N by assumption. discriminate N. }
        destruct (N.ltb_spec c 56320) as [K|K].
        * destruct (low_half s) as [m|] eqn:M.
          -- destruct (low_half_spec _ _ M) as [h [t' [-> [Hm Rm]]]]. destruct (hex4_inv _ _ Hm) as [x' [y' [z' [u' [-> _]]]]].
             cbn [app str list_ascii_of_string] in H. apply emit_some in H. destruct H as [v' [E ->]].
             apply IH in E; [|rewrite !app_length in L; cbn in L |- *; lia]. destruct E as [t [[cs [T ->]] ->]].
             exists (str "\u" ++ [x; y; z; u] ++ str "\u" ++ [x'; y'; z'; u'] ++ t). split; [|reflexivity].
             exists ((65536 + (c - 55296) * 1024 + (m - 56320)) :: cs). split; [|reflexivity]. apply sr_pair; try assumption; lia.
          -- apply Lone; [intros; reflexivity|]. destruct s; exact H.
        * apply Lone; [lia|]. destruct s; exact H.
      + apply andb_false_iff in R. rewrite N.leb_gt, N.ltb_ge in R. apply emit_some in H. destruct H as [v' [E ->]]. apply IH in E; [|lia].
        destruct E as [t [[cs [T ->]] ->]]. exists (str "\u" ++ [x; y; z; u] ++ t). split; [|reflexivity].
        exists (c :: cs). split; [|reflexivity]. apply sr_hex; try assumption. destruct (hex4_inv _ _ Hh) as [? [? [? [? [_ [_ [_ [_ [_ B]]]]]]]]]. unfold scalar. lia.
    - change "\"%char with (ascii_of_N 92) in H |- *. rewrite step_short in H by assumption. destruct (short_escape e) as [x|] eqn:E; [|discriminate].
      destruct (short_sound _ _ E) as [m [c [I [-> [-> U']]]]]. apply emit_some in H. destruct H as [v' [H ->]]. apply IH in H; [|lia].
      destruct H as [t [[cs [T ->]] ->]]. exists (ascii_of_N 92 :: ascii_of_N m :: t). split; [|reflexivity].
      exists (c :: cs). split; [constructor; assumption|]. cbn [map List.concat]. rewrite U'. reflexivity. }
  destruct (N.ltb_spec (code b) 32) as [C|C].
  { exfalso. cbn [read_string] in H. replace (code b =? 34) with false in H by (symmetry; apply N.eqb_neq; assumption).
    replace (code b =? 92) with false in H by (symmetry; apply N.eqb_neq; assumption).
    replace (code b <? 32) with true in H by (symmetry; apply N.ltb_lt; assumption). discriminate. }
  destruct (N.ltb_spec (code b) 128) as [D|D].
  { rewrite step_plain in H by lia. apply emit_some in H. destruct H as [v' [H ->]]. apply IH in H; [|lia]. destruct H as [t [[cs [T ->]] ->]].
    exists (b :: t). split; [|reflexivity]. exists (code b :: cs). split; [|cbn [map List.concat]; rewrite utf8_ascii by assumption; reflexivity].
    change (b :: t) with ([b] ++ t). rewrite <- (utf8_ascii b) by assumption. apply (sr_plain (code b)); try assumption. left. lia. }
  destruct (Nat.eq_dec (rune_bytes (b :: s)) 0) as [Zr|Zr].
  { rewrite step_bad in H by assumption. apply emit_some in H. destruct H as [v' [H ->]]. apply IH in H; [|lia]. destruct H as [t [[cs [T ->]] ->]].
    exists (b :: t). split; [|reflexivity]. exists (65533 :: cs). split; [|reflexivity]. constructor; [assumption| |assumption].
    intros c t' Hc E. pose proof (rune_none _ _ D Zr c (t' ++ q34 :: r) Hc) as X. apply X. change (b :: t ++ q34 :: r) with ((b :: t) ++ q34 :: r). rewrite E, app_assoc. reflexivity. }
  destruct (rune_bytes_sound _ Zr) as [c [x [Hc [Lc [E _]]]]]. rewrite E in H. rewrite step_wide in H by assumption.
  apply emit_some in H. destruct H as [v' [H ->]].
  assert (Lx : (List.length x <= n)%nat).
  { pose proof (f_equal (@List.length byte) E) as Q'. rewrite app_length in Q'. destruct (utf8_cons c Hc) as [b0 [r0 U]]. rewrite U in Q'. cbn in Q'. lia. }
  apply IH in H; [|assumption]. destruct H as [t [[cs [T ->]] ->]]. exists (utf8 c ++ t). split; [|rewrite E, app_assoc; reflexivity].
  exists (c :: cs). split; [apply sr_plain; try assumption; lia|reflexivity].
Qed.
