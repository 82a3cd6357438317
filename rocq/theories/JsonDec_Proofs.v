(** * The decoder reads the object that a body is. *)
From Coq Require Import List NArith ZArith Ascii String Bool Lia Arith.
From Verif Require Import GoBase Pattern_Proofs Routes_Proofs Json_Model Json_Spec JsonUtf8_Proofs JsonRead_Proofs OAuthWire_Model JsonDec_Model JsonDecStr_Proofs JsonDecNum_Proofs JsonDec_Spec.
Import ListNotations.
Local Open Scope string_scope.
Local Open Scope list_scope.
Local Open Scope N_scope.

Local Notation q34 := (ascii_of_N 34).

Section Reader.
Variable other : bytes -> option Z.

Scheme value_m := Minimality for value_is Sort Prop
  with array_m := Minimality for array_is Sort Prop
  with object_m := Minimality for object_is Sort Prop.
Combined Scheme is_all from value_m, array_m, object_m.

Lemma value_head d t v : value_is other d t v -> exists b t0, t = b :: t0 /\ starts b.
Proof.
  intros H. destruct H; try (eexists; eexists; split; [reflexivity|]; left; cbn; tauto).
  apply number_text in H. destruct (number_head _ H) as [b [t0 [-> K]]]. exists b, t0. split; [reflexivity|]. unfold starts, is_dec in *. cbn. lia.
Qed.
Lemma array_head d t : array_is other d t -> exists w b t0, t = w ++ b :: t0 /\ white w /\ starts b.
Proof.
  intros H. destruct H as [d w1 t v w2 H1 H2 H|d w1 t v w2 t' H1 H2 H _]; destruct (value_head _ _ _ H) as [b [t0 [-> B]]]; exists w1, b; eexists; (split; [reflexivity|auto]).
Qed.
Lemma object_head d t ms : object_is other d t ms -> exists w t0, t = w ++ q34 :: t0 /\ white w.
Proof. intros H. destruct H; eexists; eexists; split; try reflexivity; assumption. Qed.

Ltac len L := cbn [str list_ascii_of_string app List.length] in L |- *; repeat (progress (rewrite ?app_length in L; rewrite ?app_length; cbn [List.length app] in L |- *)); lia.
(** ** Every text of the grammar is read *)
Lemma starts_skip w b x : white w -> starts b -> skip_blank (w ++ b :: x) = b :: x.
Proof. intros W S. apply skip_white; [assumption|apply starts_blank; assumption]. Qed.

Lemma read_number f d t r z : number_is other t z -> stop r -> read_value other (S f) d (t ++ r) = Some (JvNum z, r).
Proof.
  intros H S. pose proof (number_text _ _ _ H) as N. pose proof (number_complete _ _ N S) as C. pose proof (proj2 (number_value other _ _ N) H) as V.
  destruct (number_head _ N) as [b [t0 [-> B]]]. cbn [app] in C |- *. cbn [read_value].
  repeat match goal with |- context [code b =? ?n] => replace (code b =? n) with false by (symmetry; apply N.eqb_neq; unfold is_dec in B; lia) end.
  rewrite C, V. reflexivity.
Qed.

Local Notation brk := "]"%char.
Local Notation brc := "}"%char.

Lemma complete_all :
  (forall d t v, value_is other d t v -> forall f r, stop r -> (2 * List.length (t ++ r) < f)%nat -> read_value other f d (t ++ r) = Some (v, r)) /\
  (forall d t, array_is other d t -> forall f r, (2 * List.length (t ++ brk :: r) + 1 < f)%nat -> read_elements other f d (t ++ brk :: r) = Some r) /\
  (forall d t ms, object_is other d t ms -> forall f r, (2 * List.length (t ++ brc :: r) + 1 < f)%nat -> read_members other f d (t ++ brc :: r) = Some (ms, r)).
Proof.
  apply is_all.
  - intros d [|f] r S L; [lia|]. reflexivity.
  - intros d [|f] r S L; [lia|]. reflexivity.
  - intros d [|f] r S L; [lia|]. reflexivity.
  - intros d t z H [|f] r S L; [lia|]. apply read_number; assumption.
  - intros d t s [cs [H ->]] [|f] r S L; [lia|]. cbn [app read_value]. rewrite <- app_assoc. cbn [app]. rewrite (string_complete _ _ H). reflexivity.
  - intros d w D W [|f] r S L; [lia|]. cbn [app str list_ascii_of_string read_value]. rewrite <- app_assoc. cbn [app].
    apply N.ltb_lt in D. rewrite D. rewrite (skip_white w brk r W bracket). reflexivity.
  - intros d t D H IH [|f] r S L; [lia|]. cbn [app str list_ascii_of_string] in L |- *. rewrite <- app_assoc in L |- *. cbn [app] in L |- *. cbn [read_value].
    apply N.ltb_lt in D. rewrite D. destruct (array_head _ _ H) as [w [b [t0 [-> [W B]]]]].
    assert (K : skip_blank ((w ++ b :: t0) ++ brk :: r) = b :: t0 ++ brk :: r) by (rewrite <- app_assoc; cbn [app]; apply starts_skip; assumption).
    change (code "["%char =? 34) with false. change (code "["%char =? 91) with true. cbv iota. rewrite K.
    replace (code b =? 93) with false by (symmetry; apply N.eqb_neq; unfold starts in B; cbn in B; lia).
    rewrite IH; [reflexivity|]. cbn [List.length] in L. lia.
  - intros d w D W [|f] r S L; [lia|]. cbn [app str list_ascii_of_string read_value]. rewrite <- app_assoc. cbn [app].
    apply N.ltb_lt in D. rewrite D. rewrite (skip_white w brc r W brace). reflexivity.
  - intros d t ms D H IH [|f] r S L; [lia|]. cbn [app str list_ascii_of_string] in L |- *. rewrite <- app_assoc in L |- *. cbn [app] in L |- *. cbn [read_value].
    apply N.ltb_lt in D. rewrite D. destruct (object_head _ _ _ H) as [w [t0 [-> W]]].
    assert (K : skip_blank ((w ++ q34 :: t0) ++ brc :: r) = q34 :: t0 ++ brc :: r) by (rewrite <- app_assoc; cbn [app]; apply skip_white; [assumption|apply quoted]).
    change (code "{"%char =? 34) with false. change (code "{"%char =? 91) with false. change (code "{"%char =? 123) with true. cbv iota. rewrite K.
    change (code q34 =? 125) with false. cbv iota. rewrite IH; [reflexivity|]. cbn [List.length] in L. lia.
  - intros d w1 t v w2 W1 W2 H IH [|f] r L; [lia|]. cbn [read_elements]. rewrite <- !app_assoc. rewrite <- !app_assoc in L. rewrite app_length in L.
    destruct (value_head _ _ _ H) as [b [t0 [-> B]]]. cbn [app]. rewrite starts_skip by assumption.
    change (b :: t0 ++ w2 ++ brk :: r) with ((b :: t0) ++ w2 ++ brk :: r).
    rewrite IH; [|apply white_stop; [assumption|apply stop_bracket]|lia]. rewrite (skip_white w2 brk r W2 bracket). reflexivity.
  - intros d w1 t v w2 t' W1 W2 H IH H' IH' [|f] r L; [lia|]. cbn [read_elements]. rewrite <- !app_assoc. rewrite <- !app_assoc in L. rewrite app_length in L.
    destruct (value_head _ _ _ H) as [b [t0 [-> B]]]. cbn [app] in L |- *. rewrite starts_skip by assumption.
    change (b :: t0 ++ w2 ++ str "," ++ t' ++ brk :: r) with ((b :: t0) ++ w2 ++ ","%char :: t' ++ brk :: r).
    rewrite IH; [|apply white_stop; [assumption|apply stop_comma]|len L].
    rewrite (skip_white w2 ","%char _ W2 comma). change (code ","%char =? 44) with true. cbv iota. apply IH'.
    len L.
  - intros d w1 k s w2 w3 t v w4 W1 W2 W3 W4 [cs [S ->]] H IH [|f] r L; [lia|]. cbn [read_members].
    cbn [str list_ascii_of_string]. repeat (progress (rewrite <- ?app_assoc; cbn [app])). rewrite (skip_white w1 q34 _ W1 quoted). change (negb (code q34 =? 34)) with false. cbv iota.
    rewrite (string_complete _ _ S). rewrite (skip_white w2 ":"%char _ W2 colon). change (negb (code ":"%char =? 58)) with false. cbv iota.
    destruct (value_head _ _ _ H) as [b [t0 [-> B]]]. cbn [app]. rewrite starts_skip by assumption.
    change (b :: t0 ++ w4 ++ brc :: r) with ((b :: t0) ++ w4 ++ brc :: r).
    rewrite IH; [|apply white_stop; [assumption|apply stop_brace]|].
    2:{ len L. }
    rewrite (skip_white w4 brc r W4 brace). reflexivity.
  - intros d w1 k s w2 w3 t v w4 t' ms W1 W2 W3 W4 [cs [S ->]] H IH H' IH' [|f] r L; [lia|]. cbn [read_members].
    cbn [str list_ascii_of_string]. repeat (progress (rewrite <- ?app_assoc; cbn [app])). rewrite (skip_white w1 q34 _ W1 quoted). change (negb (code q34 =? 34)) with false. cbv iota.
    rewrite (string_complete _ _ S). rewrite (skip_white w2 ":"%char _ W2 colon). change (negb (code ":"%char =? 58)) with false. cbv iota.
    destruct (value_head _ _ _ H) as [b [t0 [-> B]]]. cbn [app]. rewrite starts_skip by assumption.
    change (b :: t0 ++ w4 ++ ","%char :: t' ++ brc :: r) with ((b :: t0) ++ w4 ++ ","%char :: t' ++ brc :: r).
    rewrite IH; [|apply white_stop; [assumption|apply stop_comma]|].
    2:{ len L. }
    rewrite (skip_white w4 ","%char _ W4 comma). change (code ","%char =? 44) with true. cbv iota. rewrite IH'; [reflexivity|].
    len L.
Qed.

(** ** What is read is a text of the grammar *)
Lemma read_value_eq f d s : read_value other (S f) d s =

      match s with
      | [] => None
      | b :: s1 =>
          if code b =? 34 then
            match read_string s1 with Some (v, r) => Some (JvStr v, r) | None => None end
          else if code b =? 91 then
            if d <? 10000 then
              match skip_blank s1 with
              | c :: r => if code c =? 93 then Some (JvOther, r)
                          else match read_elements other f (d + 1) s1 with Some r => Some (JvOther, r) | None => None end
              | [] => None
              end
            else None
          else if code b =? 123 then
            if d <? 10000 then
              match skip_blank s1 with
              | c :: r => if code c =? 125 then Some (JvOther, r)
                          else match read_members other f (d + 1) s1 with Some (_, r) => Some (JvOther, r) | None => None end
              | [] => None
              end
            else None
          else if code b =? 110 then match after (str "null") s with Some r => Some (JvOther, r) | None => None end
          else if code b =? 116 then match after (str "true") s with Some r => Some (JvOther, r) | None => None end
          else if code b =? 102 then match after (str "false") s with Some r => Some (JvOther, r) | None => None end
          else match scan_number s with
               | Some (t, r) => match number_of other t with Some z => Some (JvNum z, r) | None => None end
               | None => None
               end
      end.
Proof. reflexivity. Qed.
Lemma read_elements_eq f d s : read_elements other (S f) d s =

      match read_value other f d (skip_blank s) with
      | None => None
      | Some (_, r) =>
          match skip_blank r with
          | c :: r' => if code c =? 44 then read_elements other f d r' else if code c =? 93 then Some r' else None
          | [] => None
          end
      end.
Proof. reflexivity. Qed.
Lemma read_members_eq f d s : read_members other (S f) d s =

      match skip_blank s with
      | q :: s1 =>
          if negb (code q =? 34) then None
          else match read_string s1 with
               | None => None
               | Some (k, r) =>
                   match skip_blank r with
                   | c :: r1 =>
                       if negb (code c =? 58) then None
                       else match read_value other f d (skip_blank r1) with
                            | None => None
                            | Some (v, r2) =>
                                match skip_blank r2 with
                                | e :: r3 =>
                                    if code e =? 44 then
                                      match read_members other f d r3 with
                                      | Some (ms, rest) => Some ((k, v) :: ms, rest)
                                      | None => None
                                      end
                                    else if code e =? 125 then Some ([(k, v)], r3) else None
                                | [] => None
                                end
                            end
                   | [] => None
                   end
               end
      | [] => None
      end.
Proof. reflexivity. Qed.
Lemma eqb_char b n : (code b =? n) = true -> b = ascii_of_N n.
Proof. intros E. apply N.eqb_eq in E. rewrite <- E, of_code. reflexivity. Qed.

Lemma sound_all f :
  (forall d s v r, read_value other f d s = Some (v, r) -> exists t, value_is other d t v /\ s = t ++ r) /\
  (forall d s r, read_elements other f d s = Some r -> exists t, array_is other d t /\ s = t ++ brk :: r) /\
  (forall d s ms r, read_members other f d s = Some (ms, r) -> exists t, object_is other d t ms /\ s = t ++ brc :: r).
Proof.
  induction f as [|f [IHv [IHe IHm]]]; [repeat split; intros; discriminate|].
  split; [|split].
  - intros d [|b s] v r H; [discriminate|]. rewrite read_value_eq in H.
    destruct (code b =? 34) eqn:E1.
    { apply eqb_char in E1. subst b. destruct (read_string s) as [[x rest]|] eqn:R; [|discriminate]. injection H as <- <-.
      destruct (string_sound _ s x rest (le_n _) R) as [t [T ->]]. exists (q34 :: t ++ [q34]). split; [constructor; assumption|]. cbn [app]. rewrite <- app_assoc. reflexivity. }
    destruct (code b =? 91) eqn:E2.
    { apply eqb_char in E2. subst b. destruct (d <? 10000) eqn:D; [|discriminate]. apply N.ltb_lt in D.
      destruct (skip_split s) as [w [W [E K]]]. destruct (skip_blank s) as [|c s']; [discriminate|].
      destruct (code c =? 93) eqn:C.
      - apply eqb_char in C. subst c. injection H as <- <-. exists (str "[" ++ w ++ str "]"). split; [constructor; assumption|].
        rewrite E. cbn [app str list_ascii_of_string]. rewrite <- app_assoc. reflexivity.
      - destruct (read_elements other f (d + 1) s) as [rest|] eqn:R; [|discriminate]. injection H as <- <-. destruct (IHe _ _ _ R) as [t [T ->]].
        exists (str "[" ++ t ++ str "]"). split; [constructor; assumption|]. cbn [app str list_ascii_of_string]. rewrite <- app_assoc. reflexivity. }
    destruct (code b =? 123) eqn:E3.
    { apply eqb_char in E3. subst b. destruct (d <? 10000) eqn:D; [|discriminate]. apply N.ltb_lt in D.
      destruct (skip_split s) as [w [W [E K]]]. destruct (skip_blank s) as [|c s']; [discriminate|].
      destruct (code c =? 125) eqn:C.
      - apply eqb_char in C. subst c. injection H as <- <-. exists (str "{" ++ w ++ str "}"). split; [constructor; assumption|].
        rewrite E. cbn [app str list_ascii_of_string]. rewrite <- app_assoc. reflexivity.
      - destruct (read_members other f (d + 1) s) as [[ms rest]|] eqn:R; [|discriminate]. injection H as <- <-. destruct (IHm _ _ _ _ R) as [t [T ->]].
        exists (str "{" ++ t ++ str "}"). split; [econstructor; eassumption|]. cbn [app str list_ascii_of_string]. rewrite <- app_assoc. reflexivity. }
    destruct (code b =? 110) eqn:E4.
    { destruct (after (str "null") (b :: s)) as [rest|] eqn:R; [|discriminate]. injection H as <- <-. exists (str "null"). split; [constructor|apply after_sound; assumption]. }
    destruct (code b =? 116) eqn:E5.
    { destruct (after (str "true") (b :: s)) as [rest|] eqn:R; [|discriminate]. injection H as <- <-. exists (str "true"). split; [constructor|apply after_sound; assumption]. }
    destruct (code b =? 102) eqn:E6.
    { destruct (after (str "false") (b :: s)) as [rest|] eqn:R; [|discriminate]. injection H as <- <-. exists (str "false"). split; [constructor|apply after_sound; assumption]. }
    destruct (scan_number (b :: s)) as [[t rest]|] eqn:R; [|discriminate]. destruct (number_sound _ _ _ R) as [N E].
    destruct (number_of other t) as [z|] eqn:V; [|discriminate]. injection H as <- <-. exists t. split; [|assumption]. constructor. apply number_value; assumption.
  - intros d s r H. rewrite read_elements_eq in H. destruct (skip_split s) as [w [W [E _]]].
    destruct (read_value other f d (skip_blank s)) as [[v r1]|] eqn:R; [|discriminate]. destruct (IHv _ _ _ _ R) as [t [T Et]].
    destruct (skip_split r1) as [w2 [W2 [E2 _]]]. destruct (skip_blank r1) as [|c r2]; [discriminate|].
    rewrite E, Et, E2. destruct (code c =? 44) eqn:C.
    + apply eqb_char in C. subst c. destruct (IHe _ _ _ H) as [t' [T' ->]]. exists (w ++ t ++ w2 ++ str "," ++ t'). split; [eapply ai_more; eassumption|].
      cbn [app str list_ascii_of_string]. rewrite <- !app_assoc. reflexivity.
    + destruct (code c =? 93) eqn:C2; [|discriminate]. apply eqb_char in C2. subst c. injection H as ->. exists (w ++ t ++ w2). split; [eapply ai_one; eassumption|].
      rewrite <- !app_assoc. reflexivity.
  - intros d s ms r H. rewrite read_members_eq in H. destruct (skip_split s) as [w [W [E _]]]. destruct (skip_blank s) as [|q s1]; [discriminate|].
    destruct (code q =? 34) eqn:Q; [|discriminate]. apply eqb_char in Q. subst q. cbn [negb] in H.
    destruct (read_string s1) as [[k r1]|] eqn:R; [|discriminate]. destruct (string_sound _ s1 k r1 (le_n _) R) as [tk [Tk Ek]].
    destruct (skip_split r1) as [w2 [W2 [E2 _]]]. destruct (skip_blank r1) as [|c r2]; [discriminate|].
    destruct (code c =? 58) eqn:C; [|discriminate]. apply eqb_char in C. subst c. cbn [negb] in H.
    destruct (skip_split r2) as [w3 [W3 [E3 _]]].
    destruct (read_value other f d (skip_blank r2)) as [[v r3]|] eqn:V; [|discriminate]. destruct (IHv _ _ _ _ V) as [t [T Et]].
    destruct (skip_split r3) as [w4 [W4 [E4 _]]]. destruct (skip_blank r3) as [|e r4]; [discriminate|].
    rewrite E, Ek, E2, E3, Et, E4. destruct (code e =? 44) eqn:C.
    + apply eqb_char in C. subst e. destruct (read_members other f d r4) as [[ms' rest]|] eqn:M; [|discriminate]. injection H as <- <-.
      destruct (IHm _ _ _ _ M) as [t' [T' ->]].
      exists (w ++ (q34 :: tk ++ [q34]) ++ w2 ++ str ":" ++ w3 ++ t ++ w4 ++ str "," ++ t'). split; [apply oi_more; assumption|].
      cbn [app str list_ascii_of_string]. repeat (rewrite <- !app_assoc; cbn [app]). reflexivity.
    + destruct (code e =? 125) eqn:C2; [|discriminate]. apply eqb_char in C2. subst e. injection H as <- <-.
      exists (w ++ (q34 :: tk ++ [q34]) ++ w2 ++ str ":" ++ w3 ++ t ++ w4). split; [apply oi_one; assumption|].
      cbn [app str list_ascii_of_string]. repeat (rewrite <- !app_assoc; cbn [app]). reflexivity.
Qed.

(** ** Bodies *)
Lemma to_map_wins ms : last_wins ms (to_map ms).
Proof.
  unfold to_map, last_wins, last_member. induction ms as [|[k0 v0] ms IH] using rev_ind; intros k v.
  - cbn. split; [discriminate|]. intros [[|? ?] [b [E _]]]; discriminate.
  - rewrite fold_left_app. cbn [fold_left fst snd]. rewrite alookup_aset. destruct (beqb k k0) eqn:B.
    + apply beqb_eq in B. subst k0. split.
      * intros H. injection H as <-. exists ms, []. split; [reflexivity|intros []].
      * intros [a [b [E N]]]. destruct b as [|x b] using rev_ind; [apply app_inj_tail in E; destruct E as [_ E]; congruence|].
        exfalso. change (a ++ (k, v) :: b ++ [x]) with (a ++ ((k, v) :: b) ++ [x]) in E. rewrite app_assoc in E. apply app_inj_tail in E. destruct E as [_ <-].
        apply N. rewrite map_app. apply in_or_app. right. left. reflexivity.
    + assert (NE : k <> k0) by (intros ->; rewrite beqb_refl in B; discriminate). rewrite (IH k v). split; intros [a [b [E N]]].
      * exists a, (b ++ [(k0, v0)]). rewrite E, <- app_assoc. split; [reflexivity|]. rewrite map_app. intros I. apply in_app_or in I. destruct I as [I|[I|[]]]; [contradiction|cbn in I; congruence].
      * destruct b as [|x b _] using rev_ind; [apply app_inj_tail in E; destruct E as [_ E]; congruence|].
        change (a ++ (k, v) :: b ++ [x]) with (a ++ ((k, v) :: b) ++ [x]) in E. rewrite app_assoc in E. apply app_inj_tail in E. destruct E as [-> _].
        exists a, b. split; [reflexivity|]. intros I. apply N. rewrite map_app. apply in_or_app. left. assumption.
Qed.

Lemma decode_complete body ms : body_is other body ms -> decode_object other body = Some (to_map ms).
Proof.
  intros [w [t [rest [W [-> H]]]]]. unfold decode_object.
  destruct H as [[-> ->]|[[[w' [W' ->]] ->]|[t' [-> O]]]].
  - cbn [app str list_ascii_of_string]. rewrite (skip_white w "n"%char) by (try assumption; intros B; cbn in B; lia). reflexivity.
  - cbn [app str list_ascii_of_string]. rewrite (skip_white w "{"%char) by (try assumption; intros B; cbn in B; lia). change (code "{"%char =? 123) with true. cbv iota.
    rewrite <- app_assoc. cbn [app]. rewrite (skip_white w' brc _ W' brace). reflexivity.
  - cbn [app str list_ascii_of_string]. rewrite (skip_white w "{"%char) by (try assumption; intros B; cbn in B; lia). change (code "{"%char =? 123) with true. cbv iota.
    rewrite <- app_assoc. cbn [app].
    destruct (object_head _ _ _ O) as [w1 [t0 [E W1]]].
    assert (K : skip_blank (t' ++ brc :: rest) = q34 :: t0 ++ brc :: rest) by (rewrite E, <- app_assoc; cbn [app]; apply skip_white; [assumption|apply quoted]).
    rewrite K. change (code q34 =? 125) with false. cbv iota.
    rewrite (proj2 (proj2 complete_all) _ _ _ O) by (cbn [Nat.mul]; lia). reflexivity.
Qed.
Lemma decode_sound body o : decode_object other body = Some o -> exists ms, body_is other body ms /\ o = to_map ms.
Proof.
  unfold decode_object. destruct (skip_split body) as [w [W [E _]]]. destruct (skip_blank body) as [|b s]; [discriminate|].
  destruct (code b =? 123) eqn:B.
  - apply eqb_char in B. subst b. destruct (skip_split s) as [w' [W' [E' _]]]. destruct (skip_blank s) as [|c r]; [discriminate|].
    destruct (code c =? 125) eqn:C.
    + apply eqb_char in C. subst c. intros H. injection H as <-. exists []. split; [|reflexivity]. exists w, (str "{" ++ w' ++ str "}"), r.
      split; [assumption|]. split; [|right; left; split; [exists w'; auto|reflexivity]]. rewrite E, E'. cbn [app str list_ascii_of_string]. rewrite <- app_assoc. reflexivity.
    + destruct (read_members other _ 1 s) as [[ms rest]|] eqn:R; [|discriminate]. intros H. injection H as <-. destruct (proj2 (proj2 (sound_all _)) _ _ _ _ R) as [t [T Et]].
      exists ms. split; [|reflexivity]. exists w, (str "{" ++ t ++ str "}"), rest. split; [assumption|]. split; [|right; right; exists t; auto].
      rewrite E, Et. cbn [app str list_ascii_of_string]. rewrite <- app_assoc. reflexivity.
  - destruct (after (str "null") (b :: s)) as [rest|] eqn:A; [|discriminate]. intros H. injection H as <-. exists []. split; [|reflexivity].
    apply after_sound in A. exists w, (str "null"), rest. split; [assumption|]. split; [rewrite E, A; reflexivity|left; auto].
Qed.
Lemma body_read body :
  (forall o, decode_object other body = Some o -> exists ms, body_is other body ms /\ last_wins ms o) /\
  (forall ms, body_is other body ms -> exists o, decode_object other body = Some o /\ last_wins ms o).
Proof.
  split.
  - intros o H. destruct (decode_sound _ _ H) as [ms [B ->]]. exists ms. split; [assumption|apply to_map_wins].
  - intros ms B. exists (to_map ms). split; [apply decode_complete; assumption|apply to_map_wins].
Qed.
End Reader.
