(** * JSON texts as answers of the providers. *)
From Coq Require Import List NArith ZArith Ascii String Bool Lia Arith Permutation.
From Verif Require Import GoBase Http_Model Cache_Model Auth_Model Mux_Model Csrf_Model Csrf_Spec Chain_Model OAuth_Model OAuth_Spec Pattern_Proofs Json_Model Json_Spec JsonUtf8_Proofs JsonRead_Proofs JsonEnc_Proofs JsonErr_Spec JsonErr_Proofs JsonUser_Spec JsonUser_Proofs
  OAuthWire_Model OAuthWire_Spec OAuth_Proofs OAuthWire_Proofs JsonDec_Model JsonDecStr_Proofs JsonDecNum_Proofs JsonDec_Proofs JsonDec_Spec.
Import ListNotations.
Local Open Scope string_scope.
Local Open Scope list_scope.
Local Open Scope N_scope.

Lemma chars_reads t cs : string_chars t cs -> string_reads t cs.
Proof. intros H. induction H; [constructor|apply sr_plain; assumption|apply sr_short; assumption|apply sr_hex; assumption|apply sr_pair; assumption]. Qed.
Lemma chars_is t cs : string_chars t cs -> string_is t (List.concat (map utf8 cs)).
Proof. intros H. exists cs. split; [apply chars_reads; assumption|reflexivity]. Qed.
Lemma chars_scalar t cs : string_chars t cs -> Forall scalar cs.
Proof.
  intros H. induction H as [|c t cs Hc A B C H IH|e c t cs He H IH|h c t cs Hh Hc H IH|h1 h2 c1 c2 t cs H1 H2 R1 R2 H IH]; constructor; try assumption.
  - cbn in He. repeat (destruct He as [He|He]; [injection He as <- <-; left; lia|]). destruct He.
  - right. lia.
Qed.
Lemma whole_number t z : whole t z -> number t.
Proof.
  intros [|t' n D|t' n D].
  - exists [], (str "0"), [], []. split; [reflexivity|]. split; [left; reflexivity|]. split; [left; reflexivity|]. auto.
  - exists [], t', [], []. rewrite !app_nil_r. split; [reflexivity|]. split; [left; reflexivity|]. split; [right; eauto|]. auto.
  - exists (str "-"), t', [], []. rewrite !app_nil_r. split; [reflexivity|]. split; [right; left; reflexivity|]. split; [right; eauto|]. auto.
Qed.

Definition kept_member (cv : list N * value) : bytes * jval := (List.concat (map utf8 (fst cv)), kept (snd cv)).

Section Texts.
Variable other : bytes -> option Z.

Lemma json_reads :
  (forall t v, json t v -> forall d k, fits v k = true -> d + k <= 10000 -> value_is other d t (kept v)) /\
  (forall t l, elements t l -> forall d k, forallb (fun x => fits x k) l = true -> d + k <= 10000 -> array_is other d t) /\
  (forall t m, members t m -> forall d k, forallb (fun x => fits (snd x) k) m = true -> d + k <= 10000 -> object_is other d t (map kept_member m)).
Proof.
  apply json_all.
  - intros. constructor.
  - intros. constructor.
  - intros. constructor.
  - intros t z W d k F L. cbn in F. apply Z.leb_le in F. cbn [kept]. constructor. split; [eapply whole_number; eassumption|]. left. split; [left; assumption|lia].
  - intros t cs S d k F L. cbn [kept]. constructor. apply chars_is. assumption.
  - intros w W d k F L. cbn in F. rewrite andb_true_r in F. apply N.ltb_lt in F. constructor; [lia|assumption].
  - intros t v l H IH d k F L. cbn [fits] in F. apply andb_true_iff in F. destruct F as [K F]. apply N.ltb_lt in K. cbn [kept]. apply vi_arr; [lia|]. apply (IH _ (k - 1)); [assumption|lia].
  - intros w W d k F L. cbn in F. rewrite andb_true_r in F. apply N.ltb_lt in F. constructor; [lia|assumption].
  - intros t m ms H IH d k F L. cbn [fits] in F. apply andb_true_iff in F. destruct F as [K F]. apply N.ltb_lt in K. cbn [kept]. eapply vi_obj; [lia|]. apply (IH _ (k - 1)); [assumption|lia].
  - intros w1 t w2 v W1 W2 H IH d k F L. cbn in F. rewrite andb_true_r in F. econstructor; [assumption|assumption|]. eapply IH; eassumption.
  - intros w1 t w2 v t' l W1 W2 H IH H' IH' d k F L. cbn in F. apply andb_true_iff in F. destruct F as [F1 F2]. eapply ai_more; [assumption|assumption| |]; [eapply IH|eapply IH']; eassumption.
  - intros w1 k0 cs w2 w3 t w4 v W1 W2 W3 W4 S H IH d k F L. cbn in F. rewrite andb_true_r in F. cbn [map]. apply oi_one; try assumption; [apply chars_is; assumption|]. eapply IH; eassumption.
  - intros w1 k0 cs w2 w3 t w4 v t' m W1 W2 W3 W4 S H IH H' IH' d k F L. cbn in F. apply andb_true_iff in F. destruct F as [F1 F2]. cbn [map]. apply oi_more; try assumption; [apply chars_is; assumption| |]; [eapply IH|eapply IH']; eassumption.
Qed.

Lemma members_scalar t m : members t m -> Forall (fun cv => Forall scalar (fst cv)) m.
Proof. intros H. induction H; constructor; cbn; try (eapply chars_scalar; eassumption); [constructor|assumption]. Qed.
Lemma object_scalar t m : json_text t (VObj m) -> Forall (fun cv => Forall scalar (fst cv)) m.
Proof. intros [w1 [t0 [w2 [_ [_ [J _]]]]]]. inversion J; subst; [constructor|]. eapply members_scalar. eassumption. Qed.

Lemma object_body body m : object_text body m -> body_is other body (map kept_member m).
Proof.
  intros [t [rest [-> [[w1 [t0 [w2 [W1 [W2 [J ->]]]]]] F]]]]. exists w1, t0, (w2 ++ rest). split; [assumption|]. split; [rewrite <- !app_assoc; reflexivity|].
  inversion J as [| | | | | | |w W E1 E2|u x ms M E1 E2]; subst.
  - right. left. split; [exists w; auto|reflexivity].
  - right. right. exists u. split; [reflexivity|]. cbn [fits] in F. apply andb_true_iff in F. destruct F as [_ F].
    apply (proj2 (proj2 json_reads) _ _ M 1 (10000 - 1)); [assumption|lia].
Qed.

Lemma utf8_inj cs ds : Forall scalar cs -> Forall scalar ds -> List.concat (map utf8 cs) = List.concat (map utf8 ds) -> cs = ds.
Proof.
  intros A B E. eapply text_of_fun; apply text_of_well; split; [exact A|reflexivity|exact B|exact E].
Qed.
Lemma map_split {A B : Type} (f : A -> B) l x y b : map f l = x ++ b :: y -> exists l1 a l2, l = l1 ++ a :: l2 /\ map f l1 = x /\ f a = b /\ map f l2 = y.
Proof.
  revert x. induction l as [|a l IH]; intros [|c x] E; cbn in E; try discriminate.
  - injection E as E1 E2. exists [], a, l. auto.
  - injection E as E1 E2. destruct (IH x E2) as [l1 [a' [l2 [-> [M1 [M2 M3]]]]]]. exists (a :: l1), a', l2. cbn. rewrite E1, M1. auto.
Qed.
(** What the map says is what the object says. *)
Lemma wins_says m o : Forall (fun cv => Forall scalar (fst cv)) m -> last_wins (map kept_member m) o ->
  forall k v, alookup k o = Some v <-> exists v', says_value m k v' /\ v = kept v'.
Proof.
  intros S W k v. rewrite (W k v). split.
  - intros [a [b [E N]]]. apply map_split in E. destruct E as [l1 [[kc v'] [l2 [-> [<- [K <-]]]]]]. unfold kept_member in K. cbn [fst snd] in K. injection K as K1 K2.
    exists v'. split; [|congruence]. exists kc, l1, l2. apply Forall_app in S. destruct S as [_ S]. pose proof (Forall_inv S) as S1. cbn in S1. split; [split; [exact S1|congruence]|]. split; [reflexivity|].
    intros I. apply N. apply in_map_iff in I. destruct I as [[c2 v2] [I1 I2]]. cbn in I1. subst c2. apply in_map_iff. exists (kept_member (kc, v2)). split; [cbn; exact K1|]. apply in_map. assumption.
  - intros [v' [[kc [a [b [[Wk ->] [E N]]]]] ->]]. exists (map kept_member a), (map kept_member b). rewrite E, map_app. split; [reflexivity|].
    intros I. rewrite map_map in I. apply in_map_iff in I. destruct I as [[c2 v2] [I1 I2]]. cbn in I1. apply N. apply in_map_iff. exists (c2, v2). split; [|assumption]. cbn.
    apply utf8_inj; [|assumption|assumption]. rewrite E in S. apply Forall_app in S. destruct S as [_ S]. apply Forall_inv_tail in S. rewrite Forall_forall in S. exact (S _ I2).
Qed.

Lemma values_read body m : object_text body m ->
  exists o, decode_object other body = Some o /\ forall k v, alookup k o = Some v <-> exists v', says_value m k v' /\ v = kept v'.
Proof.
  intros H. destruct (proj2 (body_read other body) _ (object_body _ _ H)) as [o [D W]].
  assert (S : Forall (fun cv => Forall scalar (fst cv)) m) by (destruct H as [t [rest [_ [J _]]]]; eapply object_scalar; eassumption).
  exists o. split; [assumption|]. intros k v. apply wins_says; assumption.
Qed.
Lemma texts_read st body m : object_text body m ->
  exists o, answer_of other (Reply st body) = Answer st o /\
    (forall k s, text_at o k s <-> says_text m k s) /\
    (forall k z, alookup k o = Some (JvNum z) <-> says_value m k (VNum z)).
Proof.
  intros H. destruct (proj2 (body_read other body) _ (object_body _ _ H)) as [o [D W]].
  assert (S : Forall (fun cv => Forall scalar (fst cv)) m) by (destruct H as [t [rest [_ [J _]]]]; eapply object_scalar; eassumption).
  exists o. split; [cbn; rewrite D; reflexivity|]. split; intros k x.
  - unfold text_at. rewrite (wins_says m o S W). split.
    + intros [[| |z|cs|l|l] [V E]]; try discriminate E. injection E as ->. exists cs. auto.
    + intros [cs [V ->]]. exists (VStr cs). auto.
  - rewrite (wins_says m o S W). split.
    + intros [[| |z|cs|l|l] [V E]]; try discriminate E. injection E as ->. assumption.
    + intros V. exists (VNum x). auto.
Qed.

(** Bodies that do not begin with an object or null. *)
Lemma no_object st body : (forall ms, ~ body_is other body ms) -> forall platform idkey,
  (exists e, github_token (answer_of other (Reply st body)) = FErr e) /\ (exists e, google_token (answer_of other (Reply st body)) = FErr e) /\
  (exists e, provider_user platform idkey (answer_of other (Reply st body)) = FErr e).
Proof.
  intros H platform idkey. assert (D : answer_of other (Reply st body) = NotJson).
  { cbn. destruct (decode_object other body) as [o|] eqn:E; [|reflexivity]. exfalso. destruct (proj1 (body_read other body) _ E) as [ms [B _]]. exact (H ms B). }
  rewrite D. cbn [github_token google_token provider_user]. repeat split; eexists; reflexivity.
Qed.

(** null is read as an object without members. *)
Lemma null_panics st w rest : 200 <= st < 300 -> white w -> forall platform idkey,
  github_token (answer_of other (Reply st (w ++ str "null" ++ rest))) = FPanic /\
  google_token (answer_of other (Reply st (w ++ str "null" ++ rest))) = FPanic /\
  provider_user platform idkey (answer_of other (Reply st (w ++ str "null" ++ rest))) = FPanic.
Proof.
  intros R W platform idkey. assert (B : body_is other (w ++ str "null" ++ rest) []).
  { exists w, (str "null"), rest. split; [assumption|]. split; [reflexivity|]. left. auto. }
  unfold answer_of. rewrite (decode_complete other _ _ B). apply success_iff in R. unfold github_token, google_token, provider_user. rewrite R. auto.
Qed.

(** ** Callbacks *)
Section Callback.
Variable World : Type.
Variable wire : outreq -> World -> reply * World.
Lemma ask_reply r w p w' : wire r w = (p, w') -> ask_bytes other wire r w = (answer_of other p, w').
Proof. intros E. unfold ask_bytes. rewrite E. reflexivity. Qed.

Lemma text_jstr o k s : text_at o k s -> jstr o k = Some s.
Proof. unfold text_at, jstr. intros ->. reflexivity. Qed.
Lemma granted st body m tok ty : 200 <= st < 300 -> object_text body m -> says_text m (str "access_token") tok -> says_text m (str "token_type") ty ->
  (exists t, github_grants (answer_of other (Reply st body)) t /\ at_token t = tok /\ at_type t = ty) /\
  (exists t, google_grants (answer_of other (Reply st body)) t /\ at_token t = tok /\ at_type t = ty).
Proof.
  intros R O A B. destruct (texts_read st _ _ O) as [o [-> [T _]]]. apply T, text_jstr in A. apply T, text_jstr in B. apply success_iff, N.eqb_eq in R. split.
  - eexists. split; [apply token_fields; unfold github_token; rewrite R, A, B; reflexivity|]. split; reflexivity.
  - eexists. split; [apply token_fields; unfold google_token; rewrite R, A, B; reflexivity|]. split; reflexivity.
Qed.
Lemma named st body m platform idkey id : 200 <= st < 300 -> object_text body m ->
  says_text m (str "email") id \/ (forall s, ~ says_text m (str "email") s) /\ says_text m idkey id ->
  exists u, names_user platform idkey (answer_of other (Reply st body)) u /\ us_id u = id.
Proof.
  intros R O H. destruct (texts_read st _ _ O) as [o [-> [T _]]]. apply success_iff, N.eqb_eq in R.
  destruct H as [E|[N I]].
  - apply T, text_jstr in E. eexists. split; [apply identity_named; unfold provider_user; rewrite R, E; reflexivity|reflexivity].
  - apply T, text_jstr in I. assert (E : jstr o (str "email") = None) by (apply no_text_iff; intros s K; apply T in K; exact (N s K)).
    eexists. split; [apply identity_named; unfold provider_user; rewrite R, E, I; reflexivity|reflexivity].
Qed.

Lemma callback_bytes (cfg : oconfig World) prefix base c q gp qp w code st1 b1 w1 m1 tok ty st2 b2 w2 m2 id :
  query_value q (str "code") code -> oc_fetch_user cfg = true -> 200 <= st1 < 300 -> 200 <= st2 < 300 -> object_text b1 m1 -> object_text b2 m2 ->
  says_text m1 (str "access_token") tok -> says_text m1 (str "token_type") ty -> header_text tok ->
  ((forall r, asks_github gp code r -> wire r w = (Reply st1 b1, w1)) ->
   (forall r, asks_user (str "https://api.github.com/user") tok r -> wire r w1 = (Reply st2 b2, w2)) ->
   says_text m2 (str "email") id \/ (forall s, ~ says_text m2 (str "email") s) /\ says_text m2 (str "login") id ->
   exists t u, at_token t = tok /\ at_type t = ty /\ us_id u = id /\
     completes cfg prefix base c q (github_provider (ask_bytes other wire) gp) w (Ctx (Some (user_principal u)) (cx_nonce c) (Some t)) w2) /\
  ((forall r, asks_google qp (oc_website cfg ++ resolve_path prefix base ++ str "/google") code r -> wire r w = (Reply st1 b1, w1)) ->
   (forall r, asks_user (str "https://www.googleapis.com/oauth2/v1/userinfo") tok r -> wire r w1 = (Reply st2 b2, w2)) ->
   says_text m2 (str "email") id \/ (forall s, ~ says_text m2 (str "email") s) /\ says_text m2 (str "id") id ->
   exists t u, at_token t = tok /\ at_type t = ty /\ us_id u = id /\
     completes cfg prefix base c q (google_provider (ask_bytes other wire) qp) w (Ctx (Some (user_principal u)) (cx_nonce c) (Some t)) w2).
Proof.
  intros Q F R1 R2 O1 O2 A B H. destruct (granted _ _ _ _ _ R1 O1 A B) as [[t1 [G1 [T1 Y1]]] [t2 [G2 [T2 Y2]]]]. split; intros W1 W2 I.
  - destruct (named _ _ _ (str "github") _ _ R2 O2 I) as [u [U E]]. exists t1, u. split; [assumption|]. split; [assumption|]. split; [assumption|].
    rewrite <- T1 in H.
    apply (proj2 (proj1 (answers_complete World (ask_bytes other wire) cfg prefix base c q gp qp w code (answer_of other (Reply st1 b1)) w1 t1 (answer_of other (Reply st2 b2)) w2 u Q H)
      (fun r K => ask_reply r w _ _ (W1 r K)) G1) F); [|assumption]. intros r K. apply ask_reply, W2. rewrite <- T1. assumption.
  - destruct (named _ _ _ (str "google") _ _ R2 O2 I) as [u [U E]]. exists t2, u. split; [assumption|]. split; [assumption|]. split; [assumption|].
    rewrite <- T2 in H.
    apply (proj2 (proj2 (answers_complete World (ask_bytes other wire) cfg prefix base c q gp qp w code (answer_of other (Reply st1 b1)) w1 t2 (answer_of other (Reply st2 b2)) w2 u Q H)
      (fun r K => ask_reply r w _ _ (W1 r K)) G2) F); [|assumption]. intros r K. apply ask_reply, W2. rewrite <- T2. assumption.
Qed.
End Callback.
End Texts.

(** ** What gofre writes is read back *)
Lemma strings_stand l vs : Forall2 (fun kv cv => text_of (fst kv) (fst cv) /\ stands_for (snd kv) (snd cv)) (map (fun ks => (fst ks, GStr (snd ks))) l) vs ->
  Forall2 (fun (ks : bytes * bytes) cv => text_of (fst ks) (fst cv) /\ exists cs, snd cv = VStr cs /\ text_of (snd ks) cs) l vs.
Proof.
  revert vs. induction l as [|[k s] l IH]; intros vs H; inversion H as [|x y l1 l2 [K V] F]; subst; [constructor|]. constructor; [|apply IH; assumption].
  cbn in *. split; [assumption|]. inversion V; subst. eauto.
Qed.
Lemma flat_object (l : list (bytes * bytes)) rest : NoDup (map fst l) -> Forall (fun ks => readable (fst ks) /\ readable (snd ks)) l ->
  exists vs, object_text (marshal (GMap (map (fun ks => (fst ks, GStr (snd ks))) l)) ++ rest) vs /\
    forall k v, (exists v', says_value vs k v' /\ v = kept v') <-> exists s, In (k, s) l /\ v = JvStr s.
Proof.
  intros ND U. set (g := GMap (map (fun ks => (fst ks, GStr (snd ks))) l)). destruct (marshal_json g) as [v [S J]].
  inversion S as [| | | | |m m' vs P F|]; subst v m.
  assert (P2 : exists l', Permutation l l' /\ m' = map (fun ks => (fst ks, GStr (snd ks))) l').
  { apply Permutation_map_inv in P || (symmetry in P; apply Permutation_map_inv in P). destruct P as [l' [-> P]]. exists l'. split; [first [assumption|symmetry; assumption]|reflexivity]. }
  destruct P2 as [l' [P2 ->]]. apply strings_stand in F.
  assert (FT : fits (VObj vs) 10000 = true).
  { cbn [fits]. change (0 <? 10000) with true. cbn [andb]. clear -F. induction F as [|x cv l vs [_ [cs [E _]]] F IH]; [reflexivity|]. cbn. rewrite E. assumption. }
  exists vs. split; [exists (marshal g), rest; split; [reflexivity|]; split; [apply json_is_text; assumption|assumption]|].
  assert (Hl : NoDup (map fst l') /\ Forall (fun ks => readable (fst ks) /\ readable (snd ks)) l').
  { split; [eapply Permutation_NoDup; [apply Permutation_map; exact P2|assumption]|]. rewrite Forall_forall in *. intros x I. apply U. eapply Permutation_in; [symmetry; exact P2|assumption]. }
  destruct Hl as [ND' U']. clear FT S J P ND U.
  assert (WT : forall s cs, readable s -> text_of s cs -> well_encoded s cs).
  { intros s cs [ds W] X. rewrite (well_text _ _ _ W X). assumption. }
  intros k v. split.
  - intros [v' [[kc [a [b [[_ ->] [-> N]]]]] ->]]. apply Forall2_app_inv_r in F. destruct F as [x [y [_ [Fy ->]]]].
    inversion Fy as [|[k0 s0] cv y' b' [K [cs [V X]]] Fb]; subst. cbn in K, V, X. subst v'. rewrite Forall_forall in U'.
    destruct (U' (k0, s0)) as [U1 U2]; [apply in_or_app; right; left; reflexivity|]. cbn in U1, U2.
    destruct (WT _ _ U1 K) as [_ <-]. destruct (WT _ _ U2 X) as [_ ->]. exists (List.concat (map utf8 cs)). split; [|reflexivity].
    eapply Permutation_in; [symmetry; exact P2|]. apply in_or_app. right. left. reflexivity.
  - intros [s [I ->]]. apply (Permutation_in _ P2) in I. apply in_split in I. destruct I as [x [y ->]].
    apply Forall2_app_inv_l in F. destruct F as [a [b0 [_ [Fb ->]]]]. inversion Fb as [|ks [kc v'] y' b [K [cs [V X]]] Fy]; subst. cbn in K, V, X. subst v'.
    rewrite Forall_forall in U'. destruct (U' (k, s)) as [U1 U2]; [apply in_or_app; right; left; reflexivity|]. cbn in U1, U2.
    destruct (WT _ _ U1 K) as [S1 E1]. destruct (WT _ _ U2 X) as [S2 E2].
    exists (VStr cs). split; [|cbn; rewrite <- E2; reflexivity]. exists kc, a, b. split; [split; assumption|]. split; [reflexivity|].
    intros I. apply in_map_iff in I. destruct I as [[c2 v2] [I1 I2]]. cbn in I1. subst c2. apply in_split in I2. destruct I2 as [b1 [b2 ->]].
    apply Forall2_app_inv_r in Fy. destruct Fy as [y1 [y2 [_ [Fy2 ->]]]]. inversion Fy2 as [|[k3 s3] cv y3 b3 [K3 _] _]; subst. cbn in K3.
    destruct (U' (k3, s3)) as [U3 _]; [apply in_or_app; right; right; apply in_or_app; right; left; reflexivity|]. cbn in U3. destruct (WT _ _ U3 K3) as [_ E3].
    rewrite map_app in ND'. cbn [map fst] in ND'. apply NoDup_remove_2 in ND'. apply ND'. apply in_or_app. right. rewrite map_app. apply in_or_app. right. left. cbn. congruence.
Qed.

Lemma written_read other (l : list (bytes * bytes)) rest :
  NoDup (map fst l) -> Forall (fun ks => readable (fst ks) /\ readable (snd ks)) l ->
  exists o, decode_object other (marshal (GMap (map (fun ks => (fst ks, GStr (snd ks))) l)) ++ rest) = Some o /\
    forall k v, alookup k o = Some v <-> exists s, In (k, s) l /\ v = JvStr s.
Proof.
  intros ND U. destruct (flat_object l rest ND U) as [vs [O K]]. destruct (values_read other _ _ O) as [o [D T]].
  exists o. split; [exact D|]. intros k v. rewrite T. apply K.
Qed.
Lemma flat_says (l : list (bytes * bytes)) rest : NoDup (map fst l) -> Forall (fun ks => readable (fst ks) /\ readable (snd ks)) l ->
  exists vs, object_text (marshal (GMap (map (fun ks => (fst ks, GStr (snd ks))) l)) ++ rest) vs /\ forall k s, In (k, s) l -> says_text vs k s.
Proof.
  intros ND U. destruct (flat_object l rest ND U) as [vs [O K]]. exists vs. split; [exact O|]. intros k s I.
  destruct (proj2 (K k (JvStr s))) as [v' [V E]]; [eauto|]. destruct v' as [| |z|cs|x|x]; try discriminate E. injection E as ->. exists cs. auto.
Qed.

(** ** What is made of a body was in it *)
Lemma shown_texts other p :
  (forall t, github_token (answer_of other p) = FOk t \/ google_token (answer_of other p) = FOk t -> exists st body ms, p = Reply st body /\ 200 <= st < 300 /\ body_is other body ms /\
     last_member ms (str "access_token") (JvStr (at_token t)) /\ last_member ms (str "token_type") (JvStr (at_type t))) /\
  (forall platform idkey u, provider_user platform idkey (answer_of other p) = FOk u -> exists st body ms, p = Reply st body /\ 200 <= st < 300 /\ body_is other body ms /\
     (last_member ms (str "email") (JvStr (us_id u)) \/ (forall s, ~ last_member ms (str "email") (JvStr s)) /\ last_member ms idkey (JvStr (us_id u)))).
Proof.
  assert (G : forall o, success (answer_of other p) o -> exists st body ms, p = Reply st body /\ 200 <= st < 300 /\ body_is other body ms /\ last_wins ms o).
  { intros o [st [E R]]. destruct p as [|st0 body]; [discriminate|]. cbn in E. destruct (decode_object other body) as [o'|] eqn:D; [|discriminate]. injection E as -> ->.
    destruct (proj1 (body_read other body) _ D) as [ms [B W]]. exists st, body, ms. auto. }
  split.
  - intros t [H|H]; [apply (proj1 (token_fields _ t)) in H|apply (proj2 (token_fields _ t)) in H]; destruct H as [o [Su [A [B _]]]];
    destruct (G o Su) as [st [body [ms [-> [R [I W]]]]]]; exists st, body, ms; unfold text_at in A, B; apply W in A; apply W in B; auto.
  - intros platform idkey u H. apply identity_named in H. destruct H as [o [Su [A _]]]. destruct (G o Su) as [st [body [ms [-> [R [I W]]]]]].
    exists st, body, ms. split; [reflexivity|]. split; [assumption|]. split; [assumption|]. unfold no_text_at, text_at in A. destruct A as [A|[N A]].
    + left. apply W. assumption.
    + right. split; [|apply W; assumption]. intros s L. apply (N s), W. assumption.
Qed.

(** Bodies that are no JSON but begin with an object. *)
Lemma trailing_accepted other body m : object_text body m -> forall rest st, exists o, answer_of other (Reply st (body ++ rest)) = Answer st o /\ answer_of other (Reply st body) = Answer st o.
Proof.
  intros O rest st. destruct (values_read other _ _ O) as [o [D _]]. exists o. cbn. rewrite D.
  assert (B : body_is other (body ++ rest) (map kept_member m)).
  { apply object_body. destruct O as [t [r [-> [J F]]]]. exists t, (r ++ rest). split; [rewrite <- app_assoc; reflexivity|auto]. }
  pose proof (decode_complete other _ _ (object_body other _ _ O)) as D1. pose proof (decode_complete other _ _ B) as D2. rewrite D2. rewrite D in D1. injection D1 as ->. auto.
Qed.

(** ** Cases *)
Definition token_body : bytes := str " {""access_token"" : ""t0ken"", ""token_type"":""bearer"",""x"":[1.5e3,{""y"":null}], ""scope"":""repo"",""access_token"":""gh\/t""}trailing".
Lemma token_body_case : answer_of (fun _ => Some 0%Z) (Reply 200 token_body) =
  Answer 200 [(str "access_token", JvStr (str "gh/t")); (str "scope", JvStr (str "repo")); (str "x", JvOther); (str "token_type", JvStr (str "bearer"))] /\
  github_token (answer_of (fun _ => Some 0%Z) (Reply 200 token_body)) = FOk (AccessToken (str "gh/t") (str "bearer") (Some [str "repo"]) [] 0).
Proof. vm_compute. split; reflexivity. Qed.

Lemma ascii_pairs (l : list (bytes * bytes)) : forallb (fun ks => forallb (fun c => code c <? 128) (fst ks) && forallb (fun c => code c <? 128) (snd ks)) l = true ->
  Forall (fun ks => readable (fst ks) /\ readable (snd ks)) l.
Proof.
  intros H. rewrite forallb_forall in H. rewrite Forall_forall. intros x I. specialize (H x I). apply andb_true_iff in H. destruct H as [A B]. split; apply ascii_readable; assumption.
Qed.
(** A text that begins with a brace and ends otherwise is no JSON. *)
Lemma no_text_after t b : code b <> 125 -> ~ In (code b) [32; 9; 10; 13] -> forall v, ~ json_text (str "{" ++ t ++ [b]) v.
Proof.
  intros C B v [w1 [t0 [w2 [W1 [W2 [J E]]]]]].
  destruct W1 as [|y w1 Y W1]; [|cbn in E; injection E as <- _; cbn in Y; lia]. cbn [app] in E.
  assert (X : exists x, t0 = x ++ str "}").
  { destruct J as [| | |t1 z Wh|t1 cs S|w W|t1 v l H|w W|t1 m ms H]; try discriminate E.
    - destruct (whole_head _ _ Wh) as [c [u [-> K]]]. cbn in E. injection E as <- _. cbn in K. lia.
    - exists (str "{" ++ w). rewrite <- app_assoc. reflexivity.
    - exists (str "{" ++ t1). rewrite <- app_assoc. reflexivity. }
  destruct X as [x ->]. rewrite app_assoc in E. destruct w2 as [|c w2 _] using rev_ind.
  - rewrite app_nil_r in E. apply app_inj_tail in E. destruct E as [_ ->]. apply C. reflexivity.
  - rewrite app_assoc in E. apply app_inj_tail in E. destruct E as [_ ->]. apply Forall_app in W2. destruct W2 as [_ W2]. apply Forall_inv in W2. contradiction.
Qed.
Lemma object_case : exists m, object_text (str "{""access_token"":""t0ken"",""token_type"":""bearer""}<html>") m /\
  says_text m (str "access_token") (str "t0ken") /\ says_text m (str "token_type") (str "bearer") /\ header_text (str "t0ken") /\
  forall v, ~ json_text (str "{""access_token"":""t0ken"",""token_type"":""bearer""}<html>") v.
Proof.
  destruct (flat_says [(str "access_token", str "t0ken"); (str "token_type", str "bearer")] (str "<html>")) as [m [O S]].
  - repeat constructor; cbn; intros H; repeat (destruct H as [H|H]; [discriminate|]); destruct H.
  - apply ascii_pairs. reflexivity.
  - exists m. split; [exact O|]. split; [apply S; left; reflexivity|]. split; [apply S; right; left; reflexivity|]. split; [apply token_case|].
    apply (no_text_after (str """access_token"":""t0ken"",""token_type"":""bearer""}<html") ">"%char); cbn; lia.
Qed.

(** A login with bodies. *)
Definition bytes_wire (r : outreq) (w : list bytes) : reply * list bytes :=
  (Reply 200 (if beqb (or_method r) (str "POST") then token_body else str "{""login"":""ann"",""email"":null,""id"":7,""name"":""Ann""}"),
   w ++ or_body r :: hvalues (or_header r) (str "Authorization")).
Definition bytes_config : oconfig (list bytes) :=
  OConfig (str "https://shop.example") true [github_provider (ask_bytes (fun _ => Some 0%Z) bytes_wire) demo_github; google_provider (ask_bytes (fun _ => Some 0%Z) bytes_wire) demo_google] true 100.
Lemma bytes_case :
  let run := serve_in_turn (oauth_endpoints bytes_config [] (str "/oauth/authorize") (beside_cache wire_handler)) (Ctx None None None)
    [wire_start; demo_callback 10 (str "a b")] (new_cache, []) in
  snd (fst run) = [str "client_id=shop&client_secret=s%26c%3Dt&code=a+b"; []; str "Bearer gh/t"] /\
  List.nth 1 (snd run) (HPanic None) = HReturn (Some (OAnswer
    (Some (AccessToken (str "gh/t") (str "bearer") (Some [str "repo"]) [] 0),
     Some (str "ann", GStruct [(str "Id", GStr (str "ann")); (str "Name", GStr (str "Ann")); (str "IdentityPlatform", GStr (str "github"));
                               (str "Groups", GNil); (str "Attachment", GNil)])))) None.
Proof. vm_compute. split; reflexivity. Qed.

Lemma error_bodies : Forall (fun body => forall ms, ~ body_is (fun _ => Some 0%Z) body ms)
  [str "access_token=t0ken&token_type=bearer"; str "<html>"; str "[{}]"; str "{""access_token"":""t0k"; []].
Proof.
  assert (K : forall body, decode_object (fun _ => Some 0%Z) body = None -> forall ms, ~ body_is (fun _ => Some 0%Z) body ms).
  { intros body H ms B. apply decode_complete in B. congruence. }
  repeat (constructor; [apply K; vm_compute; reflexivity|]). constructor.
Qed.
Lemma written_case : decode_object (fun _ => None) (marshal (GMap [(str "a<b", GStr (str "say ""hi""\")); (str "k", GStr [ascii_of_N 195; ascii_of_N 169])])) =
  Some [(str "k", JvStr [ascii_of_N 195; ascii_of_N 169]); (str "a<b", JvStr (str "say ""hi""\"))].
Proof. vm_compute. reflexivity. Qed.
