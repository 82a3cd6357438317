(** * Proofs about the URLs that start an OAuth flow. *)
From Coq Require Import List NArith ZArith Ascii String Bool Arith Lia Permutation.
From Verif Require Import GoBase Http_Model Cache_Model Auth_Model Auth_Proofs Mux_Model Csrf_Model Csrf_Spec Csrf_Proofs Chain_Model OAuth_Model OAuth_Spec.
Import ListNotations.
Local Open Scope string_scope.
Local Open Scope list_scope.
Local Open Scope nat_scope.

(** ** Escaping *)

Lemma escape_cases c :
  (escape_byte c = [c] /\ Ascii.eqb c "%"%char = false /\ Ascii.eqb c "+"%char = false) \/
  (escape_byte c = ["+"%char] /\ c = " "%char) \/
  exists x y a b, escape_byte c = ["%"%char; x; y] /\ hex_value x = Some a /\ hex_value y = Some b /\ ascii_of_N (16 * a + b) = c.
Proof.
  destruct (unreserved c) eqn:U.
  - left. split; [unfold escape_byte; rewrite U; reflexivity|].
    split; apply Ascii.eqb_neq; intros ->; discriminate U.
  - destruct (Ascii.eqb c " "%char) eqn:S.
    + right. left. unfold escape_byte. rewrite U, S. split; [reflexivity|apply Ascii.eqb_eq, S].
    + right. right. exists (hex_digit (code c / 16)), (hex_digit (code c mod 16)), (code c / 16)%N, (code c mod 16)%N.
      unfold escape_byte. rewrite U, S. split; [reflexivity|].
      assert (code c < 256)%N as L by apply N_ascii_bounded.
      split; [apply hex_digit_value, N.div_lt_upper_bound; [discriminate|exact L]|].
      split; [apply hex_digit_value, N.mod_lt; discriminate|].
      rewrite <- N.div_mod by discriminate. apply ascii_N_embedding.
Qed.

Lemma escape_decodes c s : unescape (escape_byte c ++ s) = option_map (cons c) (unescape s).
Proof.
  destruct (escape_cases c) as [(E & P & Q)|[(E & ->)|(x & y & a & b & E & A & B & C)]]; rewrite E; cbn [app unescape].
  - rewrite P, Q. reflexivity.
  - reflexivity.
  - rewrite Ascii.eqb_refl, A, B, C. destruct (unescape s); reflexivity.
Qed.

Lemma unescape_escape s : unescape (query_escape s) = Some s.
Proof.
  induction s as [|c s IH]; [reflexivity|].
  change (query_escape (c :: s)) with (escape_byte c ++ query_escape s).
  rewrite escape_decodes, IH. reflexivity.
Qed.

Lemma escape_clean s x : In x (query_escape s) -> x <> "&"%char /\ x <> "="%char /\ x <> "?"%char.
Proof.
  intros I. unfold query_escape in I. apply in_flat_map in I as (c & _ & I). revert I. unfold escape_byte.
  assert (H : forall n, (n < 16)%N -> hex_digit n <> "&"%char /\ hex_digit n <> "="%char /\ hex_digit n <> "?"%char).
  { intros n L. assert (In n [0;1;2;3;4;5;6;7;8;9;10;11;12;13;14;15]%N) as I by (cbn; lia).
    cbn in I. repeat (destruct I as [<-|I]; [repeat split; discriminate|]). destruct I. }
  destruct (unreserved c) eqn:U.
  - intros [<-|[]]. repeat split; intros ->; discriminate U.
  - destruct (Ascii.eqb c " "%char).
    + intros [<-|[]]. repeat split; discriminate.
    + assert (code c < 256)%N as L by apply N_ascii_bounded.
      intros [<-|[<-|[<-|[]]]]; [repeat split; discriminate|apply H, N.div_lt_upper_bound; [discriminate|exact L]|].
      apply H, N.mod_lt. discriminate.
Qed.

(** ** Splitting *)

Lemma ascii_eqb_no a b : a <> b -> Ascii.eqb a b = false.
Proof. intros N. apply Ascii.eqb_neq, N. Qed.

Lemma cut_first c s : forall a, (forall x, In x a -> x <> c) -> cut_at c (a ++ c :: s) = (a, s).
Proof.
  induction a as [|x a IH]; intros H.
  - cbn. rewrite Ascii.eqb_refl. reflexivity.
  - cbn [app cut_at]. rewrite (ascii_eqb_no x c) by (apply H; left; reflexivity).
    rewrite IH; [reflexivity|]. intros y I. apply H. right. exact I.
Qed.

Lemma split_first c s : forall a, (forall x, In x a -> x <> c) -> split_on c (a ++ c :: s) = a :: split_on c s.
Proof.
  induction a as [|x a IH]; intros H.
  - cbn. rewrite Ascii.eqb_refl. reflexivity.
  - cbn [app split_on]. rewrite (ascii_eqb_no x c) by (apply H; left; reflexivity).
    rewrite IH; [reflexivity|]. intros y I. apply H. right. exact I.
Qed.

Lemma split_none c : forall a, (forall x, In x a -> x <> c) -> split_on c a = [a].
Proof.
  induction a as [|x a IH]; intros H; [reflexivity|].
  cbn [split_on]. rewrite (ascii_eqb_no x c) by (apply H; left; reflexivity).
  rewrite IH; [reflexivity|]. intros y I. apply H. right. exact I.
Qed.

Lemma split_join c : forall l, l <> [] -> (forall s x, In s l -> In x s -> x <> c) -> split_on c (join [c] l) = l.
Proof.
  induction l as [|s l IH]; intros N H; [congruence|].
  destruct l as [|t l].
  - cbn [join]. apply split_none. intros x I. apply (H s x); [left; reflexivity|exact I].
  - change (join [c] (s :: t :: l)) with (s ++ [c] ++ join [c] (t :: l)). cbn [app].
    rewrite split_first by (intros x I; apply (H s x); [left; reflexivity|exact I]).
    rewrite IH; [reflexivity|discriminate|]. intros u x I. apply H. right. exact I.
Qed.

Lemma decode_encode kv : decode_pair (encode_pair kv) = Some kv.
Proof.
  unfold decode_pair, encode_pair. cbn [str list_ascii_of_string app].
  rewrite cut_first by (intros x I; apply escape_clean in I; tauto).
  rewrite !unescape_escape. destruct kv; reflexivity.
Qed.

Lemma encode_clean kv x : In x (encode_pair kv) -> x <> "&"%char.
Proof.
  unfold encode_pair. intros I. apply in_app_or in I as [I|I]; [apply escape_clean in I; tauto|].
  cbn in I. destruct I as [<-|I]; [discriminate|]. apply escape_clean in I. tauto.
Qed.

(** ** Sorting *)

Lemma insert_perm kv l : Permutation (insert_key kv l) (kv :: l).
Proof.
  induction l as [|x l IH]; [reflexivity|]. cbn [insert_key].
  destruct (bcompare (fst kv) (fst x)); [reflexivity|reflexivity|].
  rewrite IH. apply perm_swap.
Qed.
Lemma sort_perm l : Permutation (sort_keys l) l.
Proof.
  induction l as [|x l IH]; [reflexivity|]. cbn [sort_keys fold_right].
  rewrite insert_perm. apply perm_skip, IH.
Qed.

(** Values with one value for each of different keys. *)
Definition single (m : list (bytes * list bytes)) : Prop :=
  NoDup (map fst m) /\ forall k vs, In (k, vs) m -> exists v, vs = [v].

Lemma encoded_query endpoint m k v : (forall x, In x endpoint -> x <> "?"%char) -> single m -> In (k, [v]) m ->
  url_query_has (endpoint ++ str "?" ++ encode_values m) k v.
Proof.
  intros E [D S] I.
  set (l := sort_keys m).
  assert (P : Permutation l m) by apply sort_perm.
  assert (Il : In (k, [v]) l) by (apply (Permutation_in _ (Permutation_sym P)), I).
  assert (Dl : NoDup (map fst l)) by (apply (Permutation_NoDup (Permutation_sym (Permutation_map fst P))), D).
  assert (Sl : forall k vs, In (k, vs) l -> exists v, vs = [v]) by (intros k' vs X; apply (S k'), (Permutation_in _ P), X).
  destruct (in_split _ _ Il) as (l1 & l2 & El).
  set (pairs := fun x : list (bytes * list bytes) => flat_map (fun kv => map (pair (fst kv)) (snd kv)) x).
  exists (pairs l1), (map Some (pairs l2)). cbv zeta.
  assert (cut_at "?"%char (endpoint ++ str "?" ++ encode_values m) = (endpoint, encode_values m)) as ->.
  { cbn [str list_ascii_of_string app]. apply cut_first, E. }
  cbn [snd]. unfold encode_values. fold l. fold (pairs l).
  change (str "&") with ["&"%char]. rewrite split_join.
  - split.
    + rewrite map_map, El. unfold pairs. rewrite flat_map_app. cbn [flat_map fst snd map app].
      rewrite map_app. cbn [map].
      assert (M : forall x, map (fun x0 => decode_pair (encode_pair x0)) x = map Some x).
      { intros x. apply map_ext. intros a. apply decode_encode. }
      rewrite !M, decode_encode. reflexivity.
    + intros X. rewrite El, map_app in Dl. cbn [map fst] in Dl.
      apply NoDup_remove_2 in Dl. apply Dl. apply in_or_app. left.
      apply in_map_iff in X as ((k' & v') & Ek & X). cbn in Ek. subst k'.
      unfold pairs in X. apply in_flat_map in X as ((k' & vs) & X1 & X2). cbn in X2.
      apply in_map_iff in X2 as (v2 & E2 & _).
      assert (k' = k) by congruence. subst k'. apply in_map_iff. exists (k, vs). split; [reflexivity|exact X1].
  - rewrite El. unfold pairs. rewrite flat_map_app. cbn [flat_map fst snd map app].
    intros X. apply map_eq_nil in X. destruct (flat_map _ l1); discriminate.
  - intros s x X Y. apply in_map_iff in X as (kv & <- & _). apply (encode_clean kv x Y).
Qed.

(** ** The two providers *)

Ltac no_dup := repeat (constructor; [vm_compute; intuition discriminate|]); constructor.

Lemma github_single p redirect state user : single (github_values p redirect state user).
Proof.
  unfold github_values, single. cbv zeta. split.
  - destruct (beqb (gh_login p) []), (gh_scopes p); cbn [map app fst]; no_dup.
  - intros k vs I. apply in_app_or in I as [I|I]; [|apply in_app_or in I as [I|I]].
    + cbn [In] in I. repeat (destruct I as [I|I]; [injection I as <- <-; eexists; reflexivity|]). destruct I.
    + destruct (beqb (gh_login p) []); [destruct I|]. destruct I as [I|[]]. injection I as <- <-. eexists; reflexivity.
    + destruct (gh_scopes p); [destruct I|]. destruct I as [I|[]]. eexists; apply (f_equal snd) in I; symmetry; exact I.
Qed.

Lemma google_single p redirect state user : single (google_values p redirect state user).
Proof.
  unfold google_values, single. cbv zeta. split.
  - destruct (gg_offline p), (beqb (gg_hint p) []), (gg_prompts p); cbn [map app fst]; no_dup.
  - intros k vs I. repeat (apply in_app_or in I as [I|I]).
    + cbn [In] in I. repeat (destruct I as [I|I]; [eexists; apply (f_equal snd) in I; symmetry; exact I|]). destruct I.
    + destruct (gg_offline p); [|destruct I]. destruct I as [I|[]]. eexists; apply (f_equal snd) in I; symmetry; exact I.
    + destruct (beqb (gg_hint p) []); [destruct I|]. destruct I as [I|[]]. eexists; apply (f_equal snd) in I; symmetry; exact I.
    + destruct (gg_prompts p); [destruct I|]. destruct I as [I|[]]. eexists; apply (f_equal snd) in I; symmetry; exact I.
Qed.

Lemma endpoint_clean e : forallb (fun x => negb (Ascii.eqb x "?"%char)) e = true -> forall x, In x e -> x <> "?"%char.
Proof.
  intros H x I -> . rewrite forallb_forall in H. specialize (H _ I). rewrite Ascii.eqb_refl in H. discriminate.
Qed.

(** The query has exactly the values that went in. *)
Lemma encoded_query_iff endpoint m k v : (forall x, In x endpoint -> x <> "?"%char) -> single m ->
  (exists kv, In kv m) ->
  (url_query_has (endpoint ++ str "?" ++ encode_values m) k v <-> In (k, [v]) m).
Proof.
  intros E S NE. split; [|apply encoded_query; assumption].
  intros (before & after & H & _). cbv zeta in H.
  assert (cut_at "?"%char (endpoint ++ str "?" ++ encode_values m) = (endpoint, encode_values m)) as C.
  { cbn [str list_ascii_of_string app]. apply cut_first, E. }
  rewrite C in H. cbn [snd] in H. unfold encode_values in H. change (str "&") with ["&"%char] in H.
  set (pairs := flat_map (fun kv => map (pair (fst kv)) (snd kv)) (sort_keys m)) in H.
  assert (P : Permutation (sort_keys m) m) by apply sort_perm.
  assert (In (k, v) pairs) as I.
  { destruct pairs as [|x0 l0] eqn:Ep.
    - exfalso. destruct NE as ((k' & vs) & NE). destruct S as [_ S]. destruct (S _ _ NE) as (v' & ->).
      assert (In (k', v') pairs) as X; [|rewrite Ep in X; destruct X].
      apply in_flat_map. exists (k', [v']). split; [apply (Permutation_in _ (Permutation_sym P)), NE|left; reflexivity].
    - rewrite <- Ep in H. rewrite split_join in H.
      + rewrite map_map in H. rewrite <- Ep.
        assert (M : map (fun x0 => decode_pair (encode_pair x0)) pairs = map Some pairs).
        { apply map_ext. intros a. apply decode_encode. }
        rewrite M in H.
        assert (In (Some (k, v)) (map Some pairs)) as I by (rewrite H; apply in_or_app; right; left; reflexivity).
        apply in_map_iff in I as (a & Ea & I). injection Ea as ->. exact I.
      + rewrite Ep. discriminate.
      + intros s x X Y. apply in_map_iff in X as (kv & <- & _). apply (encode_clean kv x Y). }
  unfold pairs in I. apply in_flat_map in I as ((k' & vs) & I & J). cbn in J.
  apply (Permutation_in _ P) in I. destruct S as [_ S]. destruct (S _ _ I) as (v' & ->).
  destruct J as [J|[]]. injection J as -> ->. exact I.
Qed.

(** The key is another one. *)
Ltac wrong I := cbn [In] in I; repeat (destruct I as [I|I]; [discriminate I|]); destruct I.
Ltac value I := let X := fresh in assert (X := f_equal snd I); cbn [snd] in X; injection X as <-.

Lemma github_options p redirect state user v : let url := github_initiate_url p redirect state user in
  fst (cut_at "?"%char url) = str "https://github.com/login/oauth/authorize" /\
  (url_query_has url (str "allow_signup") v <-> v = if gh_signup p then str "true" else str "false") /\
  (url_query_has url (str "login") v <-> v <> [] /\ v = gh_login p) /\
  (url_query_has url (str "scope") v <-> gh_scopes p <> [] /\
     v = join (str " ") (gh_scopes p ++ if user then [str "user"] else [])).
Proof.
  cbv zeta. unfold github_initiate_url.
  assert (E : forall x, In x github_endpoint -> x <> "?"%char) by (apply endpoint_clean; vm_compute; reflexivity).
  assert (N : exists kv, In kv (github_values p redirect state user)) by (eexists; left; reflexivity).
  split; [|rewrite !encoded_query_iff by (try exact E; try exact N; apply github_single)].
  { cbn [str list_ascii_of_string app]. rewrite cut_first by exact E. reflexivity. }
  unfold github_values. cbv zeta. rewrite !in_app_iff.
  split; [|split].
  - split.
    + intros [I|[I|I]].
      * cbn [In] in I. repeat (destruct I as [I|I]; [try discriminate I; injection I as <-; reflexivity|]). destruct I.
      * destruct (beqb _ _); wrong I.
      * destruct (gh_scopes p); wrong I.
    + intros ->. left. cbn [In]. right; right; left. reflexivity.
  - split.
    + intros [I|[I|I]].
      * wrong I.
      * destruct (beqb (gh_login p) []) eqn:B; [destruct I|]. destruct I as [I|[]]. injection I as <-.
        split; [|reflexivity]. apply beqb_no in B. exact B.
      * destruct (gh_scopes p); wrong I.
    + intros [V ->]. right. left. apply beqb_no in V. rewrite V. left. reflexivity.
  - split.
    + intros [I|[I|I]].
      * wrong I.
      * destruct (beqb _ _); wrong I.
      * destruct (gh_scopes p) as [|x l] eqn:G; [destruct I|]. rewrite <- G in *. destruct I as [I|[]].
        split; [rewrite G; discriminate|]. assert (X := f_equal snd I). cbn [snd] in X. injection X as <-.
        destruct user; [reflexivity|]. rewrite app_nil_r. reflexivity.
    + intros [G ->]. right. right. destruct (gh_scopes p) as [|x l] eqn:Q; [congruence|]. rewrite <- Q. left.
      destruct user; [reflexivity|]. rewrite app_nil_r. reflexivity.
Qed.

Lemma google_options p redirect state user v : let url := google_initiate_url p redirect state user in
  fst (cut_at "?"%char url) = str "https://accounts.google.com/o/oauth2/v2/auth" /\
  (url_query_has url (str "response_type") v <-> v = str "code") /\
  (url_query_has url (str "include_granted_scopes") v <-> v = if gg_granted p then str "true" else str "false") /\
  (url_query_has url (str "access_type") v <-> gg_offline p = true /\ v = str "offline") /\
  (url_query_has url (str "login_hint") v <-> v <> [] /\ v = gg_hint p) /\
  (url_query_has url (str "prompt") v <-> gg_prompts p <> [] /\ v = join (str " ") (gg_prompts p)) /\
  (url_query_has url (str "scope") v <->
     v = join (str " ") (gg_scopes p ++ if user then [str "openid"; str "https://www.googleapis.com/auth/userinfo.email";
                                                       str "https://www.googleapis.com/auth/userinfo.profile"] else [])).
Proof.
  cbv zeta. unfold google_initiate_url.
  assert (E : forall x, In x google_endpoint -> x <> "?"%char) by (apply endpoint_clean; vm_compute; reflexivity).
  assert (N : exists kv, In kv (google_values p redirect state user)) by (eexists; left; reflexivity).
  split; [|rewrite !encoded_query_iff by (try exact E; try exact N; apply google_single)].
  { cbn [str list_ascii_of_string app]. rewrite cut_first by exact E. reflexivity. }
  unfold google_values. cbv zeta. rewrite !in_app_iff.
  assert (Hint : beqb (gg_hint p) [] = false -> gg_hint p <> []) by apply beqb_no.
  assert (Hint2 : gg_hint p <> [] -> beqb (gg_hint p) [] = false) by apply beqb_no.
  split; [|split; [|split; [|split; [|split]]]]; split.
  - intros [I|[I|[I|I]]]; [|destruct (gg_offline p); wrong I|destruct (beqb _ _); wrong I|destruct (gg_prompts p); wrong I].
    cbn [In] in I. repeat (destruct I as [I|I]; [try discriminate I; value I; reflexivity|]). destruct I.
  - intros ->. left. cbn [In]. tauto.
  - intros [I|[I|[I|I]]]; [|destruct (gg_offline p); wrong I|destruct (beqb _ _); wrong I|destruct (gg_prompts p); wrong I].
    cbn [In] in I. repeat (destruct I as [I|I]; [try discriminate I; value I; reflexivity|]). destruct I.
  - intros ->. left. cbn [In]. unfold format_bool. tauto.
  - intros [I|[I|[I|I]]]; [wrong I| |destruct (beqb _ _); wrong I|destruct (gg_prompts p); wrong I].
    destruct (gg_offline p); [|destruct I]. destruct I as [I|[]]. value I. split; reflexivity.
  - intros [O ->]. right. left. rewrite O. left. reflexivity.
  - intros [I|[I|[I|I]]]; [wrong I|destruct (gg_offline p); wrong I| |destruct (gg_prompts p); wrong I].
    destruct (beqb (gg_hint p) []); [destruct I|]. destruct I as [I|[]]. value I. split; [apply Hint|]; reflexivity.
  - intros [V ->]. right. right. left. rewrite (Hint2 V). left. reflexivity.
  - intros [I|[I|[I|I]]]; [wrong I|destruct (gg_offline p); wrong I|destruct (beqb _ _); wrong I|].
    destruct (gg_prompts p) as [|x l]; [destruct I|]. destruct I as [I|[]]. value I. split; [discriminate|reflexivity].
  - intros [V ->]. right. right. right. destruct (gg_prompts p) as [|x l]; [congruence|]. left. reflexivity.
  - intros [I|[I|[I|I]]]; [|destruct (gg_offline p); wrong I|destruct (beqb _ _); wrong I|destruct (gg_prompts p); wrong I].
    cbn [In] in I. do 3 (destruct I as [I|I]; [discriminate I|]). destruct I as [I|I]; [|wrong I].
    value I. destruct user; [reflexivity|rewrite app_nil_r; reflexivity].
  - intros ->. left. cbn [In]. right; right; right; left. destruct user; [reflexivity|rewrite app_nil_r; reflexivity].
Qed.

Lemma initiate_urls redirect state user :
  (forall p, url_query_has (github_initiate_url p redirect state user) (str "state") state /\
     url_query_has (github_initiate_url p redirect state user) (str "redirect_uri") redirect /\
     url_query_has (github_initiate_url p redirect state user) (str "client_id") (gh_client p)) /\
  (forall p, url_query_has (google_initiate_url p redirect state user) (str "state") state /\
     url_query_has (google_initiate_url p redirect state user) (str "redirect_uri") redirect /\
     url_query_has (google_initiate_url p redirect state user) (str "client_id") (gg_client p)).
Proof.
  split; intros p.
  - assert (E : forall x, In x github_endpoint -> x <> "?"%char) by (apply endpoint_clean; vm_compute; reflexivity).
    assert (S := github_single p redirect state user).
    split; [|split]; apply encoded_query; try assumption; unfold github_values; apply in_or_app; left; cbn [In]; tauto.
  - assert (E : forall x, In x google_endpoint -> x <> "?"%char) by (apply endpoint_clean; vm_compute; reflexivity).
    assert (S := google_single p redirect state user).
    split; [|split]; apply encoded_query; try assumption; unfold google_values; apply in_or_app; left; cbn [In]; tauto.
Qed.

(** ** Scopes *)

Lemma words_join c l : (forall s x, In s l -> In x s -> x <> c) -> l <> [] -> split_on c (join [c] l) = l.
Proof. intros H N. apply split_join; assumption. Qed.

(** All words of the parts are words of the whole. *)
Lemma split_app_in c w : forall a b, In w (split_on c b) -> In w (split_on c (a ++ c :: b)).
Proof.
  induction a as [|x a IH]; intros b I.
  - cbn. rewrite Ascii.eqb_refl. right. exact I.
  - cbn [app split_on]. destruct (Ascii.eqb x c) eqn:E; [right; apply IH, I|].
    specialize (IH b I).
    assert (L : 2 <= List.length (split_on c (a ++ c :: b)) /\ In w (tl (split_on c (a ++ c :: b)))).
    { clear - I. induction a as [|y a IH].
      - cbn. rewrite Ascii.eqb_refl. cbn. split; [destruct (split_on c b); [destruct I|cbn; lia]|exact I].
      - cbn [app split_on]. destruct IH as [L IH]. destruct (Ascii.eqb y c).
        + cbn. split; [lia|]. destruct (split_on c (a ++ c :: b)); [exact IH|right; exact IH].
        + destruct (split_on c (a ++ c :: b)) as [|p ps]; [cbn in L; lia|]. cbn in *. split; [exact L|exact IH]. }
    destruct L as [L W]. destruct (split_on c (a ++ c :: b)) as [|p ps]; [cbn in L; lia|].
    right. exact W.
Qed.

Lemma join_app_in c w : (forall x, In x w -> x <> c) -> forall l, In w (split_on c (join [c] (l ++ [w]))).
Proof.
  intros H. induction l as [|s l IH].
  - cbn [app join]. rewrite split_none by exact H. left. reflexivity.
  - assert (join [c] ((s :: l) ++ [w]) = s ++ c :: join [c] (l ++ [w])) as ->.
    { destruct l; reflexivity. }
    apply split_app_in, IH.
Qed.

Lemma github_user_scope p redirect state : gh_scopes p <> [] ->
  exists v, url_query_has (github_initiate_url p redirect state true) (str "scope") v /\ has_word v (str "user").
Proof.
  intros N. exists (join (str " ") (gh_scopes p ++ github_user_scopes)). split.
  - apply encoded_query; [apply endpoint_clean; vm_compute; reflexivity|apply github_single|].
    unfold github_values. apply in_or_app. right. apply in_or_app. right. destruct (gh_scopes p) as [|x l]; [congruence|].
    left. reflexivity.
  - unfold has_word. change (str " ") with [" "%char]. apply join_app_in.
    intros x I. cbn in I. repeat (destruct I as [<-|I]; [discriminate|]). destruct I.
Qed.

Lemma google_user_scope p redirect state :
  exists v, url_query_has (google_initiate_url p redirect state true) (str "scope") v /\
    forall w, In w google_user_scopes -> has_word v w.
Proof.
  exists (join (str " ") (gg_scopes p ++ google_user_scopes)). split.
  - apply encoded_query; [apply endpoint_clean; vm_compute; reflexivity|apply google_single|].
    unfold google_values. apply in_or_app. left. cbn [In]. tauto.
  - intros w I. unfold has_word. change (str " ") with [" "%char].
    assert (W : forall l, In w (split_on " "%char (join [" "%char] (l ++ google_user_scopes)))).
    { induction l as [|s l IH].
      - cbn [app]. rewrite split_join; [exact I|discriminate|].
        intros s x Is Ix. cbn in Is. repeat (destruct Is as [<-|Is]; [cbn in Ix; repeat (destruct Ix as [<-|Ix]; [discriminate|]); destruct Ix|]). destruct Is.
      - assert (join [" "%char] ((s :: l) ++ google_user_scopes) = s ++ " "%char :: join [" "%char] (l ++ google_user_scopes)) as ->.
        { destruct l; reflexivity. }
        apply split_app_in, IH. }
    apply W.
Qed.

Lemma github_no_scope : exists p redirect state, forall v, ~ url_query_has (github_initiate_url p redirect state true) (str "scope") v.
Proof.
  exists (GitHub (str "id") (str "secret") [] true []), (str "https://shop.example/cb"), (str "abc").
  intros v (before & after & H & _). cbv zeta in H.
  assert (In (Some (str "scope", v)) (map decode_pair
    (split_on "&"%char (snd (cut_at "?"%char (github_initiate_url (GitHub (str "id") (str "secret") [] true []) (str "https://shop.example/cb") (str "abc") true)))))) as I.
  { rewrite H. apply in_or_app. right. left. reflexivity. }
  vm_compute in I. repeat (destruct I as [I|I]; [discriminate I|]). destruct I.
Qed.

Lemma url_case : github_initiate_url (GitHub (str "id") (str "secret") [] true [str "repo"]) (str "https://a.b/c d") (str "x&y") true =
  str "https://github.com/login/oauth/authorize?allow_signup=true&client_id=id&redirect_uri=https%3A%2F%2Fa.b%2Fc+d&scope=repo+user&state=x%26y".
Proof. vm_compute. reflexivity. Qed.
