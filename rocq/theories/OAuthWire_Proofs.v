(** * Proofs about the exchange with OAuth providers. *)
From Coq Require Import List NArith ZArith Ascii String Bool Lia Arith Permutation.
From Verif Require Import GoBase Http_Model Cache_Model Auth_Model Auth_Proofs Mux_Model Csrf_Model Csrf_Spec Chain_Model OAuth_Model OAuth_Spec OAuth_Proofs OAuthUrl_Proofs
  Json_Model JsonErr_Spec JsonErr_Proofs OAuthWire_Model OAuthWire_Spec.
Import ListNotations.
Local Open Scope string_scope.
Local Open Scope list_scope.
Local Open Scope N_scope.

Lemma form_decoded : forall l, l <> [] -> form_pairs (join (str "&") (map encode_pair l)) = map Some l.
Proof.
  intros l N. unfold form_pairs. change (str "&") with ["&"%char]. rewrite split_join.
  - rewrite map_map. apply map_ext. apply decode_encode.
  - intros E. apply map_eq_nil in E. contradiction.
  - intros s x I J. apply in_map_iff in I. destruct I as [kv [<- _]]. exact (encode_clean kv x J).
Qed.

Lemma github_asks : forall p code, asks_github p code (github_token_request p code).
Proof.
  intros p code. split; [reflexivity|]. split; [reflexivity|]. split; [reflexivity|].
  cbn [or_body github_token_request]. 
  change (encode_values [(str "client_id", [gh_client p]); (str "client_secret", [gh_secret p]); (str "code", [code])]) with
    (join (str "&") (map encode_pair [(str "client_id", gh_client p); (str "client_secret", gh_secret p); (str "code", code)])).
  rewrite form_decoded by discriminate. reflexivity.
Qed.

Lemma google_asks : forall p redirect code, asks_google p redirect code (google_token_request p redirect code).
Proof.
  intros p redirect code. split; [reflexivity|]. split; [reflexivity|]. split; [reflexivity|]. split; [reflexivity|]. apply marshal_says.
Qed.

Lemma user_asks : forall url token, asks_user url token (user_request url token).
Proof. intros. repeat split; reflexivity. Qed.

(** GitHub gets neither the redirect URL nor the grant, nor the type of the body. *)
Lemma github_lacks : forall p code r, r = github_token_request p code ->
  hvalues (or_header r) (str "Content-Type") = [] /\
  forall v, ~ form_has (or_body r) (str "redirect_uri") v /\ ~ form_has (or_body r) (str "grant_type") v.
Proof.
  intros p code r ->. split; [reflexivity|]. destruct (github_asks p code) as [_ [_ [_ E]]].
  intros v. unfold form_has. rewrite E. split; intros [H|[H|[H|[]]]]; discriminate.
Qed.

Lemma value_ok_iff : forall v, value_ok v = true <-> header_text v.
Proof.
  intros v. unfold value_ok, header_text. rewrite forallb_forall. split; intros H c I; specialize (H c I).
  - apply orb_true_iff in H. destruct H as [H|H]; [|left; apply N.eqb_eq; exact H].
    apply andb_true_iff in H. destruct H as [A B]. apply N.leb_le in A. apply negb_true_iff, N.eqb_neq in B. auto.
  - apply orb_true_iff. destruct H as [H|[A B]]; [right; apply N.eqb_eq; exact H|left].
    apply andb_true_iff. split; [apply N.leb_le; exact A|apply negb_true_iff, N.eqb_neq; exact B].
Qed.

Lemma user_sendable : forall url token, sendable (user_request url token) = value_ok token.
Proof.
  intros. unfold sendable, user_request. cbn [or_header].
  change (forallb (fun kv => forallb value_ok (snd kv)) [(str "Accept", [str "application/json"]); (str "Authorization", [str "Bearer " ++ token])] = value_ok token).
  cbn [forallb snd]. change (value_ok (str "application/json")) with true. unfold value_ok. rewrite forallb_app.
  change (forallb _ (str "Bearer ")) with true. cbn. rewrite !andb_true_r. reflexivity.
Qed.

Lemma status_ok : forall st, (st / 100 =? 2) = true <-> 200 <= st < 300.
Proof.
  intros st. rewrite N.eqb_eq. split.
  - apply success_status.
  - intros [A B]. symmetry. apply N.div_unique with (r := st - 200); lia.
Qed.

Lemma jstr_some : forall o k v, jstr o k = Some v <-> text_at o k v.
Proof.
  intros o k v. unfold jstr, text_at. destruct (alookup k o) as [[s|z|]|]; split; intros H; try discriminate; congruence.
Qed.
Lemma jstr_none : forall o k, jstr o k = None <-> no_text_at o k.
Proof.
  intros o k. split.
  - intros H v T. apply jstr_some in T. congruence.
  - intros H. destruct (jstr o k) as [v|] eqn:E; [|reflexivity]. apply jstr_some in E. destruct (H v E).
Qed.

(** ** The fields of tokens *)

Lemma split_parts c : forall s, split_on c s <> [] /\ join [c] (split_on c s) = s /\ forall x, In x (split_on c s) -> ~ In c x.
Proof.
  induction s as [|d s (N & J & C)]; [split; [discriminate|split; [reflexivity|intros x [<-|[]] []]]|].
  cbn [split_on]. destruct (Ascii.eqb d c) eqn:E.
  - apply Ascii.eqb_eq in E. subst d. split; [discriminate|]. split.
    + destruct (split_on c s) as [|y l]; [destruct (N eq_refl)|]. cbn [join app]. rewrite <- J. reflexivity.
    + intros x [<-|I]; [intros []|exact (C x I)].
  - apply Ascii.eqb_neq in E. destruct (split_on c s) as [|y l]; [destruct (N eq_refl)|].
    split; [discriminate|]. split.
    + destruct l as [|z l]; cbn [join app] in *; rewrite <- J; reflexivity.
    + intros x [<-|I]; [|exact (C x (or_intror I))]. intros [K|K]; [exact (E K)|exact (C y (or_introl eq_refl) K)].
Qed.
Lemma scopes_iff c : forall o sc, option_map (split_on c) (jstr o (str "scope")) = sc <-> scopes_at c o sc.
Proof.
  intros o sc. unfold scopes_at. split.
  - intros <-. destruct (jstr o (str "scope")) as [s|] eqn:E; cbn [option_map]; [|apply jstr_none; exact E].
    destruct (split_parts c s) as (N & J & C). rewrite J. split; [apply jstr_some; exact E|auto].
  - destruct sc as [l|].
    + intros (T & N & C). apply jstr_some in T. rewrite T. cbn [option_map]. f_equal.
      apply split_join; [exact N|]. intros s x I K ->. exact (C s I K).
    + intros T. apply jstr_none in T. rewrite T. reflexivity.
Qed.
Lemma text_or_iff : forall o k v, match jstr o k with Some n => n | None => [] end = v <-> text_or o k v.
Proof.
  intros o k v. unfold text_or. destruct (jstr o k) as [n|] eqn:E.
  - split; [intros <-; left; apply jstr_some; exact E|]. intros [T|[T _]]; [apply jstr_some in T; congruence|apply jstr_none in T; congruence].
  - split; [intros <-; right; split; [apply jstr_none; exact E|reflexivity]|]. intros [T|[_ ->]]; [apply jstr_some in T; congruence|reflexivity].
Qed.

Lemma number_or_iff : forall o k v, match alookup k o with Some (JvNum z) => z | _ => 0%Z end = v <->
  (alookup k o = Some (JvNum v) \/ (forall z, alookup k o <> Some (JvNum z)) /\ v = 0%Z).
Proof.
  intros o k v. destruct (alookup k o) as [[t|z|]|]; split.
  all: try (intros <-; right; split; [intros z'; discriminate|reflexivity]).
  all: try (intros [E|[_ ->]]; [discriminate|reflexivity]).
  - intros <-. left. reflexivity.
  - intros [E|[N _]]; [injection E as ->; reflexivity|destruct (N z eq_refl)].
Qed.

(** A fetch gives a token exactly if the answer does, with the fields of the answer. *)
Lemma github_fields : forall a t, github_token a = FOk t <-> github_grants a t.
Proof.
  intros a t. split.
  - intros H. destruct a as [| |st o]; try discriminate. cbn [github_token] in H. destruct (st / 100 =? 2) eqn:S; [|discriminate].
    destruct (jstr o (str "access_token")) as [tok|] eqn:A; [|discriminate].
    destruct (jstr o (str "token_type")) as [ty|] eqn:B; [|discriminate]. injection H as <-. cbn [at_token].
    apply status_ok in S. exists o. split; [exists st; auto|]. split; [apply jstr_some; exact A|]. split; [apply jstr_some; exact B|].
    split; [apply scopes_iff; reflexivity|]. split; reflexivity.
  - intros (o & (st & -> & S) & A & B & C & D & E). apply status_ok in S. apply jstr_some in A, B. apply scopes_iff in C.
    cbn [github_token]. rewrite S, A, B, C. destruct t. cbn in *. subst. reflexivity.
Qed.
Lemma google_fields : forall a t, google_token a = FOk t <-> google_grants a t.
Proof.
  intros a t. split.
  - intros H. destruct a as [| |st o]; try discriminate. cbn [google_token] in H. destruct (st / 100 =? 2) eqn:S; [|discriminate].
    destruct (jstr o (str "access_token")) as [tok|] eqn:A; [|discriminate].
    destruct (jstr o (str "token_type")) as [ty|] eqn:B; [|discriminate]. injection H as <-. cbn [at_token].
    apply status_ok in S. exists o. split; [exists st; auto|]. split; [apply jstr_some; exact A|]. split; [apply jstr_some; exact B|].
    split; [apply scopes_iff; reflexivity|]. split; [apply text_or_iff; reflexivity|]. apply number_or_iff. reflexivity.
  - intros (o & (st & -> & S) & A & B & C & D & E). apply status_ok in S. apply jstr_some in A, B. apply scopes_iff in C. apply text_or_iff in D.
    cbn [google_token]. rewrite S, A, B, C, D.
    apply number_or_iff in E. rewrite E. destruct t. reflexivity.
Qed.
Lemma token_fields : forall a t, (github_token a = FOk t <-> github_grants a t) /\ (google_token a = FOk t <-> google_grants a t).
Proof. intros a t. split; [apply github_fields|apply google_fields]. Qed.

(** No scope is one scope. *)
Lemma empty_scope : forall a o tok ty, success a o -> text_at o (str "access_token") tok -> text_at o (str "token_type") ty ->
  text_at o (str "scope") [] ->
  (exists t, github_token a = FOk t /\ at_scopes t = Some [[]]) /\ (exists t, google_token a = FOk t /\ at_scopes t = Some [[]]).
Proof.
  intros a o tok ty [st [-> S]] A B C. apply status_ok in S. apply jstr_some in A, B, C.
  split; eexists; cbn [github_token google_token]; rewrite S, A, B, C; split; reflexivity.
Qed.

(** ** Users *)

Lemma user_named : forall platform idkey a u, provider_user platform idkey a = FOk u <-> names_user platform idkey a u.
Proof.
  intros platform idkey a u. split.
  - intros H. destruct a as [| |st o]; try discriminate. cbn [provider_user] in H. destruct (st / 100 =? 2) eqn:S; [|discriminate].
    apply status_ok in S. exists o. split; [exists st; auto|].
    destruct (jstr o (str "email")) as [e|] eqn:Em; [|destruct (jstr o idkey) as [i|] eqn:Id; [|discriminate]];
      injection H as <-; cbn [us_id us_name us_platform us_groups]; (split; [|split; [apply text_or_iff; reflexivity|split; reflexivity]]).
    + left. apply jstr_some. exact Em.
    + right. split; [apply jstr_none; exact Em|apply jstr_some; exact Id].
  - intros (o & (st & -> & S) & H & N & P & G). apply status_ok in S. apply text_or_iff in N. cbn [provider_user]. rewrite S, N.
    destruct u as [i n pl g]. cbn in *. subst pl g. destruct H as [H|[K H]].
    + apply jstr_some in H. rewrite H. reflexivity.
    + apply jstr_none in K. apply jstr_some in H. rewrite K, H. reflexivity.
Qed.

(** An empty email hides the account. *)
Lemma empty_id : forall platform idkey o st login, 200 <= st < 300 -> text_at o (str "email") [] -> text_at o idkey login ->
  exists u, provider_user platform idkey (Answer st o) = FOk u /\ us_id u = [].
Proof.
  intros platform idkey o st login S E L. apply status_ok in S. apply jstr_some in E. cbn [provider_user]. rewrite S, E.
  eexists. split; reflexivity.
Qed.

(** ** The exchange *)

Section Exchange.
Variable World : Type.
Variable ask : outreq -> World -> answer * World.

(** The user for a token. *)
Lemma fetch_user_asks : forall url token w, header_text token ->
  exists r, asks_user url token r /\ send ask (user_request url token) w = ask r w.
Proof.
  intros url token w H. exists (user_request url token). split; [apply user_asks|].
  unfold send. rewrite user_sendable, (proj2 (value_ok_iff token) H). reflexivity.
Qed.
Lemma fetch_user_refused : forall url token w, ~ header_text token -> send ask (user_request url token) w = (NoAnswer, w).
Proof.
  intros url token w H. unfold send. rewrite user_sendable. destruct (value_ok token) eqn:V; [|reflexivity].
  apply value_ok_iff in V. contradiction.
Qed.

Lemma bearer_only_github : forall p c token w,
  (header_text (at_token token) -> exists r, asks_user (str "https://api.github.com/user") (at_token token) r /\
     snd (pv_user (github_provider ask p) c token w) = snd (ask r w)) /\
  (~ header_text (at_token token) -> exists e, pv_user (github_provider ask p) c token w = (FErr e, w)).
Proof.
  intros p c token w. split; intros H; cbn [pv_user github_provider].
  - destruct (fetch_user_asks github_user_endpoint (at_token token) w H) as [r [A E]]. exists r. split; [exact A|]. rewrite E.
    destruct (ask r w). reflexivity.
  - rewrite (fetch_user_refused _ _ _ H). eexists. reflexivity.
Qed.
Lemma bearer_only_google : forall p c token w,
  (header_text (at_token token) -> exists r, asks_user (str "https://www.googleapis.com/oauth2/v1/userinfo") (at_token token) r /\
     snd (pv_user (google_provider ask p) c token w) = snd (ask r w)) /\
  (~ header_text (at_token token) -> exists e, pv_user (google_provider ask p) c token w = (FErr e, w)).
Proof.
  intros p c token w. split; intros H; cbn [pv_user google_provider].
  - destruct (fetch_user_asks google_user_endpoint (at_token token) w H) as [r [A E]]. exists r. split; [exact A|]. rewrite E.
    destruct (ask r w). reflexivity.
  - rewrite (fetch_user_refused _ _ _ H). eexists. reflexivity.
Qed.

Lemma named_user : forall platform idkey url token w u w',
  (let (a, w1) := send ask (user_request url token) w in (provider_user platform idkey a, w1)) = (FOk u, w') <->
  header_text token /\ exists a, ask (user_request url token) w = (a, w') /\ names_user platform idkey a u.
Proof.
  intros platform idkey url token w u w'. split.
  - intros H. unfold send in H. rewrite user_sendable in H. destruct (value_ok token) eqn:V; [|discriminate].
    split; [apply value_ok_iff; exact V|]. destruct (ask (user_request url token) w) as [a w1].
    injection H as P <-. exists a. split; [reflexivity|]. apply user_named. exact P.
  - intros [T [a [E N]]]. apply value_ok_iff in T. unfold send. rewrite user_sendable, T, E.
    apply user_named in N. rewrite N. reflexivity.
Qed.

Lemma github_sendable : forall p code, sendable (github_token_request p code) = true.
Proof. reflexivity. Qed.
Lemma google_sendable : forall p redirect code, sendable (google_token_request p redirect code) = true.
Proof. reflexivity. Qed.

(** What the application sees is what the provider said. *)
Lemma github_exchanged : forall (cfg : oconfig World) prefix base c q p w c' w',
  completes cfg prefix base c q (github_provider ask p) w c' w' ->
  exchanged ask (asks_github p) github_grants (str "https://api.github.com/user") (names_user (str "github") (str "login")) (oc_fetch_user cfg) c q w c' w'.
Proof.
  intros cfg prefix base c q p w c' w' [code [tok [w1 [Q [T R]]]]].
  cbn [pv_token github_provider] in T. unfold send in T. rewrite github_sendable in T.
  destruct (ask (github_token_request p code) w) as [a1 w2] eqn:A. injection T as T <-.
  exists code, (github_token_request p code), a1, w2, tok. split; [exact Q|]. split; [apply github_asks|]. split; [exact A|].
  split; [apply github_fields; exact T|]. destruct R as [[F [-> ->]]|[F [u [U ->]]]]; [left; auto|right].
  split; [exact F|]. cbn [pv_user github_provider] in U. apply named_user in U. destruct U as [H [a [E N]]].
  split; [exact H|]. exists (user_request github_user_endpoint (at_token tok)), a, u. split; [apply user_asks|]. auto.
Qed.
Lemma google_exchanged : forall (cfg : oconfig World) prefix base c q p w c' w',
  completes cfg prefix base c q (google_provider ask p) w c' w' ->
  exchanged ask (asks_google p (oc_website cfg ++ resolve_path prefix base ++ str "/google")) google_grants (str "https://www.googleapis.com/oauth2/v1/userinfo") (names_user (str "google") (str "id")) (oc_fetch_user cfg) c q w c' w'.
Proof.
  intros cfg prefix base c q p w c' w' [code [tok [w1 [Q [T R]]]]].
  cbn [pv_token google_provider pv_name] in T. unfold send in T. rewrite google_sendable in T.
  set (url := oc_website cfg ++ resolve_path prefix base ++ str "/" ++ str "google") in T.
  destruct (ask (google_token_request p url code) w) as [a1 w2] eqn:A. injection T as T <-.
  exists code, (google_token_request p url code), a1, w2, tok. split; [exact Q|]. split; [apply google_asks|]. split; [exact A|].
  split; [apply google_fields; exact T|]. destruct R as [[F [-> ->]]|[F [u [U ->]]]]; [left; auto|right].
  split; [exact F|]. cbn [pv_user google_provider] in U. apply named_user in U. destruct U as [H [a [E N]]].
  split; [exact H|]. exists (user_request google_user_endpoint (at_token tok)), a, u. split; [apply user_asks|]. auto.
Qed.

(** A provider that answers the right requests completes the callback. *)
Lemma github_completes : forall (cfg : oconfig World) prefix base c q p w code a1 w1 tok a2 w2 u,
  query_value q (str "code") code ->
  (forall r, asks_github p code r -> ask r w = (a1, w1)) -> github_grants a1 tok ->
  (oc_fetch_user cfg = false -> completes cfg prefix base c q (github_provider ask p) w (with_token c tok) w1) /\
  (oc_fetch_user cfg = true -> header_text (at_token tok) ->
   (forall r, asks_user (str "https://api.github.com/user") (at_token tok) r -> ask r w1 = (a2, w2)) ->
   names_user (str "github") (str "login") a2 u ->
   completes cfg prefix base c q (github_provider ask p) w (with_principal (with_token c tok) (user_principal u)) w2).
Proof.
  intros cfg prefix base c q p w code a1 w1 tok a2 w2 u Q A G. apply github_fields in G.
  assert (T : forall url, pv_token (github_provider ask p) c url code w = (FOk tok, w1)).
  { intros url. cbn [pv_token github_provider]. unfold send. rewrite github_sendable, (A _ (github_asks p code)), G. reflexivity. }
  split; intros F.
  - exists code, tok, w1. split; [exact Q|]. split; [apply T|left; auto].
  - intros H U N. exists code, tok, w1. split; [exact Q|]. split; [apply T|right]. split; [exact F|].
    exists u. split; [|reflexivity]. cbn [pv_user github_provider]. apply named_user. split; [exact H|].
    exists a2. split; [apply U, user_asks|exact N].
Qed.
Lemma google_completes : forall (cfg : oconfig World) prefix base c q p w code a1 w1 tok a2 w2 u,
  query_value q (str "code") code ->
  (forall r, asks_google p (oc_website cfg ++ resolve_path prefix base ++ str "/google") code r -> ask r w = (a1, w1)) -> google_grants a1 tok ->
  (oc_fetch_user cfg = false -> completes cfg prefix base c q (google_provider ask p) w (with_token c tok) w1) /\
  (oc_fetch_user cfg = true -> header_text (at_token tok) ->
   (forall r, asks_user (str "https://www.googleapis.com/oauth2/v1/userinfo") (at_token tok) r -> ask r w1 = (a2, w2)) ->
   names_user (str "google") (str "id") a2 u ->
   completes cfg prefix base c q (google_provider ask p) w (with_principal (with_token c tok) (user_principal u)) w2).
Proof.
  intros cfg prefix base c q p w code a1 w1 tok a2 w2 u Q A G. apply google_fields in G.
  assert (T : pv_token (google_provider ask p) c (oc_website cfg ++ resolve_path prefix base ++ str "/" ++ pv_name (google_provider ask p)) code w = (FOk tok, w1)).
  { cbn [pv_token google_provider pv_name]. unfold send. rewrite google_sendable. change (str "/" ++ str "google") with (str "/google").
    rewrite (A _ (google_asks p _ code)), G. reflexivity. }
  split; intros F.
  - exists code, tok, w1. split; [exact Q|]. split; [exact T|left; auto].
  - intros H U N. exists code, tok, w1. split; [exact Q|]. split; [exact T|right]. split; [exact F|].
    exists u. split; [|reflexivity]. cbn [pv_user google_provider]. apply named_user. split; [exact H|].
    exists a2. split; [apply U, user_asks|exact N].
Qed.
End Exchange.

(** ** The properties *)

Lemma redirect_missing : ~ (forall p code, exists v, form_has (or_body (github_token_request p code)) (str "redirect_uri") v) /\
  forall p code, hvalues (or_header (github_token_request p code)) (str "Content-Type") = [] /\
    forall v, ~ form_has (or_body (github_token_request p code)) (str "redirect_uri") v /\
              ~ form_has (or_body (github_token_request p code)) (str "grant_type") v.
Proof.
  split.
  - intros H. destruct (H (GitHub [] [] [] false []) []) as [v F].
    exact (proj1 (proj2 (github_lacks _ _ _ eq_refl) v) F).
  - intros p code. exact (github_lacks p code _ eq_refl).
Qed.

Lemma token_requests : forall (World : Type) (ask : outreq -> World -> answer * World) gp qp c redirect code w,
  (exists r, asks_github gp code r /\ snd (pv_token (github_provider ask gp) c redirect code w) = snd (ask r w)) /\
  (exists r, asks_google qp redirect code r /\ snd (pv_token (google_provider ask qp) c redirect code w) = snd (ask r w)).
Proof.
  intros World ask gp qp c redirect code w. split.
  - exists (github_token_request gp code). split; [apply github_asks|]. cbn [pv_token github_provider]. unfold send.
    rewrite github_sendable. destruct (ask _ w). reflexivity.
  - exists (google_token_request qp redirect code). split; [apply google_asks|]. cbn [pv_token google_provider]. unfold send.
    rewrite google_sendable. destruct (ask _ w). reflexivity.
Qed.

Lemma user_requests : forall (World : Type) (ask : outreq -> World -> answer * World) gp qp c token w,
  (header_text (at_token token) ->
     (exists r, asks_user (str "https://api.github.com/user") (at_token token) r /\ snd (pv_user (github_provider ask gp) c token w) = snd (ask r w)) /\
     (exists r, asks_user (str "https://www.googleapis.com/oauth2/v1/userinfo") (at_token token) r /\ snd (pv_user (google_provider ask qp) c token w) = snd (ask r w))) /\
  (~ header_text (at_token token) ->
     (exists e, pv_user (github_provider ask gp) c token w = (FErr e, w)) /\ (exists e, pv_user (google_provider ask qp) c token w = (FErr e, w))).
Proof.
  intros World ask gp qp c token w. destruct (bearer_only_github World ask gp c token w) as [A B].
  destruct (bearer_only_google World ask qp c token w) as [C D]. auto.
Qed.

(** Two accounts with empty emails are the same. *)
Lemma accounts_merge : exists a b login1 login2, login1 <> login2 /\
  (exists o, success a o /\ text_at o (str "login") login1) /\ (exists o, success b o /\ text_at o (str "login") login2) /\
  forall (World : Type) (ask : outreq -> World -> answer * World) p c token w1 w2 w1' w2', header_text (at_token token) ->
    (forall r, ask r w1 = (a, w1')) -> (forall r, ask r w2 = (b, w2')) ->
    exists u v, fst (pv_user (github_provider ask p) c token w1) = FOk u /\ fst (pv_user (github_provider ask p) c token w2) = FOk v /\
      pr_id (user_principal u) = [] /\ pr_id (user_principal v) = [].
Proof.
  exists (Answer 200 [(str "email", JvStr []); (str "login", JvStr (str "ann"))]), (Answer 200 [(str "email", JvStr []); (str "login", JvStr (str "bob"))]).
  exists (str "ann"), (str "bob"). split; [discriminate|].
  split; [eexists; split; [exists 200; split; [reflexivity|lia]|reflexivity]|].
  split; [eexists; split; [exists 200; split; [reflexivity|lia]|reflexivity]|].
  intros World ask p c token w1 w2 w1' w2' T A B. apply value_ok_iff in T. exists (User [] [] (str "github") []), (User [] [] (str "github") []).
  cbn [pv_user github_provider]. unfold send. rewrite user_sendable, T, A, B. repeat split; reflexivity.
Qed.

(** An email at one provider is the identity at the other. *)
Lemma providers_merge : forall (World : Type) (ask : outreq -> World -> answer * World) gp qp c t1 t2 w1 a1 w1' w2 a2 w2' u v,
  header_text (at_token t1) -> header_text (at_token t2) ->
  (forall r, asks_user (str "https://api.github.com/user") (at_token t1) r -> ask r w1 = (a1, w1')) ->
  (forall r, asks_user (str "https://www.googleapis.com/oauth2/v1/userinfo") (at_token t2) r -> ask r w2 = (a2, w2')) ->
  names_user (str "github") (str "login") a1 u -> names_user (str "google") (str "id") a2 v -> us_id u = us_id v ->
  fst (pv_user (github_provider ask gp) c t1 w1) = FOk u /\ fst (pv_user (google_provider ask qp) c t2 w2) = FOk v /\
    pr_id (user_principal u) = pr_id (user_principal v) /\ forall p, pr_has (user_principal u) p = pr_has (user_principal v) p.
Proof.
  intros World ask gp qp c t1 t2 w1 a1 w1' w2 a2 w2' u v T1 T2 A1 A2 N1 N2 E.
  assert (E1 : pv_user (github_provider ask gp) c t1 w1 = (FOk u, w1')).
  { cbn [pv_user github_provider]. apply named_user. split; [exact T1|]. exists a1. split; [apply A1, user_asks|exact N1]. }
  assert (E2 : pv_user (google_provider ask qp) c t2 w2 = (FOk v, w2')).
  { cbn [pv_user google_provider]. apply named_user. split; [exact T2|]. exists a2. split; [apply A2, user_asks|exact N2]. }
  rewrite E1, E2. split; [reflexivity|]. split; [reflexivity|]. split; [exact E|].
  destruct N1 as (_ & _ & _ & _ & _ & G1), N2 as (_ & _ & _ & _ & _ & G2). intros p. cbn [pr_has user_principal]. unfold user_has. rewrite G1, G2. reflexivity.
Qed.

Lemma identity_named : forall platform idkey a u, provider_user platform idkey a = FOk u <-> names_user platform idkey a u.
Proof. exact user_named. Qed.

(** After any history a callback shows the application what the provider said for its
    code, or nothing runs. *)
Lemma callback_exchanged : forall (World Resp : Type) (ask : outreq -> World -> answer * World) gp qp (cfg : oconfig World) prefix base
    (h0 : handler oreq (oresp Resp) World) c w qs q,
  oc_providers cfg = [github_provider ask gp; google_provider ask qp] -> oq_initiate q = false ->
  let cw := fst (serve_in_turn (oauth_endpoints cfg prefix base (beside_cache h0)) c qs (new_cache, w)) in
  (exists c' w',
     (oq_provider_var q = str "github" /\
        exchanged ask (asks_github gp) github_grants (str "https://api.github.com/user") (names_user (str "github") (str "login")) (oc_fetch_user cfg) c q (snd cw) c' w' \/
      oq_provider_var q = str "google" /\
        exchanged ask (asks_google qp (oc_website cfg ++ resolve_path prefix base ++ str "/google")) google_grants
          (str "https://www.googleapis.com/oauth2/v1/userinfo") (names_user (str "google") (str "id")) (oc_fetch_user cfg) c q (snd cw) c' w') /\
     forall h : handler oreq (oresp Resp) (cache * World), oauth_endpoints cfg prefix base h c q cw = h c' q (fst cw, w')) \/
  (exists o w', ((exists e, o = HReturn None (Some e)) \/ (exists v, o = HPanic v)) /\
     forall h : handler oreq (oresp Resp) (cache * World), oauth_endpoints cfg prefix base h c q cw = (o, (fst cw, w'))).
Proof.
  intros World Resp ask gp qp cfg prefix base h0 c w qs q P I cw.
  destruct (@callback_cases World Resp cfg prefix base h0 c w qs q I) as [[p [c' [w' [O [D H]]]]]|[_ R]]; [left|right; exact R].
  exists c', w'. split; [|exact H]. destruct O as [[b [a [E [N _]]]] _]. rewrite P in E.
  assert (M : In p [github_provider ask gp; google_provider ask qp]) by (rewrite E; apply in_or_app; right; left; reflexivity).
  destruct M as [<-|[<-|[]]].
  - left. split; [symmetry; exact N|apply github_exchanged in D; exact D].
  - right. split; [symmetry; exact N|apply google_exchanged in D; exact D].
Qed.

(** ** Cases *)

(** The other side: remembers the bodies and the authorization, hands out a token and names a user. *)
Definition demo_ask (r : outreq) (w : list bytes) : answer * list bytes :=
  (if beqb (or_method r) (str "POST") then
     Answer 200 [(str "access_token", JvStr (str "t0ken")); (str "token_type", JvStr (str "bearer")); (str "scope", JvStr (str "repo,user"));
                 (str "expires_in", JvNum 3600)]
   else Answer 200 [(str "login", JvStr (str "ann")); (str "email", JvOther); (str "name", JvStr (str "Ann"))],
   w ++ or_body r :: hvalues (or_header r) (str "Authorization")).
Definition demo_github : github := GitHub (str "shop") (str "s&c=t") [] true [].
Definition demo_google : google := Google (str "shop") (str "s""t") [] false false [] [].
Definition wire_config : oconfig (list bytes) :=
  OConfig (str "https://shop.example") true [github_provider demo_ask demo_github; google_provider demo_ask demo_google] true 100.
Definition wire_handler : handler oreq (oresp (option access_token * option (bytes * gval))) (list bytes) :=
  fun c q w => (HReturn (Some (OAnswer (cx_token c, option_map (fun u => (pr_id u, pr_value u)) (cx_principal c)))) None, w).
Definition wire_start : oreq := OReq true [] [(str "provider", [str "github"])] 0 (fun i => N.of_nat i).

Lemma wire_case :
  let run := serve_in_turn (oauth_endpoints wire_config [] (str "/oauth/authorize") (beside_cache wire_handler)) (Ctx None None None)
    [wire_start; demo_callback 10 (str "a b")] (new_cache, []) in
  snd (fst run) = [str "client_id=shop&client_secret=s%26c%3Dt&code=a+b"; []; str "Bearer t0ken"] /\
  List.nth 1 (snd run) (HPanic None) = HReturn (Some (OAnswer
    (Some (AccessToken (str "t0ken") (str "bearer") (Some [str "repo"; str "user"]) [] 0),
     Some (str "ann", GStruct [(str "Id", GStr (str "ann")); (str "Name", GStr (str "Ann")); (str "IdentityPlatform", GStr (str "github"));
                               (str "Groups", GNil); (str "Attachment", GNil)])))) None.
Proof. vm_compute. split; reflexivity. Qed.

Lemma google_body_case : or_body (google_token_request demo_google (str "https://shop.example/oauth/authorize/google") (str "4/P7q")) =
  str "{""client_id"":""shop"",""client_secret"":""s\""t"",""code"":""4/P7q"",""grant_type"":""authorization_code"",""redirect_uri"":""https://shop.example/oauth/authorize/google""}".
Proof. vm_compute. reflexivity. Qed.

(** A token that would add a header is not sent. *)
Lemma token_case : header_text (str "t0ken") /\ ~ header_text (str "t0ken" ++ [ascii_of_N 13; ascii_of_N 10] ++ str "X: y").
Proof.
  split.
  - apply value_ok_iff. reflexivity.
  - intros H. apply value_ok_iff in H. discriminate.
Qed.

Lemma fields_case :
  let o := [(str "access_token", JvStr (str "t0ken")); (str "token_type", JvStr (str "bearer")); (str "scope", JvStr (str "repo,user"));
            (str "expires_in", JvNum 3600)] in
  success (Answer 200 o) o /\ text_at o (str "access_token") (str "t0ken") /\ text_at o (str "token_type") (str "bearer") /\
  text_at o (str "scope") (join (str ",") [str "repo"; str "user"]) /\
  github_grants (Answer 200 o) (AccessToken (str "t0ken") (str "bearer") (Some [str "repo"; str "user"]) [] 0) /\
  google_grants (Answer 200 o) (AccessToken (str "t0ken") (str "bearer") (Some [str "repo,user"]) [] 3600).
Proof.
  cbv zeta. split; [exists 200; split; [reflexivity|lia]|]. split; [reflexivity|]. split; [reflexivity|]. split; [reflexivity|].
  split; [apply github_fields; reflexivity|apply google_fields; reflexivity].
Qed.

(** An answer without scopes. *)
Lemma scope_case : let o := [(str "access_token", JvStr (str "t0ken")); (str "token_type", JvStr (str "bearer")); (str "scope", JvStr [])] in
  success (Answer 200 o) o /\ text_at o (str "access_token") (str "t0ken") /\ text_at o (str "token_type") (str "bearer") /\ text_at o (str "scope") [].
Proof. cbv zeta. split; [exists 200; split; [reflexivity|lia]|]. repeat split; reflexivity. Qed.

(** An answer with an email, and one with a login. *)
Lemma named_case :
  names_user (str "github") (str "login") (Answer 200 [(str "login", JvStr (str "ann")); (str "email", JvStr (str "ann@shop.example"))])
    (User (str "ann@shop.example") [] (str "github") []) /\
  names_user (str "google") (str "id") (Answer 200 [(str "id", JvStr (str "7")); (str "email", JvStr (str "ann@shop.example")); (str "name", JvStr (str "Ann"))])
    (User (str "ann@shop.example") (str "Ann") (str "google") []) /\
  names_user (str "github") (str "login") (Answer 201 [(str "login", JvStr (str "ann")); (str "email", JvOther)]) (User (str "ann") [] (str "github") []).
Proof. split; [|split]; apply user_named; reflexivity. Qed.

(** If the provider answers the right requests the callback completes. *)
Lemma answers_complete : forall (World : Type) (ask : outreq -> World -> answer * World) (cfg : oconfig World) prefix base c q gp qp w code a1 w1 tok a2 w2 u,
  query_value q (str "code") code -> header_text (at_token tok) ->
  ((forall r, asks_github gp code r -> ask r w = (a1, w1)) -> github_grants a1 tok ->
   (oc_fetch_user cfg = false -> completes cfg prefix base c q (github_provider ask gp) w (with_token c tok) w1) /\
   (oc_fetch_user cfg = true -> (forall r, asks_user (str "https://api.github.com/user") (at_token tok) r -> ask r w1 = (a2, w2)) ->
    names_user (str "github") (str "login") a2 u ->
    completes cfg prefix base c q (github_provider ask gp) w (with_principal (with_token c tok) (user_principal u)) w2)) /\
  ((forall r, asks_google qp (oc_website cfg ++ resolve_path prefix base ++ str "/google") code r -> ask r w = (a1, w1)) -> google_grants a1 tok ->
   (oc_fetch_user cfg = false -> completes cfg prefix base c q (google_provider ask qp) w (with_token c tok) w1) /\
   (oc_fetch_user cfg = true -> (forall r, asks_user (str "https://www.googleapis.com/oauth2/v1/userinfo") (at_token tok) r -> ask r w1 = (a2, w2)) ->
    names_user (str "google") (str "id") a2 u ->
    completes cfg prefix base c q (google_provider ask qp) w (with_principal (with_token c tok) (user_principal u)) w2)).
Proof.
  intros World ask cfg prefix base c q gp qp w code a1 w1 tok a2 w2 u Q T. split; intros A G.
  - destruct (github_completes World ask cfg prefix base c q gp w code a1 w1 tok a2 w2 u Q A G) as [X Y]. split; [exact X|]. intros F. exact (Y F T).
  - destruct (google_completes World ask cfg prefix base c q qp w code a1 w1 tok a2 w2 u Q A G) as [X Y]. split; [exact X|]. intros F. exact (Y F T).
Qed.

(** Which answers make the providers panic. *)
Lemma success_iff : forall st, st / 100 = 2 <-> 200 <= st < 300.
Proof.
  intros st. pose proof (N.div_mod st 100 ltac:(discriminate)) as D. pose proof (N.mod_lt st 100 ltac:(discriminate)) as M.
  set (m := st mod 100) in *. set (d := st / 100) in *. clearbody m d. lia.
Qed.
Lemma no_text_iff : forall o k, no_text_at o k <-> jstr o k = None.
Proof.
  intros o k. unfold no_text_at, text_at, jstr. destruct (alookup k o) as [[s| |]|]; split; intros H; try reflexivity; try discriminate; try (intros v E; discriminate).
  exfalso. exact (H s eq_refl).
Qed.
Lemma wire_panics : forall a,
  (github_token a = FPanic <-> exists o, success a o /\ (no_text_at o (str "access_token") \/ no_text_at o (str "token_type"))) /\
  (google_token a = FPanic <-> exists o, success a o /\ (no_text_at o (str "access_token") \/ no_text_at o (str "token_type"))) /\
  (forall platform idkey, provider_user platform idkey a = FPanic <-> exists o, success a o /\ no_text_at o (str "email") /\ no_text_at o idkey).
Proof.
  intros a. destruct a as [| |st o].
  1-2: split; [|split; [|intros platform idkey]]; split; intros H; try discriminate H; destruct H as (o & (st & E & _) & _); discriminate E.
  unfold github_token, google_token, provider_user. pose proof (success_iff st) as S. destruct (N.eqb_spec (st / 100) 2) as [E|E].
  - apply S in E. clear S. split; [|split; [|intros platform idkey]].
    1-2: split; intros H;
      [exists o; split; [exists st; auto|]; rewrite !no_text_iff; destruct (jstr o (str "access_token")); [destruct (jstr o (str "token_type")); [discriminate H|right; reflexivity]|left; reflexivity]
      |destruct H as (o' & (st' & E' & _) & H); injection E' as <- <-; rewrite !no_text_iff in H; destruct H as [-> | ->]; [reflexivity|destruct (jstr o (str "access_token")); reflexivity]].
    split; intros H.
    + exists o. split; [exists st; auto|]. rewrite !no_text_iff. destruct (jstr o (str "email")); [discriminate H|]. destruct (jstr o idkey); [discriminate H|]. auto.
    + destruct H as (o' & (st' & E' & _) & H). injection E' as <- <-. rewrite !no_text_iff in H. destruct H as [-> ->]. reflexivity.
  - assert (N : forall o', ~ success (Answer st o) o') by (intros o' (st' & E' & R); injection E' as <- <-; apply E, S; exact R).
    split; [|split; [|intros platform idkey]]; split; intros H; try discriminate H; destruct H as (o' & H & _); exfalso; exact (N o' H).
Qed.
Lemma wire_panics_case : let a := Answer 200 [(str "error", JvStr (str "bad_verification_code"))] in
  github_token a = FPanic /\ success a [(str "error", JvStr (str "bad_verification_code"))].
Proof. split; [reflexivity|]. eexists. split; [reflexivity|]. split; [discriminate|reflexivity]. Qed.

(** What GitHub answers for a wrong code, and an answer with a number as id. *)
Lemma error_answer_panics : exists a o, success a o /\ text_at o (str "error") (str "bad_verification_code") /\ github_token a = FPanic.
Proof.
  exists (Answer 200 [(str "error", JvStr (str "bad_verification_code"))]). eexists. split; [eexists; split; [reflexivity|split; [discriminate|reflexivity]]|].
  split; reflexivity.
Qed.
Lemma numeric_id_panics : exists a o, success a o /\ alookup (str "id") o = Some (JvNum 7) /\ provider_user (str "google") (str "id") a = FPanic.
Proof.
  exists (Answer 200 [(str "id", JvNum 7)]). eexists. split; [eexists; split; [reflexivity|split; [discriminate|reflexivity]]|].
  split; reflexivity.
Qed.
