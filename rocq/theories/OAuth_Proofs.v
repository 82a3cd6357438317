(** * Proofs about the OAuth endpoints. *)
From Coq Require Import List NArith ZArith Ascii String Bool Arith Lia.
From Verif Require Import GoBase Http_Model Cache_Model Auth_Model Auth_Proofs Mux_Model Csrf_Model Csrf_Spec Csrf_Proofs Chain_Model OAuth_Model OAuth_Spec.
Import ListNotations.
Local Open Scope string_scope.
Local Open Scope list_scope.
Local Open Scope nat_scope.

(** ** Identifiers *)

Lemma unique_id_length : forall n rnd, List.length (generate_unique_id n rnd) = n.
Proof. induction n as [|n IH]; intros rnd; [reflexivity|]. cbn [generate_unique_id List.length]. rewrite IH. reflexivity. Qed.

Lemma unique_id_alphabet : forall n rnd c, In c (generate_unique_id n rnd) -> In c (str "abcdefghijklmnopqrstuvwxyz0123456789").
Proof.
  assert (A : forall c, In c rand_letters -> In c (str "abcdefghijklmnopqrstuvwxyz0123456789")).
  { intros c I. cbn in I. repeat (destruct I as [<-|I]; [vm_compute; tauto|]). destruct I. }
  induction n as [|n IH]; intros rnd c I; [destruct I|].
  cbn [generate_unique_id] in I. destruct I as [<-|I]; [|exact (IH _ _ I)].
  apply A. apply nth_In.
  assert (N.lt (rnd O mod blen rand_letters)%N (blen rand_letters)) as L by (apply N.mod_lt; discriminate).
  unfold blen in *. lia.
Qed.

Lemma unique_ids n rnd :
  List.length (generate_unique_id n rnd) = n /\
  forall c, In c (generate_unique_id n rnd) -> In c (str "abcdefghijklmnopqrstuvwxyz0123456789").
Proof. split; [apply unique_id_length|apply unique_id_alphabet]. Qed.

(** All identifiers are possible. *)
Lemma every_id_possible s : (forall c, In c s -> In c (str "abcdefghijklmnopqrstuvwxyz0123456789")) ->
  exists rnd, (forall i, (rnd i < 36)%N) /\ generate_unique_id (List.length s) rnd = s.
Proof.
  assert (L : forall c, In c (str "abcdefghijklmnopqrstuvwxyz0123456789") ->
    exists r, (r < 36)%N /\ nth (N.to_nat (r mod blen rand_letters)) rand_letters "?"%char = c).
  { intros c I. cbn in I.
    repeat (destruct I as [<-|I]; [
      match goal with |- exists r, _ /\ _ = ?d =>
        let find := fun k => exists k; split; [reflexivity|vm_compute; reflexivity] in
        first [find 0%N|find 1%N|find 2%N|find 3%N|find 4%N|find 5%N|find 6%N|find 7%N|find 8%N|find 9%N|find 10%N|find 11%N
              |find 12%N|find 13%N|find 14%N|find 15%N|find 16%N|find 17%N|find 18%N|find 19%N|find 20%N|find 21%N|find 22%N|find 23%N
              |find 24%N|find 25%N|find 26%N|find 27%N|find 28%N|find 29%N|find 30%N|find 31%N|find 32%N|find 33%N|find 34%N|find 35%N]
      end|]).
    destruct I. }
  induction s as [|c s IH]; intros H.
  - exists (fun _ => 0%N). split; [intros; reflexivity|reflexivity].
  - destruct (L c) as (r & R & E); [apply H; left; reflexivity|].
    destruct IH as (rnd & Rs & Es); [intros d I; apply H; right; exact I|].
    exists (fun i => match i with O => r | S j => rnd j end). split; [intros [|i]; [exact R|apply Rs]|].
    cbn [List.length generate_unique_id]. f_equal; [exact E|exact Es].
Qed.

(** ** Providers and parameters *)

Lemma by_name_iff {World : Type} name : forall (ps : list (provider World)) p,
  provider_by_name ps name = Some p <-> named ps name p.
Proof.
  induction ps as [|x ps IH]; intros p; cbn [provider_by_name].
  - split; [discriminate|]. intros (a & b & E & _). destruct a; discriminate.
  - destruct (beqb name (pv_name x)) eqn:B.
    + apply beqb_iff in B. split.
      * intros E. injection E as <-. exists [], ps. split; [reflexivity|]. split; [congruence|intros ? []].
      * intros (a & b & E & N & F). destruct a as [|y a].
        { cbn in E. congruence. }
        { cbn in E. injection E as <- _. exfalso. apply (F x); [left; reflexivity|congruence]. }
    + apply beqb_no in B. rewrite IH. split.
      * intros (a & b & E & N & F). exists (x :: a), b. split; [cbn; congruence|]. split; [exact N|].
        intros y [<-|I]; [congruence|apply F, I].
      * intros (a & b & E & N & F). destruct a as [|y a].
        { cbn in E. exfalso. apply B. congruence. }
        { cbn in E. injection E as <- E. exists a, b. split; [exact E|]. split; [exact N|].
          intros z I. apply F. right. exact I. }
Qed.

Lemma by_name_none {World : Type} name (ps : list (provider World)) :
  provider_by_name ps name = None -> forall p, ~ named ps name p.
Proof. intros E p N. apply by_name_iff in N. congruence. Qed.

Lemma query_value_iff q k v : query_value q k v <-> form_value q k = v.
Proof.
  unfold query_value, form_value, vget.
  destruct (alookup k (oq_params q)) as [[|x vs]|]; split.
  - intros [(ws & E)|[-> _]]; [discriminate|reflexivity].
  - intros <-. right. split; [reflexivity|right; reflexivity].
  - intros [(ws & E)|[-> [E|E]]]; congruence.
  - intros <-. left. exists vs. reflexivity.
  - intros [(ws & E)|[-> _]]; [discriminate|reflexivity].
  - intros <-. right. split; [reflexivity|left; reflexivity].
Qed.

Lemma starts_iff {World : Type} (cfg : oconfig World) q :
  (oq_initiate q = true /\ exists p, initiate_provider cfg q = inl p) <-> starts_flow cfg q.
Proof.
  unfold starts_flow, initiate_provider.
  assert (G : forall ps, List.length ps <> 1 -> ((exists p : provider World,
      (if beqb (form_value q (str "provider")) [] then inr (EBadRequest (str "oauth provider not specified"))
       else match provider_by_name ps (form_value q (str "provider")) with
            | None => inr (EBadRequest (str "oauth provider not supported"))
            | Some p => inl p
            end) = inl p) <->
      exists name p, query_value q (str "provider") name /\ name <> [] /\ named ps name p)).
  { intros ps L. split.
    - intros (p & E). destruct (beqb (form_value q (str "provider")) []) eqn:B; [discriminate|].
      apply beqb_no in B.
      destruct (provider_by_name ps (form_value q (str "provider"))) as [p'|] eqn:N; [|discriminate].
      exists (form_value q (str "provider")), p'. split; [apply query_value_iff; reflexivity|].
      split; [exact B|]. apply by_name_iff, N.
    - intros (name & p & Q & N & P). apply query_value_iff in Q. apply by_name_iff in P. exists p.
      rewrite Q, P. apply beqb_no in N. rewrite N. reflexivity. }
  destruct (oc_providers cfg) as [|p [|p' ps]].
  - cbv zeta. rewrite (G []) by (cbn; lia). split.
    + intros [I H]. split; [exact I|]. right. split; [cbn; lia|exact H].
    + intros [I [(p & H)|[_ H]]]; [discriminate|]. split; assumption.
  - split.
    + intros [I _]. split; [exact I|]. left. exists p. reflexivity.
    + intros [I _]. split; [exact I|]. exists p. reflexivity.
  - cbv zeta. rewrite (G (p :: p' :: ps)) by (cbn; lia). split.
    + intros [I H]. split; [exact I|]. right. split; [cbn; lia|exact H].
    + intros [I [(x & H)|[_ H]]]; [discriminate|]. split; assumption.
Qed.

(** ** Histories *)

Lemma serve_snoc {Req Resp World : Type} (h : handler Req Resp World) c q : forall qs w,
  fst (serve_in_turn h c (qs ++ [q]) w) = snd (h c q (fst (serve_in_turn h c qs w))).
Proof.
  induction qs as [|x qs IH]; intros w; cbn [app serve_in_turn].
  - destruct (h c q w) as [o w1] eqn:E. cbn. rewrite E. reflexivity.
  - destruct (h c x w) as [o w1]. specialize (IH w1).
    destruct (serve_in_turn h c (qs ++ [q]) w1). destruct (serve_in_turn h c qs w1). exact IH.
Qed.

Lemma state_live_snoc {World : Type} (cfg : oconfig World) qs q now s :
  state_live cfg (qs ++ [q]) now s <->
  (starts_flow cfg q /\ state_of q = s /\ (now < oq_now q + oc_expiration cfg)%Z) \/
  (~ (starts_flow cfg q /\ state_of q = s) /\ state_live cfg qs now s).
Proof.
  split.
  - intros (b & x & a & E & F & S & T & N).
    destruct a as [|y a].
    + apply app_inj_tail in E as [_ ->]. left. tauto.
    + destruct (@exists_last _ (y :: a)) as (a' & z & Ea); [discriminate|].
      rewrite Ea in E, N. change (x :: a' ++ [z]) with ((x :: a') ++ [z]) in E.
      rewrite app_assoc in E. apply app_inj_tail in E as [E ->].
      right. split.
      * intros [F2 S2]. apply (N z); [apply in_or_app; right; left; reflexivity|exact F2|exact S2].
      * exists b, x, a'. split; [exact E|]. split; [exact F|]. split; [exact S|]. split; [exact T|].
        intros u I. apply N. apply in_or_app. left. exact I.
  - intros [(F & S & T)|(N & (b & x & a & E & F & S & T & M))].
    + exists qs, q, []. split; [reflexivity|]. split; [exact F|]. split; [exact S|]. split; [exact T|intros ? []].
    + exists b, x, (a ++ [q]). split; [rewrite E, <- app_assoc; reflexivity|].
      split; [exact F|]. split; [exact S|]. split; [exact T|].
      intros u I Fu. apply in_app_or in I as [I|[<-|[]]]; [apply (M u I Fu)|].
      intros Su. apply N. split; assumption.
Qed.

Lemma initiate_cache {World Resp : Type} (cfg : oconfig World) prefix base c q cw :
  oq_initiate q = true -> oc_cache cfg = true ->
  (starts_flow cfg q -> fst (snd (initiate (Resp := Resp) cfg prefix base c q cw)) =
     cache_add (fst cw) (oq_now q) (state_of q) (oc_expiration cfg)) /\
  (~ starts_flow cfg q -> fst (snd (initiate (Resp := Resp) cfg prefix base c q cw)) = fst cw).
Proof.
  intros I C. rewrite <- starts_iff. unfold initiate.
  destruct (initiate_provider cfg q) as [p|e] eqn:E.
  - split; [intros _; cbv zeta; rewrite C; reflexivity|].
    intros N. exfalso. apply N. split; [exact I|]. exists p. reflexivity.
  - split; [intros [_ (p & X)]; discriminate|reflexivity].
Qed.

Lemma callback_cache {World Resp : Type} (cfg : oconfig World) prefix base (h : handler oreq (oresp Resp) World) c q cw :
  fst (snd (callback cfg prefix base (beside_cache h) c q cw)) = fst cw.
Proof.
  unfold callback. destruct (provider_by_name _ _) as [p|]; [|reflexivity].
  destruct (negb _); [reflexivity|]. destruct (_ && _); [reflexivity|].
  destruct (pv_token _ _ _ _ _) as [[tok|e|] w1]; [|reflexivity|reflexivity].
  cbv zeta. unfold beside_cache.
  destruct (oc_fetch_user cfg).
  - destruct (pv_user _ _ _ _) as [[u|e|] w2]; [|reflexivity|reflexivity].
    cbn [fst snd]. destruct (h _ _ _). reflexivity.
  - cbn [fst snd]. destruct (h _ _ _). reflexivity.
Qed.

Lemma cache_is_live {World Resp : Type} (cfg : oconfig World) prefix base (h : handler oreq (oresp Resp) World) c w :
  oc_cache cfg = true -> forall qs now s,
  cache_contains (fst (fst (serve_in_turn (oauth_endpoints cfg prefix base (beside_cache h)) c qs (new_cache, w)))) now s = true <->
  state_live cfg qs now s.
Proof.
  intros C. induction qs as [|q qs IH] using rev_ind; intros now s.
  - cbn. split; [discriminate|]. intros (b & x & a & E & _). destruct b; discriminate.
  - rewrite serve_snoc, state_live_snoc. set (cw := fst (serve_in_turn _ c qs (new_cache, w))) in *.
    unfold oauth_endpoints at 1. destruct (oq_initiate q) eqn:I.
    + destruct (@initiate_cache World Resp cfg prefix base c q cw I C) as [H1 H2].
      assert (D : starts_flow cfg q \/ ~ starts_flow cfg q).
      { rewrite <- starts_iff. destruct (initiate_provider cfg q) as [p|e].
        - left. split; [exact I|]. exists p. reflexivity.
        - right. intros [_ (p & X)]. discriminate. }
      destruct D as [D|D].
      * rewrite (H1 D), contains_add, IH. split.
        { intros [[-> T]|[N L]]; [left; tauto|right]. split; [|exact L]. intros [_ X]. congruence. }
        { intros [(_ & S & T)|[N L]]; [left; split; congruence|right]. split; [|exact L]. intros X. apply N. split; congruence. }
      * rewrite (H2 D), IH. tauto.
    + rewrite callback_cache, IH.
      assert (~ starts_flow cfg q) as N by (intros [X _]; congruence). tauto.
Qed.

(** One callback, whatever the cache. *)
Lemma callback_once {World Resp : Type} (cfg : oconfig World) prefix base c q cw qs :
  oq_initiate q = false ->
  (oc_cache cfg = true -> forall now s, cache_contains (fst cw) now s = true <-> state_live cfg qs now s) ->
  (exists p c' w', in_order cfg qs q p /\ completes cfg prefix base c q p (snd cw) c' w' /\
     forall h : handler oreq (oresp Resp) (cache * World), oauth_endpoints cfg prefix base h c q cw = h c' q (fst cw, w')) \/
  ((forall p c' w', in_order cfg qs q p -> ~ completes cfg prefix base c q p (snd cw) c' w') /\
   exists o w', ((exists e, o = HReturn None (Some e)) \/ (exists v, o = HPanic v)) /\
     forall h : handler oreq (oresp Resp) (cache * World), oauth_endpoints cfg prefix base h c q cw = (o, (fst cw, w'))).
Proof.
  intros I L. unfold oauth_endpoints. rewrite I. unfold callback. destruct cw as [k w]. cbn [fst snd] in *.
  destruct (provider_by_name (oc_providers cfg) (oq_provider_var q)) as [p|] eqn:P.
  2:{ right. split; [intros p' c' w' (X & _); exfalso; exact (by_name_none _ _ P p' X)|].
      eexists _, w. split; [left; eexists; reflexivity|]. intros h. reflexivity. }
  assert (P' := P). apply by_name_iff in P'.
  assert (U : forall p', named (oc_providers cfg) (oq_provider_var q) p' -> p' = p).
  { intros p' X. apply by_name_iff in X. congruence. }
  destruct (beqb (form_value q (str "error")) []) eqn:Er; cbn [negb].
  2:{ apply beqb_no in Er. right. split.
      - intros p' c' w' (_ & X & _). exfalso. apply query_value_iff in X. congruence.
      - exists (HReturn None (Some EUnauthorized)), w. split; [left; eexists; reflexivity|]. intros h. reflexivity. }
  apply beqb_iff in Er.
  destruct (oc_cache cfg && negb (cache_contains k (oq_now q) (form_value q (str "state")))) eqn:St.
  { apply andb_true_iff in St as [C St]. apply negb_true_iff in St. right. split.
    - intros p' c' w' (_ & _ & X). exfalso. destruct (X C) as (s & Q & Lv).
      apply query_value_iff in Q. subst s. apply (L C) in Lv. congruence.
    - exists (HReturn None (Some EUnauthorized)), w. split; [left; eexists; reflexivity|]. intros h. reflexivity. }
  assert (O : in_order cfg qs q p).
  { split; [exact P'|]. split; [apply query_value_iff; exact Er|].
    intros C. rewrite C in St. cbn in St. apply negb_false_iff in St.
    exists (form_value q (str "state")). split; [apply query_value_iff; reflexivity|]. apply (L C), St. }
  change (redirect_url cfg prefix base p) with (oc_website cfg ++ resolve_path prefix base ++ str "/" ++ pv_name p).
  destruct (pv_token p c (oc_website cfg ++ resolve_path prefix base ++ str "/" ++ pv_name p) (form_value q (str "code")) w)
    as [[tok|e|] w1] eqn:T.
  2,3: right; (split; [intros p' c' w' (X & _) (cd & tk & w0 & Q & T2 & _); rewrite (U p' X) in T2; apply query_value_iff in Q; subst cd; congruence|]).
  2:{ exists (HReturn None (Some e)), w1. split; [left; eexists; reflexivity|]. intros h. reflexivity. }
  2:{ exists (HPanic (Some 0)), w1. split; [right; eexists; reflexivity|]. intros h. reflexivity. }
  cbv zeta. destruct (oc_fetch_user cfg) eqn:F.
  - destruct (pv_user p (with_token c tok) tok w1) as [[u|e|] w2] eqn:Us.
    + left. exists p, (with_principal (with_token c tok) (user_principal u)), w2.
      split; [exact O|]. split; [|intros h; reflexivity].
      exists (form_value q (str "code")), tok, w1. split; [apply query_value_iff; reflexivity|]. split; [exact T|].
      right. split; [exact F|]. exists u. split; [exact Us|reflexivity].
    + right. split.
      * intros p' c' w' (X & _) (cd & tk & w0 & Q & T2 & [(F2 & _)|(_ & u & Us2 & _)]); [congruence|].
        rewrite (U p' X) in *. apply query_value_iff in Q. subst cd.
        assert (tk = tok) by congruence. assert (w0 = w1) by congruence. subst. unfold with_token in Us. congruence.
      * exists (HReturn None (Some e)), w2. split; [left; eexists; reflexivity|]. intros h. reflexivity.
    + right. split.
      * intros p' c' w' (X & _) (cd & tk & w0 & Q & T2 & [(F2 & _)|(_ & u & Us2 & _)]); [congruence|].
        rewrite (U p' X) in *. apply query_value_iff in Q. subst cd.
        assert (tk = tok) by congruence. assert (w0 = w1) by congruence. subst. unfold with_token in Us. congruence.
      * exists (HPanic (Some 0)), w2. split; [right; eexists; reflexivity|]. intros h. reflexivity.
  - left. exists p, (with_token c tok), w1. split; [exact O|]. split; [|intros h; reflexivity].
    exists (form_value q (str "code")), tok, w1. split; [apply query_value_iff; reflexivity|]. split; [exact T|].
    left. split; [exact F|]. split; reflexivity.
Qed.

(** A callback either runs the handler of the application in the right context or does
    not involve it at all. *)
Lemma callback_cases {World Resp : Type} (cfg : oconfig World) prefix base (h0 : handler oreq (oresp Resp) World) c w qs q :
  oq_initiate q = false ->
  let cw := fst (serve_in_turn (oauth_endpoints cfg prefix base (beside_cache h0)) c qs (new_cache, w)) in
  (exists p c' w', in_order cfg qs q p /\ completes cfg prefix base c q p (snd cw) c' w' /\
     forall h : handler oreq (oresp Resp) (cache * World), oauth_endpoints cfg prefix base h c q cw = h c' q (fst cw, w')) \/
  ((forall p c' w', in_order cfg qs q p -> ~ completes cfg prefix base c q p (snd cw) c' w') /\
   exists o w', ((exists e, o = HReturn None (Some e)) \/ (exists v, o = HPanic v)) /\
     forall h : handler oreq (oresp Resp) (cache * World), oauth_endpoints cfg prefix base h c q cw = (o, (fst cw, w'))).
Proof.
  intros I cw. apply callback_once; [exact I|]. intros C now s. apply cache_is_live, C.
Qed.

(** The first endpoint redirects to the provider with a state that is live from then on. *)
Lemma initiate_redirects {World Resp : Type} (cfg : oconfig World) prefix base (h : handler oreq (oresp Resp) (cache * World)) c q cw :
  starts_flow cfg q -> exists p, In p (oc_providers cfg) /\
  fst (oauth_endpoints cfg prefix base h c q cw) =
    HReturn (Some (ORedirect (pv_initiate_url p (oc_website cfg ++ resolve_path prefix base ++ str "/" ++ pv_name p)
      (state_of q) (oc_fetch_user cfg)))) None.
Proof.
  intros S. pose proof S as S'. apply starts_iff in S as [I (p & E)]. exists p. split.
  - unfold initiate_provider in E. destruct (oc_providers cfg) as [|p1 [|p2 ps]] eqn:Ps.
    + cbv zeta in E. destruct (beqb _ _); discriminate.
    + left. congruence.
    + cbv zeta in E. destruct (beqb _ _); [discriminate|].
      destruct (provider_by_name _ _) as [p'|] eqn:N; [|discriminate].
      injection E as <-. apply by_name_iff in N as (a & b & N & _). rewrite N. apply in_or_app. right. left. reflexivity.
  - unfold oauth_endpoints. rewrite I. unfold initiate. rewrite E. reflexivity.
Qed.

Lemma state_starts_live {World : Type} (cfg : oconfig World) qs q now : starts_flow cfg q ->
  (now < oq_now q + oc_expiration cfg)%Z -> state_live cfg (qs ++ [q]) now (state_of q).
Proof.
  intros S T. apply state_live_snoc. left. split; [exact S|]. split; [reflexivity|exact T].
Qed.

(** A token with nothing else. *)
Definition plain_token (t : bytes) : access_token := AccessToken t (str "bearer") None [] 0.

(** A flow with one provider. *)
Definition demo_provider : provider unit :=
  Provider (str "github") (fun r s _ => r ++ s) (fun _ _ code w => (FOk (plain_token (str "token-" ++ code)), w))
    (fun _ _ w => (FOk (User (str "ann") (str "Ann") (str "site-a") []), w)).
Definition demo_config : oconfig unit := OConfig (str "https://shop.example") true [demo_provider] true 100.
Definition demo_start : oreq := OReq true [] [] 0 (fun i => N.of_nat i).
Definition demo_callback (t : Z) (code : bytes) : oreq :=
  OReq false (str "github") [(str "state", [str "abcdefghijkl"]); (str "code", [code])] t (fun _ => 0%N).
(** The application reports the token and the user. *)
Definition demo_handler : handler oreq (oresp (option bytes * option bytes)) unit :=
  fun c q w => (HReturn (Some (OAnswer (option_map at_token (cx_token c), option_map pr_id (cx_principal c)))) None, w).

Lemma state_used_twice :
  snd (serve_in_turn (oauth_endpoints demo_config [] (str "/oauth/authorize") (beside_cache demo_handler)) (Ctx None None None)
    [demo_start; demo_callback 10 (str "a"); demo_callback 20 (str "b"); demo_callback 100 (str "c")] (new_cache, tt)) =
  [HReturn (Some (ORedirect (str "https://shop.example/oauth/authorize/githubabcdefghijkl"))) None;
   HReturn (Some (OAnswer (Some (str "token-a"), Some (str "ann")))) None;
   HReturn (Some (OAnswer (Some (str "token-b"), Some (str "ann")))) None;
   HReturn None (Some EUnauthorized)].
Proof. vm_compute. reflexivity. Qed.

Lemma state_accepted_twice : exists (cfg : oconfig unit) c h start q1 q2 r1 r2,
  oq_initiate start = true /\ oq_initiate q1 = false /\ oq_initiate q2 = false /\
  query_value q1 (str "state") (state_of start) /\ query_value q2 (str "state") (state_of start) /\
  (forall c q w, fst (h c q w) <> HReturn None (Some EUnauthorized)) /\
  exists r0, snd (serve_in_turn (oauth_endpoints cfg [] (str "/oauth/authorize") (beside_cache (Resp := oresp (option bytes * option bytes)) h)) c
    [start; q1; q2] (new_cache, tt)) =
  [r0; HReturn (Some (OAnswer r1)) None; HReturn (Some (OAnswer r2)) None].
Proof.
  exists demo_config, (Ctx None None None), demo_handler, demo_start, (demo_callback 10 (str "a")), (demo_callback 20 (str "b")).
  exists (Some (str "token-a"), Some (str "ann")), (Some (str "token-b"), Some (str "ann")).
  split; [reflexivity|]. split; [reflexivity|]. split; [reflexivity|].
  split; [apply query_value_iff; vm_compute; reflexivity|]. split; [apply query_value_iff; vm_compute; reflexivity|].
  split; [intros c q w; cbn; discriminate|].
  exists (HReturn (Some (ORedirect (str "https://shop.example/oauth/authorize/githubabcdefghijkl"))) None).
  vm_compute. reflexivity.
Qed.

Lemma demo_in_order : in_order demo_config [demo_start] (demo_callback 10 (str "a")) demo_provider /\
  completes demo_config [] (str "/oauth/authorize") (Ctx None None None) (demo_callback 10 (str "a")) demo_provider tt
    (with_principal (with_token (Ctx None None None) (plain_token (str "token-a"))) (user_principal (User (str "ann") (str "Ann") (str "site-a") []))) tt.
Proof.
  split.
  - split; [exists [], []; split; [reflexivity|split; [reflexivity|intros ? []]]|].
    split; [right; split; [reflexivity|left; reflexivity]|].
    intros _. exists (str "abcdefghijkl"). split; [left; exists []; reflexivity|].
    exists [], demo_start, []. split; [reflexivity|]. split; [split; [reflexivity|left; exists demo_provider; reflexivity]|].
    split; [vm_compute; reflexivity|]. split; [reflexivity|intros ? []].
  - exists (str "a"), (plain_token (str "token-a")), tt. split; [left; exists []; reflexivity|]. split; [reflexivity|].
    right. split; [reflexivity|]. exists (User (str "ann") (str "Ann") (str "site-a") []). split; reflexivity.
Qed.

(** ** The redirect goes to the callback *)

Lemma resolve_longer prefix base x : base <> [] -> resolve_path prefix (base ++ x) = resolve_path prefix base ++ x.
Proof.
  intros N. destruct base as [|c base]; [congruence|]. destruct prefix as [|d prefix]; [reflexivity|].
  cbn [app resolve_path]. set (e := Ascii.eqb (last (d :: prefix) "a"%char) "/"%char).
  destruct e, (Ascii.eqb c "/"%char); cbn [negb andb app]; rewrite <- ?app_assoc; reflexivity.
Qed.

Lemma redirect_below {World : Type} (cfg : oconfig World) prefix base p : base <> [] ->
  exists route, authorize_route prefix base = route ++ str "/{providerName}" /\
    redirect_url cfg prefix base p = oc_website cfg ++ route ++ str "/" ++ pv_name p.
Proof.
  intros N. exists (resolve_path prefix base). split; [apply resolve_longer, N|reflexivity].
Qed.

Lemma redirect_astray : exists prefix base,
  forall (World : Type) (cfg : oconfig World) p route, authorize_route prefix base = route ++ str "{providerName}" ->
    redirect_url cfg prefix base p <> oc_website cfg ++ route ++ pv_name p.
Proof.
  exists (str "/app/"), []. intros World cfg p route E. unfold redirect_url. intros H.
  apply app_inv_head in H.
  assert (route = str "/app/") as ->.
  { change (authorize_route (str "/app/") []) with (str "/app/" ++ str "{providerName}") in E.
    apply app_inv_tail in E. congruence. }
  change (resolve_path (str "/app/") []) with (str "/app/") in H. apply app_inv_head in H.
  apply (f_equal (@List.length _)) in H. rewrite app_length in H. cbn in H. lia.
Qed.

(** ** Answers of providers *)

Lemma success_status status : (status / 100 = 2 -> 200 <= status < 300)%N.
Proof.
  intros S. pose proof (N.div_mod status 100 ltac:(discriminate)) as D. rewrite S in D.
  pose proof (N.mod_lt status 100 ltac:(discriminate)) as M.
  set (m := (status mod 100)%N) in *. clearbody m. lia.
Qed.

Lemma id_case : generate_unique_id 5 (fun i => N.of_nat (7 * i)) = str "ahov3".
Proof. vm_compute. reflexivity. Qed.
