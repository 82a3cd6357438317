(** * Proofs about what caches keep and whom nonces and states work for. *)
From Coq Require Import List NArith ZArith Ascii String Bool Lia Arith.
From Verif Require Import GoBase Http_Model Cache_Model Auth_Model Auth_Proofs Mux_Model Chain_Model Csrf_Model Csrf_Spec Csrf_Proofs
  OAuth_Model OAuth_Spec OAuth_Proofs Session_Model Session_Spec.
Import ListNotations.
Local Open Scope string_scope.
Local Open Scope list_scope.
Local Open Scope nat_scope.

(** ** Entries of the cache *)

Lemma keys_remove {V : Type} k k' : forall m : list (bytes * V), In k' (map fst (aremove k m)) <-> In k' (map fst m) /\ k' <> k.
Proof.
  induction m as [|[a v] m IH]; cbn; [tauto|].
  destruct (beqb k a) eqn:B.
  - apply beqb_iff in B. subst a. rewrite IH. split; [tauto|]. intros [[->|H] N]; [contradiction|tauto].
  - cbn. rewrite IH. split; [|tauto]. intros [<-|H]; [|tauto]. split; [tauto|].
    intros E. rewrite E in B. rewrite (proj2 (beqb_iff k k) eq_refl) in B. discriminate.
Qed.

Lemma remove_nodup {V : Type} k : forall m : list (bytes * V), NoDup (map fst m) -> NoDup (map fst (aremove k m)).
Proof.
  induction m as [|[a v] m IH]; cbn; intros H; [constructor|].
  inversion H as [|x l N H']; subst. destruct (beqb k a); [apply IH; exact H'|].
  cbn. constructor; [|apply IH; exact H']. intros I. apply keys_remove in I. tauto.
Qed.

Lemma after_snoc ops op : cache_after (ops ++ [op]) = cache_step (cache_after ops) op.
Proof. unfold cache_after. rewrite fold_left_app. reflexivity. Qed.

Lemma kept_snoc ops op k : kept (ops ++ [op]) k <->
  match op with
  | CAdd _ k' _ => k' = k \/ kept ops k
  | CRemove k' => k' <> k /\ kept ops k
  | CContains _ _ => kept ops k
  end.
Proof.
  assert (Old : kept (ops ++ [op]) k -> (exists t d, op = CAdd t k d) \/ kept ops k /\ op <> CRemove k).
  { intros [b [t [d [a [E N]]]]]. destruct (exists_last (l := CAdd t k d :: a) ltac:(discriminate)) as [a' [x E']].
    rewrite E', app_assoc in E. apply app_inj_tail in E. destruct E as [E ->].
    destruct a' as [|y a'].
    - injection E' as <- _. left. eauto.
    - injection E' as <- ->. right. split.
      + exists b, t, d, a'. split; [exact E|]. intros I. apply N. apply in_or_app. auto.
      + intros ->. apply N. apply in_or_app. right. left. reflexivity. }
  assert (New : kept ops k -> op <> CRemove k -> kept (ops ++ [op]) k).
  { intros [b [t [d [a [E N]]]]] NR. exists b, t, d, (a ++ [op]). split; [rewrite E, <- app_assoc; reflexivity|].
    intros I. apply in_app_or in I. destruct I as [I|[I|[]]]; [contradiction|congruence]. }
  destruct op as [t k' d|k'|t k']; split.
  - intros H. destruct (Old H) as [[t' [d' E]]|[H' _]]; [injection E as _ -> _; auto|auto].
  - intros [->|H].
    + exists ops, t, d, []. split; [reflexivity|intros []].
    + apply New; [exact H|discriminate].
  - intros H. destruct (Old H) as [[t' [d' E]]|[H' N]]; [discriminate|]. split; [congruence|exact H'].
  - intros [N H]. apply New; [exact H|congruence].
  - intros H. destruct (Old H) as [[t' [d' E]]|[H' N]]; [discriminate|exact H'].
  - intros H. apply New; [exact H|discriminate].
Qed.

Lemma entries_kept ops : NoDup (map fst (cache_after ops)) /\ forall k, In k (map fst (cache_after ops)) <-> kept ops k.
Proof.
  induction ops as [|op ops [ND K]] using rev_ind.
  - split; [constructor|]. intros k. split; [intros []|]. intros [b [t [d [a [E _]]]]]. destruct b; discriminate.
  - rewrite after_snoc. split.
    + destruct op as [t k' d|k'|t k']; cbn [cache_step]; unfold cache_add, cache_remove, aset.
      * cbn. constructor; [|apply remove_nodup; exact ND]. intros I. apply keys_remove in I. tauto.
      * apply remove_nodup; exact ND.
      * exact ND.
    + intros k. rewrite kept_snoc. destruct op as [t k' d|k'|t k']; cbn [cache_step]; unfold cache_add, cache_remove, aset.
      * cbn. rewrite keys_remove, K. split; [tauto|].
        intros [E|H]; [tauto|]. destruct (list_eq_dec ascii_dec k' k) as [E|N]; [tauto|]. right. split; [exact H|congruence].
      * rewrite keys_remove, K. intuition congruence.
      * apply K.
Qed.

Lemma entries_case : let ops := [CAdd 5 (str "a") 10; CAdd 6 (str "b") 10; CRemove (str "a"); CAdd 7 (str "b") 1; CContains 9 (str "c")] in
  kept ops (str "b") /\ ~ kept ops (str "a") /\ ~ kept ops (str "c") /\ ~ live ops 8 (str "b").
Proof.
  cbv zeta. set (ops := [_; _; _; _; _]).
  assert (E : map fst (cache_after ops) = [str "b"]) by reflexivity.
  destruct (entries_kept ops) as [_ K].
  split; [apply K; rewrite E; left; reflexivity|].
  split; [rewrite <- K, E; intros [H|[]]; discriminate|].
  split; [rewrite <- K, E; intros [H|[]]; discriminate|].
  rewrite <- cache_reports_live. discriminate.
Qed.

(** ** Nonces are never forgotten *)

Lemma remove_fresh {V : Type} k : forall m : list (bytes * V), ~ In k (map fst m) -> aremove k m = m.
Proof.
  induction m as [|[a v] m IH]; cbn; intros N; [reflexivity|].
  destruct (beqb k a) eqn:B; [apply beqb_iff in B; subst; tauto|]. rewrite IH by tauto. reflexivity.
Qed.

Section Csrf.
Variables (Req Resp World : Type) (view : Req -> creq) (param header : bytes).
Variable h : handler Req Resp World.

Lemma safe_adds c q (k : cache) w r : safe_method (cq_method (view q)) -> cq_random (view q) = Some r ->
  csrf view param header (beside_cache h) c q (k, w) =
  (fst (h (with_nonce c (nonce_of r)) q w), (cache_add k (cq_add (view q)) (nonce_of r) csrf_expiration, snd (h (with_nonce c (nonce_of r)) q w))).
Proof.
  intros S R. unfold csrf, csrf_gate. cbn [fst snd]. apply skip_iff in S. rewrite S, R. cbn [generate_nonce option_map].
  unfold beside_cache. cbn [fst snd]. destruct (h (with_nonce c (nonce_of r)) q w). reflexivity.
Qed.

Lemma grows c : forall qs (k : cache) w,
  (forall q, In q qs -> safe_method (cq_method (view q)) /\ exists r, cq_random (view q) = Some r) ->
  NoDup (map (fun q => cq_random (view q)) qs) ->
  (forall q r, In q qs -> cq_random (view q) = Some r -> ~ In (nonce_of r) (map fst k)) ->
  let k' := fst (fst (serve_in_turn (csrf view param header (beside_cache h)) c qs (k, w))) in
  List.length k' = List.length qs + List.length k /\
  forall tok t, In (tok, t) k' -> In (tok, t) k \/ exists q, In q qs /\ t = (cq_add (view q) + csrf_expiration)%Z.
Proof.
  induction qs as [|q qs IH]; intros k w S ND F; cbv zeta.
  - cbn. split; [reflexivity|tauto].
  - destruct (S q (or_introl eq_refl)) as [Sq [r Rq]].
    cbn [serve_in_turn]. rewrite (safe_adds c q k w r Sq Rq).
    set (k1 := cache_add k (cq_add (view q)) (nonce_of r) csrf_expiration).
    set (w1 := snd (h (with_nonce c (nonce_of r)) q w)).
    cbn [map] in ND. inversion ND as [|x l NI ND']; subst.
    assert (Fq : ~ In (nonce_of r) (map fst k)) by (apply (F q r); [left; reflexivity|exact Rq]).
    assert (E1 : k1 = (nonce_of r, (cq_add (view q) + csrf_expiration)%Z) :: k).
    { unfold k1, cache_add, aset. rewrite (remove_fresh _ _ Fq). reflexivity. }
    specialize (IH k1 w1). cbv zeta in IH.
    destruct (serve_in_turn (csrf view param header (beside_cache h)) c qs (k1, w1)) as [[k2 w2] os] eqn:Es.
    cbn [fst] in *. destruct IH as [L T].
    + intros q' I. apply S. right. exact I.
    + exact ND'.
    + intros q' r' I R' J. rewrite E1 in J. cbn in J. destruct J as [J|J].
      * apply NI. apply in_map_iff. exists q'. split; [|exact I]. rewrite R', Rq. f_equal.
        pose proof (nonce_decodes r') as D'. rewrite <- J in D'. rewrite nonce_decodes in D'. injection D' as ->. reflexivity.
      * exact (F q' r' (or_intror I) R' J).
    + rewrite L, E1. cbn. split; [lia|]. intros tok t J. destruct (T tok t J) as [J1|[q' [I Et]]].
      * rewrite E1 in J1. destruct J1 as [J1|J1]; [injection J1 as _ <-; right; exists q; split; [left; reflexivity|reflexivity]|tauto].
      * right. exists q'. split; [right; exact I|exact Et].
Qed.

Lemma lookup_in {V : Type} k (v : V) : forall m, alookup k m = Some v -> In (k, v) m.
Proof.
  induction m as [|[a x] m IH]; cbn; [discriminate|]. destruct (beqb k a) eqn:B; intros H.
  - injection H as ->. apply beqb_iff in B. subst. left. reflexivity.
  - right. apply IH. exact H.
Qed.

(** All entries are there when all have expired. *)
Lemma expired_kept c qs w :
  (forall q, In q qs -> safe_method (cq_method (view q)) /\ exists r, cq_random (view q) = Some r) ->
  NoDup (map (fun q => cq_random (view q)) qs) ->
  let k := fst (fst (serve_in_turn (csrf view param header (beside_cache h)) c qs (new_cache, w))) in
  List.length k = List.length qs /\
  exists later, forall now tok, (later <= now)%Z -> cache_contains k now tok = false.
Proof.
  intros S ND. cbv zeta. destruct (grows c qs new_cache w S ND) as [L T]; [intros ? ? ? ? []|].
  split; [rewrite L; cbn; lia|].
  assert (M : exists later, forall q, In q qs -> (cq_add (view q) + csrf_expiration <= later)%Z).
  { clear. induction qs as [|q qs [m IH]]; [exists 0%Z; intros q []|].
    exists (Z.max m (cq_add (view q) + csrf_expiration)). intros q' [->|I]; [lia|]. specialize (IH q' I). lia. }
  destruct M as [later M]. exists later. intros now tok Hl. unfold cache_contains.
  destruct (alookup tok _) as [t|] eqn:A; [|reflexivity]. apply lookup_in in A.
  destruct (T tok t A) as [[]|[q [I ->]]]. specialize (M q I). apply Z.ltb_ge. lia.
Qed.

(** A nonce works for everybody. *)
Lemma nonce_for_all (Visitor : Type) (who : Req -> Visitor) c w q1 q2 r1 r2 :
  who q1 <> who q2 ->
  safe_method (cq_method (view q1)) -> cq_random (view q1) = Some r1 -> r1 <> [] ->
  ~ safe_method (cq_method (view q2)) -> carries param header (view q2) (nonce_of r1) -> cq_random (view q2) = Some r2 ->
  (cq_check (view q2) < cq_add (view q1) + 3600000000000)%Z ->
  let (o1, w1) := h (with_nonce c (nonce_of r1)) q1 w in
  let (o2, w2) := h (with_nonce c (nonce_of r2)) q2 w1 in
  snd (serve_in_turn (csrf view param header (beside_cache h)) c [q1; q2] (new_cache, w)) = [o1; o2] /\
  snd (fst (serve_in_turn (csrf view param header (beside_cache h)) c [q1; q2] (new_cache, w))) = w2.
Proof.
  intros _ S1 R1 N1 S2 C2 R2 T.
  cbn [serve_in_turn]. rewrite (safe_adds c q1 new_cache w r1 S1 R1).
  destruct (h (with_nonce c (nonce_of r1)) q1 w) as [o1 w1]. cbn [fst snd].
  unfold csrf at 1 2, csrf_gate. cbn [fst snd].
  apply skip_not in S2. rewrite S2. apply carries_iff in C2. destruct C2 as [NT ->].
  rewrite (proj2 (beqb_no (nonce_of r1) []) NT).
  assert (K : cache_contains (cache_add new_cache (cq_add (view q1)) (nonce_of r1) csrf_expiration) (cq_check (view q2)) (nonce_of r1) = true).
  { unfold cache_contains, cache_add, aset. cbn [alookup]. rewrite beqb_same. apply Z.ltb_lt. exact T. }
  rewrite K. cbn [orb negb]. rewrite R2. cbn [generate_nonce option_map]. unfold beside_cache. cbn [fst snd].
  destruct (h (with_nonce c (nonce_of r2)) q2 w1) as [o2 w2]. split; reflexivity.
Qed.
End Csrf.

(** ** States of flows work for everybody and every provider *)

Section OAuth.
Variables (World Resp Req : Type) (view : Req -> oreq).
Variables (cfg : oconfig World) (prefix base : bytes) (h : handler Req (oresp Resp) World).

Lemma starts_provider q p : starts_with cfg q p -> oq_initiate q = true /\ initiate_provider cfg q = inl p.
Proof.
  intros [I [E|[L [Q [N M]]]]]; (split; [exact I|]); unfold initiate_provider.
  - rewrite E. reflexivity.
  - apply query_value_iff in Q. apply by_name_iff in M.
    destruct (oc_providers cfg) as [|x [|y ps]]; cbn in L; try lia; rewrite Q, (proj2 (beqb_no _ _) N), M; reflexivity.
Qed.

Lemma flow_then_callback c w q1 q2 p1 p c' w' :
  starts_with cfg (view q1) p1 -> oq_initiate (view q2) = false ->
  named (oc_providers cfg) (oq_provider_var (view q2)) p ->
  query_value (view q2) (str "error") [] -> query_value (view q2) (str "state") (state_of (view q1)) ->
  (oq_now (view q2) < oq_now (view q1) + oc_expiration cfg)%Z ->
  completes cfg prefix base c (view q2) p w c' w' ->
  snd (serve_in_turn (oauth_on view cfg prefix base (beside_cache h)) c [q1; q2] (new_cache, w)) =
    [HReturn (Some (ORedirect (pv_initiate_url p1 (oc_website cfg ++ resolve_path prefix base ++ str "/" ++ pv_name p1)
       (state_of (view q1)) (oc_fetch_user cfg)))) None;
     fst (h c' q2 w')].
Proof.
  intros SF I2 NP QE QS T CO. destruct (starts_provider _ _ SF) as [I1 E1].
  apply by_name_iff in NP. apply query_value_iff in QE, QS.
  cbn [serve_in_turn]. unfold oauth_on at 1, oauth_endpoints at 1. rewrite I1. unfold initiate. rewrite E1. cbn [fst snd].
  unfold oauth_on at 1, oauth_endpoints at 1. rewrite I2. unfold callback. rewrite NP, QE. cbn [fst snd].
  rewrite (proj2 (beqb_iff [] []) eq_refl). cbn [negb]. rewrite QS.
  set (k := if oc_cache cfg then _ else _).
  assert (K : oc_cache cfg && negb (cache_contains k (oq_now (view q2)) (state_of (view q1))) = false).
  { destruct (oc_cache cfg) eqn:C; [|reflexivity]. unfold k, cache_contains, cache_add, aset. cbn [alookup]. rewrite beqb_same.
    rewrite (proj2 (Z.ltb_lt _ _) T). reflexivity. }
  rewrite K.
  destruct CO as [cd [tok [w1 [Q [Ht R]]]]]. apply query_value_iff in Q. unfold redirect_url. rewrite Q, Ht.
  unfold beside_cache. cbn [fst snd].
  unfold with_token, with_principal. cbn [cx_principal cx_nonce cx_token].
  destruct R as [[F [-> ->]]|[F [u [Hu ->]]]]; rewrite F.
  - destruct (h _ q2 w1). reflexivity.
  - rewrite Hu. cbn [fst snd]. destruct (h _ q2 w'). reflexivity.
Qed.
End OAuth.

(** ** The properties *)

Lemma expired_never_leave (Req Resp World : Type) (view : Req -> creq) param header (h : handler Req Resp World) c qs w :
  (forall q, In q qs -> safe_method (cq_method (view q)) /\ exists r, cq_random (view q) = Some r) ->
  NoDup (map (fun q => cq_random (view q)) qs) ->
  let k := fst (fst (serve_in_turn (csrf view param header (beside_cache h)) c qs (new_cache, w))) in
  List.length k = List.length qs /\
  exists later, forall now tok, (later <= now)%Z -> cache_contains k now tok = false.
Proof. apply expired_kept. Qed.

Lemma nonce_of_another (Req Resp World Visitor : Type) (view : Req -> creq) (who : Req -> Visitor) param header
  (h : handler Req Resp World) c w q1 q2 r1 r2 :
  who q1 <> who q2 ->
  safe_method (cq_method (view q1)) -> cq_random (view q1) = Some r1 -> r1 <> [] ->
  ~ safe_method (cq_method (view q2)) -> carries param header (view q2) (nonce_of r1) -> cq_random (view q2) = Some r2 ->
  (cq_check (view q2) < cq_add (view q1) + 3600000000000)%Z ->
  let (o1, w1) := h (with_nonce c (nonce_of r1)) q1 w in
  let (o2, w2) := h (with_nonce c (nonce_of r2)) q2 w1 in
  snd (serve_in_turn (csrf view param header (beside_cache h)) c [q1; q2] (new_cache, w)) = [o1; o2] /\
  snd (fst (serve_in_turn (csrf view param header (beside_cache h)) c [q1; q2] (new_cache, w))) = w2.
Proof. apply nonce_for_all. Qed.

Lemma state_of_another (World Resp Req Visitor : Type) (view : Req -> oreq) (who : Req -> Visitor) (cfg : oconfig World) prefix base
  (h : handler Req (oresp Resp) World) c w q1 q2 p1 p c' w' :
  who q1 <> who q2 ->
  starts_with cfg (view q1) p1 -> oq_initiate (view q2) = false ->
  named (oc_providers cfg) (oq_provider_var (view q2)) p ->
  query_value (view q2) (str "error") [] -> query_value (view q2) (str "state") (state_of (view q1)) ->
  (oq_now (view q2) < oq_now (view q1) + oc_expiration cfg)%Z ->
  completes cfg prefix base c (view q2) p w c' w' ->
  snd (serve_in_turn (oauth_on view cfg prefix base (beside_cache h)) c [q1; q2] (new_cache, w)) =
    [HReturn (Some (ORedirect (pv_initiate_url p1 (oc_website cfg ++ resolve_path prefix base ++ str "/" ++ pv_name p1)
       (state_of (view q1)) (oc_fetch_user cfg)))) None;
     fst (h c' q2 w')].
Proof. intros _. apply flow_then_callback. Qed.

Lemma state_elsewhere (World Resp Req : Type) (view : Req -> oreq) (cfg : oconfig World) prefix base
  (h : handler Req (oresp Resp) World) c w q1 q2 p1 p2 c' w' :
  pv_name p1 <> pv_name p2 ->
  starts_with cfg (view q1) p1 -> oq_initiate (view q2) = false ->
  named (oc_providers cfg) (oq_provider_var (view q2)) p2 ->
  query_value (view q2) (str "error") [] -> query_value (view q2) (str "state") (state_of (view q1)) ->
  (oq_now (view q2) < oq_now (view q1) + oc_expiration cfg)%Z ->
  completes cfg prefix base c (view q2) p2 w c' w' ->
  snd (serve_in_turn (oauth_on view cfg prefix base (beside_cache h)) c [q1; q2] (new_cache, w)) =
    [HReturn (Some (ORedirect (pv_initiate_url p1 (oc_website cfg ++ resolve_path prefix base ++ str "/" ++ pv_name p1)
       (state_of (view q1)) (oc_fetch_user cfg)))) None;
     fst (h c' q2 w')].
Proof. intros _. apply flow_then_callback. Qed.

(** ** Cases *)

(** Three visits; an hour later the three nonces are still there. *)
Lemma expired_case : let k := fst (fst (serve_in_turn (csrf (fun q => q) (str "_csrf") (str "X-Csrf-Token")
    (beside_cache (fun _ _ w => (HReturn (Some tt) None, w)))) (Ctx None None None) [get_req 1 0; get_req 2 5; get_req 3 9] (new_cache, tt))) in
  map fst k = [tok_of 3; tok_of 2; tok_of 1] /\
  forall now tok, (3600000000009 <= now)%Z -> cache_contains k now tok = false.
Proof.
  split; [reflexivity|]. intros now tok H. unfold cache_contains.
  destruct (alookup tok _) as [t|] eqn:A; [|reflexivity]. apply lookup_in in A.
  apply Z.ltb_ge. destruct A as [A|[A|[A|[]]]]; injection A as _ E; rewrite <- E; unfold csrf_expiration; cbn [get_req cq_add]; lia.
Qed.

(** The nonce of visitor 1 serves visitor 2. *)
Lemma another_case : snd (serve_in_turn (csrf snd (str "_csrf") (str "X-Csrf-Token")
    (beside_cache (fun _ q w => (HReturn (Some (fst q)) None, w)))) (Ctx None None None)
    [(1, get_req 1 0); (2, post_req (tok_of 1) 2 5)] (new_cache, tt)) = [HReturn (Some 1) None; HReturn (Some 2) None].
Proof. reflexivity. Qed.

Definition other_provider : provider unit :=
  Provider (str "google") (fun r s _ => r ++ s) (fun _ _ code w => (FOk (plain_token (str "other-" ++ code)), w))
    (fun _ _ w => (FOk (User (str "bob") (str "Bob") (str "other") []), w)).
Definition two_config : oconfig unit := OConfig (str "https://shop.example") true [demo_provider; other_provider] true 100.
Definition two_start : oreq := OReq true [] [(str "provider", [str "github"])] 0 (fun i => N.of_nat i).
Definition two_callback (code : bytes) : oreq :=
  OReq false (str "google") [(str "state", [str "abcdefghijkl"]); (str "code", [code])] 10 (fun _ => 0%N).

(** A flow that visitor 1 starts with one provider, a callback of visitor 2 with another one. *)
Lemma elsewhere_case :
  starts_with two_config two_start demo_provider /\ state_of two_start = str "abcdefghijkl" /\
  completes two_config [] (str "/oauth") (Ctx None None None) (two_callback (str "z")) other_provider tt
    (with_principal (with_token (Ctx None None None) (plain_token (str "other-z"))) (user_principal (User (str "bob") (str "Bob") (str "other") []))) tt /\
  snd (serve_in_turn (oauth_on snd two_config [] (str "/oauth")
      (beside_cache (fun c (q : nat * oreq) w => (HReturn (Some (OAnswer (fst q, option_map at_token (cx_token c)))) None, w))))
    (Ctx None None None) [(1, two_start); (2, two_callback (str "z"))] (new_cache, tt)) =
  [HReturn (Some (ORedirect (str "https://shop.example/oauth/githubabcdefghijkl"))) None;
   HReturn (Some (OAnswer (2, Some (str "other-z")))) None].
Proof.
  split; [|split; [reflexivity|split; [|reflexivity]]].
  - split; [reflexivity|]. right. split; [cbn; lia|]. split; [apply query_value_iff; reflexivity|].
    split; [discriminate|]. apply by_name_iff. reflexivity.
  - exists (str "z"), (plain_token (str "other-z")), tt. split; [apply query_value_iff; reflexivity|]. split; [reflexivity|].
    right. split; [reflexivity|]. exists (User (str "bob") (str "Bob") (str "other") []). split; reflexivity.
Qed.

Lemma completed_by_another_case :
  starts_with demo_config demo_start demo_provider /\
  named (oc_providers demo_config) (oq_provider_var (demo_callback 10 (str "a"))) demo_provider /\
  query_value (demo_callback 10 (str "a")) (str "error") [] /\ query_value (demo_callback 10 (str "a")) (str "state") (state_of demo_start) /\
  completes demo_config [] (str "/oauth") (Ctx None None None) (demo_callback 10 (str "a")) demo_provider tt
    (with_principal (with_token (Ctx None None None) (plain_token (str "token-a"))) (user_principal (User (str "ann") (str "Ann") (str "site-a") []))) tt /\
  snd (serve_in_turn (oauth_on snd demo_config [] (str "/oauth")
      (beside_cache (fun c (q : nat * oreq) w => (HReturn (Some (OAnswer (fst q, option_map pr_id (cx_principal c)))) None, w))))
    (Ctx None None None) [(1, demo_start); (2, demo_callback 10 (str "a"))] (new_cache, tt)) =
  [HReturn (Some (ORedirect (str "https://shop.example/oauth/githubabcdefghijkl"))) None;
   HReturn (Some (OAnswer (2, Some (str "ann")))) None].
Proof.
  split; [split; [reflexivity|left; reflexivity]|].
  split; [exists [], []; split; [reflexivity|split; [reflexivity|intros ? []]]|].
  split; [right; split; [reflexivity|left; reflexivity]|]. split; [left; exists []; reflexivity|]. split; [|reflexivity].
  exists (str "a"), (plain_token (str "token-a")), tt. split; [left; exists []; reflexivity|]. split; [reflexivity|].
  right. split; [reflexivity|]. exists (User (str "ann") (str "Ann") (str "site-a") []). split; reflexivity.
Qed.
