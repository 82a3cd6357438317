(** * Properties C93 to C96: what caches keep, and whom nonces and states work for *)
From Coq Require Import List NArith ZArith Ascii String Bool Arith.
From Verif Require Import GoBase Http_Model Cache_Model Auth_Model Mux_Model Chain_Model Csrf_Model Csrf_Spec Csrf_Proofs OAuth_Model OAuth_Spec OAuth_Proofs
  Session_Model Session_Spec Session_Proofs.
Import ListNotations.
Local Open Scope string_scope.
Local Open Scope list_scope.
Local Open Scope nat_scope.

(** C93 is false: any number of visits leave as many entries in the cache, and these stay
    when all of them have expired. *)
Theorem C93_expired_refuted : forall (Req Resp World : Type) (view : Req -> creq) param header (h : handler Req Resp World) c qs w,
  (forall q, In q qs -> safe_method (cq_method (view q)) /\ exists r, cq_random (view q) = Some r) ->
  NoDup (map (fun q => cq_random (view q)) qs) ->
  let k := fst (fst (serve_in_turn (csrf view param header (beside_cache h)) c qs (new_cache, w))) in
  List.length k = List.length qs /\
  exists later, forall now tok, (later <= now)%Z -> cache_contains k now tok = false.
Proof. exact (@expired_never_leave). Qed.
Print Assumptions C93_expired_refuted.

Example C93_case : let k := fst (fst (serve_in_turn (csrf (fun q => q) (str "_csrf") (str "X-Csrf-Token")
    (beside_cache (fun _ _ w => (HReturn (Some tt) None, w)))) (Ctx None None None) [get_req 1 0; get_req 2 5; get_req 3 9] (new_cache, tt))) in
  map fst k = [tok_of 3; tok_of 2; tok_of 1] /\
  forall now tok, (3600000000009 <= now)%Z -> cache_contains k now tok = false.
Proof. exact (@expired_case). Qed.

(** C93, what holds: the cache has one entry for each key that was added and not removed
    since then, and no others. *)
Theorem C93_entries_partial : forall ops,
  NoDup (map fst (cache_after ops)) /\ forall k, In k (map fst (cache_after ops)) <-> kept ops k.
Proof. exact (@entries_kept). Qed.
Print Assumptions C93_entries_partial.

Example C93_case_entries : let ops := [CAdd 5 (str "a") 10; CAdd 6 (str "b") 10; CRemove (str "a"); CAdd 7 (str "b") 1; CContains 9 (str "c")] in
  kept ops (str "b") /\ ~ kept ops (str "a") /\ ~ kept ops (str "c") /\ ~ live ops 8 (str "b").
Proof. exact (@entries_case). Qed.

(** C94 is false: the nonce that one visitor got lets the request of another visitor pass,
    whatever tells the visitors apart. *)
Theorem C94_visitor_refuted : forall (Req Resp World Visitor : Type) (view : Req -> creq) (who : Req -> Visitor) param header
  (h : handler Req Resp World) c w q1 q2 r1 r2,
  who q1 <> who q2 ->
  safe_method (cq_method (view q1)) -> cq_random (view q1) = Some r1 -> r1 <> [] ->
  ~ safe_method (cq_method (view q2)) -> carries param header (view q2) (nonce_of r1) -> cq_random (view q2) = Some r2 ->
  (cq_check (view q2) < cq_add (view q1) + 3600000000000)%Z ->
  let (o1, w1) := h (Ctx (cx_principal c) (Some (nonce_of r1)) (cx_token c)) q1 w in
  let (o2, w2) := h (Ctx (cx_principal c) (Some (nonce_of r2)) (cx_token c)) q2 w1 in
  snd (serve_in_turn (csrf view param header (beside_cache h)) c [q1; q2] (new_cache, w)) = [o1; o2] /\
  snd (fst (serve_in_turn (csrf view param header (beside_cache h)) c [q1; q2] (new_cache, w))) = w2.
Proof. exact (@nonce_of_another). Qed.
Print Assumptions C94_visitor_refuted.

Example C94_case : snd (serve_in_turn (csrf snd (str "_csrf") (str "X-Csrf-Token")
    (beside_cache (fun _ q w => (HReturn (Some (fst q)) None, w)))) (Ctx None None None)
    [(1, get_req 1 0); (2, post_req (tok_of 1) 2 5)] (new_cache, tt)) = [HReturn (Some 1) None; HReturn (Some 2) None].
Proof. exact (@another_case). Qed.

(** C95 is false: the state of a flow that one visitor started lets the callback of another
    visitor pass, whatever tells the visitors apart. *)
Theorem C95_visitor_refuted : forall (World Resp Req Visitor : Type) (view : Req -> oreq) (who : Req -> Visitor) (cfg : oconfig World) prefix base
  (h : handler Req (oresp Resp) World) c w q1 q2 p1 p c' w',
  who q1 <> who q2 ->
  starts_with cfg (view q1) p1 -> oq_initiate (view q2) = false ->
  named (oc_providers cfg) (oq_provider_var (view q2)) p ->
  query_value (view q2) (str "error") [] -> query_value (view q2) (str "state") (state_of (view q1)) ->
  (oq_now (view q2) < oq_now (view q1) + oc_expiration cfg)%Z ->
  completes cfg prefix base c (view q2) p w c' w' ->
  snd (serve_in_turn (oauth_on view cfg prefix base (beside_cache h)) c [q1; q2] (new_cache, w)) =
    [HReturn (Some (ORedirect (pv_initiate_url p1 (oc_website cfg ++ resolve_path prefix base ++ str "/" ++ pv_name p1)
       (state_of (view q1)) (oc_fetch_user cfg)))) None;
     fst (h c' q2 w')].
Proof. exact (@state_of_another). Qed.
Print Assumptions C95_visitor_refuted.

(** Case: visitor 1 starts a flow, visitor 2 completes it. *)
Example C95_case :
  starts_with demo_config demo_start demo_provider /\
  named (oc_providers demo_config) (oq_provider_var (demo_callback 10 (str "a"))) demo_provider /\
  query_value (demo_callback 10 (str "a")) (str "error") [] /\ query_value (demo_callback 10 (str "a")) (str "state") (state_of demo_start) /\
  completes demo_config [] (str "/oauth") (Ctx None None None) (demo_callback 10 (str "a")) demo_provider tt
    (with_principal (with_token (Ctx None None None) (plain_token (str "token-a"))) (user_principal (User (str "ann") (str "Ann") (str "site-a") []))) tt /\
  snd (serve_in_turn (oauth_on snd demo_config [] (str "/oauth")
      (beside_cache (fun c (q : nat * oreq) w => (HReturn (Some (OAnswer (fst q, option_map pr_id (cx_principal c)))) None, w))))
    (Ctx None None None) [(1, demo_start); (2, demo_callback 10 (str "a"))] (new_cache, tt)) =
  [HReturn (Some (ORedirect (str "https://shop.example/oauth/githubabcdefghijkl"))) None;
   HReturn (Some (OAnswer (2, Some (str "ann")))) None].
Proof. exact (@completed_by_another_case). Qed.

(** C96 is false: the state of a flow with one provider lets the callback of another
    provider pass. *)
Theorem C96_provider_refuted : forall (World Resp Req : Type) (view : Req -> oreq) (cfg : oconfig World) prefix base
  (h : handler Req (oresp Resp) World) c w q1 q2 p1 p2 c' w',
  pv_name p1 <> pv_name p2 ->
  starts_with cfg (view q1) p1 -> oq_initiate (view q2) = false ->
  named (oc_providers cfg) (oq_provider_var (view q2)) p2 ->
  query_value (view q2) (str "error") [] -> query_value (view q2) (str "state") (state_of (view q1)) ->
  (oq_now (view q2) < oq_now (view q1) + oc_expiration cfg)%Z ->
  completes cfg prefix base c (view q2) p2 w c' w' ->
  snd (serve_in_turn (oauth_on view cfg prefix base (beside_cache h)) c [q1; q2] (new_cache, w)) =
    [HReturn (Some (ORedirect (pv_initiate_url p1 (oc_website cfg ++ resolve_path prefix base ++ str "/" ++ pv_name p1)
       (state_of (view q1)) (oc_fetch_user cfg)))) None;
     fst (h c' q2 w')].
Proof. exact (@state_elsewhere). Qed.
Print Assumptions C96_provider_refuted.

Example C96_case :
  starts_with two_config two_start demo_provider /\ state_of two_start = str "abcdefghijkl" /\
  completes two_config [] (str "/oauth") (Ctx None None None) (two_callback (str "z")) other_provider tt
    (with_principal (with_token (Ctx None None None) (plain_token (str "other-z"))) (user_principal (User (str "bob") (str "Bob") (str "other") []))) tt /\
  snd (serve_in_turn (oauth_on snd two_config [] (str "/oauth")
      (beside_cache (fun c (q : nat * oreq) w => (HReturn (Some (OAnswer (fst q, option_map at_token (cx_token c)))) None, w))))
    (Ctx None None None) [(1, two_start); (2, two_callback (str "z"))] (new_cache, tt)) =
  [HReturn (Some (ORedirect (str "https://shop.example/oauth/githubabcdefghijkl"))) None;
   HReturn (Some (OAnswer (2, Some (str "other-z")))) None].
Proof. exact (@elsewhere_case). Qed.
