(** * Concrete routers: which route answers. *)
From Coq Require Import List NArith ZArith Ascii String Bool Lia Arith Permutation.
From Verif Require Import GoBase Glob_Model Glob_Spec Glob_Proofs GlobExact_Proofs Pattern_Model Pattern_Spec Pattern_Proofs
  Priority_Spec Priority_Proofs Url_Model Url_Spec Url_Proofs Match_Model Search_Proofs Trie_Proofs Grow_Proofs
  Router_Model Routing_Spec Covers_Proofs Routes_Proofs Dispatch_Proofs Routing_Proofs Witness_Proofs
  Choice_Spec Choice_Proofs.
Import ListNotations.
Local Open Scope string_scope.
Local Open Scope list_scope.
Local Open Scope nat_scope.

Ltac segs_of_path := repeat (constructor; [not_in|]); constructor.

Lemma plain_countable : forall t ps ks, List.length t <= 255 -> means (re_ok lit_engine) false t ps ks ->
  Forall (plain_piece false) ks -> countable (re_ok lit_engine) false t /\ plain (re_ok lit_engine) false t.
Proof. intros t ps ks L M P. split; [apply countable_if; assumption|eapply plain_if; eassumption]. Qed.

(** C11: the last segment stops at an inner node. *)
Lemma incomplete_prefix : exists fuel re ci regs r outs mth path ts buf,
  handle_all fuel re (new_router ci) regs = (r, outs) /\ Forall (eq Registered) outs /\
  segments_of path ts /\ List.length buf = 19 /\
  (exists rg ks bs, route_of (re_ok re) ci (combine regs outs) mth rg ks /\ reads_as ci (re_match re) ks ts bs) /\
  (forall rg ks, route_of (re_ok re) ci (combine regs outs) mth rg ks -> ~ In Any ks) /\
  exists k, forall f, dispatch_request (k + f) re r mth path buf = NotFound.
Proof.
  exists 50, lit_engine, false, [route "/a/b/c" 1; route "/a/{x}" 2]. eexists. eexists.
  exists GET, (str "/a/b"), [str "a"; str "b"], zeros.
  assert (M1 : means (re_ok lit_engine) false (str "/a/b/c") [str "a"; str "b"; str "c"] [Lit (str "a"); Lit (str "b"); Lit (str "c")]) by show_means.
  assert (M2 : means (re_ok lit_engine) false (str "/a/{x}") [str "a"; str "{x}"] [Lit (str "a"); Var (str "x")]) by show_means.
  split; [vm_compute; reflexivity|]. split; [repeat constructor|]. split.
  { apply (segments_spelled (str "a") [str "b"]); [segs_of_path|few]. }
  split; [reflexivity|]. split; [|split].
  - exists (route "/a/{x}" 2), [Lit (str "a"); Var (str "x")]. eexists. split.
    + split; [right; left; reflexivity|]. split; [reflexivity|]. eexists. exact M2.
    + apply ra_lit; [reflexivity|]. apply ra_var. apply ra_end.
  - intros rg ks [H [_ Hp]]. apply in_combine_l in H. destruct H as [<-|[<-|[]]].
    + rewrite (pieces_unique _ _ _ _ _ _ M1 Hp). not_in.
    + rewrite (pieces_unique _ _ _ _ _ _ M2 Hp). not_in.
  - exists 50. intros f. rewrite dispatch_more; [vm_compute; reflexivity|vm_compute; discriminate].
Qed.

(** C11: a [**] node with children is not a last resort any more. *)
Lemma incomplete_any : exists fuel re ci regs r outs mth path ts buf,
  handle_all fuel re (new_router ci) regs = (r, outs) /\ Forall (eq Registered) outs /\
  segments_of path ts /\ List.length buf = 19 /\
  (exists rg ks bs, route_of (re_ok re) ci (combine regs outs) mth rg ks /\ any_only_last ks /\
     reads_as ci (re_match re) ks ts bs) /\
  exists k, forall f, dispatch_request (k + f) re r mth path buf = NotFound.
Proof.
  exists 50, lit_engine, false, [route "/a/**" 1; route "/a/**/b" 2]. eexists. eexists.
  exists GET, (str "/a/x/y"), [str "a"; str "x"; str "y"], zeros.
  assert (M1 : means (re_ok lit_engine) false (str "/a/**") [str "a"; str "**"] [Lit (str "a"); Any]) by show_means.
  split; [vm_compute; reflexivity|]. split; [repeat constructor|]. split.
  { apply (segments_spelled (str "a") [str "x"; str "y"]); [segs_of_path|few]. }
  split; [reflexivity|]. split.
  - exists (route "/a/**" 1), [Lit (str "a"); Any]. eexists. split; [|split].
    + split; [left; reflexivity|]. split; [reflexivity|]. eexists. exact M1.
    + not_in.
    + apply ra_lit; [reflexivity|]. apply ra_any_last.
  - exists 50. intros f. rewrite dispatch_more; [vm_compute; reflexivity|vm_compute; discriminate].
Qed.

(** C12 and C13: two wildcard texts accept the same segment. *)
Definition rival1 := [route "/a*/c" 1; route "/a*/{z}" 2; route "/ab*/x" 3].
Definition rival2 := [route "/a*/{z}" 2; route "/a*/c" 1; route "/ab*/x" 3].
Lemma less_specific_chosen : exists fuel re ci regs r outs mth path ts buf rec segs rg ks bs rg2 ks2 bs2,
  handle_all fuel re (new_router ci) regs = (r, outs) /\ Forall (eq Registered) outs /\
  segments_of path ts /\ List.length buf = 19 /\ NoDup (map reg_handler regs) /\
  route_of (re_ok re) ci (combine regs outs) mth rg ks /\ reads_as ci (re_match re) ks ts bs /\
  (exists k, forall f, dispatch_request (k + f) re r mth path buf = Calls (reg_handler rg) rec segs) /\
  route_of (re_ok re) ci (combine regs outs) mth rg2 ks2 /\ reads_as ci (re_match re) ks2 ts bs2 /\
  more_specific ks2 ks.
Proof.
  exists 50, lit_engine, false, rival1. eexists. eexists.
  exists GET, (str "/abc/x"), [str "abc"; str "x"], zeros. eexists. eexists.
  exists (route "/a*/{z}" 2), [Glob (str "a*"); Var (str "z")]. eexists.
  exists (route "/ab*/x" 3), [Glob (str "ab*"); Lit (str "x")]. eexists.
  split; [vm_compute; reflexivity|]. split; [repeat constructor|]. split.
  { apply (segments_spelled (str "abc") [str "x"]); [segs_of_path|few]. }
  split; [reflexivity|]. split.
  { repeat (constructor; [not_in|]). constructor. }
  split.
  { split; [right; left; reflexivity|]. split; [reflexivity|]. exists [str "a*"; str "{z}"]. show_means. }
  split.
  { apply ra_glob; [|apply ra_var; apply ra_end].
    apply acc_char; [discriminate|discriminate|reflexivity|]. apply acc_last_star. }
  split.
  { exists 50. intros f. rewrite dispatch_more; [vm_compute; reflexivity|vm_compute; discriminate]. }
  split.
  { split; [right; right; left; reflexivity|]. split; [reflexivity|]. exists [str "ab*"; str "x"]. show_means. }
  split.
  { apply ra_glob; [|apply ra_lit; [reflexivity|apply ra_end]].
    do 2 (apply acc_char; [discriminate|discriminate|reflexivity|]). apply acc_last_star. }
  apply ms_later; [reflexivity|]. apply ms_here. cbn. lia.
Qed.

Lemma order_matters : exists fuel re ci regs r outs regs' r' outs' mth path ts buf h rec segs h' rec' segs',
  handle_all fuel re (new_router ci) regs = (r, outs) /\ handle_all fuel re (new_router ci) regs' = (r', outs') /\
  Permutation regs regs' /\ Forall (eq Registered) outs /\ Forall (eq Registered) outs' /\
  segments_of path ts /\ List.length buf = 19 /\ h <> h' /\
  exists k, forall f, dispatch_request (k + f) re r mth path buf = Calls h rec segs /\
    dispatch_request (k + f) re r' mth path buf = Calls h' rec' segs'.
Proof.
  exists 50, lit_engine, false, rival1. eexists. eexists. exists rival2. eexists. eexists.
  exists GET, (str "/abc/x"), [str "abc"; str "x"], zeros, 2. eexists. eexists. exists 3. eexists. eexists.
  split; [vm_compute; reflexivity|]. split; [vm_compute; reflexivity|].
  split; [apply perm_swap|]. split; [repeat constructor|]. split; [repeat constructor|]. split.
  { apply (segments_spelled (str "abc") [str "x"]); [segs_of_path|few]. }
  split; [reflexivity|]. split; [discriminate|].
  exists 50. intros f. split; (rewrite dispatch_more; [vm_compute; reflexivity|vm_compute; discriminate]).
Qed.

(** C14 *)
Lemma same_constraint_twice : exists fuel re ci regs r outs ks,
  handle_all fuel re (new_router ci) regs = (r, outs) /\ Forall (eq Registered) outs /\
  (exists m t h h', regs = [(m, t, h); (m, t, h')] /\ h <> h' /\ pieces_of (re_ok re) ci t ks).
Proof.
  exists 50, lit_engine, false, [route "/{x:a}" 1; route "/{x:a}" 2]. eexists. eexists. exists [Constrained (str "x") (str "a")].
  split; [vm_compute; reflexivity|]. split; [repeat constructor|].
  exists GET, (str "/{x:a}"), 1, 2. split; [reflexivity|]. split; [discriminate|]. exists [str "{x:a}"]. show_means.
Qed.

Lemma no_any_len : forall ic rm ks ts bs, ~ In Any ks -> reads_as ic rm ks ts bs -> List.length ks = List.length ts.
Proof.
  intros ic rm ks ts bs H R. induction R; try reflexivity; try (cbn; f_equal; apply IHR; intros A; apply H; right; assumption);
    exfalso; apply H; left; reflexivity.
Qed.
(** Only a pattern longer than the request can be cut, at a known place. *)
Lemma cut_at : forall ic rm (R : reg -> list piece -> Prop) ts ks, any_only_last ks ->
  (forall k0 k k2, ks = k0 ++ k :: k2 -> k2 <> [] -> S (List.length k0) = List.length ts ->
   (exists n r, In (Constrained n r) k0) \/
   (forall rg k0' k' bs', R rg (k0' ++ [k']) -> reads_as ic rm (k0' ++ [k']) ts bs' -> ~ Forall2 (same_piece ic) k0 k0') \/
   ((forall rg ks', R rg ks' -> List.length ks' <= 19) /\
    exists rg k0' k' bs', R rg (k0' ++ [k']) /\ reads_as ic rm (k0' ++ [k']) ts bs' /\
     Forall2 (same_piece ic) k0 k0' /\ (same_piece ic k k' \/ kind_rank k' < kind_rank k))) -> not_cut ic rm R ts ks.
Proof.
  intros ic rm R ts ks Ha H k0 k k2 bs E N Rd. apply (H k0 k k2 E N). apply no_any_len in Rd.
  - rewrite app_length in Rd. cbn in Rd. lia.
  - intros A. apply Ha. subst. destruct k2 as [|x k2]; [congruence|]. rewrite removelast_app by discriminate.
    cbn [removelast]. apply in_app_or in A. apply in_or_app. destruct A as [A|[A|[]]]; [left|right; left]; assumption.
Qed.

Lemma long_enough : forall ic rm (R : reg -> list piece -> Prop) ts ks, any_only_last ks ->
  List.length ks <= List.length ts -> not_cut ic rm R ts ks.
Proof.
  intros ic rm R ts ks Ha Hl. apply cut_at; [assumption|]. intros k0 k k2 E N L. exfalso.
  subst. rewrite app_length in Hl. destruct k2; [congruence|]. cbn in Hl. lia.
Qed.

Lemma table_pair : forall ok ic (regs : list (bytes * bytes * nat)) (kss : list (list bytes * list piece)) rg ks,
  Forall2 (fun rg x => means ok ic (reg_text rg) (fst x) (snd x)) regs kss ->
  In rg regs -> pieces_of ok ic (reg_text rg) ks -> In (rg, ks) (combine regs (map snd kss)).
Proof.
  intros ok ic regs kss rg ks H. induction H as [|a x l l' Hm _ IH]; intros Hin Hp; [destruct Hin|].
  destruct Hin as [->|Hin]; cbn.
  - left. rewrite (pieces_unique _ _ _ _ _ _ Hm Hp). reflexivity.
  - right. auto.
Qed.

Lemma table_fine : forall ok ic (regs : list (bytes * bytes * nat)) (kss : list (list bytes * list piece)),
  Forall2 (fun rg x => means ok ic (reg_text rg) (fst x) (snd x)) regs kss ->
  Forall (fun x : list bytes * list piece => Forall (plain_piece ic) (snd x)) kss ->
  Forall (fun rg => List.length (reg_text rg) <= 255) regs ->
  Forall (fun rg => countable ok ic (reg_text rg) /\ plain ok ic (reg_text rg)) regs.
Proof.
  intros ok ic regs kss H. induction H as [|rg x l l' Hm _ IH]; intros P L; [constructor|].
  inversion P; subst. inversion L; subst. constructor; [|auto].
  split; [apply countable_if; assumption|eapply plain_if; eassumption].
Qed.

(** A router used as a case. *)
Definition mall : list (bytes * bytes * nat) :=
  [route "/api/{v}/items/{id:7}" 1; route "/api/v?/items/{id}" 2; route "/api/v?/**" 3; route "/api/*/items/list" 4].
Definition mall_back : list (bytes * bytes * nat) := rev mall.
Definition mall_router := fst (handle_all 100 lit_engine (new_router false) mall).
Definition mall_outs := snd (handle_all 100 lit_engine (new_router false) mall).
Definition mall_back_router := fst (handle_all 100 lit_engine (new_router false) mall_back).
Definition mall_ks : list (list bytes * list piece) :=
  [([str "api"; str "{v}"; str "items"; str "{id:7}"], [Lit (str "api"); Var (str "v"); Lit (str "items"); Constrained (str "id") (str "7")]);
   ([str "api"; str "v?"; str "items"; str "{id}"], [Lit (str "api"); Glob (str "v?"); Lit (str "items"); Var (str "id")]);
   ([str "api"; str "v?"; str "**"], [Lit (str "api"); Glob (str "v?"); Any]);
   ([str "api"; str "*"; str "items"; str "list"], [Lit (str "api"); One; Lit (str "items"); Lit (str "list")])].
Definition mall_path := str "/api/v1/items/7".
Definition mall_ts := [str "api"; str "v1"; str "items"; str "7"].

Lemma mall_registered : handle_all 100 lit_engine (new_router false) mall = (mall_router, mall_outs) /\
  handle_all 100 lit_engine (new_router false) mall_back = (mall_back_router, mall_outs) /\
  Forall (eq Registered) mall_outs /\ Permutation mall mall_back /\ (N.of_nat (List.length mall) < 65536)%N /\
  (blen mall_path < 65536)%N.
Proof.
  split; [vm_compute; reflexivity|]. split; [vm_compute; reflexivity|]. split; [repeat constructor|].
  split; [apply Permutation_rev|]. split; vm_compute; reflexivity.
Qed.
Lemma mall_means : Forall2 (fun rg x => means (re_ok lit_engine) false (reg_text rg) (fst x) (snd x)) mall mall_ks.
Proof. constructor; [|constructor; [|constructor; [|constructor; [|constructor]]]]; show_means. Qed.
Lemma mall_fine : Forall (fun rg => countable (re_ok lit_engine) false (reg_text rg) /\ plain (re_ok lit_engine) false (reg_text rg)) mall.
Proof.
  pose proof mall_means as H.
  assert (P : Forall (fun x : list bytes * list piece => Forall (plain_piece false) (snd x)) mall_ks).
  { repeat (apply Forall_cons; [repeat (constructor; [cbn; first [exact I|intros _; discriminate]|]); constructor|]). constructor. }
  assert (L : Forall (fun rg => List.length (reg_text rg) <= 255) mall).
  { repeat (constructor; [cbn; lia|]). constructor. }
  revert P L. induction H as [|rg x l l' Hm _ IH]; intros P L; [constructor|].
  inversion P; subst. inversion L; subst. constructor; [|auto].
  split; [apply countable_if; assumption|eapply plain_if; eassumption].
Qed.
Lemma mall_segments : segments_of mall_path mall_ts.
Proof. apply (segments_spelled (str "api") [str "v1"; str "items"; str "7"]); [segs_of_path|few]. Qed.

Lemma mall_pair : forall rg ks, route_of (re_ok lit_engine) false (combine mall mall_outs) GET rg ks ->
  In (rg, ks) (combine mall (map snd mall_ks)).
Proof. intros rg ks [H [_ Hp]]. apply in_combine_l in H. exact (table_pair _ _ _ _ _ _ mall_means H Hp). Qed.
Lemma mall_routes : forall rg ks, route_of (re_ok lit_engine) false (combine mall mall_outs) GET rg ks ->
  List.length ks <= 19 /\ any_only_last ks /\ calm_on false mall_ts ks /\ 
  not_cut false (re_match lit_engine) (route_of (re_ok lit_engine) false (combine mall mall_outs) GET) mall_ts ks.
Proof.
  intros rg ks H. apply mall_pair in H.
  assert (P : forall x, In x (combine mall (map snd mall_ks)) ->
    List.length (snd x) <= 4 /\ any_only_last (snd x) /\ forall w, In (Glob w) (snd x) -> w = str "v?").
  { intros x Hx. cbn [mall mall_ks combine map snd In] in Hx.
    repeat (destruct Hx as [Hx|Hx]; [rewrite <- Hx; cbn [snd]; split; [cbn; lia|split; [not_in|]]; intros w Hw; cbn [In] in Hw;
       repeat (destruct Hw as [Hw|Hw]; [try discriminate; injection Hw as <-; reflexivity|]); destruct Hw|]). destruct Hx. }
  destruct (P _ H) as [P1 [P2 P3]]. cbn [snd] in *. split; [lia|]. split; [assumption|]. split.
  - intros w t Hw _. rewrite (P3 w Hw). apply calm_last_star. not_in.
  - apply long_enough; assumption.
Qed.
Lemma mall_apart : forall rg1 ks1 bs1 rg2 ks2 bs2,
  route_of (re_ok lit_engine) false (combine mall mall_outs) GET rg1 ks1 ->
  route_of (re_ok lit_engine) false (combine mall mall_outs) GET rg2 ks2 ->
  reads_as false (re_match lit_engine) ks1 mall_ts bs1 -> reads_as false (re_match lit_engine) ks2 mall_ts bs2 ->
  same_globs false ks1 ks2 /\ (map kind_rank ks1 = map kind_rank ks2 -> rg1 = rg2).
Proof.
  intros rg1 ks1 bs1 rg2 ks2 bs2 H1 H2 _ _. apply mall_pair in H1. apply mall_pair in H2. split.
  - assert (P : forall x, In x (combine mall (map snd mall_ks)) -> forall i w, nth_error (snd x) i = Some (Glob w) -> w = str "v?").
    { intros x Hx i w Hw. apply nth_error_In in Hw. revert w Hw. cbn [mall mall_ks combine map snd In] in Hx.
      repeat (destruct Hx as [Hx|Hx]; [rewrite <- Hx; cbn [snd]; intros w Hw; cbn [In] in Hw;
       repeat (destruct Hw as [Hw|Hw]; [try discriminate; injection Hw as <-; reflexivity|]); destruct Hw|]). destruct Hx. }
    intros i a b _ Ha Hb. rewrite (P _ H1 _ _ Ha), (P _ H2 _ _ Hb). reflexivity.
  - assert (Q : forall x y, In x (combine mall (map snd mall_ks)) -> In y (combine mall (map snd mall_ks)) ->
      map kind_rank (snd x) = map kind_rank (snd y) -> fst x = fst y).
    { intros x y Hx Hy. cbn [mall mall_ks combine map snd In] in Hx, Hy.
      repeat (destruct Hx as [Hx|Hx]; [rewrite <- Hx; repeat (destruct Hy as [Hy|Hy]; [rewrite <- Hy; cbn [snd fst map kind_rank]; first [intros _; reflexivity|discriminate]|]); destruct Hy|]).
      destruct Hx. }
    exact (Q _ _ H1 H2).
Qed.
Lemma mall_calls : exists rec segs,
  dispatch_request 100 lit_engine mall_router GET mall_path zeros = Calls 1 rec segs /\
  dispatch_request 100 lit_engine mall_back_router GET mall_path zeros = Calls 1 rec segs /\
  path_var rec mall_path segs (str "id") = Some (str "7").
Proof. eexists. eexists. split; [vm_compute; reflexivity|]. split; vm_compute; reflexivity. Qed.
Lemma mall_reads : exists bs1 bs2 bs3,
  reads_as false (re_match lit_engine) [Lit (str "api"); Var (str "v"); Lit (str "items"); Constrained (str "id") (str "7")] mall_ts bs1 /\
  reads_as false (re_match lit_engine) [Lit (str "api"); Glob (str "v?"); Lit (str "items"); Var (str "id")] mall_ts bs2 /\
  reads_as false (re_match lit_engine) [Lit (str "api"); Glob (str "v?"); Any] mall_ts bs3.
Proof.
  eexists. eexists. eexists. split; [|split].
  - apply ra_lit; [reflexivity|]. apply ra_var. apply ra_lit; [reflexivity|]. apply ra_constrained; [reflexivity|]. apply ra_end.
  - apply ra_lit; [reflexivity|]. apply ra_glob; [|apply ra_lit; [reflexivity|]; apply ra_var; apply ra_end].
    apply acc_char; [discriminate|discriminate|reflexivity|]. apply acc_any. apply acc_end.
  - apply ra_lit; [reflexivity|]. apply ra_glob; [|apply ra_any_last].
    apply acc_char; [discriminate|discriminate|reflexivity|]. apply acc_any. apply acc_end.
Qed.

(** C14, cases: another name is a duplicate, another kind is not. *)
Lemma mall_dup :
  snd (handle 100 lit_engine mall_router (str "get") (str "/api/v?/items/{other}/") 9) = Duplicate /\
  snd (handle 100 lit_engine mall_router GET (str "/api/v*/items/{other}") 9) = Registered /\
  snd (handle 100 lit_engine mall_router (str "PUT") (str "/api/v?/items/{other}") 9) = Registered /\
  exists rg ks', route_of (re_ok lit_engine) false (combine mall mall_outs) (str "get") rg ks' /\
    Forall2 (same_piece false) ks' [Lit (str "api"); Glob (str "v?"); Lit (str "items"); Var (str "other")].
Proof.
  split; [vm_compute; reflexivity|]. split; [vm_compute; reflexivity|]. split; [vm_compute; reflexivity|].
  assert (E : mall_outs = repeat Registered 4) by (vm_compute; reflexivity). rewrite E.
  exists (route "/api/v?/items/{id}" 2), [Lit (str "api"); Glob (str "v?"); Lit (str "items"); Var (str "id")]. split.
  - split; [right; left; reflexivity|]. split; [reflexivity|]. exists [str "api"; str "v?"; str "items"; str "{id}"]. show_means.
  - repeat constructor.
Qed.

Lemma forall2_nth : forall (A B : Type) (P : A -> B -> Prop) l l', Forall2 P l l' -> forall i a b,
  nth_error l i = Some a -> nth_error l' i = Some b -> P a b.
Proof.
  intros A B P l l' H. induction H as [|x y l l' Hxy _ IH]; intros [|i] a b Ha Hb; try discriminate; cbn in Ha, Hb.
  - injection Ha as <-. injection Hb as <-. assumption.
  - eapply IH; eassumption.
Qed.

(** A second router: requests that end where other patterns go on. *)
Definition town : list (bytes * bytes * nat) :=
  [route "/users/{id:7}/edit" 2; route "/users/{id:7}" 1; route "/users/{id}/posts" 4; route "/users/{id}" 3; route "/{tenant}/{x}/items" 5].
Definition town_router := fst (handle_all 100 lit_engine (new_router false) town).
Definition town_back_router := fst (handle_all 100 lit_engine (new_router false) (rev town)).
Definition town_outs := snd (handle_all 100 lit_engine (new_router false) town).
Definition town_ks : list (list bytes * list piece) :=
  [([str "users"; str "{id:7}"; str "edit"], [Lit (str "users"); Constrained (str "id") (str "7"); Lit (str "edit")]);
   ([str "users"; str "{id:7}"], [Lit (str "users"); Constrained (str "id") (str "7")]);
   ([str "users"; str "{id}"; str "posts"], [Lit (str "users"); Var (str "id"); Lit (str "posts")]);
   ([str "users"; str "{id}"], [Lit (str "users"); Var (str "id")]);
   ([str "{tenant}"; str "{x}"; str "items"], [Var (str "tenant"); Var (str "x"); Lit (str "items")])].
Definition town_path := str "/users/7".
Definition town_ts := [str "users"; str "7"].

Lemma town_means : Forall2 (fun rg x => means (re_ok lit_engine) false (reg_text rg) (fst x) (snd x)) town town_ks.
Proof. repeat (constructor; [show_means|]). constructor. Qed.
Lemma town_pair : forall rg ks, route_of (re_ok lit_engine) false (combine town town_outs) GET rg ks ->
  In (rg, ks) (combine town (map snd town_ks)).
Proof. intros rg ks [H [_ Hp]]. apply in_combine_l in H. exact (table_pair _ _ _ _ _ _ town_means H Hp). Qed.
Lemma town_route : forall i rg ps ks, nth_error town i = Some rg -> nth_error town_ks i = Some (ps, ks) ->
  route_of (re_ok lit_engine) false (combine town town_outs) GET rg ks.
Proof.
  assert (E : town_outs = repeat Registered 5) by (vm_compute; reflexivity). rewrite E.
  intros i rg ps ks H1 H2. split.
  - apply nth_error_In with (n := i). rewrite (nth_error_nth' _ (rg, Registered)).
    + rewrite combine_nth by reflexivity. f_equal. f_equal; [apply nth_error_nth with (d := rg); assumption|].
      do 5 (destruct i; [reflexivity|]). destruct i; discriminate.
    + rewrite combine_length. change (min (List.length town) (List.length (repeat Registered 5))) with (List.length town).
      apply nth_error_Some. congruence.
  - split.
    + do 5 (destruct i as [|i]; [injection H1 as <-; reflexivity|]). destruct i; discriminate.
    + exists ps. exact (forall2_nth _ _ _ _ _ town_means _ _ _ H1 H2).
Qed.
Lemma town_case : handle_all 100 lit_engine (new_router false) town = (town_router, town_outs) /\
  handle_all 100 lit_engine (new_router false) (rev town) = (town_back_router, town_outs) /\
  Forall (eq Registered) town_outs /\
  Forall (fun rg => countable (re_ok lit_engine) false (reg_text rg) /\ plain (re_ok lit_engine) false (reg_text rg)) town /\
  segments_of town_path town_ts /\
  (forall rg ks, route_of (re_ok lit_engine) false (combine town town_outs) GET rg ks ->
    List.length ks <= 19 /\ any_only_last ks /\ calm_on false town_ts ks /\
    not_cut false (re_match lit_engine) (route_of (re_ok lit_engine) false (combine town town_outs) GET) town_ts ks) /\
  exists rec segs, dispatch_request 100 lit_engine town_router GET town_path zeros = Calls 1 rec segs.
Proof.
  split; [vm_compute; reflexivity|]. split; [vm_compute; reflexivity|].
  split; [assert (E : town_outs = repeat Registered 5) by (vm_compute; reflexivity); rewrite E; repeat constructor|]. split; [|split; [|split]].
  - assert (P : Forall (fun x : list bytes * list piece => Forall (plain_piece false) (snd x)) town_ks).
    { repeat (apply Forall_cons; [repeat (constructor; [cbn; first [exact I|intros _; discriminate]|]); constructor|]). constructor. }
    assert (L : Forall (fun rg => List.length (reg_text rg) <= 255) town).
    { repeat (constructor; [cbn; lia|]). constructor. }
    exact (table_fine _ _ _ _ town_means P L).
  - apply (segments_spelled (str "users") [str "7"]); [segs_of_path|few].
  - assert (P : forall rg ks, route_of (re_ok lit_engine) false (combine town town_outs) GET rg ks ->
      List.length ks <= 3 /\ any_only_last ks /\ (forall w, ~ In (Glob w) ks)).
    { intros rg ks H. apply town_pair in H. cbn [town town_ks combine map snd In] in H.
      repeat (destruct H as [H|H]; [injection H as <- <-; split; [cbn; lia|split; [not_in|]]; intros w Hw; cbn [In] in Hw;
       repeat (destruct Hw as [Hw|Hw]; [discriminate|]); destruct Hw|]). destruct H. }
    intros rg ks H. destruct (P _ _ H) as [P1 [P2 P3]]. split; [lia|]. split; [assumption|].
    split; [intros w t Hw; exfalso; apply (P3 w Hw)|].
    apply cut_at; [assumption|]. intros k0 k k2 E N L.
    destruct k0 as [|a [|b k0]]; try discriminate. cbn [app] in E. clear L.
    apply town_pair in H. cbn [town town_ks combine map snd In] in H.
    assert (Hsz : forall rg ks', route_of (re_ok lit_engine) false (combine town town_outs) GET rg ks' -> List.length ks' <= 19).
    { intros rg' ks' H'. destruct (P _ _ H'). lia. }
    assert (Hans : forall x, x = Constrained (str "id") (str "7") \/ x = Var (str "id") ->
      (exists rg k0' k' bs', route_of (re_ok lit_engine) false (combine town town_outs) GET rg (k0' ++ [k']) /\
         reads_as false (re_match lit_engine) (k0' ++ [k']) town_ts bs' /\
         Forall2 (same_piece false) [Lit (str "users")] k0' /\ (same_piece false x k' \/ kind_rank k' < kind_rank x))).
    { intros x Hx. exists (route "/users/{id:7}" 1), [Lit (str "users")], (Constrained (str "id") (str "7")), [(str "id", str "7")].
      split; [apply (town_route 1 _ [str "users"; str "{id:7}"]); reflexivity|]. split.
      - apply ra_lit; [reflexivity|]. apply ra_constrained; [reflexivity|]. apply ra_end.
      - split; [constructor; [reflexivity|constructor]|]. destruct Hx as [->| ->]; [left; reflexivity|right; cbn; lia]. }
    destruct H as [H|[H|[H|[H|[H|[]]]]]]; injection H as _ <-; injection E as <- <- <-; try congruence.
    + right. right. auto.
    + right. right. auto.
    + right. left. intros rg' k0' k' bs' A _ B. inversion B as [|? b ? k0'' Bb Bn]; subst. inversion Bn; subst.
      apply town_pair in A. cbn [town town_ks combine map snd In app] in A.
      destruct A as [A|[A|[A|[A|[A|[]]]]]]; try discriminate; injection A as _ <- _; exact Bb.
  - eexists. eexists. vm_compute. reflexivity.
Qed.

(** A router that ignores letter case, with a constraint that is the text of another piece. *)
Definition nested : list (bytes * bytes * nat) := [route "/{b:a}/q" 1; route "/{x:{b:a}}/r" 2].
Definition nested_router := fst (handle_all 100 lit_engine (new_router true) nested).
Definition nested_outs := snd (handle_all 100 lit_engine (new_router true) nested).
Definition nested_ks : list (list bytes * list piece) :=
  [([str "{b:a}"; str "q"], [Constrained (str "b") (str "a"); Lit (str "q")]);
   ([str "{x:{b:a}}"; str "r"], [Constrained (str "x") (str "{b:a}"); Lit (str "r")])].
Definition nested_path := str "/(?i){b:a}/R".
Definition nested_ts := [str "(?i){b:a}"; str "R"].
Lemma nested_means : Forall2 (fun rg x => means (re_ok lit_engine) true (reg_text rg) (fst x) (snd x)) nested nested_ks.
Proof. repeat (constructor; [show_means|]). constructor. Qed.
Lemma nested_case : handle_all 100 lit_engine (new_router true) nested = (nested_router, nested_outs) /\
  Forall (eq Registered) nested_outs /\
  Forall (fun rg => countable (re_ok lit_engine) true (reg_text rg) /\ plain (re_ok lit_engine) true (reg_text rg)) nested /\
  segments_of nested_path nested_ts /\
  (forall rg ks, route_of (re_ok lit_engine) true (combine nested nested_outs) GET rg ks ->
    any_only_last ks /\ calm_on true nested_ts ks /\
    not_cut true (re_match lit_engine) (route_of (re_ok lit_engine) true (combine nested nested_outs) GET) nested_ts ks) /\
  (exists rg ks bs, route_of (re_ok lit_engine) true (combine nested nested_outs) GET rg ks /\
     reads_as true (re_match lit_engine) ks nested_ts bs) /\
  exists rec segs, dispatch_request 100 lit_engine nested_router GET nested_path zeros = Calls 2 rec segs.
Proof.
  assert (E : nested_outs = [Registered; Registered]) by (vm_compute; reflexivity).
  split; [vm_compute; reflexivity|]. split; [rewrite E; repeat constructor|]. split; [|split; [|split; [|split]]].
  - assert (P : Forall (fun x : list bytes * list piece => Forall (plain_piece true) (snd x)) nested_ks).
    { repeat (apply Forall_cons; [repeat (constructor; [cbn; first [exact I|discriminate]|]); constructor|]). constructor. }
    assert (L : Forall (fun rg => List.length (reg_text rg) <= 255) nested).
    { repeat (constructor; [cbn; lia|]). constructor. }
    exact (table_fine _ _ _ _ nested_means P L).
  - apply (segments_spelled (str "(?i){b:a}") [str "R"]); [segs_of_path|few].
  - intros rg ks [H [_ Hp]]. apply in_combine_l in H. pose proof (table_pair _ _ _ _ _ _ nested_means H Hp) as I.
    cbn [nested nested_ks combine map snd In] in I.
    assert (G : any_only_last ks /\ (forall w, ~ In (Glob w) ks) /\ List.length ks = 2).
    { repeat (destruct I as [I|I]; [injection I as <- <-; split; [not_in|split; [|reflexivity]]; intros w Hw; cbn [In] in Hw;
        repeat (destruct Hw as [Hw|Hw]; [discriminate|]); destruct Hw|]). destruct I. }
    destruct G as (G1 & G2 & G3). split; [assumption|]. split; [intros w t Hw; destruct (G2 w Hw)|].
    intros k0 k k2 bs -> N R. left.
    destruct k0 as [|a [|b k0]].
    + exfalso. destruct I as [I|[I|[]]]; injection I as _ <- <-; cbn [app] in R; inversion R as [| |? ? ? ? ? ? _ R'| | | | |]; subst; inversion R'.
    + destruct I as [I|[I|[]]]; injection I as _ <- _ _; eexists; eexists; left; reflexivity.
    + exfalso. apply N. cbn [app List.length] in G3. rewrite app_length in G3. cbn [List.length] in G3. lia.
  - exists (route "/{x:{b:a}}/r" 2), [Constrained (str "x") (str "{b:a}"); Lit (str "r")], [(str "x", str "(?i){b:a}")].
    split; [|apply ra_constrained; [reflexivity|]; apply ra_lit; [reflexivity|]; apply ra_end].
    split; [rewrite E; right; left; reflexivity|]. split; [reflexivity|].
    pose proof nested_means as M. inversion M as [|? ? ? ? _ M1]; subst. inversion M1 as [|? ? ? ? M2 _]; subst. exists [str "{x:{b:a}}"; str "r"]. exact M2.
  - eexists. eexists. vm_compute. reflexivity.
Qed.
