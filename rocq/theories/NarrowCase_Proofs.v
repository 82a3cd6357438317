(** * Concrete routers: routes that accept fewer requests. *)
From Coq Require Import List NArith ZArith Ascii String Bool Lia Arith.
From Verif Require Import GoBase Glob_Spec Pattern_Model Pattern_Spec Priority_Spec Url_Model Url_Spec
  Router_Model Routing_Spec Dispatch_Proofs Routing_Proofs Witness_Proofs Choice_Spec Choice_Proofs ChoiceWitness_Proofs
  Narrow_Spec Narrow_Proofs.
Import ListNotations.
Local Open Scope string_scope.
Local Open Scope list_scope.
Local Open Scope nat_scope.

Ltac rd := match goal with
  | H : reads_as _ _ (_ :: _) _ _ |- _ => inversion H; clear H; subst
  | H : reads_as _ _ [] _ _ |- _ => inversion H; clear H; subst
  end.

(** The route with a variable in front is tried first. *)
Lemma star_narrower : forall ic rm, narrower ic rm [One; Lit (str "a")] [Var (str "x"); One].
Proof.
  intros ic rm. split.
  - intros ts [bs H]. repeat rd.
    eexists. apply ra_var. apply ra_one. apply ra_end.
  - exists [str "a"; str "b"]. split; [eexists; apply ra_var, ra_one, ra_end|].
    intros [bs H]. repeat rd. unfold same_text in *. destruct ic; discriminate.
Qed.

Lemma wider_chosen : exists fuel re ci regs r outs mth path ts buf rec segs rg ks rg2 ks2,
  handle_all fuel re (new_router ci) regs = (r, outs) /\ Forall (eq Registered) outs /\
  segments_of path ts /\ List.length buf = 19 /\ NoDup (map reg_handler regs) /\
  (forall rg' ks', route_of (re_ok re) ci (combine regs outs) mth rg' ks' ->
     Forall (fun k => with_variables k \/ with_stars k) ks' /\ ~ In Any ks') /\
  route_of (re_ok re) ci (combine regs outs) mth rg ks /\ accepts_path ci (re_match re) ks ts /\
  (exists k, forall f, dispatch_request (k + f) re r mth path buf = Calls (reg_handler rg) rec segs) /\
  route_of (re_ok re) ci (combine regs outs) mth rg2 ks2 /\ accepts_path ci (re_match re) ks2 ts /\
  narrower ci (re_match re) ks2 ks.
Proof.
  exists 50, lit_engine, false, [route "/*/a" 1; route "/{x}/*" 2]. eexists. eexists.
  exists GET, (str "/x/a"), [str "x"; str "a"], zeros. eexists. eexists.
  exists (route "/{x}/*" 2), [Var (str "x"); One], (route "/*/a" 1), [One; Lit (str "a")].
  assert (M1 : means (re_ok lit_engine) false (str "/*/a") [str "*"; str "a"] [One; Lit (str "a")]) by show_means.
  assert (M2 : means (re_ok lit_engine) false (str "/{x}/*") [str "{x}"; str "*"] [Var (str "x"); One]) by show_means.
  split; [vm_compute; reflexivity|]. split; [repeat constructor|]. split.
  { apply (segments_spelled (str "x") [str "a"]); [segs_of_path|few]. }
  split; [reflexivity|]. split; [repeat (constructor; [not_in|]); constructor|]. split.
  { intros rg ks [H [_ Hp]]. apply in_combine_l in H. destruct H as [<-|[<-|[]]].
    - rewrite (pieces_unique _ _ _ _ _ _ M1 Hp). split; [repeat (constructor; [cbn; tauto|]); constructor|not_in].
    - rewrite (pieces_unique _ _ _ _ _ _ M2 Hp). split; [repeat (constructor; [cbn; tauto|]); constructor|not_in]. }
  split; [split; [right; left; reflexivity|]; split; [reflexivity|eexists; exact M2]|].
  split; [eexists; apply ra_var, ra_one, ra_end|].
  split; [exists 50; intros f; rewrite dispatch_more; [vm_compute; reflexivity|vm_compute; discriminate]|].
  split; [split; [left; reflexivity|]; split; [reflexivity|eexists; exact M1]|].
  split; [eexists; apply ra_one, ra_lit; [reflexivity|apply ra_end]|]. apply star_narrower.
Qed.

(** A second [**] at the end gets all the digits, so that it is tried first. *)
Lemma ends_narrower : forall ic rm,
  narrower ic rm [Any; Lit (str "a"); Lit (str "a")] [Any; Lit (str "a"); Any].
Proof.
  intros ic rm. split.
  - intros ts [bs H]. repeat rd.
    eexists. apply ra_any; [discriminate|]. apply ra_lit; [eassumption|]. apply ra_any_last.
  - exists [str "a"; str "b"]. split.
    + eexists. apply (ra_any ic rm _ []); [discriminate|].
      apply ra_lit; [unfold same_text; destruct ic; reflexivity|]. apply ra_any_last.
    + intros [bs H]. repeat rd.
      match goal with E : ?r ++ [?t; ?u] = _ |- _ => assert (E' : ["b"%char] = u)
        by (destruct r as [|a1 [|a2 [|a3 r]]]; cbn in E; try discriminate; injection E; intros; congruence) end.
      subst. unfold same_text in *. destruct ic; discriminate.
Qed.

Lemma inner_less_specific : exists fuel re ci regs r outs mth path ts buf rec segs rg ks rg2 ks2,
  handle_all fuel re (new_router ci) regs = (r, outs) /\
  snd (handle_all fuel re (new_router ci) (rev regs)) = outs /\ Forall (eq Registered) outs /\
  segments_of path ts /\ List.length buf = 19 /\ NoDup (map reg_handler regs) /\
  (forall rg' ks', route_of (re_ok re) ci (combine regs outs) mth rg' ks' -> Forall with_variables ks') /\
  route_of (re_ok re) ci (combine regs outs) mth rg ks /\ accepts_path ci (re_match re) ks ts /\
  (exists k, forall f, dispatch_request (k + f) re r mth path buf = Calls (reg_handler rg) rec segs /\
     dispatch_request (k + f) re (fst (handle_all fuel re (new_router ci) (rev regs))) mth path buf =
       Calls (reg_handler rg) rec segs) /\
  route_of (re_ok re) ci (combine regs outs) mth rg2 ks2 /\ accepts_path ci (re_match re) ks2 ts /\
  more_specific ks2 ks /\ narrower ci (re_match re) ks2 ks.
Proof.
  exists 50, lit_engine, false, [route "/**/a/a" 1; route "/**/a/**" 2]. eexists. eexists.
  exists GET, (str "/x/a/a"), [str "x"; str "a"; str "a"], zeros. eexists. eexists.
  exists (route "/**/a/**" 2), [Any; Lit (str "a"); Any], (route "/**/a/a" 1), [Any; Lit (str "a"); Lit (str "a")].
  assert (M1 : means (re_ok lit_engine) false (str "/**/a/a") [str "**"; str "a"; str "a"] [Any; Lit (str "a"); Lit (str "a")]) by show_means.
  assert (M2 : means (re_ok lit_engine) false (str "/**/a/**") [str "**"; str "a"; str "**"] [Any; Lit (str "a"); Any]) by show_means.
  split; [vm_compute; reflexivity|]. split; [vm_compute; reflexivity|]. split; [repeat constructor|]. split.
  { apply (segments_spelled (str "x") [str "a"; str "a"]); [segs_of_path|few]. }
  split; [reflexivity|]. split; [repeat (constructor; [not_in|]); constructor|]. split.
  { intros rg ks [H [_ Hp]]. apply in_combine_l in H. destruct H as [<-|[<-|[]]].
    - rewrite (pieces_unique _ _ _ _ _ _ M1 Hp). repeat constructor.
    - rewrite (pieces_unique _ _ _ _ _ _ M2 Hp). repeat constructor. }
  split; [split; [right; left; reflexivity|]; split; [reflexivity|eexists; exact M2]|].
  split.
  { eexists. apply (ra_any _ _ _ [str "x"]); [discriminate|]. apply ra_lit; [reflexivity|]. apply ra_any_last. }
  split.
  { exists 50. intros f. split; (rewrite dispatch_more; [vm_compute; reflexivity|vm_compute; discriminate]). }
  split; [split; [left; reflexivity|]; split; [reflexivity|eexists; exact M1]|].
  split.
  { eexists. apply (ra_any _ _ _ [str "x"]); [discriminate|]. apply ra_lit; [reflexivity|]. apply ra_lit; [reflexivity|]. apply ra_end. }
  split; [|apply ends_narrower].
  apply ms_later; [reflexivity|]. apply ms_later; [reflexivity|]. apply ms_here. cbn. lia.
Qed.

(** A case: three routes for one request, two of them narrower than the third. *)
Definition lane : list (bytes * bytes * nat) := [route "/a/**" 1; route "/{y}/{z}" 3; route "/a/{x}" 2].
Definition lane_router := fst (handle_all 100 lit_engine (new_router false) lane).
Definition lane_outs := snd (handle_all 100 lit_engine (new_router false) lane).
Lemma lane_case :
  handle_all 100 lit_engine (new_router false) lane = (lane_router, lane_outs) /\
  Forall (eq Registered) lane_outs /\
  Forall (fun rg => countable (re_ok lit_engine) false (reg_text rg)) lane /\
  segments_of (str "/a/b") [str "a"; str "b"] /\
  (forall rg ks, In rg lane -> pieces_of (re_ok lit_engine) false (reg_text rg) ks -> Forall with_variables ks) /\
  (forall rg ks, route_of (re_ok lit_engine) false (combine lane lane_outs) GET rg ks ->
     List.length ks <= 19 /\ any_only_last ks /\
     not_cut false (re_match lit_engine) (route_of (re_ok lit_engine) false (combine lane lane_outs) GET)
       [str "a"; str "b"] ks) /\
  narrower false (re_match lit_engine) [Lit (str "a"); Var (str "x")] [Lit (str "a"); Any] /\
  narrower false (re_match lit_engine) [Lit (str "a"); Var (str "x")] [Var (str "y"); Var (str "z")] /\
  exists rec segs, dispatch_request 100 lit_engine lane_router GET (str "/a/b") zeros = Calls 2 rec segs.
Proof.
  assert (M1 : means (re_ok lit_engine) false (str "/a/**") [str "a"; str "**"] [Lit (str "a"); Any]) by show_means.
  assert (M2 : means (re_ok lit_engine) false (str "/a/{x}") [str "a"; str "{x}"] [Lit (str "a"); Var (str "x")]) by show_means.
  assert (M3 : means (re_ok lit_engine) false (str "/{y}/{z}") [str "{y}"; str "{z}"] [Var (str "y"); Var (str "z")]) by show_means.
  split; [vm_compute; reflexivity|].
  split; [assert (E : lane_outs = repeat Registered 3) by (vm_compute; reflexivity); rewrite E; repeat constructor|].
  split; [repeat (constructor; [apply countable_if; cbn; lia|]); constructor|].
  split; [apply (segments_spelled (str "a") [str "b"]); [segs_of_path|few]|].
  split.
  { intros rg ks H Hp. destruct H as [<-|[<-|[<-|[]]]].
    - rewrite (pieces_unique _ _ _ _ _ _ M1 Hp). repeat constructor.
    - rewrite (pieces_unique _ _ _ _ _ _ M3 Hp). repeat constructor.
    - rewrite (pieces_unique _ _ _ _ _ _ M2 Hp). repeat constructor. }
  split.
  { assert (Two : forall a b : piece, (forall bs, ~ reads_as false (re_match lit_engine) [a] [str "a"; str "b"] bs) ->
      any_only_last [a; b] -> List.length [a; b] <= 19 /\ any_only_last [a; b] /\
      not_cut false (re_match lit_engine) (route_of (re_ok lit_engine) false (combine lane lane_outs) GET)
        [str "a"; str "b"] [a; b]).
    { intros a b Hn Ho. split; [cbn; lia|]. split; [assumption|].
      intros k0 k k2 bs E Hne R. exfalso.
      destruct k0 as [|x [|y k0]].
      - cbn in E, R. injection E as <- <-. exact (Hn _ R).
      - cbn in E. injection E as <- <- <-. congruence.
      - cbn in E. injection E as E1 E2 E3. destruct k0; discriminate E3. }
    intros rg ks [H [_ Hp]]. apply in_combine_l in H. destruct H as [<-|[<-|[<-|[]]]].
    - rewrite (pieces_unique _ _ _ _ _ _ M1 Hp). apply Two; [intros bs R; repeat rd|not_in].
    - rewrite (pieces_unique _ _ _ _ _ _ M3 Hp). apply Two; [intros bs R; repeat rd|not_in].
    - rewrite (pieces_unique _ _ _ _ _ _ M2 Hp). apply Two; [intros bs R; repeat rd|not_in]. }
  split.
  { split.
    - intros ts [bs H]. repeat rd. eexists. apply ra_lit; [eassumption|]. apply ra_any_last.
    - exists [str "a"; str "b"; str "c"]. split; [eexists; apply ra_lit; [reflexivity|apply ra_any_last]|].
      intros [bs H]. repeat rd. }
  split.
  { split.
    - intros ts [bs H]. repeat rd. eexists. apply ra_var, ra_var, ra_end.
    - exists [str "b"; str "c"]. split; [eexists; apply ra_var, ra_var, ra_end|].
      intros [bs H]. repeat rd. discriminate. }
  eexists. eexists. vm_compute. reflexivity.
Qed.
