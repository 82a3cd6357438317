(** * Concrete routers with an inner double star. *)
From Coq Require Import List NArith ZArith Ascii String Bool Lia Arith Permutation.
From Verif Require Import GoBase Glob_Model Glob_Spec Glob_Proofs Pattern_Model Pattern_Spec Pattern_Proofs
  Priority_Spec Priority_Proofs Url_Model Url_Spec Url_Proofs Match_Model Search_Proofs Trie_Proofs Grow_Proofs
  Router_Model Routing_Spec Covers_Proofs Routes_Proofs Dispatch_Proofs Routing_Proofs Witness_Proofs
  Choice_Spec Choice_Proofs ChoiceWitness_Proofs Inner_Spec InnerRoute_Proofs.
Import ListNotations.
Local Open Scope string_scope.
Local Open Scope list_scope.
Local Open Scope nat_scope.

(** All ways to write a concrete list of pieces as [k0 ++ k :: k2]. *)
Ltac splits k0 E :=
  let x := fresh "x" in
  destruct k0 as [|x k0]; cbn [app] in E;
    [first [discriminate E | injection E as E; subst]
    |first [discriminate E | injection E as ? E; subst; splits k0 E]].

Lemma incomplete_inner : exists fuel re ci regs r outs mth path ts buf,
  handle_all fuel re (new_router ci) regs = (r, outs) /\ Forall (eq Registered) outs /\
  segments_of path ts /\ List.length buf = 19 /\
  (exists rg ks bs, route_of (re_ok re) ci (combine regs outs) mth rg ks /\ ~ In Any ks /\
     reads_as ci (re_match re) ks ts bs) /\
  (forall rg ks, route_of (re_ok re) ci (combine regs outs) mth rg ks -> List.length ks <= 18 /\ calm_on ci ts ks /\
     not_ended ci (re_match re) (route_of (re_ok re) ci (combine regs outs) mth) ts ks) /\
  exists k, forall f, dispatch_request (k + f) re r mth path buf = NotFound.
Proof.
  exists 50, lit_engine, false, [route "/a/**/b" 1; route "/*/c" 2]. eexists. eexists.
  exists GET, (str "/a/c"), [str "a"; str "c"], zeros.
  assert (M1 : means (re_ok lit_engine) false (str "/a/**/b") [str "a"; str "**"; str "b"] [Lit (str "a"); Any; Lit (str "b")]) by show_means.
  assert (M2 : means (re_ok lit_engine) false (str "/*/c") [str "*"; str "c"] [One; Lit (str "c")]) by show_means.
  split; [vm_compute; reflexivity|]. split; [repeat constructor|]. split.
  { apply (segments_spelled (str "a") [str "c"]); [segs_of_path|few]. }
  split; [reflexivity|]. split; [|split].
  - exists (route "/*/c" 2), [One; Lit (str "c")]. eexists. split.
    + split; [right; left; reflexivity|]. split; [reflexivity|]. eexists. exact M2.
    + split; [not_in|]. apply ra_one. apply ra_lit; [reflexivity|]. apply ra_end.
  - intros rg ks [H [_ Hp]]. apply in_combine_l in H. destruct H as [<-|[<-|[]]].
    + rewrite (pieces_unique _ _ _ _ _ _ M1 Hp). split; [cbn; lia|]. split.
      { intros w s Hin. cbn in Hin. repeat (destruct Hin as [Hin|Hin]; [discriminate|]). destruct Hin. }
      intros k0 k k2 t0 t bs E1 E2 E3 E4 E5. symmetry in E1. exfalso. clear E4. splits k0 E1; cbn [app] in E5.
      * inversion E5; subst. match goal with H : reads_as _ _ [] (_ :: _) _ |- _ => inversion H end.
      * apply E3. reflexivity.
      * apply E2. reflexivity.
    + rewrite (pieces_unique _ _ _ _ _ _ M2 Hp). split; [cbn; lia|]. split.
      { intros w s Hin. cbn in Hin. repeat (destruct Hin as [Hin|Hin]; [discriminate|]). destruct Hin. }
      intros k0 k k2 t0 t bs E1 E2 E3 E4 E5. symmetry in E1. exfalso. clear E4. splits k0 E1; cbn [app] in E5.
      * inversion E5; subst. match goal with H : reads_as _ _ [] (_ :: _) _ |- _ => inversion H end.
      * apply E2. reflexivity.
  - exists 50. intros f. rewrite dispatch_more; [vm_compute; reflexivity|vm_compute; discriminate].
Qed.

Lemma reads_last : forall ic rm k0 k ts bs, reads_as ic rm (k0 ++ [k]) ts bs -> k <> Any ->
  forall t0 t, ts = t0 ++ [t] -> exists bs', reads_as ic rm [k] [t] bs'.
Proof.
  intros ic rm k0 k ts bs H Hk. remember (k0 ++ [k]) as ks eqn:E. revert k0 E. 
  assert (Step : forall (s : bytes) (ts0 : list bytes), ts0 <> [] -> forall t0 t, s :: ts0 = t0 ++ [t] -> exists t0', ts0 = t0' ++ [t]).
  { intros s ts0 Hn [|x t0] t Et; [injection Et as _ ->; congruence|]. injection Et as _ ->. eauto. }
  assert (Two : forall (p x : piece) ks k0, p :: x :: ks = k0 ++ [k] -> exists k0', x :: ks = k0' ++ [k]).
  { intros p x l [|y k0] Ek; [discriminate|]. injection Ek as _ Ek. eauto. }
  assert (Sure : forall ks ts bs, reads_as ic rm ks ts bs -> ks <> [] -> ts <> []).
  { intros ks0 ts0 bs0 R Hn Ht. apply reads_nothing in R; auto. }
  induction H; intros k0 E t0 tl Et; try (destruct k0; discriminate);
  try (match goal with R : reads_as _ _ ?l ?m _, IH : forall k0, ?l = _ -> _ |- _ =>
    destruct l as [|x l];
    [ inversion R; subst; destruct k0 as [|y k0]; [|destruct k0; discriminate];
      destruct t0 as [|z t0]; [|destruct t0; discriminate]; injection E as <-; injection Et as ->; 
      eexists; econstructor; eauto; constructor
    | destruct (Two _ _ _ _ E) as [k0' E']; destruct (Step _ _ (Sure _ _ _ R ltac:(discriminate)) _ _ Et) as [t0' Et']; eauto] end).
  - destruct k0 as [|y k0]; [injection E as <-; congruence|destruct k0; discriminate].
  - destruct ks as [|x ks]; [congruence|]. destruct (Two _ _ _ _ E) as [k0' E'].
    pose proof (Sure _ _ _ H0 ltac:(discriminate)) as Hn. destruct (exists_last Hn) as [ts' [t' Ets]].
    rewrite Ets, app_assoc in Et. apply app_inj_tail in Et. destruct Et as [_ <-]. eapply IHreads_as; eauto.
Qed.

(** Several patterns that go through the same double star, and one beside it. *)
Definition docs := [route "/docs/**/index.html" 1; route "/docs/**/v/{n}" 2; route "/docs/{x}/v" 3].
Definition docs_router : router := Eval vm_compute in fst (handle_all 100 lit_engine (new_router false) docs).
Definition docs_outs := [Registered; Registered; Registered].
Definition docs_path := str "/docs/a/b/v/7".
Definition docs_ts := [str "docs"; str "a"; str "b"; str "v"; str "7"].
Definition docs_1 := [Lit (str "docs"); Any; Lit (str "index.html")].
Definition docs_2 := [Lit (str "docs"); Any; Lit (str "v"); Var (str "n")].
Definition docs_3 := [Lit (str "docs"); Var (str "x"); Lit (str "v")].

Lemma docs_m1 : means (re_ok lit_engine) false (str "/docs/**/index.html") [str "docs"; str "**"; str "index.html"] docs_1.
Proof. show_means. Qed.
Lemma docs_m2 : means (re_ok lit_engine) false (str "/docs/**/v/{n}") [str "docs"; str "**"; str "v"; str "{n}"] docs_2.
Proof. show_means. Qed.
Lemma docs_m3 : means (re_ok lit_engine) false (str "/docs/{x}/v") [str "docs"; str "{x}"; str "v"] docs_3.
Proof. show_means. Qed.

Lemma docs_registered : handle_all 100 lit_engine (new_router false) docs = (docs_router, docs_outs) /\
  Forall (fun rg => countable (re_ok lit_engine) false (reg_text rg) /\ plain (re_ok lit_engine) false (reg_text rg)) docs /\
  (N.of_nat (List.length docs) < 65536)%N /\ (blen docs_path < 65536)%N /\ segments_of docs_path docs_ts.
Proof.
  split; [vm_compute; reflexivity|]. split.
  { constructor; [|constructor; [|constructor; [|constructor]]].
    - eapply plain_countable; [cbn; lia|exact docs_m1|repeat constructor; discriminate].
    - eapply plain_countable; [cbn; lia|exact docs_m2|repeat constructor; discriminate].
    - eapply plain_countable; [cbn; lia|exact docs_m3|repeat constructor; discriminate]. }
  split; [reflexivity|]. split; [reflexivity|].
  apply (segments_spelled (str "docs") [str "a"; str "b"; str "v"; str "7"]); [segs_of_path|few].
Qed.

Lemma docs_read : exists bs, reads_as false (re_match lit_engine) docs_2 docs_ts bs.
Proof.
  eexists. apply ra_lit; [reflexivity|]. apply (ra_any _ _ _ [str "a"; str "b"] [str "v"; str "7"]); [discriminate|].
  apply ra_lit; [reflexivity|]. apply ra_var. apply ra_end.
Qed.

Lemma docs_route2 : route_of (re_ok lit_engine) false (combine docs docs_outs) GET (route "/docs/**/v/{n}" 2) docs_2.
Proof. split; [right; left; reflexivity|]. split; [reflexivity|]. eexists. exact docs_m2. Qed.

Lemma docs_routes : forall rg ks, route_of (re_ok lit_engine) false (combine docs docs_outs) GET rg ks ->
  (List.length ks <= 18 \/ any_only_last ks) /\ calm_on false docs_ts ks /\
  not_stuck false (re_match lit_engine) (route_of (re_ok lit_engine) false (combine docs docs_outs) GET) docs_ts ks /\
  not_ended false (re_match lit_engine) (route_of (re_ok lit_engine) false (combine docs docs_outs) GET) docs_ts ks.
Proof.
  assert (Calm : forall ks, (forall w, ~ In (Glob w) ks) -> calm_on false docs_ts ks).
  { intros ks Hn w s Hin. destruct (Hn _ Hin). }
  assert (Ended : forall k, k = Lit (str "docs") \/ k = Lit (str "v") -> forall k0 t0 t bs,
     docs_ts = t0 ++ [t] -> ~ reads_as false (re_match lit_engine) (k0 ++ [k]) docs_ts bs).
  { intros k Hk k0 t0 t bs Et R. destruct (reads_last _ _ _ _ _ _ R) with (t0 := t0) (t := t) as [bs' R']; [intros ->; destruct Hk; discriminate|assumption|].
    assert (t = str "7") as ->.
    { change docs_ts with ([str "docs"; str "a"; str "b"; str "v"] ++ [str "7"]) in Et. apply app_inj_tail in Et. destruct Et as [_ <-]. reflexivity. }
    destruct Hk as [->| ->]; inversion R'; discriminate. }
  intros rg ks [H [_ Hp]]. apply in_combine_l in H. destruct H as [<-|[<-|[<-|[]]]].
  - rewrite (pieces_unique _ _ _ _ _ _ docs_m1 Hp). split; [left; cbn; lia|]. split; [apply Calm; intros w; not_in|]. split.
    + intros k0 k2 bs E E2 R. symmetry in E. splits k0 E. right. split; [intros n r; not_in|].
      exists (route "/docs/**/v/{n}" 2), [Lit (str "docs")], [Lit (str "v"); Var (str "n")]. destruct docs_read as [bs' Q].
      exists bs'. split; [exact docs_route2|]. split; [discriminate|]. split; [repeat constructor|]. exact Q.
    + intros k0 k k2 t0 t bs E1 E2 E3 E4 E5. symmetry in E1. exfalso. splits k0 E1; try congruence.
      eapply (Ended _ (or_introl eq_refl) []); eassumption.
  - rewrite (pieces_unique _ _ _ _ _ _ docs_m2 Hp). split; [left; cbn; lia|]. split; [apply Calm; intros w; not_in|]. split.
    + intros k0 k2 bs E E2 R. left. exact docs_read.
    + intros k0 k k2 t0 t bs E1 E2 E3 E4 E5. symmetry in E1. exfalso. splits k0 E1; try congruence.
      * eapply (Ended _ (or_introl eq_refl) []); eassumption.
      * eapply (Ended _ (or_intror eq_refl) [Lit (str "docs"); Any]); eassumption.
  - rewrite (pieces_unique _ _ _ _ _ _ docs_m3 Hp). split; [left; cbn; lia|]. split; [apply Calm; intros w; not_in|]. split.
    + intros k0 k2 bs E E2 R. symmetry in E. splits k0 E.
    + intros k0 k k2 t0 t bs E1 E2 E3 E4 E5. symmetry in E1. exfalso. splits k0 E1; try congruence.
      * eapply (Ended _ (or_introl eq_refl) []); eassumption.
      * inversion E5; subst. match goal with R : reads_as _ _ [Var _] _ _ |- _ => inversion R; subst end.
        match goal with R : reads_as _ _ [] (_ :: _) _ |- _ => inversion R end.
Qed.

(** A route on its own with two double stars. *)
Definition files := [route "/files/**/v/**/x" 1].
Definition files_router : router := Eval vm_compute in fst (handle_all 100 lit_engine (new_router false) files).
Definition files_path := str "/files/a/v/b/v/x".
Definition files_ts := [str "files"; str "a"; str "v"; str "b"; str "v"; str "x"].
Definition files_ks := [Lit (str "files"); Any; Lit (str "v"); Any; Lit (str "x")].

Lemma files_m : means (re_ok lit_engine) false (str "/files/**/v/**/x") [str "files"; str "**"; str "v"; str "**"; str "x"] files_ks.
Proof. show_means. Qed.

Lemma files_registered : handle_all 100 lit_engine (new_router false) files = (files_router, [Registered]) /\
  Forall (fun rg => countable (re_ok lit_engine) false (reg_text rg) /\ plain (re_ok lit_engine) false (reg_text rg)) files /\
  (N.of_nat (List.length files) < 65536)%N /\ (blen files_path < 65536)%N /\ segments_of files_path files_ts /\
  route_of (re_ok lit_engine) false (combine files [Registered]) GET (route "/files/**/v/**/x" 1) files_ks /\
  (forall rg' ks', route_of (re_ok lit_engine) false (combine files [Registered]) GET rg' ks' -> rg' = route "/files/**/v/**/x" 1) /\
  List.length files_ks <= 18 /\ calm_on false files_ts files_ks /\
  (exists bs, reads_as false (re_match lit_engine) files_ks files_ts bs).
Proof.
  split; [vm_compute; reflexivity|]. split.
  { constructor; [|constructor]. eapply plain_countable; [cbn; lia|exact files_m|repeat constructor; discriminate]. }
  split; [reflexivity|]. split; [reflexivity|].
  split; [apply (segments_spelled (str "files") [str "a"; str "v"; str "b"; str "v"; str "x"]); [segs_of_path|few]|].
  split; [split; [left; reflexivity|]; split; [reflexivity|]; eexists; exact files_m|].
  split; [intros rg' ks' [H _]; apply in_combine_l in H; destruct H as [<-|[]]; reflexivity|].
  split; [cbn; lia|]. split.
  { intros w s Hin. cbn in Hin. repeat (destruct Hin as [Hin|Hin]; [discriminate|]). destruct Hin. }
  eexists. apply ra_lit; [reflexivity|]. apply (ra_any _ _ _ [str "a"] [str "v"; str "b"; str "v"; str "x"]); [discriminate|].
  apply ra_lit; [reflexivity|]. apply (ra_any _ _ _ [str "b"; str "v"] [str "x"]); [discriminate|].
  apply ra_lit; [reflexivity|]. apply ra_end.
Qed.

Lemma docs_served : exists rec segs, dispatch_request 100 lit_engine docs_router GET docs_path zeros = Calls 2 rec segs.
Proof. eexists. eexists. vm_compute. reflexivity. Qed.
Lemma files_served : exists rec segs, dispatch_request 100 lit_engine files_router GET files_path zeros = Calls 1 rec segs.
Proof. eexists. eexists. vm_compute. reflexivity. Qed.
