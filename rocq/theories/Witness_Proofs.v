(** * Concrete routers: cases and counterexamples. *)
From Coq Require Import List NArith ZArith Ascii String Bool Lia Arith Permutation.
From Verif Require Import GoBase Glob_Model Glob_Spec Glob_Proofs GlobExact_Proofs Pattern_Model Pattern_Spec Pattern_Proofs
  Priority_Spec Priority_Proofs Url_Model Url_Spec Url_Proofs Match_Model Search_Proofs Trie_Proofs Grow_Proofs
  Router_Model Routing_Spec Covers_Proofs Routes_Proofs Dispatch_Proofs Routing_Proofs.
Import ListNotations.
Local Open Scope string_scope.
Local Open Scope list_scope.
Local Open Scope nat_scope.

(** A tiny engine: an expression matches exactly its own text. *)
Definition lit_engine : engine := Engine (fun _ => true) beqb.

Lemma reads_var' : forall s name, s = "{"%char :: name ++ ["}"%char] ->
  name <> [] -> ~ In ":"%char name -> no_adjacent_stars name -> reads s (Var name).
Proof. intros; subst; apply reads_var; assumption. Qed.
Lemma reads_constrained' : forall s name re, s = "{"%char :: name ++ ":"%char :: re ++ ["}"%char] ->
  name <> [] -> ~ In ":"%char name -> re <> [] -> last re "a"%char <> ":"%char ->
  no_adjacent_stars (name ++ ":"%char :: re) -> reads s (Constrained name re).
Proof. intros; subst; apply reads_constrained; assumption. Qed.

Ltac not_in := let H := fresh in intros H; cbn in H; repeat (destruct H as [H|H]; [discriminate|]); exact H.
Ltac nas := cbn; repeat first [apply nas_nil|apply nas_one|apply nas_cons; [intros [? ?]; discriminate|]].
Ltac show_reads :=
  first [ apply reads_one | apply reads_any
        | apply reads_var'; [reflexivity|discriminate|not_in|nas]
        | apply reads_constrained'; [reflexivity|discriminate|not_in|discriminate|discriminate|nas]
        | apply reads_glob; [cbn; tauto|discriminate|nas|discriminate|discriminate]
        | apply reads_lit; [discriminate|not_in|not_in|discriminate|discriminate] ].
Ltac show_means :=
  split; [split; [repeat (constructor; [not_in|]); constructor
                 |first [left; split; [reflexivity|discriminate]|right; reflexivity]]
         |split; [repeat (constructor; [show_reads|]); constructor
                 |split; [repeat first [apply naa_nil|apply naa_one|apply naa_cons; [intros [? ?]; discriminate|]]
                         |first [reflexivity|intros; reflexivity]]]].

Lemma pieces_unique : forall ok ic t ps ks ks', means ok ic t ps ks -> pieces_of ok ic t ks' -> ks' = ks.
Proof. intros ok ic t ps ks ks' H [ps' H']. destruct (means_unique _ _ _ _ _ _ _ H' H) as [_ ->]. reflexivity. Qed.

Example try_means : means (fun _ => true) false (str "/a/{x}/{y:[0-9]}/b?c/*/**")
  [str "a"; str "{x}"; str "{y:[0-9]}"; str "b?c"; str "*"; str "**"]
  [Lit (str "a"); Var (str "x"); Constrained (str "y") (str "[0-9]"); Glob (str "b?c"); One; Any].
Proof. show_means. Qed.

Lemma means_length : forall ok ic t ps ks, means ok ic t ps ks -> List.length ks <= List.length t.
Proof.
  intros ok ic t ps ks [[_ Hs] [F _]]. rewrite <- (forall2_len _ _ _ _ _ F).
  assert (A : List.length ps <= List.length (spelled ps)).
  { clear. induction ps as [|p ps IH]; [cbn; lia|]. cbn. rewrite app_length. lia. }
  destruct Hs as [[-> _]| ->]; [assumption|]. rewrite app_length. lia.
Qed.

Lemma countable_if : forall ok ic t, List.length t <= 255 -> countable ok ic t.
Proof. intros ok ic t H ks [ps Hm]. apply means_length in Hm. lia. Qed.
Lemma plain_if : forall ok ic t ps ks, means ok ic t ps ks -> Forall (plain_piece ic) ks -> plain ok ic t.
Proof.
  intros ok ic t ps ks H Hp E ks' H' n r Hin. rewrite (pieces_unique _ _ _ _ _ _ H H') in Hin.
  rewrite Forall_forall in Hp. exact (Hp _ Hin E).
Qed.

Lemma cut_spelled : forall p ps, Forall (fun p => ~ In "/"%char p) (p :: ps) -> cut (p ++ spelled ps) (p :: ps).
Proof.
  intros p ps. revert p. induction ps as [|q ps IH]; intros p H; inversion H; subst.
  - cbn. rewrite app_nil_r. apply cut_last. assumption.
  - cbn [spelled]. apply cut_more; auto.
Qed.
Lemma segments_spelled : forall p ps, Forall (fun p => ~ In "/"%char p) (p :: ps) -> ~ too_many [] (p :: ps) ->
  segments_of (spelled (p :: ps)) (walked [] (p :: ps)).
Proof. intros p ps H1 H2. apply (so_some [] (p ++ spelled ps)); [intros []|apply cut_spelled; assumption|assumption]. Qed.
Lemma overlong_spelled : forall p ps, Forall (fun p => ~ In "/"%char p) (p :: ps) -> too_many [] (p :: ps) ->
  overlong (spelled (p :: ps)).
Proof. intros p ps H1 H2. apply (overlong_intro [] (p ++ spelled ps) (p :: ps)); [intros []|apply cut_spelled; assumption|assumption]. Qed.

Ltac few := let H := fresh in intros H; cbn in H; repeat (destruct H as [H|H]; [lia|]); exact H.

Definition zeros := repeat useg_zero 19.
Definition GET := str "GET".
Definition route (s : string) (h : nat) : bytes * bytes * nat := (GET, str s, h).

(** C08 *)
Lemma overlong_served : exists fuel re ci regs r outs f mth path buf h rec segs,
  handle_all fuel re (new_router ci) regs = (r, outs) /\ (blen path < 65536)%N /\ overlong path /\
  List.length buf = 19 /\ dispatch_request f re r mth path buf = Calls h rec segs.
Proof.
  exists 50, lit_engine, false, [route "/" 7]. eexists. eexists. exists 50, GET, (spelled (repeat (str "a") 20)), zeros, 7, None, [].
  split; [vm_compute; reflexivity|]. split; [vm_compute; reflexivity|]. split; [|split; reflexivity].
  apply (overlong_spelled (str "a") (repeat (str "a") 19)).
  - repeat (constructor; [not_in|]). constructor.
  - cbn. lia.
Qed.

(** C09 *)
Definition long_path : bytes := "/"%char :: repeat "a"%char (N.to_nat 65535).
Lemma long_path_crashes : exists fuel re ci regs r outs f mth path buf h rec segs name,
  handle_all fuel re (new_router ci) regs = (r, outs) /\ List.length buf = 19 /\
  dispatch_request f re r mth path buf = Calls h rec segs /\ path_var rec path segs name = None.
Proof.
  exists 50, lit_engine, false, [route "/{x}" 7]. eexists. eexists. exists 50, GET, long_path, zeros, 7.
  eexists. eexists. exists (str "x").
  split; [vm_compute; reflexivity|]. split; [reflexivity|]. split; [vm_compute; reflexivity|vm_compute; reflexivity].
Qed.
Lemma long_path_crashes_routing : exists fuel re ci regs r outs f mth path buf,
  handle_all fuel re (new_router ci) regs = (r, outs) /\ List.length buf = 19 /\
  dispatch_request f re r mth path buf = ServeCrash.
Proof.
  exists 50, lit_engine, false, [route "/{x:a}" 7]. eexists. eexists. exists 50, GET, long_path, zeros.
  split; [vm_compute; reflexivity|]. split; [reflexivity|vm_compute; reflexivity].
Qed.

(** C10 *)
Lemma routed_unsound : exists fuel re ci regs r outs f mth path ts buf h rec segs,
  handle_all fuel re (new_router ci) regs = (r, outs) /\ Forall (eq Registered) outs /\
  segments_of path ts /\ List.length buf = 19 /\
  dispatch_request f re r mth path buf = Calls h rec segs /\
  ~ exists mth' text ks bs, In ((mth', text, h), Registered) (combine regs outs) /\ same_method mth' mth /\
      pieces_of (re_ok re) ci text ks /\ reads_as ci (re_match re) ks ts bs.
Proof.
  exists 50, lit_engine, false, [route "/{b:a}/q" 1; route "/{x:{b:a}}/r" 2]. eexists. eexists.
  exists 50, GET, (str "/a/r"), [str "a"; str "r"], zeros, 2. eexists. eexists.
  split; [vm_compute; reflexivity|]. split; [repeat constructor|]. split.
  { apply (segments_spelled (str "a") [str "r"]); [repeat (constructor; [not_in|]); constructor|few]. }
  split; [reflexivity|]. split; [vm_compute; reflexivity|].
  intros [mth' [text [ks [bs [H1 [_ [H2 H3]]]]]]]. cbn in H1. destruct H1 as [H1|[H1|[]]]; [discriminate|].
  injection H1 as <- <-.
  assert (M : means (re_ok lit_engine) false (str "/{x:{b:a}}/r") [str "{x:{b:a}}"; str "r"]
     [Constrained (str "x") (str "{b:a}"); Lit (str "r")]) by show_means.
  rewrite (pieces_unique _ _ _ _ _ _ M H2) in H3. inversion H3; subst. discriminate.
Qed.

(** C15 *)
Definition wrapping_dup : bytes := str "/**" ++ List.concat (repeat (str "/x") 255) ++ str "/a*bc".
Lemma refused_changes : exists fuel re ci regs r outs mth txt h r' path buf f,
  handle_all fuel re (new_router ci) regs = (r, outs) /\
  handle fuel re r mth txt h = (r', Duplicate) /\ List.length buf = 19 /\
  dispatch_request f re r mth path buf = NotFound /\ dispatch_request f re r' mth path buf = ServeCrash.
Proof.
  exists 50, lit_engine, false, [route "/a*bc" 1]. eexists. eexists. exists GET, wrapping_dup, 2. eexists.
  exists (str "/ab/x"), zeros, 50.
  split; [vm_compute; reflexivity|]. split; [vm_compute; reflexivity|]. split; [reflexivity|].
  split; vm_compute; reflexivity.
Qed.

(** C18 *)
Definition deep_route : bytes := str "/**/b/c/d/e/f/g/h/i/j/k/l/m/n/o/p/q/r/s".
Definition deep_path : bytes := str "/b/c/d/e/f/g/h/i/j/k/l/m/n/o/p/q/r/s/x".
Lemma stack_overrun : exists fuel re ci regs r outs f mth path ts buf,
  handle_all fuel re (new_router ci) regs = (r, outs) /\ Forall (eq Registered) outs /\ segments_of path ts /\
  List.length buf = 19 /\
  (forall mth' text h ks, In (mth', text, h) regs -> pieces_of (re_ok re) ci text ks -> forall w, ~ In (Glob w) ks) /\
  dispatch_request f re r mth path buf = ServeCrash.
Proof.
  exists 50, lit_engine, false, [(GET, deep_route, 1)]. eexists. eexists.
  exists 200, GET, deep_path, (map (fun s => str s) ["b";"c";"d";"e";"f";"g";"h";"i";"j";"k";"l";"m";"n";"o";"p";"q";"r";"s";"x"]), zeros.
  split; [vm_compute; reflexivity|]. split; [repeat constructor|]. split.
  { apply (segments_spelled (str "b") (map (fun s => str s) ["c";"d";"e";"f";"g";"h";"i";"j";"k";"l";"m";"n";"o";"p";"q";"r";"s";"x"]));
      [repeat (constructor; [not_in|]); constructor|few]. }
  split; [reflexivity|]. split; [|vm_compute; reflexivity].
  intros mth' text h ks [E|[]] Hp w. injection E as <- <- <-.
  assert (M : means (re_ok lit_engine) false deep_route
    (str "**" :: map (fun s => str s) ["b";"c";"d";"e";"f";"g";"h";"i";"j";"k";"l";"m";"n";"o";"p";"q";"r";"s"])
    (Any :: map (fun s => Lit (str s)) ["b";"c";"d";"e";"f";"g";"h";"i";"j";"k";"l";"m";"n";"o";"p";"q";"r";"s"])) by show_means.
  rewrite (pieces_unique _ _ _ _ _ _ M Hp). not_in.
Qed.

(** A router used as a case: literals, a variable, a constraint, a wildcard text and [**]. *)
Definition shop : list (bytes * bytes * nat) :=
  [route "/" 0; route "/users/{id}/orders/{no:7}" 1; route "/users/*/x?z" 2; route "/files/**" 3; route "/**/end" 4].
Definition shop_router : router := fst (handle_all 100 lit_engine (new_router false) shop).
Definition shop_outs : list handle_end := snd (handle_all 100 lit_engine (new_router false) shop).

Lemma shop_registered : handle_all 100 lit_engine (new_router false) shop = (shop_router, shop_outs) /\
  Forall (eq Registered) shop_outs /\ (N.of_nat (List.length shop) < 65536)%N.
Proof. split; [vm_compute; reflexivity|]. split; [repeat constructor|vm_compute; reflexivity]. Qed.

Definition shop_ks : list (list bytes * list piece) :=
  [([], []);
   ([str "users"; str "{id}"; str "orders"; str "{no:7}"],
    [Lit (str "users"); Var (str "id"); Lit (str "orders"); Constrained (str "no") (str "7")]);
   ([str "users"; str "*"; str "x?z"], [Lit (str "users"); One; Glob (str "x?z")]);
   ([str "files"; str "**"], [Lit (str "files"); Any]);
   ([str "**"; str "end"], [Any; Lit (str "end")])].
Lemma shop_means : Forall2 (fun rg x => means (re_ok lit_engine) false (reg_text rg) (fst x) (snd x)) shop shop_ks.
Proof.
  constructor; [|constructor; [|constructor; [|constructor; [|constructor; [|constructor]]]]]; show_means.
Qed.
Lemma shop_fine : Forall (fun rg => countable (re_ok lit_engine) false (reg_text rg) /\ plain (re_ok lit_engine) false (reg_text rg)) shop.
Proof.
  pose proof shop_means as H.
  assert (P : Forall (fun x : list bytes * list piece => Forall (plain_piece false) (snd x)) shop_ks).
  { repeat (apply Forall_cons; [repeat (constructor; [cbn; first [exact I|intros _; discriminate]|]); constructor|]). constructor. }
  assert (L : Forall (fun rg => List.length (reg_text rg) <= 255) shop).
  { repeat (constructor; [cbn; lia|]). constructor. }
  revert P L. induction H as [|rg x l l' Hm _ IH]; intros P L; [constructor|].
  inversion P; subst. inversion L; subst. constructor; [|auto].
  split; [apply countable_if; assumption|eapply plain_if; eassumption].
Qed.
Definition shop_path : bytes := str "/users//42/orders/x/../7/".
Lemma shop_segments : segments_of shop_path [str "users"; str "42"; str "orders"; str "7"].
Proof.
  apply (segments_spelled (str "users") [[]; str "42"; str "orders"; str "x"; str ".."; str "7"; []]);
    [repeat (constructor; [not_in|]); constructor|few].
Qed.
Lemma shop_calls : exists rec segs, dispatch_request 100 lit_engine shop_router (str "get") shop_path zeros = Calls 1 rec segs /\
  path_var rec shop_path segs (str "id") = Some (str "42") /\ path_var rec shop_path segs (str "no") = Some (str "7") /\
  path_var rec shop_path segs (str "zz") = Some [].
Proof. eexists. eexists. split; [vm_compute; reflexivity|]. split; [|split]; vm_compute; reflexivity. Qed.

Lemma table_pieces : forall ok ic (regs : list (bytes * bytes * nat)) (kss : list (list bytes * list piece)) rg ks,
  Forall2 (fun rg x => means ok ic (reg_text rg) (fst x) (snd x)) regs kss ->
  In rg regs -> pieces_of ok ic (reg_text rg) ks -> In ks (map snd kss).
Proof.
  intros ok ic regs kss rg ks H Hin Hp. destruct (forall2_in_l _ _ _ _ _ _ H Hin) as [x [A B]].
  apply in_map_iff. exists x. split; [|assumption]. symmetry. eapply pieces_unique; eassumption.
Qed.

Lemma shop_calm : routes_of lit_engine false shop shop_outs GET (fun ks =>
  (List.length ks <= 18 \/ any_only_last ks) /\
  forall ts w t, segments_of shop_path ts -> In (Glob w) ks -> In t ts -> calm false w t).
Proof.
  intros mth' text h ks H _ Hp. apply in_combine_l in H.
  pose proof (table_pieces _ _ _ _ _ _ shop_means H Hp) as A.
  assert (P : forall ks, In ks (map snd shop_ks) -> List.length ks <= 18 /\ forall w, In (Glob w) ks -> w = str "x?z").
  { intros k Hk. cbn [shop_ks map snd] in Hk.
    repeat (destruct Hk as [Hk|Hk]; [rewrite <- Hk; split; [cbn; lia|intros w Hw; cbn [In] in Hw; 
       repeat (destruct Hw as [Hw|Hw]; [try discriminate; injection Hw as <-; reflexivity|]); destruct Hw]|]). destruct Hk. }
  destruct (P ks A) as [P1 P2]. split; [left; assumption|].
  intros ts w t _ Hw _. rewrite (P2 w Hw). apply calm_last_star. not_in.
Qed.

Lemma overlong_case : overlong (spelled (repeat (str "a") 20)) /\
  dispatch_request 9 lit_engine (fst (handle_all 50 lit_engine (new_router false) [route "/a/{x}" 7])) GET
    (spelled (repeat (str "a") 20)) zeros = NotFound.
Proof.
  split; [|vm_compute; reflexivity]. apply (overlong_spelled (str "a") (repeat (str "a") 19)).
  - repeat (constructor; [not_in|]). constructor.
  - cbn. lia.
Qed.
Lemma shop_dup :
  snd (handle 100 lit_engine shop_router (str "Get") (str "/users/*/x?z/") 9) = Duplicate /\
  countable (re_ok lit_engine) false (str "/users/*/x?z/").
Proof. split; [vm_compute; reflexivity|]. apply countable_if. cbn. lia. Qed.
