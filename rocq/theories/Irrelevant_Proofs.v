(** * Only the registrations that match a request decide about it *)
From Coq Require Import List NArith ZArith Ascii String Bool Lia Arith Permutation Sorted.
From Verif Require Import GoBase Glob_Model Glob_Spec Glob_Proofs Pattern_Model Pattern_Spec Pattern_Proofs
  Priority_Spec Priority_Proofs Url_Model Url_Spec Url_Proofs Match_Model Search_Proofs Trie_Proofs Grow_Proofs
  Router_Model Routing_Spec Covers_Proofs Routes_Proofs Dispatch_Proofs Routing_Proofs Complete_Proofs Choice_Spec Choice_Proofs ChoiceWitness_Proofs Witness_Proofs AppWire_Proofs.
Import ListNotations.
Local Open Scope string_scope.
Local Open Scope list_scope.
Local Open Scope nat_scope.

Lemma matches_decide : forall fuel re ci regs r outs fuel' regs' r' outs' mth path ts buf buf',
  handle_all fuel re (new_router ci) regs = (r, outs) ->
  handle_all fuel' re (new_router ci) regs' = (r', outs') ->
  (N.of_nat (List.length regs) < 65536)%N -> (N.of_nat (List.length regs') < 65536)%N ->
  Forall (fun rg => countable (re_ok re) ci (reg_text rg) /\ plain (re_ok re) ci (reg_text rg)) regs ->
  Forall (fun rg => countable (re_ok re) ci (reg_text rg) /\ plain (re_ok re) ci (reg_text rg)) regs' ->
  (blen path < 65536)%N -> segments_of path ts -> List.length buf = 19 -> List.length buf' = 19 ->
  (forall rg ks, route_of (re_ok re) ci (combine regs outs) mth rg ks ->
     List.length ks <= 19 /\ any_only_last ks /\ calm_on ci ts ks /\ not_cut ci (re_match re) (route_of (re_ok re) ci (combine regs outs) mth) ts ks) ->
  (forall rg ks, route_of (re_ok re) ci (combine regs' outs') mth rg ks ->
     List.length ks <= 19 /\ any_only_last ks /\ calm_on ci ts ks /\ not_cut ci (re_match re) (route_of (re_ok re) ci (combine regs' outs') mth) ts ks) ->
  (forall rg ks bs, reads_as ci (re_match re) ks ts bs ->
     (route_of (re_ok re) ci (combine regs outs) mth rg ks <-> route_of (re_ok re) ci (combine regs' outs') mth rg ks)) ->
  (forall rg1 ks1 bs1 rg2 ks2 bs2, route_of (re_ok re) ci (combine regs outs) mth rg1 ks1 ->
     route_of (re_ok re) ci (combine regs outs) mth rg2 ks2 ->
     reads_as ci (re_match re) ks1 ts bs1 -> reads_as ci (re_match re) ks2 ts bs2 ->
     same_globs ci ks1 ks2 /\ (map kind_rank ks1 = map kind_rank ks2 -> rg1 = rg2)) ->
  exists k, forall f,
    match dispatch_request (k + f) re r mth path buf, dispatch_request (k + f) re r' mth path buf' with
    | Calls h rec segs, Calls h' rec' segs' =>
        h = h' /\ forall name, path_var rec path segs name = path_var rec' path segs' name
    | NotFound, NotFound => True
    | _, _ => False
    end.
Proof.
  intros fuel re ci regs r outs fuel' regs' r' outs' mth path ts buf buf' H H' Hl Hl' Hs Hs' Hp Ht Hb Hb' Hro Hro' Hsame Hgl.
  destruct (history _ _ _ _ _ _ H) as [R1 R2].
  { eapply Forall_impl; [|exact Hs]. intros a [A _]. assumption. }
  destruct (history _ _ _ _ _ _ H') as [R1' R2'].
  { eapply Forall_impl; [|exact Hs']. intros a [A _]. assumption. }
  destruct (dispatch_choice re ci (combine regs outs) r mth path ts buf) as [k [D [K1 K2]]]; auto.
  { rewrite combine_len by assumption. assumption. }
  { apply forall_combine with (P := fun x => plain_text re ci (reg_text x)).
    eapply Forall_impl; [|exact Hs]. intros a [_ A]. apply plain_plain_text. assumption. }
  { intros rg ks A. apply (Hro _ _ A). }
  destruct (dispatch_choice re ci (combine regs' outs') r' mth path ts buf') as [k' [D' [K1' K2']]]; auto.
  { rewrite combine_len by assumption. assumption. }
  { apply forall_combine with (P := fun x => plain_text re ci (reg_text x)).
    eapply Forall_impl; [|exact Hs']. intros a [_ A]. apply plain_plain_text. assumption. }
  { intros rg ks A. apply (Hro' _ _ A). }
  exists (k + k'). intros f.
  assert (E1 : dispatch_request (k + k' + f) re r mth path buf = D) by (rewrite <- Nat.add_assoc; apply K1).
  assert (E2 : dispatch_request (k + k' + f) re r' mth path buf' = D') by (rewrite (Nat.add_comm k), <- Nat.add_assoc; apply K1').
  rewrite E1, E2.
  destruct K2 as [[rg [ks [bs [rec [segs [A1 [A2 [A3 [A4 A5]]]]]]]]]|[A1 A2]];
  destruct K2' as [[rg' [ks' [bs' [rec' [segs' [B1 [B2 [B3 [B4 B5]]]]]]]]]|[B1 B2]].
  - assert (B0 : route_of (re_ok re) ci (combine regs outs) mth rg' ks') by (eapply Hsame; eassumption).
    assert (X1 : ~ more_specific ks' ks).
    { eapply A5; [| |exact B0|exact B2].
      - intros rg2 ks2 A. apply (Hro _ _ A).
      - intros rg1 ks1 bs1 rg2 ks2 bs2 Y1 Y2 Y3 Y4. apply (Hgl _ _ _ _ _ _ Y1 Y2 Y3 Y4). }
    assert (X2 : ~ more_specific ks ks').
    { eapply B5; [| |eapply Hsame; eassumption|exact A2].
      - intros rg2 ks2 A. apply (Hro' _ _ A).
      - intros rg1 ks1 bs1 rg2 ks2 bs2 Y1 Y2 Y3 Y4. eapply Hsame in Y1; [|eassumption]. eapply Hsame in Y2; [|eassumption].
        apply (Hgl _ _ _ _ _ _ Y1 Y2 Y3 Y4). }
    clear B1. rename B0 into B1.
    destruct (ms_total ks ks') as [Ek|[Ek|Ek]]; try contradiction.
    destruct (Hgl _ _ _ _ _ _ A1 B1 A2 B2) as [_ Eq]. specialize (Eq Ek). subst rg' D D'. split; [reflexivity|].
    intros name. rewrite A4, B4.
    assert (Eks : ks' = ks).
    { destruct A1 as [_ [_ [ps P1]]]. destruct B1 as [_ [_ [ps' P2]]].
      destruct (means_unique _ _ _ _ _ _ _ P1 P2). congruence. }
    subst ks'. rewrite (reads_det _ _ _ _ _ A2 (proj1 (proj2 (Hro _ _ A1))) _ B2). reflexivity.
  - exfalso. eapply B2; [eapply Hsame; eassumption|exact A2].
  - exfalso. eapply Hsame in B1; [|eassumption]. eapply A2; [exact B1|exact B2].
  - subst D D'. exact I.
Qed.

(** Adding a registration that does not read the request. *)
Lemma in_combine_last : forall (regs : list reg) outs rg x e, List.length outs = List.length regs ->
  (In (x, Registered) (combine (regs ++ [rg]) (outs ++ [e])) <-> In (x, Registered) (combine regs outs) \/ (x = rg /\ e = Registered)).
Proof.
  induction regs as [|a regs IH]; intros [|o outs] rg x e L; try discriminate L.
  - cbn. split; [intros [E|[]]; injection E as -> ->; auto|intros [[]|[-> ->]]; auto].
  - cbn [List.app combine In]. rewrite IH by (cbn in L; lia). tauto.
Qed.
Lemma later_irrelevant : forall fuel re ci regs rg r outs r' outs' mth path ts buf buf',
  handle_all fuel re (new_router ci) regs = (r, outs) ->
  handle_all fuel re (new_router ci) (regs ++ [rg]) = (r', outs') ->
  (N.of_nat (List.length regs) < 65535)%N ->
  Forall (fun rg => countable (re_ok re) ci (reg_text rg) /\ plain (re_ok re) ci (reg_text rg)) (regs ++ [rg]) ->
  (blen path < 65536)%N -> segments_of path ts -> List.length buf = 19 -> List.length buf' = 19 ->
  (forall rg ks, route_of (re_ok re) ci (combine regs outs) mth rg ks ->
     List.length ks <= 19 /\ any_only_last ks /\ calm_on ci ts ks /\ not_cut ci (re_match re) (route_of (re_ok re) ci (combine regs outs) mth) ts ks) ->
  (forall rg1 ks1 bs1 rg2 ks2 bs2, route_of (re_ok re) ci (combine regs outs) mth rg1 ks1 ->
     route_of (re_ok re) ci (combine regs outs) mth rg2 ks2 ->
     reads_as ci (re_match re) ks1 ts bs1 -> reads_as ci (re_match re) ks2 ts bs2 ->
     same_globs ci ks1 ks2 /\ (map kind_rank ks1 = map kind_rank ks2 -> rg1 = rg2)) ->
  (forall ks, pieces_of (re_ok re) ci (reg_text rg) ks -> List.length ks <= 19 /\ any_only_last ks /\ calm_on ci ts ks /\
     forall bs n, 0 < n -> ~ reads_as ci (re_match re) (firstn n ks) ts bs) ->
  exists k, forall f,
    match dispatch_request (k + f) re r mth path buf, dispatch_request (k + f) re r' mth path buf' with
    | Calls h rec segs, Calls h' rec' segs' =>
        h = h' /\ forall name, path_var rec path segs name = path_var rec' path segs' name
    | NotFound, NotFound => True
    | _, _ => False
    end.
Proof.
  intros fuel re ci regs rg r outs r' outs' mth path ts buf buf' H H' Hl Hs Hp Ht Hb Hb' Hro Hgl Hnew.
  assert (Hs0 : Forall (fun rg => countable (re_ok re) ci (reg_text rg) /\ plain (re_ok re) ci (reg_text rg)) regs) by (apply Forall_app in Hs; apply Hs).
  destruct (history _ _ _ _ _ _ H) as [R1 R2].
  { eapply Forall_impl; [|exact Hs0]. intros a [A _]. assumption. }
  rewrite handle_all_app, H in H'. cbn [fst snd handle_all] in H'. destruct rg as [[m0 t0] h0]. cbn [reg_text fst snd] in *.
  destruct (handle fuel re r m0 t0 h0) as [r1 e] eqn:He. cbn [fst snd] in H'. injection H' as E1 E2. subst r1.
  set (rg := (m0, t0, h0)) in *.
  assert (Hall : handle_all fuel re (new_router ci) (regs ++ [rg]) = (r', outs')).
  { rewrite handle_all_app, H. cbn [fst snd handle_all rg]. rewrite He. cbn [fst snd]. subst outs'. reflexivity. }
  assert (Hnr : forall ks bs, pieces_of (re_ok re) ci t0 ks -> ~ reads_as ci (re_match re) ks ts bs).
  { intros ks bs P R. destruct (Hnew ks P) as (_ & _ & _ & N). apply (N bs (S (List.length ks)) ltac:(lia)).
    rewrite firstn_all2 by lia. exact R. }
  assert (Hro2 : forall x ks, route_of (re_ok re) ci (combine (regs ++ [rg]) outs') mth x ks <->
     route_of (re_ok re) ci (combine regs outs) mth x ks \/
     (x = rg /\ e = Registered /\ same_method m0 mth /\ pieces_of (re_ok re) ci t0 ks)).
  { intros x ks. unfold route_of. subst outs'. rewrite in_combine_last by assumption. split.
    - intros [[A|[-> ->]] [B C]]; [left; auto|right; auto].
    - intros [[A [B C]]|[-> [-> [B C]]]]; [auto|]. split; [right; auto|split; assumption]. }
  eapply (matches_decide fuel re ci regs r outs fuel (regs ++ [rg]) r' outs' mth path ts buf buf'); try eassumption.
  - lia.
  - rewrite app_length. cbn. lia.
  - intros x ks A. apply Hro2 in A. destruct A as [A|[-> [-> [Sm P]]]].
    + destruct (Hro _ _ A) as (L & La & C & NC). split; [exact L|]. split; [exact La|]. split; [exact C|].
      intros k0 k k2 bs X1 X2 X3. destruct (NC k0 k k2 bs X1 X2 X3) as [Y|[Y|[Y1 (g & k0' & k' & bs' & Y2 & Y3)]]].
      * left. exact Y.
      * right. left. intros g k0' k' bs' Z R. apply Hro2 in Z. destruct Z as [Z|[_ [_ [_ Z]]]]; [eapply Y; eassumption|].
        exfalso. eapply Hnr; eassumption.
      * right. right. split.
        -- intros g0 ks' Z. apply Hro2 in Z. destruct Z as [Z|[_ [_ [_ Z]]]]; [eapply Y1; eassumption|]. apply (Hnew _ Z).
        -- exists g, k0', k', bs'. split; [apply Hro2; left; assumption|assumption].
    + destruct (Hnew _ P) as (L & La & C & N). split; [exact L|]. split; [exact La|]. split; [exact C|].
      intros k0 k k2 bs -> _ R. exfalso. apply (N bs (S (List.length k0)) ltac:(lia)).
      replace (firstn (S (List.length k0)) (k0 ++ k :: k2)) with (k0 ++ [k]); [exact R|].
      replace (S (List.length k0)) with (List.length k0 + 1) by lia. rewrite firstn_app_2. reflexivity.
  - intros x ks bs R. rewrite Hro2. split; [auto|]. intros [A|[_ [_ [_ P]]]]; [exact A|]. exfalso. eapply Hnr; eassumption.
Qed.

(** A registration that does not read the request takes it away from its handler. *)
Lemma later_harms : exists fuel re ci regs rg r outs r' outs' mth path ts buf ks,
  handle_all fuel re (new_router ci) regs = (r, outs) /\ handle_all fuel re (new_router ci) (regs ++ [rg]) = (r', outs') /\
  Forall (eq Registered) outs' /\ segments_of path ts /\ List.length buf = 19 /\
  pieces_of (re_ok re) ci (reg_text rg) ks /\ ~ In Any ks /\ (forall bs, ~ reads_as ci (re_match re) ks ts bs) /\
  exists k, forall f, (exists rec segs, dispatch_request (k + f) re r mth path buf = Calls 1 rec segs) /\
    dispatch_request (k + f) re r' mth path buf = NotFound.
Proof.
  exists 50, lit_engine, false, [route "/a/{x}" 1], (route "/a/b/c" 2). do 4 eexists.
  exists GET, (str "/a/b"), [str "a"; str "b"], zeros, [Lit (str "a"); Lit (str "b"); Lit (str "c")].
  split; [vm_compute; reflexivity|]. split; [vm_compute; reflexivity|]. split; [repeat constructor|]. split.
  { apply (segments_spelled (str "a") [str "b"]); [segs_of_path|few]. }
  split; [reflexivity|]. split; [exists [str "a"; str "b"; str "c"]; show_means|]. split; [not_in|]. split.
  { intros bs R. inversion R as [|? ? ? ? ? ? R1| | | | | |]; subst. inversion R1 as [|? ? ? ? ? ? R2| | | | | |]; subst. inversion R2. }
  exists 50. intros f. split.
  - do 2 eexists. rewrite dispatch_more; [vm_compute; reflexivity|vm_compute; discriminate].
  - rewrite dispatch_more; [vm_compute; reflexivity|vm_compute; discriminate].
Qed.

(** Case: a route for other requests is added to four routes. *)
Definition other_route := route "/api/{v}/orders/{id}" 5.
Lemma mall_other : exists r' outs',
  handle_all 100 lit_engine (new_router false) (mall ++ [other_route]) = (r', outs') /\ Forall (eq Registered) outs' /\
  Forall (fun rg => countable (re_ok lit_engine) false (reg_text rg) /\ plain (re_ok lit_engine) false (reg_text rg)) (mall ++ [other_route]) /\
  (forall ks, pieces_of (re_ok lit_engine) false (reg_text other_route) ks -> List.length ks <= 19 /\ any_only_last ks /\ calm_on false mall_ts ks /\
     forall bs n, 0 < n -> ~ reads_as false (re_match lit_engine) (firstn n ks) mall_ts bs) /\
  exists rec segs, dispatch_request 100 lit_engine r' GET mall_path zeros = Calls 1 rec segs.
Proof.
  assert (M : means (re_ok lit_engine) false (str "/api/{v}/orders/{id}") [str "api"; str "{v}"; str "orders"; str "{id}"]
     [Lit (str "api"); Var (str "v"); Lit (str "orders"); Var (str "id")]) by show_means.
  do 2 eexists. split; [vm_compute; reflexivity|]. split; [repeat constructor|]. split.
  { apply Forall_app. split; [exact mall_fine|]. constructor; [|constructor]. eapply plain_countable; [cbn; lia|exact M|repeat constructor]. }
  split; [|do 2 eexists; vm_compute; reflexivity].
  intros ks P. cbn [reg_text other_route route fst snd] in P. rewrite (pieces_unique _ _ _ _ _ _ M P). split; [cbn; lia|].
  split; [not_in|]. split; [intros w t I; exfalso; revert I; not_in|].
  intros bs n N R.
  do 5 (destruct n as [|n]; [try lia; cbn in R; repeat match goal with H : reads_as _ _ _ _ _ |- _ => inversion H; clear H; subst end; try discriminate|]).
  cbn in R. repeat match goal with H : reads_as _ _ _ _ _ |- _ => inversion H; clear H; subst end; try discriminate.
Qed.
