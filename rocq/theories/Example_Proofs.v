(** * The example program starts, and every request goes where it should *)
From Coq Require Import List NArith ZArith Ascii String Bool Lia Arith.
From Verif Require Import GoBase Http_Model Glob_Model Pattern_Model Url_Model Match_Model Router_Model Auth_Model Chain_Model Serve_Model
  Mux_Model Resp_Model Json_Model JsonErr_Model Cors_Model App_Model Example_Model Chain_Spec Mux_Spec Mux_Proofs App_Spec
  Pattern_Spec Url_Spec Url_Proofs Routing_Spec Priority_Spec Choice_Spec Covers_Proofs Witness_Proofs CorsCases_Proofs AppWire_Spec AppWire_Proofs AppExact_Proofs
  AppWhole_Proofs Example_Spec.
Import ListNotations.
Local Open Scope string_scope.
Local Open Scope list_scope.
Local Open Scope nat_scope.

(** ** A condition under which every choice is clear *)

(** Two lists of pieces that no list of segments fits. *)
Fixpoint clash (ks ks' : list piece) : bool :=
  match ks, ks' with
  | Any :: _, _ | _, Any :: _ => false
  | Lit a :: r, Lit b :: r' => negb (beqb a b) || clash r r'
  | _ :: r, _ :: r' => clash r r'
  | _, _ => false
  end.
Lemma clash_none rm ks ts bs : reads_as false rm ks ts bs -> forall ks' bs', reads_as false rm ks' ts bs' -> clash ks ks' = false.
Proof.
  induction 1 as [|w ks t ts bs Sm R IH|n r ks t ts bs A R IH|n ks t ts bs R IH|w ks t ts bs A R IH|ks t ts bs R IH|t ts|ks run ts bs A R IH];
    intros ks' bs' R'; try (now destruct ks' as [|[] ?]); inversion R'; subst; cbn [clash]; try reflexivity; try (eapply IH; eassumption).
  unfold same_text in *. subst. rewrite (proj2 (Auth_Proofs.beqb_iff t t) eq_refl). cbn. eapply IH. eassumption.
Qed.

Definition apart (kss : list (list piece)) (ks : list piece) : bool :=
  forallb (fun n => forallb (fun ks' => negb (Nat.eqb (List.length ks') n) || clash (firstn n ks) ks') kss) (seq 1 (List.length ks - 1)).
Definition tidy (kss : list (list piece)) : bool :=
  forallb (fun ks => Nat.leb (List.length ks) 19 && forallb (fun p => negb (is_any p)) (removelast ks) && forallb (fun p => negb (is_glob p)) ks && apart kss ks) kss.

Lemma tidy_clear re rs kss mth ts :
  Forall2 (fun w ks => pieces_of (re_ok re) false (wr_path w) ks) rs kss -> tidy kss = true ->
  clear_choice re false rs mth ts.
Proof.
  intros F A.
  assert (G : forall i w ks, leads re false rs mth i w ks -> In ks kss).
  { intros i w ks (N & _ & P). clear A. revert i N. induction F as [|w0 ks0 rs kss P0 F IH]; intros i N; [destruct i; discriminate N|].
    destruct i as [|i]; [|right; exact (IH i N)]. cbn in N. injection N as ->. left. destruct P0 as [ps P0]. symmetry. exact (pieces_unique _ _ _ _ _ _ P0 P). }
  unfold tidy in A. rewrite forallb_forall in A.
  assert (NG : forall ks a, In ks kss -> ~ In (Glob a) ks).
  { intros ks a I J. specialize (A _ I). rewrite !andb_true_iff in A. destruct A as [[_ A] _].
    rewrite forallb_forall in A. specialize (A _ J). discriminate A. }
  split.
  - intros i w ks L. pose proof (G _ _ _ L) as I. pose proof (A _ I) as N. rewrite !andb_true_iff in N. destruct N as [[[N1 N2] N3] N4].
    split; [apply Nat.leb_le; exact N1|]. split; [|split].
    + intro J. rewrite forallb_forall in N2. specialize (N2 _ J). discriminate N2.
    + intros a t J. destruct (NG _ _ I J).
    + intros k0 p k2 bs E Ne R. right. left. intros rg k0' k' bs' (j & w' & _ & L') R' Sm.
      unfold apart in N4. rewrite forallb_forall in N4.
      assert (Le : List.length ks = List.length k0 + S (List.length k2)) by (subst ks; rewrite app_length; reflexivity).
      assert (Ge : 0 < List.length k2) by (destruct k2; [congruence|cbn; lia]).
      specialize (N4 (S (List.length k0)) ltac:(apply in_seq; lia)). rewrite forallb_forall in N4.
      specialize (N4 _ (G _ _ _ L')). apply orb_true_iff in N4. destruct N4 as [N4|N4].
      * apply negb_true_iff, Nat.eqb_neq in N4. apply N4. rewrite app_length. cbn. clear - Sm. induction Sm as [|? ? ? ? ? ? IH]; [reflexivity|]. cbn. lia.
      * replace (firstn (S (List.length k0)) ks) with (k0 ++ [p]) in N4.
        -- rewrite (clash_none _ _ _ _ R _ _ R') in N4. discriminate N4.
        -- subst ks. replace (S (List.length k0)) with (List.length (k0 ++ [p])) by (rewrite app_length; cbn; lia).
           replace (k0 ++ p :: k2) with ((k0 ++ [p]) ++ k2) by (rewrite <- app_assoc; reflexivity).
           rewrite firstn_app, Nat.sub_diag, firstn_all. cbn. rewrite app_nil_r. reflexivity.
  - intros i1 w1 ks1 bs1 i2 w2 ks2 bs2 L1 _ _ _ i a b _ N. exfalso. eapply NG; [exact (G _ _ _ L1)|]. eapply nth_error_In. exact N.
Qed.

(** ** The registrations *)

Ltac show_free :=
  split; [split; [repeat (constructor; [not_in|]); constructor
                 |first [left; split; [reflexivity|discriminate]|right; reflexivity]]
         |split; [repeat (constructor; [show_reads|]); constructor
                 |split; [repeat first [apply naa_nil|apply naa_one|apply naa_cons; [intros [? ?]; discriminate|]]
                         |intros ? ? I; cbn in I; repeat (destruct I as [I|I]; [discriminate I|]); destruct I]]].


Definition ewired (p : string) (own : list mref) (h : nat) : wired := Wired (str "GET") (str p) (behind own h).
Definition example_wiring : list wired :=
  [ewired "/" [] 0; ewired "/oauth/initiate" [] 1; ewired "/oauth/authorize/{providerName}" [] 2;
   ewired "/text/{plain}" [] 3; ewired "/text/*" [] 4; ewired "/text/plain" [] 5; ewired "/text/html" [] 6;
   ewired "/json/{user}/{id}" [] 7; ewired "/download" [] 8; ewired "/tmpl/{tmplName}" [] 9; ewired "/sse" [] 10;
   ewired "/security/authorize/{permission}" [Some 2; Some 3] 11].
Definition example_pieces : list (list piece) :=
  [[Lit (str "assets"); Any]; []; lits [str "oauth"; str "initiate"]; [Lit (str "oauth"); Lit (str "authorize"); Var (str "providerName")];
   [Lit (str "text"); Var (str "plain")]; [Lit (str "text"); One]; lits [str "text"; str "plain"]; lits [str "text"; str "html"];
   [Lit (str "json"); Var (str "user"); Var (str "id")]; lits [str "download"]; [Lit (str "tmpl"); Var (str "tmplName")]; lits [str "sse"];
   [Lit (str "security"); Lit (str "authorize"); Var (str "permission")]].

Lemma example_wires : wires [VMux [] []] example_calls example_wiring.
Proof.
  assert (J : forall a b, joined a b (resolve_path a b)) by (intros; apply resolve_joined).
  unfold example_calls, example_wiring, example_get.
  eapply (ws_more _ _ _ []); [apply wi_common; exact (vs_common [] (VMux [] []) [] [Some 0; Some 1])|]. cbn [List.app].
  do 3 (eapply (ws_more _ _ _ [_]); [eapply wi_handle; apply (vs_handle _ 0 (VMux [] [Some 0; Some 1])); [reflexivity|apply J]|]).
  eapply (ws_more _ _ _ []); [eapply wi_mux; [apply (vs_route _ 0 (VMux [] [Some 0; Some 1]) (str "/text")); [reflexivity|apply J]|]|].
  { intros [H|(x & H & P)]; [discriminate H|]. injection H as <-. discriminate P. }
  cbn [List.app resolve_path vm_common].
  do 4 (eapply (ws_more _ _ _ [_]); [eapply wi_handle; apply (vs_handle _ 1 (VMux (str "/text") [Some 0; Some 1])); [reflexivity|apply J]|]).
  do 5 (eapply (ws_more _ _ _ [_]); [eapply wi_handle; apply (vs_handle _ 0 (VMux [] [Some 0; Some 1])); [reflexivity|apply J]|]).
  apply ws_end.
Qed.

Lemma example_means re : Forall2 (fun w ks => pieces_of (re_ok re) false (wr_path w) ks) (town_static ++ example_wiring) example_pieces.
Proof.
  repeat constructor; cbn [wr_path].
  - exists [str "assets"; str "**"]. show_free.
  - exists []. show_free.
  - exists [str "oauth"; str "initiate"]. show_free.
  - exists [str "oauth"; str "authorize"; str "{providerName}"]. show_free.
  - exists [str "text"; str "{plain}"]. show_free.
  - exists [str "text"; str "*"]. show_free.
  - exists [str "text"; str "plain"]. show_free.
  - exists [str "text"; str "html"]. show_free.
  - exists [str "json"; str "{user}"; str "{id}"]. show_free.
  - exists [str "download"]. show_free.
  - exists [str "tmpl"; str "{tmplName}"]. show_free.
  - exists [str "sse"]. show_free.
  - exists [str "security"; str "authorize"; str "{permission}"]. show_free.
Qed.

Lemma example_resources : resources [] (Some []) town_static.
Proof. exact town_resources. Qed.

Lemma example_tidy : tidy example_pieces = true.
Proof. vm_compute. reflexivity. Qed.

Lemma example_ordinary re : ordinary re false (town_static ++ example_wiring).
Proof.
  split; [vm_compute; reflexivity|]. apply Forall_forall. intros w I.
  assert (G : forall rs kss, Forall2 (fun w ks => pieces_of (re_ok re) false (wr_path w) ks) rs kss -> In w rs ->
    exists ks, In ks kss /\ pieces_of (re_ok re) false (wr_path w) ks).
  { induction 1 as [|w0 ks0 rs kss P F IH]; intros J; [destruct J|]. destruct J as [<-|J]; [exists ks0; split; [now left|exact P]|].
    destruct (IH J) as (ks & A & B). exists ks. split; [now right|exact B]. }
  destruct (G _ _ (example_means re) I) as (ks & Ik & [ps P]).
  assert (B : forallb (fun ks => Nat.leb (List.length ks) 255 && forallb (fun p => negb (is_constrained p)) ks) example_pieces = true) by (vm_compute; reflexivity).
  rewrite forallb_forall in B. specialize (B _ Ik). apply andb_true_iff in B. destruct B as [B1 B2]. apply Nat.leb_le in B1. rewrite forallb_forall in B2.
  split; [intros ks' Q|intros _ ks' Q]; rewrite (pieces_unique _ _ _ _ _ _ P Q); [exact B1|]. intros n r J. specialize (B2 _ J). discriminate B2.
Qed.

Definition example_ends : list (option handle_end) :=
  [None; Some Registered; Some Registered; Some Registered; None; Some Registered; Some Registered; Some Registered; Some Registered;
   Some Registered; Some Registered; Some Registered; Some Registered; Some Registered].
Lemma example_starts grow fuel re :
  snd (example_start (60 + fuel) re) = Some Registered /\ snd (example_app grow (60 + fuel) re) = example_ends.
Proof. split; vm_compute; reflexivity. Qed.
Lemma ends_smooth : Forall smooth example_ends.
Proof. repeat constructor; (left; reflexivity) || (right; reflexivity). Qed.

(** ** Which handler a request is for *)

Definition example_rs : list wired := town_static ++ example_wiring.

Lemma leads_nth re mth i w ks : leads re false example_rs mth i w ks ->
  nth_error example_rs i = Some w /\ nth_error example_pieces i = Some ks /\ same_method (str "GET") mth.
Proof.
  intros (N & M & [ps P]). split; [exact N|]. split.
  - clear M. generalize (example_means re). fold example_rs. revert N. generalize example_rs as rs, example_pieces as kss. intros rs kss N F. revert i N.
    induction F as [|w0 ks0 rs kss P0 F IH]; intros i N; [destruct i; discriminate N|].
    destruct i as [|i]; [|exact (IH i N)]. cbn in N. injection N as ->. cbn. f_equal. exact (pieces_unique _ _ _ _ _ _ P P0).
  - assert (A : Forall (fun w => wr_method w = str "GET") example_rs) by (repeat constructor).
    rewrite Forall_forall in A. rewrite <- (A _ (nth_error_In _ _ N)). exact M.
Qed.

Lemma nth_leads re mth i w ks : nth_error example_rs i = Some w -> nth_error example_pieces i = Some ks -> same_method (str "GET") mth ->
  leads re false example_rs mth i w ks.
Proof.
  intros N K M. split; [exact N|]. split.
  - assert (A : Forall (fun w => wr_method w = str "GET") example_rs) by (repeat constructor).
    rewrite Forall_forall in A. rewrite (A _ (nth_error_In _ _ N)). exact M.
  - generalize (example_means re). fold example_rs. revert N K. generalize example_rs as rs, example_pieces as kss. intros rs kss N K F. revert i N K.
    induction F as [|w0 ks0 rs kss P0 F IH]; intros i N K; [destruct i; discriminate N|].
    destruct i as [|i]; [|exact (IH i N K)]. cbn in N, K. injection N as ->. injection K as ->. exact P0.
Qed.

Ltac read R := repeat match type of R with
  | reads_as _ _ ?l _ _ => let l' := eval hnf in l in change l with l' in R; inversion R; clear R; subst;
      match goal with H : reads_as _ _ _ _ _ |- _ => rename H into R | _ => idtac end
  end.

Lemma page_of_route rm i w ks ts bs : nth_error example_rs i = Some w -> nth_error example_pieces i = Some ks -> reads_as false rm ks ts bs ->
  (forall j w2 ks2 bs2, nth_error example_rs j = Some w2 -> nth_error example_pieces j = Some ks2 -> reads_as false rm ks2 ts bs2 -> ~ more_specific ks2 ks) ->
  page ts (wr_entry w) bs.
Proof.
  intros N K R Best.
  destruct i as [|[|[|[|[|[|[|[|[|[|[|[|[|i]]]]]]]]]]]]]; [..|destruct i; discriminate N].
  all: cbn in N, K; injection N as <-; injection K as <-; cbn [wr_entry].
  all: unfold lits in *; cbn [map] in *; read R; unfold same_text in *; subst; try congruence; try (constructor; fail).
  - (* text with a variable *)
    apply pg_text; intros ->.
    + eapply (Best 6); [reflexivity|reflexivity| |].
      * apply ra_lit; [reflexivity|]. apply ra_lit; [reflexivity|]. apply ra_end.
      * apply ms_later; [reflexivity|]. apply ms_here. cbn. lia.
    + eapply (Best 7); [reflexivity|reflexivity| |].
      * apply ra_lit; [reflexivity|]. apply ra_lit; [reflexivity|]. apply ra_end.
      * apply ms_later; [reflexivity|]. apply ms_here. cbn. lia.
  - (* text with a star *)
    exfalso. eapply (Best 4); [reflexivity|reflexivity| |].
    + apply ra_lit; [reflexivity|]. apply ra_var. apply ra_end.
    + apply ms_later; [reflexivity|]. apply ms_here. cbn. lia.
Qed.

Lemma route_of_page rm ts e bs : page ts e bs -> exists i w ks, nth_error example_rs i = Some w /\ nth_error example_pieces i = Some ks /\ reads_as false rm ks ts bs.
Proof.
  assert (L : forall w ks ts bs, reads_as false rm ks ts bs -> reads_as false rm (Lit w :: ks) (w :: ts) bs) by (intros; apply ra_lit; [reflexivity|assumption]).
  intros P. destruct P.
  - exists 1. do 2 eexists. split; [reflexivity|]. split; [reflexivity|]. apply ra_end.
  - exists 2. do 2 eexists. split; [reflexivity|]. split; [reflexivity|]. repeat apply L. apply ra_end.
  - exists 3. do 2 eexists. split; [reflexivity|]. split; [reflexivity|]. repeat apply L. apply ra_var, ra_end.
  - exists 4. do 2 eexists. split; [reflexivity|]. split; [reflexivity|]. repeat apply L. apply ra_var, ra_end.
  - exists 6. do 2 eexists. split; [reflexivity|]. split; [reflexivity|]. repeat apply L. apply ra_end.
  - exists 7. do 2 eexists. split; [reflexivity|]. split; [reflexivity|]. repeat apply L. apply ra_end.
  - exists 8. do 2 eexists. split; [reflexivity|]. split; [reflexivity|]. repeat apply L. apply ra_var, ra_var, ra_end.
  - exists 9. do 2 eexists. split; [reflexivity|]. split; [reflexivity|]. repeat apply L. apply ra_end.
  - exists 10. do 2 eexists. split; [reflexivity|]. split; [reflexivity|]. repeat apply L. apply ra_var, ra_end.
  - exists 11. do 2 eexists. split; [reflexivity|]. split; [reflexivity|]. repeat apply L. apply ra_end.
  - exists 12. do 2 eexists. split; [reflexivity|]. split; [reflexivity|]. repeat apply L. apply ra_var, ra_end.
  - exists 0. do 2 eexists. split; [reflexivity|]. split; [reflexivity|]. repeat apply L. apply ra_any_last.
Qed.

Lemma page_unique ts e bs e' bs' : page ts e bs -> page ts e' bs' -> e = e' /\ bs = bs'.
Proof.
  intros P Q. destruct P; inversion Q; subst; try (split; reflexivity); exfalso; match goal with H : _ <> _ |- _ => now apply H end.
Qed.

Lemma pairing (A B : Type) (p : A * B) (y : B) : snd p = y -> p = (fst p, y).
Proof. intros <-. apply surjective_pairing. Qed.

Lemma example_app_eq grow fuel re : example_app grow fuel re = acalls grow fuel re (fst (example_start fuel re)) example_calls.
Proof. reflexivity. Qed.
Lemma example_start_eq fuel re : example_start fuel re = new_app fuel re false [] (Some []).
Proof. reflexivity. Qed.

Section Served.
Context {W : Type}.
Variables (user : nat -> handler areq response W) (mid : nat -> middleware areq response W)
  (files : bytes -> request -> list act) (pages : debug_page -> request -> list act)
  (k : compressor) (oh : headers -> headers) (oc : cookies -> cookies) (render : cookie -> bytes) (location : wreq -> bytes -> bytes)
  (redirect_body : Z -> bytes -> bytes).

Lemma example_served grow fuel re q ts buf :
  (blen (rq_path q) < 65536)%N -> segments_of (rq_path q) ts -> List.length buf = 19 ->
  exists k0, forall f x w evs w' b fin,
    app_serve user mid files pages k oh oc render location redirect_body (k0 + f) re (fst (example_app grow (60 + fuel) re)) q buf x w = (evs, w', b, fin) ->
    (forall e bs, same_method (str "GET") (xq_method (rq_x q)) -> page ts e bs ->
       exists i mc evs', sees mc q bs /\ visible evs = EvRun i :: evs' /\
         answered_by user mid files pages (sends k oh oc render location redirect_body q) e x q mc w evs' w' b fin) /\
    (~ same_method (str "GET") (xq_method (rq_x q)) \/ (forall e bs, ~ page ts e bs) ->
       visible evs = [EvStatus 404] /\ w' = w /\ received b = (404%Z, [], []) /\ fin = SDone).
Proof.
  intros Hp Hs Hb. destruct (example_starts grow fuel re) as [S1 S2].
  destruct (whole_answers W user mid files pages k oh oc render location redirect_body grow (60 + fuel) re false [] (Some []) town_static example_calls example_wiring
    (fst (example_start (60 + fuel) re)) (Some Registered) (fst (example_app grow (60 + fuel) re)) example_ends q ts buf) as [k0 A].
  - exact example_resources.
  - exact example_wires.
  - rewrite <- example_start_eq. exact (pairing _ _ _ _ S1).
  - right. reflexivity.
  - rewrite <- example_app_eq. exact (pairing _ _ _ _ S2).
  - exact ends_smooth.
  - exact (example_ordinary re).
  - exact Hp.
  - exact Hs.
  - exact Hb.
  - eapply tidy_clear; [apply example_means|apply example_tidy].
  - fold example_rs in A. exists k0. intros f x w evs w' b fin E. destruct (A f x w evs w' b fin E) as [A1 A2]. clear A. split.
    + intros e bs M P. destruct (route_of_page (re_match re) _ _ _ P) as (i & r & ks & N & K & R).
      destruct A2 as (i' & r' & ks' & bs' & mc & evs' & L & R' & Best & Se & V & An).
      { exists i, r, ks, bs. split; [apply nth_leads; assumption|exact R]. }
      destruct (leads_nth _ _ _ _ _ L) as (N' & K' & _).
      assert (P' : page ts (wr_entry r') bs').
      { eapply page_of_route; [exact N'|exact K'|exact R'|]. intros j w2 ks2 bs2 N2 K2 R2. eapply Best; [apply nth_leads; eassumption|exact R2]. }
      destruct (page_unique _ _ _ _ _ P P') as [-> ->]. exists i', mc, evs'. auto.
    + intros H. apply A1. intros i r ks bs L R. destruct (leads_nth _ _ _ _ _ L) as (N & K & M). destruct H as [H|H]; [exact (H M)|].
      destruct A2 as (i' & r' & ks' & bs' & mc & evs' & L' & R' & Best & _); [exists i, r, ks, bs; split; assumption|].
      destruct (leads_nth _ _ _ _ _ L') as (N' & K' & _). eapply H, page_of_route; [exact N'|exact K'|exact R'|].
      intros j w2 ks2 bs2 N2 K2 R2. eapply Best; [apply nth_leads; eassumption|exact R2].
Qed.

(** Paths with too many segments get the index page. *)
Lemma example_overlong grow fuel re q buf f x w evs w' b fin :
  (blen (rq_path q) < 65536)%N -> overlong (rq_path q) -> List.length buf = 19 -> same_method (str "GET") (xq_method (rq_x q)) ->
  app_serve user mid files pages k oh oc render location redirect_body (S f) re (fst (example_app grow (60 + fuel) re)) q buf x w = (evs, w', b, fin) ->
  exists i mc evs', sees mc q [] /\ visible evs = EvRun i :: evs' /\
    answered_by user mid files pages (sends k oh oc render location redirect_body q) (behind [] 0) x q mc w evs' w' b fin.
Proof.
  intros Hp Ho Hb M E. destruct (example_starts grow fuel re) as [S1 S2].
  assert (H : has_wired (60 + fuel) re (new_router false) (town_static ++ example_wiring) (fst (example_app grow (60 + fuel) re))).
  { eapply (program_wired grow (60 + fuel) re false [] (Some []) town_static example_calls example_wiring
      (fst (example_start (60 + fuel) re)) (Some Registered) (fst (example_app grow (60 + fuel) re)) example_ends).
    - exact example_resources.
    - exact example_wires.
    - rewrite <- example_start_eq. exact (pairing _ _ _ _ S1).
    - right. reflexivity.
    - rewrite <- example_app_eq. exact (pairing _ _ _ _ S2).
    - exact ends_smooth. }
  pose proof (App_Proofs.app_serve_cases W user mid files pages k oh oc render location redirect_body (S f) re _ q buf x w (wired_router _ _ _ _ _ H)) as C.
  rewrite E in C. destruct H as [_ En].
  assert (D : dispatch_request (S f) re (ap_router (fst (example_app grow (60 + fuel) re))) (xq_method (rq_x q)) (rq_path q) buf = Calls 1 None []).
  { unfold dispatch_request. rewrite (parse_url_overlong _ _ Hp Ho Hb).
    replace (to_upper (xq_method (rq_x q))) with (str "GET").
    2:{ apply Routing_Proofs.same_method_upper in M. exact M. }
    destruct (alookup (str "GET") (r_matchers (ap_router (fst (example_app grow (60 + fuel) re))))) as [m|] eqn:Em.
    2:{ exfalso. revert Em. vm_compute. discriminate. }
    rewrite Dispatch_Proofs.match_empty.
    replace (m_root m) with (match alookup (str "GET") (r_matchers (ap_router (fst (example_app grow (60 + fuel) re)))) with Some m => m_root m | None => None end)
      by (rewrite Em; reflexivity).
    clear. vm_compute. reflexivity. }
  rewrite D in C. destruct C as (e & evs' & Ne & V & A).
  rewrite En, nth_error_map in Ne. cbn in Ne. injection Ne as <-.
  exists 1, (MCtx (xq_method (rq_x q)) (rq_path q) None []), evs'. split; [|split; [exact V|]].
  - split; [reflexivity|]. split; [reflexivity|]. intros name. reflexivity.
  - apply entry_answers. exact A.
Qed.
End Served.
