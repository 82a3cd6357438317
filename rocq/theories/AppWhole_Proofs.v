(** * A program on which the theorems about whole programs are tried *)
From Coq Require Import List NArith ZArith Ascii String Bool Lia Arith.
From Verif Require Import GoBase Http_Model Glob_Model Pattern_Model Url_Model Match_Model Router_Model Auth_Model Chain_Model Serve_Model
  Mux_Model Resp_Model Cors_Model App_Model Chain_Spec Mux_Spec Mux_Proofs App_Spec
  Pattern_Spec Url_Spec Routing_Spec Priority_Spec Choice_Spec Covers_Proofs Witness_Proofs CorsCases_Proofs AppWire_Spec AppWire_Proofs AppExact_Proofs.
Import ListNotations.
Local Open Scope string_scope.
Local Open Scope list_scope.
Local Open Scope nat_scope.

(** Pieces that may read the segments. *)
Fixpoint fits (ks : list piece) (ts : list bytes) : bool :=
  match ks, ts with
  | [], [] => true
  | Any :: _, _ => true
  | Lit a :: ks', t :: ts' => beqb a t && fits ks' ts'
  | _ :: ks', _ :: ts' => fits ks' ts'
  | _, _ => false
  end.
Lemma fits_if rm ks ts bs : reads_as false rm ks ts bs -> fits ks ts = true.
Proof.
  induction 1 as [|w ks t ts bs Sm R IH|n r ks t ts bs A R IH|n ks t ts bs R IH|w ks t ts bs A R IH|ks t ts bs R IH|t ts|ks run ts bs A R IH]; cbn [fits]; auto.
  unfold same_text in Sm. subst w. rewrite IH, (proj2 (Auth_Proofs.beqb_iff t t) eq_refl). reflexivity.
Qed.

(** No proper beginning of the pieces reads the segments. *)
Definition uncut (ks : list piece) (ts : list bytes) : bool :=
  forallb (fun n => negb (fits (firstn n ks) ts)) (seq 1 (List.length ks - 1)).
Lemma uncut_not_cut rm routes ts ks : uncut ks ts = true -> not_cut false rm routes ts ks.
Proof.
  intros U k0 p k2 bs E N R. exfalso. unfold uncut in U. rewrite forallb_forall in U.
  assert (Le : List.length ks = List.length k0 + S (List.length k2)) by (subst ks; rewrite app_length; reflexivity).
  assert (Ge : 0 < List.length k2) by (destruct k2; [congruence|cbn; lia]).
  specialize (U (S (List.length k0)) ltac:(apply in_seq; lia)). apply negb_true_iff in U.
  rewrite <- not_true_iff_false in U. apply U. clear U.
  replace (firstn (S (List.length k0)) ks) with (k0 ++ [p]); [exact (fits_if _ _ _ _ R)|].
  subst ks. replace (S (List.length k0)) with (List.length (k0 ++ [p])) by (rewrite app_length; cbn; lia).
  replace (k0 ++ p :: k2) with ((k0 ++ [p]) ++ k2) by (rewrite <- app_assoc; reflexivity).
  rewrite firstn_app, Nat.sub_diag, firstn_all. cbn. rewrite app_nil_r. reflexivity.
Qed.

Definition is_any (p : piece) : bool := match p with Any => true | _ => false end.
Definition is_glob (p : piece) : bool := match p with Glob _ => true | _ => false end.
Definition neat (ks : list piece) (ts : list bytes) : bool :=
  Nat.leb (List.length ks) 19 && forallb (fun p => negb (is_any p)) (removelast ks) && forallb (fun p => negb (is_glob p)) ks && uncut ks ts.

Lemma neat_clear re rs kss mth ts :
  Forall2 (fun w ks => pieces_of (re_ok re) false (wr_path w) ks) rs kss -> forallb (fun ks => neat ks ts) kss = true ->
  clear_choice re false rs mth ts.
Proof.
  intros F A.
  assert (G : forall i w ks, leads re false rs mth i w ks -> In ks kss).
  { intros i w ks (N & _ & P). clear A. revert i N. induction F as [|w0 ks0 rs kss P0 F IH]; intros i N; [destruct i; discriminate N|].
    destruct i as [|i]; [|right; exact (IH i N)]. cbn in N. injection N as ->. left. destruct P0 as [ps P0]. symmetry. exact (pieces_unique _ _ _ _ _ _ P0 P). }
  rewrite forallb_forall in A.
  assert (NG : forall ks a, In ks kss -> ~ In (Glob a) ks).
  { intros ks a I J. specialize (A _ I). unfold neat in A. rewrite !andb_true_iff in A. destruct A as [[_ A] _].
    rewrite forallb_forall in A. specialize (A _ J). discriminate A. }
  split.
  - intros i w ks L. pose proof (G _ _ _ L) as I. pose proof (A _ I) as N. unfold neat in N. rewrite !andb_true_iff in N. destruct N as [[[N1 N2] N3] N4].
    split; [apply Nat.leb_le; exact N1|]. split; [|split; [|apply uncut_not_cut; exact N4]].
    + intro J. rewrite forallb_forall in N2. specialize (N2 _ J). discriminate N2.
    + intros a t J. destruct (NG _ _ I J).
  - intros i1 w1 ks1 bs1 i2 w2 ks2 bs2 L1 _ _ _ i a b _ N. exfalso. eapply NG; [exact (G _ _ _ L1)|]. eapply nth_error_In. exact N.
Qed.

(** The program: static resources, handlers below a prefix, a handler for everything
    else and the debug pages. *)
Definition town_calls : list acall :=
  [AMux (CCommon 0 [Some 0]); AMux (CRoute 0 (str "/v1")); AMux (CCommon 1 [Some 1]);
   AMux (CHandle 1 GET (str "users/{id}") [Some 2] 0); AMux (CHandle 1 (str "POST") (str "/users") [] 1);
   AMux (CHandle 0 GET (str "/**") [] 2); ADebug 0].
Definition debug_wiring : list wired := map (fun pd => Wired (str "GET") (fst pd) (Entry [] [] (TDebug (shown_by (snd pd))))) endpoints.
Definition town_wiring : list wired :=
  [Wired GET (str "/v1/users/{id}") (Entry [Some 0; Some 1] [Some 2] (TUser 0));
   Wired (str "POST") (str "/v1/users") (Entry [Some 0; Some 1] [] (TUser 1));
   Wired GET (str "/**") (Entry [Some 0] [] (TUser 2))] ++ debug_wiring.
Definition town_static : list wired := [Wired (str "GET") (str "/assets/**") (Entry [] [] (TStatic (str "/assets/")))].
Definition lits (l : list bytes) : list piece := map Lit l.
Definition town_pieces : list (list piece) :=
  [[Lit (str "assets"); Any]; [Lit (str "v1"); Lit (str "users"); Var (str "id")]; lits [str "v1"; str "users"]; [Any];
   lits [str "debug"; str "pprof"]; lits [str "debug"; str "pprof"; str "allocs"]; lits [str "debug"; str "pprof"; str "block"];
   lits [str "debug"; str "pprof"; str "goroutine"]; lits [str "debug"; str "pprof"; str "heap"]; lits [str "debug"; str "pprof"; str "mutex"];
   lits [str "debug"; str "pprof"; str "threadcreate"]; lits [str "debug"; str "pprof"; str "cmdline"]; lits [str "debug"; str "pprof"; str "profile"];
   lits [str "debug"; str "pprof"; str "symbol"]; lits [str "debug"; str "pprof"; str "trace"]; lits [str "debug"; str "vars"]].

Lemma town_wires : wires [VMux [] []] town_calls town_wiring.
Proof.
  assert (J : forall a b, joined a b (resolve_path a b)) by (intros; apply resolve_joined).
  unfold town_calls, town_wiring.
  eapply (ws_more _ _ _ []); [apply wi_common; exact (vs_common [] (VMux [] []) [] [Some 0])|]. cbn [List.app].
  eapply (ws_more _ _ _ []); [eapply wi_mux; [apply (vs_route _ 0 (VMux [] [Some 0]) (str "/v1")); [reflexivity|apply J]|]|].
  { intros [H|(x & H & P)]; [discriminate H|]. injection H as <-. discriminate P. }
  cbn [List.app resolve_path vm_common].
  eapply (ws_more _ _ _ []); [apply wi_common; exact (vs_common [VMux [] [Some 0]] (VMux (str "/v1") [Some 0]) [] [Some 1])|]. cbn [List.app vm_common vm_prefix].
  eapply (ws_more _ _ _ [_]); [eapply wi_handle; apply (vs_handle _ 1 (VMux (str "/v1") [Some 0; Some 1])); [reflexivity|apply J]|].
  eapply (ws_more _ _ _ [_]); [eapply wi_handle; apply (vs_handle _ 1 (VMux (str "/v1") [Some 0; Some 1])); [reflexivity|apply J]|].
  eapply (ws_more _ _ _ [_]); [eapply wi_handle; apply (vs_handle _ 0 (VMux [] [Some 0])); [reflexivity|apply J]|].
  change debug_wiring with (debug_wiring ++ []). eapply ws_more; [|apply ws_end].
  apply (wi_debug _ 0 (VMux [] [Some 0])); [reflexivity|]. unfold debug_wiring. cbn [vm_prefix].
  clear. induction endpoints as [|[p d] l IH]; cbn [map]; constructor; [|exact IH].
  cbn [wr_method wr_path wr_entry fst snd]. split; [reflexivity|]. split; [apply jn_left|reflexivity].
Qed.

Lemma town_means : Forall2 (fun w ks => pieces_of (re_ok lit_engine) false (wr_path w) ks) (town_static ++ town_wiring) town_pieces.
Proof.
  repeat constructor; cbn [wr_path fst].
  - exists [str "assets"; str "**"]. show_means.
  - exists [str "v1"; str "users"; str "{id}"]. show_means.
  - exists [str "v1"; str "users"]. show_means.
  - exists [str "**"]. show_means.
  - exists [str "debug"; str "pprof"]. show_means.
  - exists [str "debug"; str "pprof"; str "allocs"]. show_means.
  - exists [str "debug"; str "pprof"; str "block"]. show_means.
  - exists [str "debug"; str "pprof"; str "goroutine"]. show_means.
  - exists [str "debug"; str "pprof"; str "heap"]. show_means.
  - exists [str "debug"; str "pprof"; str "mutex"]. show_means.
  - exists [str "debug"; str "pprof"; str "threadcreate"]. show_means.
  - exists [str "debug"; str "pprof"; str "cmdline"]. show_means.
  - exists [str "debug"; str "pprof"; str "profile"]. show_means.
  - exists [str "debug"; str "pprof"; str "symbol"]. show_means.
  - exists [str "debug"; str "pprof"; str "trace"]. show_means.
  - exists [str "debug"; str "vars"]. show_means.
Qed.

Definition is_constrained (p : piece) : bool := match p with Constrained _ _ => true | _ => false end.
Lemma town_ordinary : ordinary lit_engine false (town_static ++ town_wiring).
Proof.
  split; [vm_compute; reflexivity|]. apply Forall_forall. intros w I.
  assert (G : forall rs kss, Forall2 (fun w ks => pieces_of (re_ok lit_engine) false (wr_path w) ks) rs kss -> In w rs ->
    exists ks, In ks kss /\ pieces_of (re_ok lit_engine) false (wr_path w) ks).
  { induction 1 as [|w0 ks0 rs kss P F IH]; intros J; [destruct J|]. destruct J as [<-|J]; [exists ks0; split; [now left|exact P]|].
    destruct (IH J) as (ks & A & B). exists ks. split; [now right|exact B]. }
  destruct (G _ _ town_means I) as (ks & Ik & [ps P]).
  assert (B : forallb (fun ks => Nat.leb (List.length ks) 255 && forallb (fun p => negb (is_constrained p)) ks) town_pieces = true) by (vm_compute; reflexivity).
  rewrite forallb_forall in B. specialize (B _ Ik). apply andb_true_iff in B. destruct B as [B1 B2]. apply Nat.leb_le in B1. rewrite forallb_forall in B2.
  split; [intros ks' Q|intros _ ks' Q]; rewrite (pieces_unique _ _ _ _ _ _ P Q); [exact B1|]. intros n r J. specialize (B2 _ J). discriminate B2.
Qed.

Definition doubling (old need : nat) : nat := old.
Definition town_app : app :=
  fst (acalls doubling 60 lit_engine (fst (new_app 60 lit_engine false [] (Some []))) town_calls).

Lemma town_started : exists a0 xs, new_app 60 lit_engine false [] (Some []) = (a0, Some Registered) /\
  acalls doubling 60 lit_engine a0 town_calls = (town_app, xs) /\ Forall smooth xs.
Proof.
  exists (fst (new_app 60 lit_engine false [] (Some []))), [None; None; None; Some Registered; Some Registered; Some Registered; Some Registered].
  split; [|split].
  - vm_compute. reflexivity.
  - unfold town_app.
    assert (E : snd (acalls doubling 60 lit_engine (fst (new_app 60 lit_engine false [] (Some []))) town_calls) =
      [None; None; None; Some Registered; Some Registered; Some Registered; Some Registered]) by (vm_compute; reflexivity).
    destruct (acalls doubling 60 lit_engine (fst (new_app 60 lit_engine false [] (Some []))) town_calls) as [a xs]. cbn [fst snd] in *. subst xs. reflexivity.
  - repeat constructor; (left; reflexivity) || (right; reflexivity).
Qed.

Lemma town_resources : resources [] (Some []) town_static.
Proof. apply (rs_some [] [] (str "/assets/")). apply (rd [] [] [] (str "assets")); left; split; auto. Qed.

(** Three requests. *)
Lemma town_choices :
  clear_choice lit_engine false (town_static ++ town_wiring) GET [str "v1"; str "users"; str "42"] /\
  clear_choice lit_engine false (town_static ++ town_wiring) GET [str "debug"; str "pprof"; str "heap"] /\
  clear_choice lit_engine false (town_static ++ town_wiring) GET [str "assets"; str "css"; str "a.css"].
Proof. split; [|split]; (eapply neat_clear; [exact town_means|vm_compute; reflexivity]). Qed.

Definition town_user (h : nat) : handler areq response (list nat) :=
  fun _ q w => (HReturn (Some (RText (HResp 200 [] None None) (match mc_var (aq_mc q) (str "id") with Some v => v | None => [] end))) None, w ++ [100 + h]).
Definition noting (i : nat) : middleware areq response (list nat) := fun h x q w => h x q (w ++ [i]).
Definition town_ask (k : compressor) oc render location redirect_body (q : request) :=
  outcome (app_serve town_user noting (fun name _ => [AWrite name]) (fun page _ => [AWrite (match page with PNamed n => n | _ => [] end)])
    k (fun m => m) oc render location redirect_body 60 lit_engine town_app q zeros nobody []).
Definition town_get (k : compressor) oc render location redirect_body (p : bytes) :=
  town_ask k oc render location redirect_body (plain_request GET p).

Lemma town_case k oc render location redirect_body :
  let get p := town_get k oc render location redirect_body p in
  resources [] (Some []) town_static /\ wires [VMux [] []] town_calls town_wiring /\
  (exists a0 xs, new_app 60 lit_engine false [] (Some []) = (a0, Some Registered) /\
     acalls doubling 60 lit_engine a0 town_calls = (town_app, xs) /\ Forall smooth xs) /\
  ordinary lit_engine false (town_static ++ town_wiring) /\
  segments_of (str "/v1/users/42") [str "v1"; str "users"; str "42"] /\
  clear_choice lit_engine false (town_static ++ town_wiring) GET [str "v1"; str "users"; str "42"] /\
  (exists bs, leads lit_engine false (town_static ++ town_wiring) GET 1
      (Wired GET (str "/v1/users/{id}") (Entry [Some 0; Some 1] [Some 2] (TUser 0))) [Lit (str "v1"); Lit (str "users"); Var (str "id")] /\
     reads_as false (re_match lit_engine) [Lit (str "v1"); Lit (str "users"); Var (str "id")] [str "v1"; str "users"; str "42"] bs) /\
  get (str "/v1/users/42") = ([EvRun 1; EvWrite (RText (HResp 200 [] None None) (str "42"))], [0; 1; 2; 100],
     (200%Z, [(str "X-Content-Type-Options", [str "nosniff"])], str "42"), SDone) /\
  (exists evs b, get (str "/v1/other") = (EvRun 3 :: evs, [0; 102], b, SDone)).
Proof.
  cbv zeta. split; [exact town_resources|]. split; [exact town_wires|]. split; [exact town_started|]. split; [exact town_ordinary|].
  split; [apply (segments_spelled (str "v1") [str "users"; str "42"]); [repeat (constructor; [not_in|]); constructor|few]|].
  split; [apply town_choices|]. split; [|split].
  - exists [(str "id", str "42")]. split.
    + split; [reflexivity|]. split; [reflexivity|]. exists [str "v1"; str "users"; str "{id}"]. cbn [wr_path]. show_means.
    + apply ra_lit; [reflexivity|]. apply ra_lit; [reflexivity|]. apply ra_var. apply ra_end.
  - vm_compute. reflexivity.
  - eexists _, _. vm_compute. reflexivity.
Qed.

Lemma town_static_case k oc render location redirect_body :
  let get p := town_get k oc render location redirect_body p in
  let ts := [str "assets"; str "css"; str "a.css"] in
  resource_dir [] [] (str "/assets/") /\ str "/assets/" = spelled [str "assets"] ++ str "/" /\
  segments_of (str "/assets/css/a.css") ts /\ clear_choice lit_engine false (town_static ++ town_wiring) GET ts /\
  (forall i r ks bs, i <> 0 -> leads lit_engine false (town_static ++ town_wiring) GET i r ks -> reads_as false (re_match lit_engine) ks ts bs ->
     more_specific (map Lit [str "assets"] ++ [Any]) ks) /\
  get (str "/assets/css/a.css") = ([EvRun 0; EvWrite (RAdaptor None None [AWrite (str "css/a.css")])], [], (200%Z, [], str "css/a.css"), SDone).
Proof.
  cbv zeta. split; [apply (rd [] [] [] (str "assets")); left; split; auto|]. split; [reflexivity|].
  split; [apply (segments_spelled (str "assets") [str "css"; str "a.css"]); [repeat (constructor; [not_in|]); constructor|few]|].
  split; [apply town_choices|]. split; [|vm_compute; reflexivity].
  intros i r ks bs Ni (N & _ & [ps P]) Rd.
  assert (G : nth_error town_pieces i = Some ks).
  { clear Ni Rd. revert N. generalize town_means. generalize (town_static ++ town_wiring) as rs, town_pieces as kss. intros rs kss F N. revert i N.
    induction F as [|w0 ks0 rs kss P0 F IH]; intros i N; [destruct i; discriminate N|].
    destruct i as [|i]; [|exact (IH i N)]. cbn in N. injection N as ->. cbn. f_equal. exact (pieces_unique _ _ _ _ _ _ P P0). }
  apply fits_if in Rd.
  do 17 (destruct i as [|i]; [first [congruence|cbn in G; first [discriminate G|injection G as <-; first [discriminate Rd|cbn [map List.app]; apply ms_here; cbn; lia]]]|]).
  discriminate G.
Qed.

Lemma town_debug_case k oc render location redirect_body :
  let get p := town_get k oc render location redirect_body p in
  let p := str "/debug/pprof/heap" in
  In (ADebug 0) town_calls /\ In (p, PNamed (str "heap")) endpoints /\ segments_of p [str "debug"; str "pprof"; str "heap"] /\
  clear_choice lit_engine false (town_static ++ town_wiring) GET [str "debug"; str "pprof"; str "heap"] /\
  get p = ([EvRun 8; EvWrite (RAdaptor None None [AWrite (str "heap")])], [], (200%Z, [], str "heap"), SDone).
Proof.
  cbv zeta. split; [do 6 right; now left|]. split; [do 4 right; now left|].
  split; [apply (segments_spelled (str "debug") [str "pprof"; str "heap"]); [repeat (constructor; [not_in|]); constructor|few]|].
  split; [apply town_choices|]. vm_compute. reflexivity.
Qed.

Lemma town_none_case : forall k oc render location redirect_body,
  let q := plain_request (str "POST") (str "/orders") in
  segments_of (rq_path q) [str "orders"] /\ clear_choice lit_engine false (town_static ++ town_wiring) (str "POST") [str "orders"] /\
  (forall i r ks bs, leads lit_engine false (town_static ++ town_wiring) (str "POST") i r ks -> ~ reads_as false (re_match lit_engine) ks [str "orders"] bs) /\
  town_ask k oc render location redirect_body q = ([EvStatus 404], [], (404%Z, [], []), SDone).
Proof.
  cbv zeta. split; [apply (segments_spelled (str "orders") []); [repeat (constructor; [not_in|]); constructor|few]|].
  split; [eapply neat_clear; [exact town_means|vm_compute; reflexivity]|]. split; [|vm_compute; reflexivity].
  intros i r ks bs (N & M & [ps P]) Rd.
  assert (G : nth_error town_pieces i = Some ks).
  { clear M Rd. revert N. generalize town_means. generalize (town_static ++ town_wiring) as rs, town_pieces as kss. intros rs kss F N. revert i N.
    induction F as [|w0 ks0 rs kss P0 F IH]; intros i N; [destruct i; discriminate N|].
    destruct i as [|i]; [|exact (IH i N)]. cbn in N. injection N as ->. cbn. f_equal. exact (pieces_unique _ _ _ _ _ _ P P0). }
  apply fits_if in Rd.
  do 17 (destruct i as [|i]; [first [cbn in G; discriminate G|cbn in G; injection G as <-; first [discriminate Rd|cbn in N; injection N as <-; vm_compute in M; discriminate M]]|]).
  discriminate G.
Qed.

Lemma town_exact_case : forall k oc render location redirect_body,
  let q := plain_request (str "POST") (str "/v1/users") in
  let ls := [str "v1"; str "users"] in
  segments_of (rq_path q) ls /\ clear_choice lit_engine false (town_static ++ town_wiring) (str "POST") ls /\
  leads lit_engine false (town_static ++ town_wiring) (str "POST") 2 (Wired (str "POST") (str "/v1/users") (Entry [Some 0; Some 1] [] (TUser 1))) (map Lit ls) /\
  Forall2 (same_text false) ls ls /\
  town_ask k oc render location redirect_body q = ([EvRun 2; EvWrite (RText (HResp 200 [] None None) [])], [0; 1; 101],
     (200%Z, [(str "X-Content-Type-Options", [str "nosniff"])], []), SDone).
Proof.
  cbv zeta. split; [apply (segments_spelled (str "v1") [str "users"]); [repeat (constructor; [not_in|]); constructor|few]|].
  split; [|split; [|split; [repeat constructor|vm_compute; reflexivity]]].
  - assert (K : forall i w ks, leads lit_engine false (town_static ++ town_wiring) (str "POST") i w ks -> ks = lits [str "v1"; str "users"]).
    { intros i w ks (N & M & P).
      do 17 (destruct i as [|i]; [first [discriminate N|cbn in N; injection N as <-; first [vm_compute in M; discriminate M|
        refine (pieces_unique _ _ _ [str "v1"; str "users"] _ _ _ P); cbn [wr_path lits map]; show_means]]|]).
      discriminate N. }
    split.
    + intros i w ks L. rewrite (K _ _ _ L). split; [cbn; repeat constructor|].
      split; [intro H; cbn in H; repeat (destruct H as [H|H]; [discriminate H|]); exact H|].
      split; [intros a t H; cbn in H; repeat (destruct H as [H|H]; [discriminate H|]); destruct H|]. apply uncut_not_cut. reflexivity.
    + intros i1 w1 ks1 bs1 i2 w2 ks2 bs2 L1 _ _ _ i a b _ H. rewrite (K _ _ _ L1) in H. apply nth_error_In in H.
      cbn in H. repeat (destruct H as [H|H]; [discriminate H|]). destruct H.
  - split; [reflexivity|]. split; [reflexivity|]. exists [str "v1"; str "users"]. cbn [wr_path map]. show_means.
Qed.
