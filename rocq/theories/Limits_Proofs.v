(** * Programs and requests for which C16, C83, C84, C85 and C86 fail *)
From Coq Require Import List NArith ZArith Ascii String Bool Lia Arith Permutation.
From Verif Require Import GoBase Http_Model Glob_Model Glob_Spec Pattern_Model Url_Model Match_Model Router_Model Auth_Model Chain_Model Serve_Model
  Mux_Model Resp_Model Cors_Model App_Model Json_Model JsonErr_Model Chain_Spec Mux_Spec Mux_Proofs App_Spec
  Pattern_Spec Url_Spec Routing_Spec Loose_Spec Priority_Spec Choice_Spec Covers_Proofs Dispatch_Proofs Witness_Proofs ChoiceWitness_Proofs AppWire_Spec AppWhole_Proofs CorsCases_Proofs.
From Verif Require Import Resp_Spec Json_Spec JsonErr_Spec RespMisc_Proofs DumpCases_Proofs.
Import ListNotations.
Local Open Scope string_scope.
Local Open Scope list_scope.
Local Open Scope nat_scope.

(** C16: a route whose constraint is not asked, and its variable. *)
Definition braces := [route "/{b:a}/q" 1; route "/{x:{b:a}}/r" 2].
Lemma braces_case : exists r outs rec segs,
  handle_all 50 lit_engine (new_router false) braces = (r, outs) /\ Forall (eq Registered) outs /\
  Forall (fun rg => countable (re_ok lit_engine) false (reg_text rg)) braces /\
  segments_of (str "/a/r") [str "a"; str "r"] /\
  dispatch_request 50 lit_engine r GET (str "/a/r") zeros = Calls 2 rec segs /\
  reads_as false (meets (re_match lit_engine)) [Constrained (str "x") (str "{b:a}"); Lit (str "r")] [str "a"; str "r"] [(str "x", str "a")] /\
  path_var rec (str "/a/r") segs (str "x") = Some (str "a") /\ path_var rec (str "/a/r") segs (str "b") = Some [].
Proof.
  do 4 eexists. split; [vm_compute; reflexivity|]. split; [repeat constructor|].
  split; [repeat (constructor; [apply countable_if; cbn; lia|]); constructor|].
  split; [apply (segments_spelled (str "a") [str "r"]); [repeat (constructor; [not_in|]); constructor|few]|].
  split; [vm_compute; reflexivity|].
  split; [apply ra_constrained; [reflexivity|]; apply ra_lit; [reflexivity|]; apply ra_end|]. split; vm_compute; reflexivity.
Qed.

Lemma braces_marked : exists r outs,
  handle_all 50 lit_engine (new_router true) braces = (r, outs) /\ Forall (eq Registered) outs /\
  dispatch_request 50 lit_engine r GET (str "/a/r") zeros = NotFound /\
  exists rec segs, dispatch_request 50 lit_engine r GET (str "/(?i){b:a}/R") zeros = Calls 2 rec segs /\
    path_var rec (str "/(?i){b:a}/R") segs (str "x") = Some (str "(?i){b:a}").
Proof.
  do 2 eexists. split; [vm_compute; reflexivity|]. split; [repeat constructor|]. split; [vm_compute; reflexivity|].
  do 2 eexists. split; vm_compute; reflexivity.
Qed.

(** Programs that register handlers for GET. *)
Definition on (p : bytes) (h : nat) : acall := AMux (CHandle 0 GET p [] h).
Definition on_wired (p : bytes) (h : nat) : wired := Wired GET p (Entry [] [] (TUser h)).
Definition told : nat -> handler areq response (list nat) :=
  fun h _ _ w => (HReturn (Some (RText (HResp 200 [] None None) (nth h [str "first"; str "second"; str "third"] []))) None, w ++ [h]).
Definition nothing_around (i : nat) : middleware areq response (list nat) := fun h => h.
Definition program (l : list bytes) : list acall := map (fun ph => on (fst ph) (snd ph)) (combine l (seq 0 (List.length l))).
Definition wiring (l : list bytes) : list wired := map (fun ph => on_wired (fst ph) (snd ph)) (combine l (seq 0 (List.length l))).
Lemma program_wires l : wires [VMux [] []] (program l) (wiring l).
Proof.
  unfold program, wiring. generalize (combine l (seq 0 (List.length l))) as m. induction m as [|[p h] m IH]; [apply ws_end|].
  eapply (ws_more _ _ _ [_]); [eapply wi_handle; apply (vs_handle _ 0 (VMux [] [])); [reflexivity|apply jn_left]|exact IH].
Qed.

Definition first_app : app := fst (new_app 60 lit_engine false [] None).
Definition begun (l : list bytes) : app := fst (acalls doubling 60 lit_engine first_app (program l)).
Definition told_get (k : compressor) oc render location redirect_body (l : list bytes) (p : bytes) :=
  outcome (app_serve told nothing_around (fun _ _ => []) (fun _ _ => []) k (fun m => m) oc render location redirect_body
    60 lit_engine (begun l) (plain_request GET p) zeros nobody []).
Definition answered_with (i : nat) : list (sevent response) * list nat * (Z * hmap * bytes) * send :=
  ([EvRun i; EvWrite (RText (HResp 200 [] None None) (nth i [str "first"; str "second"; str "third"] []))], [i],
   (200%Z, [(str "X-Content-Type-Options", [str "nosniff"])], nth i [str "first"; str "second"; str "third"] []), SDone).

Lemma begun_smooth l xs : snd (acalls doubling 60 lit_engine first_app (program l)) = xs -> Forall (eq (Some Registered)) xs ->
  new_app 60 lit_engine false [] None = (first_app, None) /\ acalls doubling 60 lit_engine first_app (program l) = (begun l, xs) /\ Forall smooth xs.
Proof.
  intros E F. split; [vm_compute; reflexivity|]. split.
  - unfold begun. destruct (acalls doubling 60 lit_engine first_app (program l)) as [a ys]. cbn [fst snd] in *. subst. reflexivity.
  - eapply Forall_impl; [|exact F]. intros x <-. right. reflexivity.
Qed.

(** C83: the answer comes from a registration whose pattern does not read the path. *)
Definition braced := [str "/{b:a}/q"; str "/{x:{b:a}}/r"].
Lemma stranger_called k oc render location redirect_body :
  wires [VMux [] []] (program braced) (wiring braced) /\
  (exists xs, new_app 60 lit_engine false [] None = (first_app, None) /\
     acalls doubling 60 lit_engine first_app (program braced) = (begun braced, xs) /\ Forall smooth xs) /\
  segments_of (str "/a/r") [str "a"; str "r"] /\
  told_get k oc render location redirect_body braced (str "/a/r") = answered_with 1 /\
  forall i r ks bs, leads lit_engine false (wiring braced) GET i r ks -> ~ reads_as false (re_match lit_engine) ks [str "a"; str "r"] bs.
Proof.
  split; [apply program_wires|]. split; [eexists; apply begun_smooth; [vm_compute; reflexivity|repeat constructor]|].
  split; [apply (segments_spelled (str "a") [str "r"]); [repeat (constructor; [not_in|]); constructor|few]|].
  split; [vm_compute; reflexivity|].
  intros i r ks bs (N & _ & P) R.
  assert (M0 : means (re_ok lit_engine) false (str "/{b:a}/q") [str "{b:a}"; str "q"] [Constrained (str "b") (str "a"); Lit (str "q")]) by show_means.
  assert (M1 : means (re_ok lit_engine) false (str "/{x:{b:a}}/r") [str "{x:{b:a}}"; str "r"] [Constrained (str "x") (str "{b:a}"); Lit (str "r")]) by show_means.
  destruct i as [|[|i]]; cbn in N; [| |destruct i; discriminate N]; injection N as <-; cbn [wr_path on_wired] in P.
  - rewrite (pieces_unique _ _ _ _ _ _ M0 P) in R. inversion R; subst. match goal with H : reads_as _ _ (Lit _ :: _) _ _ |- _ => inversion H; subst end. discriminate.
  - rewrite (pieces_unique _ _ _ _ _ _ M1 P) in R. inversion R; subst. discriminate.
Qed.

(** C84: the answer comes from a less specific registration. *)
Definition rivals := [str "/a*/c"; str "/a*/{z}"; str "/ab*/x"].
Lemma rival_called k oc render location redirect_body :
  wires [VMux [] []] (program rivals) (wiring rivals) /\
  (exists xs, new_app 60 lit_engine false [] None = (first_app, None) /\
     acalls doubling 60 lit_engine first_app (program rivals) = (begun rivals, xs) /\ Forall smooth xs) /\
  ordinary lit_engine false (wiring rivals) /\ segments_of (str "/abc/x") [str "abc"; str "x"] /\
  told_get k oc render location redirect_body rivals (str "/abc/x") = answered_with 1 /\
  exists r ks bs r2 ks2 bs2, leads lit_engine false (wiring rivals) GET 1 r ks /\ reads_as false (re_match lit_engine) ks [str "abc"; str "x"] bs /\
    leads lit_engine false (wiring rivals) GET 2 r2 ks2 /\ reads_as false (re_match lit_engine) ks2 [str "abc"; str "x"] bs2 /\ more_specific ks2 ks.
Proof.
  split; [apply program_wires|]. split; [eexists; apply begun_smooth; [vm_compute; reflexivity|repeat constructor]|].
  assert (M0 : means (re_ok lit_engine) false (str "/a*/c") [str "a*"; str "c"] [Glob (str "a*"); Lit (str "c")]) by show_means.
  assert (M1 : means (re_ok lit_engine) false (str "/a*/{z}") [str "a*"; str "{z}"] [Glob (str "a*"); Var (str "z")]) by show_means.
  assert (M2 : means (re_ok lit_engine) false (str "/ab*/x") [str "ab*"; str "x"] [Glob (str "ab*"); Lit (str "x")]) by show_means.
  split.
  { split; [cbn; lia|]. cbn [wiring map combine seq fst snd List.length]. constructor; [|constructor; [|constructor; [|constructor]]]; cbn [wr_path on_wired].
    - eapply plain_countable; [cbn; lia|exact M0|repeat constructor].
    - eapply plain_countable; [cbn; lia|exact M1|repeat constructor].
    - eapply plain_countable; [cbn; lia|exact M2|repeat constructor]. }
  split; [apply (segments_spelled (str "abc") [str "x"]); [repeat (constructor; [not_in|]); constructor|few]|].
  split; [vm_compute; reflexivity|].
  do 6 eexists. split; [split; [reflexivity|split; [reflexivity|eexists; exact M1]]|]. split.
  { apply ra_glob; [|apply ra_var; apply ra_end].
    apply acc_char; [discriminate|discriminate|reflexivity|]. apply acc_last_star. }
  split; [split; [reflexivity|split; [reflexivity|eexists; exact M2]]|]. split.
  { apply ra_glob; [|apply ra_lit; [reflexivity|apply ra_end]].
    do 2 (apply acc_char; [discriminate|discriminate|reflexivity|]). apply acc_last_star. }
  apply ms_later; [reflexivity|]. apply ms_here. cbn. lia.
Qed.

(** C85: the handler for "/" answers a request for a registered path of 20 pieces. *)
Definition twenty := [str "a"; str "b"; str "c"; str "d"; str "e"; str "f"; str "g"; str "h"; str "i"; str "j";
  str "k"; str "l"; str "m"; str "n"; str "o"; str "p"; str "q"; str "r"; str "s"; str "t"].
Definition deep := [str "/"; spelled twenty].
Lemma exact_missed k oc render location redirect_body :
  wires [VMux [] []] (program deep) (wiring deep) /\
  (exists xs, new_app 60 lit_engine false [] None = (first_app, None) /\
     acalls doubling 60 lit_engine first_app (program deep) = (begun deep, xs) /\ Forall smooth xs) /\
  ordinary lit_engine false (wiring deep) /\
  leads lit_engine false (wiring deep) GET 1 (on_wired (spelled twenty) 1) (map Lit twenty) /\
  leads lit_engine false (wiring deep) GET 0 (on_wired (str "/") 0) [] /\
  told_get k oc render location redirect_body deep (spelled twenty) = answered_with 0.
Proof.
  split; [apply program_wires|]. split; [eexists; apply begun_smooth; [vm_compute; reflexivity|repeat constructor]|].
  assert (M0 : means (re_ok lit_engine) false (str "/") [] []) by show_means.
  assert (M1 : means (re_ok lit_engine) false (spelled twenty) twenty (map Lit twenty)) by show_means.
  split.
  { split; [cbn; lia|]. cbn [wiring deep map combine seq fst snd List.length]. constructor; [|constructor; [|constructor]]; cbn [wr_path on_wired].
    - eapply plain_countable; [cbn; lia|exact M0|repeat constructor].
    - eapply plain_countable; [cbn; lia|exact M1|repeat constructor]. }
  split; [split; [reflexivity|split; [reflexivity|eexists; exact M1]]|].
  split; [split; [reflexivity|split; [reflexivity|eexists; exact M0]]|].
  vm_compute. reflexivity.
Qed.

(** C86: with the status 204 nothing is sent. *)
Lemma no_json v : ~ json [] v.
Proof.
  assert (D : forall t n, digits t n -> t <> []) by (intros t n D; destruct D as [|t n b d D]; [discriminate|destruct t; discriminate]).
  intros J. remember (@nil byte) as t eqn:E. destruct J as [| | |t z Wh|t cs S|w S|t w l S|w S|t w l S]; try discriminate E.
  destruct Wh as [|t n Dt|t n Dt]; [discriminate E|exact (D _ _ Dt eq_refl)|discriminate E].
Qed.
Lemma nothing_said : 
  received (written_toy (fun m => m) (fun m => m) (json_response 204 (Some order) None None) get_req) =
    (204%Z, [(str "X-Content-Type-Options", [str "nosniff"]); (str "Content-Type", [str "application/json"])], []) /\
  meant_status (HResp 204 (str "application/json") None None) 204 /\ ~ says [] (meant (Some order)).
Proof.
  split; [vm_compute; reflexivity|]. split; [right; split; [discriminate|reflexivity]|].
  intros (w & _ & U). destruct (proj2 (U w) eq_refl) as (w1 & t & w2 & _ & _ & J & E).
  destruct w1; [|discriminate E]. destruct t; [|discriminate E]. exact (no_json _ J).
Qed.
