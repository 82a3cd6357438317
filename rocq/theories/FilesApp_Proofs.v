(** * Static resources of a whole program *)
From Coq Require Import List NArith ZArith Ascii String Bool Lia Arith.
From Verif Require Import GoBase Http_Model Glob_Model Pattern_Model Url_Model Match_Model Router_Model Auth_Model Chain_Model Serve_Model
  Mux_Model Resp_Model Resp_Spec Cors_Model App_Model Chain_Spec Mux_Spec App_Spec App_Proofs
  Pattern_Spec Url_Spec Routing_Spec Priority_Spec Choice_Spec Witness_Proofs AppWire_Spec AppWire_Proofs AppExact_Proofs AppCases_Proofs AppWhole_Proofs CorsCases_Proofs
  Files_Model Files_Spec Files_Proofs.
Import ListNotations.
Local Open Scope string_scope.
Local Open Scope list_scope.
Local Open Scope nat_scope.

Lemma error_sent k oh oc render location redirect_body q st t : In st [403; 404; 500]%Z ->
  received (snd (sends k oh oc render location redirect_body q (RAdaptor None None (error_acts st t)))) =
  (st, [(str "X-Content-Type-Options", [str "nosniff"]); (str "Content-Type", [str "text/plain; charset=utf-8"])], t ++ [ascii_of_N 10]).
Proof. intros I. cbn in I. destruct t; repeat (destruct I as [<-|I]; [reflexivity|]); destruct I. Qed.

Lemma redirect_sent k oh oc render location redirect_body q t :
  received (snd (sends k oh oc render location redirect_body q (RAdaptor None None [ASet (str "Location") t; AStatus 301]))) = (301%Z, [(str "Location", [t])], []).
Proof. reflexivity. Qed.

Lemma files_served (W : Type) (user : nat -> handler areq response W) (mid : nat -> middleware areq response W) content link text fs home
    (pages : debug_page -> request -> list act)
    (k : compressor) (oh : headers -> headers) (oc : cookies -> cookies) (render : cookie -> bytes) (location : wreq -> bytes -> bytes) (redirect_body : Z -> bytes -> bytes)
    grow fuel re context mapping dir cs rs a0 x0 a xs q ws names n buf :
  resource_dir context mapping dir -> dir = spelled ws ++ str "/" -> Forall (fun t => reads t (Lit t) /\ ~ In "/"%char t) ws ->
  wires [VMux [] []] cs rs ->
  new_app fuel re false context (Some mapping) = (a0, x0) -> smooth x0 -> acalls grow fuel re a0 cs = (a, xs) -> Forall smooth xs ->
  let all := Wired (str "GET") (dir ++ str "**") (Entry [] [] (TStatic dir)) :: rs in
  ordinary re false all -> same_method (xq_method (rq_x q)) (str "GET") ->
  Forall entry_name (names ++ [n]) -> n <> str "index.html" ->
  rq_path q = dir ++ path_of (names ++ [n]) -> rq_raw q = [] -> (blen (rq_path q) < 65536)%N -> segments_of (rq_path q) (ws ++ names ++ [n]) ->
  List.length buf = 19 -> clear_choice re false all (xq_method (rq_x q)) (ws ++ names ++ [n]) ->
  (forall i r ks bs, i <> 0 -> leads re false all (xq_method (rq_x q)) i r ks -> reads_as false (re_match re) ks (ws ++ names ++ [n]) bs ->
     more_specific (map Lit ws ++ [Any]) ks) ->
  exists p k0, at_names home p (names ++ [n]) /\ forall f x w evs w' b fin,
    app_serve user mid (file_server content link text fs home) pages k oh oc render location redirect_body (k0 + f) re a q buf x w = (evs, w', b, fin) ->
    w' = w /\
    (forall c, fs p = NFile c -> b = snd (sends k oh oc render location redirect_body q (RAdaptor None None (content c q)))) /\
    (forall es, fs p = NDir es -> received b = (301%Z, [(str "Location", [n ++ str "/"])], [])) /\
    (forall st, In st [403; 404; 500]%Z -> fs p = NError st ->
       received b = (st, [(str "X-Content-Type-Options", [str "nosniff"]); (str "Content-Type", [str "text/plain; charset=utf-8"])], text st ++ [ascii_of_N 10])).
Proof.
  intros D Ed Lw Wi E0 S0 E Sm all Or Me En Ni Pa Ra Bl Sg Bu Cl Un.
  destruct (path_corrected content link text fs home names n q En) as (p & At & P1 & _ & P2 & P3 & _).
  destruct (static_served W user mid (file_server content link text fs home) pages k oh oc render location redirect_body grow fuel re context mapping dir cs rs a0 x0 a xs q ws (names ++ [n])
    (path_of (names ++ [n])) buf D Ed Lw Wi E0 S0 E Sm Or Me Pa Ra Bl Sg ltac:(destruct names; discriminate) Bu Cl Un) as (k0 & K).
  exists p, k0. split; [exact At|]. intros f x w evs w' b fin Sv. destruct (K f x w evs w' b fin Sv) as (-> & -> & _). split; [reflexivity|].
  split; [|split].
  - intros c F. rewrite (P1 Ni c F). reflexivity.
  - intros es F. rewrite (P2 Ni es F). apply redirect_sent.
  - intros st I F. rewrite (P3 Ni st F). now apply error_sent.
Qed.

(** The program [town] with the files [shelf]. *)
Definition shelf_get (k : compressor) (oc : cookies -> cookies) render location redirect_body (p : bytes) :=
  received (snd (fst (app_serve town_user noting (file_server (fun c _ => [AWrite c]) (fun n => n) (fun _ => str "error") shelf home_dir) (fun _ _ => [])
    k (fun m => m) oc render location redirect_body 60 lit_engine town_app (plain_request GET p) zeros nobody []))).

Lemma shelf_case k oc render location redirect_body :
  shelf_get k oc render location redirect_body (str "/assets/css/a.css") = (200%Z, [], str "p{}") /\
  shelf_get k oc render location redirect_body (str "/assets/css") = (301%Z, [(str "Location", [str "css/"])], []) /\
  shelf_get k oc render location redirect_body (str "/assets/css/b.css") =
    (404%Z, [(str "X-Content-Type-Options", [str "nosniff"]); (str "Content-Type", [str "text/plain; charset=utf-8"])], str "error" ++ [ascii_of_N 10]) /\
  Forall entry_name ([str "css"] ++ [str "a.css"]) /\ str "/assets/css/a.css" = str "/assets/" ++ path_of ([str "css"] ++ [str "a.css"]).
Proof.
  split; [vm_compute; reflexivity|]. split; [vm_compute; reflexivity|]. split; [vm_compute; reflexivity|]. split; [|reflexivity].
  repeat constructor; try discriminate; intros I; cbn in I; repeat (destruct I as [I|I]; [discriminate|]); exact I.
Qed.
