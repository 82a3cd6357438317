(** * Cases for requests served at the same time and for recycled maps *)
From Coq Require Import List NArith ZArith Ascii String Bool Lia Arith.
From Verif Require Import GoBase Glob_Model Glob_Spec Pattern_Model Pattern_Spec Priority_Spec Url_Model Url_Spec Match_Model Router_Model
  Routing_Spec Routing_Proofs Witness_Proofs Resp_Model Pool_Model Pool_Spec
  RoutePool_Model RoutePool_Spec RoutePool_Proofs RouteProc_Proofs RespPool_Model RespPool_Spec RespPool_Proofs.
Import ListNotations.
Local Open Scope string_scope.
Local Open Scope list_scope.
Local Open Scope nat_scope.

(** ** Requests *)

(** Each handler reads a variable, clones its context, and starts a goroutine that reads
    the variable from the clone some time later. *)
Definition reader (q : request) (h : nat) : hproc :=
  HVar 0 (str "id") (fun _ => HClone 0 (HGo (HAsk (fun _ => HVar 1 (str "id") (fun _ => HDone))) HDone)).
(** A handler that gives its own context to the goroutine. *)
Definition careless (q : request) (h : nat) : hproc := HGo (HVar 0 (str "id") (fun _ => HDone)) HDone.

Lemma reader_careful q h : careful true (reader q h).
Proof. cbn. repeat split; discriminate. Qed.
Lemma careless_not q h : ~ careful true (careless q h).
Proof. cbn. intros [[H _] _]. discriminate (H eq_refl). Qed.

Definition shop_serve (code : request -> nat -> hproc) : request -> thread :=
  serve_thread (route_proc 100 lit_engine shop_router) code.
Definition order42 : request := Req (str "get") (str "/users/42/orders/7").
Definition order9 : request := Req (str "GET") (str "/users/9/orders/7").

(** One request after the other; the second gets the buffer of the first; then the
    goroutine of the first reads its clone. *)
Definition in_turn : list (label (list useg) (option useg) event) :=
  Begin (shop_serve reader order42) :: repeat (Turn 0 0) 99 ++
  Begin (shop_serve reader order9) :: repeat (Turn 2 0) 99 ++ repeat (Turn 1 0) 9.
(** Two requests in alternating steps. *)
Definition alternating : list (label (list useg) (option useg) event) :=
  Begin (shop_serve reader order42) :: Begin (shop_serve reader order9) ::
  List.concat (repeat [Turn 0 0; Turn 1 0; Turn 2 5; Turn 3 5] 99).

Definition seen (o : option (config (list useg) (option useg) event)) : option (nat * list event) :=
  option_map (fun c => (List.length (cf_heap c), cf_log c)) o.
Lemma in_turn_case : requests_only (route_proc 100 lit_engine shop_router) reader in_turn /\
  seen (steps new_buffer in_turn start) =
  Some (3, [Saw order42 1 0 (str "id") (Some (str "42")); Over order42;
            Saw order9 1 0 (str "id") (Some (str "9")); Over order9;
            Saw order42 1 1 (str "id") (Some (str "42"))]).
Proof.
  split; [|vm_compute; reflexivity]. intros p H. unfold in_turn in H. cbn [In] in H. rewrite in_app_iff in H. cbn [In] in H. rewrite in_app_iff in H.
  destruct H as [H|[H|[H|[H|H]]]].
  - injection H as <-. now exists order42.
  - apply repeat_spec in H. discriminate H.
  - injection H as <-. now exists order9.
  - apply repeat_spec in H. discriminate H.
  - apply repeat_spec in H. discriminate H.
Qed.
Lemma alternating_case :
  seen (steps new_buffer alternating start) =
  Some (4, [Saw order42 1 0 (str "id") (Some (str "42")); Saw order9 1 0 (str "id") (Some (str "9"));
            Saw order42 1 1 (str "id") (Some (str "42")); Saw order9 1 1 (str "id") (Some (str "9"));
            Over order42; Over order9]).
Proof. vm_compute. reflexivity. Qed.

(** The rule is needed: a goroutine that uses the context of its handler after the end of
    the request reads with the segments of another request. *)
Definition leaked : list (label (list useg) (option useg) event) :=
  Begin (shop_serve careless order42) :: repeat (Turn 0 0) 99 ++
  Begin (shop_serve careless order9) :: repeat (Turn 2 0) 14 ++ repeat (Turn 1 0) 9.
Lemma leaked_case : (forall q h, ~ careful true (careless q h)) /\
  seen (steps new_buffer leaked start) = Some (1, [Over order42; Saw order42 1 0 (str "id") (Some (str "4"))]).
Proof. split; [exact careless_not|vm_compute; reflexivity]. Qed.

(** ** The values are those of the pattern *)
Lemma served_values fuel re ci regs r outs f route code ls :
  handle_all fuel re (new_router ci) regs = (r, outs) ->
  Forall (fun rg => countable (re_ok re) ci (reg_text rg) /\ plain (re_ok re) ci (reg_text rg)) regs ->
  routes_as f re r route -> (forall q h, careful true (code q h)) -> requests_only route code ls ->
  exists c, steps new_buffer ls start = Some c /\ race_free c /\
    forall q h ts, (blen (q_path q) < 65536)%N -> segments_of (q_path q) ts ->
      (exists k name v, In (Saw q h k name v) (cf_log c)) ->
      exists mth text ks bs, In ((mth, text, h), Registered) (combine regs outs) /\ same_method mth (q_method q) /\
        pieces_of (re_ok re) ci text ks /\ reads_as ci (re_match re) ks ts bs /\
        forall k name v, In (Saw q h k name v) (cf_log c) ->
          v = Some (match value_of name bs with Some x => x | None => [] end).
Proof.
  intros H1 H3 RA CA RO. destruct (served_together f re r route code ls RA CA RO) as (c & E & R & L).
  exists c. split; [exact E|]. split; [exact R|]. intros q h ts B ST (k & name & v & IN).
  destruct (L _ _ _ _ _ IN) as (rec & segs & D & _).
  destruct (routed_sound fuel re ci regs r outs f (q_method q) (q_path q) ts (repeat useg_zero 19) h rec segs H1 H3 B ST eq_refl D)
    as (mth & text & ks & bs & A1 & A2 & A3 & A4 & A5).
  exists mth, text, ks, bs. repeat (split; [assumption|]). intros k' name' v' IN'. destruct (L _ _ _ _ _ IN') as (rec' & segs' & D' & ->).
  rewrite D in D'. injection D' as <- <-. apply A5.
Qed.

(** ** Clones *)
Lemma clones_agree f re r route code ls :
  routes_as f re r route -> (forall q h, careful true (code q h)) -> requests_only route code ls ->
  exists c, steps new_buffer ls start = Some c /\
    forall q h h' k k' name v v', In (Saw q h k name v) (cf_log c) -> In (Saw q h' k' name v') (cf_log c) -> h = h' /\ v = v'.
Proof.
  intros RA CA RO. destruct (served_together f re r route code ls RA CA RO) as (c & E & _ & L).
  exists c. split; [exact E|]. intros q h h' k k' name v v' I1 I2.
  destruct (L _ _ _ _ _ I1) as (rec & segs & D1 & ->). destruct (L _ _ _ _ _ I2) as (rec' & segs' & D2 & ->).
  rewrite D1 in D2. injection D2 as <- <- <-. auto.
Qed.

(** ** Responses *)

Definition cookie_s : cookie := Cookie (str "sid") (str "/") [] (str "s1").
Definition page (key v : bytes) : rproc :=
  RNew None None (RSet 0 (SetHeader key (str "old")) (RSet 0 (AddCookie cookie_s) (RSet 0 (SetHeader key v) (RWrite 0 true RDone)))).
Lemma page_polite key v : polite 0 [] [] (page key v).
Proof.
  cbn. intros x E. injection E as <-. cbn. intros x E. injection E as <-. cbn. intros x E. injection E as <-. cbn. split; [split; [lia|easy]|].
  intros x E. injection E as <-. cbn. split; [split; [lia|easy]|]. split; [|exact I]. split; [lia|]. intros [H|[]]. discriminate H.
Qed.
(** Two pages, the second with the maps of the first. *)
Definition pages : list (label content content sent) :=
  Begin (rthread [] [] (page (str "A") (str "1"))) :: repeat (Turn 0 0) 20 ++
  Begin (rthread [] [] (page (str "B") (str "2"))) :: repeat (Turn 1 0) 20.
Definition sent_by (o : option (config content content sent)) : option (nat * list sent) :=
  option_map (fun c => (List.length (cf_heap c), cf_log c)) o.
Definition page_sent (key v : bytes) : sent :=
  Sent (Some [SetHeader key (str "old"); SetHeader key v]) (Some [(key, HeaderValue v)])
    (Some [AddCookie cookie_s]) (Some [(str "sid:/:", CookieValue cookie_s)]).
Lemma pages_case : programs_only pages /\
  sent_by (steps new_map pages start) = Some (2, [page_sent (str "A") (str "1"); page_sent (str "B") (str "2")]).
Proof.
  split; [|vm_compute; reflexivity]. intros p H. unfold pages in H. cbn [In] in H. rewrite in_app_iff in H. cbn [In] in H.
  destruct H as [H|[H|[H|H]]].
  - injection H as <-. exists (page (str "A") (str "1")). split; [reflexivity|apply page_polite].
  - apply repeat_spec in H. discriminate H.
  - injection H as <-. exists (page (str "B") (str "2")). split; [reflexivity|apply page_polite].
  - apply repeat_spec in H. discriminate H.
Qed.

(** The rule is needed: a map that is in two responses shows the headers of another
    program in the second. *)
Definition shared_map : rproc :=
  RMap 0 (RSetMap 0 (SetHeader (str "A") (str "1")) (RNew (Some 0) None (RNew (Some 0) None (RWrite 0 true (RWrite 1 true RDone))))).
Definition shared_run : list (label content content sent) :=
  Begin (rthread [] [] shared_map) :: repeat (Turn 0 0) 6 ++
  Begin (rthread [] [] (RNew None None (RSet 0 (SetHeader (str "Secret") (str "2")) (RWrite 0 true RDone)))) ::
  repeat (Turn 1 0) 2 ++ repeat (Turn 0 0) 2.
Lemma shared_case : ~ polite 0 [] [] shared_map /\
  sent_by (steps new_map shared_run start) =
  Some (1, [Sent (Some [SetHeader (str "A") (str "1")]) (Some [(str "A", HeaderValue (str "1"))]) None None;
            Sent (Some [SetHeader (str "A") (str "1")]) (Some [(str "Secret", HeaderValue (str "2"))]) None None]).
Proof.
  split; [|vm_compute; reflexivity]. cbn. intros [_ H]. destruct (H _ eq_refl) as (_ & _ & K). destruct (K _ eq_refl) as ([_ G] & _). apply G. now left.
Qed.
