(** * Proofs about the functions that make responses *)
From Coq Require Import List NArith ZArith Ascii String Bool Lia Arith Permutation.
From Verif Require Import GoBase Http_Model Auth_Model Auth_Proofs Chain_Model Serve_Model Resp_Model Json_Model JsonErr_Model Ctor_Model Resp_Spec JsonErr_Spec Ctor_Spec
  Resp_Proofs RespBody_Proofs RespMisc_Proofs JsonErr_Proofs.
Import ListNotations.
Local Open Scope string_scope.
Local Open Scope list_scope.
Local Open Scope nat_scope.

Section Made.
Variable k : compressor.
Variable oh : headers -> headers.
Variable oc : cookies -> cookies.
Variable render : cookie -> bytes.
Variable location : wreq -> bytes -> bytes.
Variable redirect_body : Z -> bytes -> bytes.
Hypothesis OH : forall m, Permutation (oh m) m.
Hypothesis OC : forall m, Permutation (oc m) m.

Notation write := (@Resp_Model.write k oh oc render location redirect_body).

Lemma delivering r h q p : fields r = Some h -> right_protocol r q -> with_body (pg_status p) -> one_spelling (pg_headers p) ->
  hr_status h = pg_status p -> custom_headers h = pg_headers p -> custom_cookies h = pg_cookies p ->
  (forall hs ts, sent_as [] hs (pg_headers p) ts (hr_ctype h) -> sent_as [] hs (pg_headers p) ts (pg_type p)) ->
  pg_body p (body_of r) -> end_of r = pg_end p ->
  exists b, write r q (Plain base_new) = (pg_end p, Plain b) /\ delivered render p (pg_end p) b.
Proof.
  intros F P B OS S H C T Bo E.
  assert (M : meant_status h (pg_status p)).
  { right. unfold with_body in B. rewrite S. split; [|reflexivity]. lia. }
  destruct (response_body k oh oc render location redirect_body r q h _ base_new F P M B eq_refl eq_refl) as (b & W & BB).
  assert (B2 : (200 <= pg_status p <= 999)%Z) by (unfold with_body in B; lia).
  rewrite <- H in OS.
  destruct (response_sent k oh oc render location redirect_body r q h _ (Plain base_new) OH OC F P M B2 eq_refl OS) as (hs & ts & Fi & Pe & Se).
  rewrite W in Fi. cbn [snd rw_base] in Fi. rewrite E in W. exists b. split; [exact W|]. exists hs, ts, (body_of r).
  split; [reflexivity|]. split.
  { unfold received. rewrite Fi, BB. reflexivity. }
  split; [exact Bo|]. split; [rewrite <- C; exact Pe|]. apply T. rewrite <- H. exact Se.
Qed.

Lemma error_body_said e : error_body e (marshal (error_payload (error_to_string e))).
Proof.
  exists (error_to_string e). split; [apply error_says|]. destruct e as [[|c t]|]; [reflexivity| |reflexivity].
  intro A. apply error_capitalised, A.
Qed.

Lemma as_promised r p q : promised r p -> right_protocol r q -> with_body (pg_status p) -> one_spelling (pg_headers p) ->
  exists b, write r q (Plain base_new) = (pg_end p, Plain b) /\ delivered render p (pg_end p) b.
Proof.
  intros Pr P B OS. destruct Pr; (eapply delivering; [reflexivity|exact P|exact B|exact OS|reflexivity| | | | |]);
    try reflexivity; try (intros hs9 ts9 S9; exact S9);
    try (apply error_body_said); try (destruct p as [[?|]|]; reflexivity); try (destruct evs as [evs|]; [|reflexivity]); try reflexivity; try (destruct f as [[? ?]|]; reflexivity);
    try (cbn; unfold joined; rewrite flat_map_concat_map, map_id; symmetry; apply flat_map_concat_map).
Qed.

Lemma found_in {V : Type} key (v : V) : forall m, alookup key m = Some v -> In (key, v) m.
Proof.
  induction m as [|[k' v'] m IH]; cbn; [discriminate|]. destruct (beqb key k') eqn:E.
  - intro A. injection A as ->. apply Auth_Proofs.beqb_iff in E. subst k'. now left.
  - intro A. right. exact (IH A).
Qed.

Lemma own_type hs v h0 h ts t1 : alookup (str "Content-Type") hs = Some v -> v <> [] ->
  forall t2, sent_as h0 h hs ts t1 -> sent_as h0 h hs ts t2.
Proof.
  intros A N t2 S. assert (I0 : In (str "Content-Type", v) hs) by (exact (found_in _ _ _ A)).
  destruct S. constructor; auto.
  - intros H. exfalso. apply N. eapply H; [exact I0|]. reflexivity.
  - intros H. exfalso. apply H. exists (str "Content-Type"), v. split; [exact I0|reflexivity].
Qed.

Lemma as_promised_html Data f r p q : promised_template (@THtml Data f) r p -> with_body (pg_status p) -> one_spelling (pg_headers p) ->
  exists b, write r q (Plain base_new) = (pg_end p, Plain b) /\ delivered render p (pg_end p) b.
Proof.
  intros Pr B OS. destruct Pr; (eapply delivering; [reflexivity|exact I|exact B|exact OS|reflexivity| | | | |]);
    try reflexivity; try (intros hs9 ts9 S9; exact S9);
    try (unfold template_ok, template_not_found, template_with_headers, template_with_cookies, template_with_headers_and_cookies; cbn;
         destruct (f n d) as [l o]; reflexivity).
  all: cbn [template_with_headers template_with_headers_and_cookies pg_headers pg_type hr_ctype]; intros hs9 ts9 S9; destruct hs as [m|]; [|exact S9];
    cbn in S9 |- *; match type of S9 with context [alookup ?x m] => destruct (alookup x m) as [[|y v]|] eqn:A end; try exact S9;
    (refine (own_type _ _ _ _ _ _ A _ _ S9); discriminate).
Qed.

(** Templates of other types give plain text, and nil panics after the headers. *)
Lemma other_plain Data (t : template Data) n d q : (forall f, t <> THtml f) ->
  exists b hs, write (template_ok t n d) q (Plain base_new) = (snd (execute t n d), Plain b) /\
    received b = (200%Z, hs, joined (fst (execute t n d))) /\ hvalues hs (str "Content-Type") = [str "text/plain; charset=utf-8"].
Proof.
  intro N.
  destruct (delivering (template_ok t n d) (HResp 200 plain_text_content_type None None) q
    (Page 200 plain_text_content_type [] [] (eq (joined (fst (execute t n d)))) (snd (execute t n d)))) as (b & W & hs & ts & body & _ & R & B & _ & S).
  - destruct t as [f|f|]; [destruct (N f eq_refl)|reflexivity|reflexivity].
  - exact I.
  - unfold with_body. cbn. lia.
  - split; [constructor|intros k1 v1 k2 v2 []].
  - reflexivity.
  - reflexivity.
  - reflexivity.
  - intros hs ts S. exact S.
  - cbn. destruct (execute t n d) as [l o]. reflexivity.
  - cbn. destruct (execute t n d) as [l o]. reflexivity.
  - cbn [pg_status pg_body pg_end] in *. exists b, hs. split; [exact W|]. split; [rewrite R, <- B; reflexivity|].
    apply (sent_type_default _ _ _ _ _ S); [intros k1 v1 []|reflexivity|discriminate].
Qed.

Lemma nil_plain (Data : Type) n (d : Data) q :
  exists b hs, write (template_ok nil_template n d) q (Plain base_new) = (Wrote None, Plain b) /\
    received b = (200%Z, hs, []) /\ hvalues hs (str "Content-Type") = [str "text/plain; charset=utf-8"].
Proof. apply (other_plain Data nil_template n d q). discriminate. Qed.

Lemma redirected url q st r : (st, r) = (301%Z, redirect_moved_permanently url) \/ (st, r) = (302%Z, redirect_found url) \/ (st, r) = (303%Z, redirect_see_other url) ->
  exists b hs body, write r q (Plain base_new) = (Wrote None, Plain b) /\ received b = (st, hs, body) /\ hvalues hs (str "Location") = [location q url] /\
    (wq_method q <> str "GET" -> body = []).
Proof.
  intros H. unfold Resp_Model.write.
  assert (R : r = RRedirect (HResp st [] None None) url /\ (st = 301 \/ st = 302 \/ st = 303)%Z).
  { destruct H as [H|[H|H]]; injection H as -> ->; auto. }
  clear H. destruct R as [-> H]. cbn [Resp_Model.write_cut]. unfold http_redirect. cbn [rw_headers rw_base base_new b_header alookup negb andb hr_status].
  destruct (beqb (wq_method q) (str "GET")) eqn:G; cbn [orb].
  - unfold rw_write_header, rw_set, base_set. cbn [rw_map rw_base b_final base_new].
    replace ((st <? 100) || (999 <? st))%Z with false by lia. cbn [rw_write]. unfold base_write, base_write_header. cbn [b_final].
    replace ((100 <=? st) && (st <=? 199))%Z with false by lia. cbn [b_final]. unfold body_allowed.
    destruct (redirect_body st url) as [|x o].
    + eexists. eexists. eexists. split; [reflexivity|]. split; [reflexivity|]. split; [vm_compute; reflexivity|].
      intro Q. destruct (Q (proj1 (beqb_iff _ _) G)).
    + replace (negb ((st =? 204) || (st =? 304)))%Z with true by lia.
      eexists. eexists. eexists. split; [reflexivity|]. split; [reflexivity|]. split; [vm_compute; reflexivity|].
      intro Q. destruct (Q (proj1 (beqb_iff _ _) G)).
  - unfold rw_write_header, rw_set, base_set. destruct (beqb (wq_method q) (str "HEAD")); cbn [rw_map rw_base b_final base_new];
    replace ((st <? 100) || (999 <? st))%Z with false by lia; cbn [rw_map]; unfold base_write_header; cbn [b_final];
    replace ((100 <=? st) && (st <=? 199))%Z with false by lia;
    (eexists; eexists; eexists; split; [reflexivity|]; split; [reflexivity|]; split; [vm_compute; reflexivity|]); intro Q; reflexivity.
Qed.
End Made.

Lemma made_case : forall k,
  let r := json_error_with_headers_and_cookies 404 (Some (str "no such user")) (Some [(str "X-A", str "1")]) (Some (new_http_cookie [Some sid])) in
  let q := WReq (str "GET") [] 1%N in
  exists p, promised r p /\ right_protocol r q /\ with_body (pg_status p) /\ one_spelling (pg_headers p) /\
    received (rw_base (snd (@write k (fun m => m) (fun m => m) (fun c => ck_name c ++ str "=" ++ ck_rest c) (fun _ u => u) (fun _ _ => []) r q (Plain base_new)))) =
      (404%Z, [(str "X-Content-Type-Options", [str "nosniff"]); (str "Content-Type", [str "application/json"]); (str "X-A", [str "1"]); (str "Set-Cookie", [str "sid=1"])],
       str "{""error"":""No such user""}").
Proof.
  intro k. cbv zeta. eexists. split; [apply pr_error_hc|]. split; [exact I|]. split; [unfold with_body; cbn; lia|].
  split; [split; [repeat constructor; intros []|intros k1 v1 k2 v2 [E1|[]] [E2|[]]; congruence]|]. vm_compute. reflexivity.
Qed.

Lemma html_case :
  let t := THtml (fun n (d : bytes) => ([str "<p>"; d], Wrote None)) in
  exists p, promised_template t (template_with_headers t 404 (str "a.html") (str "gone") (Some [(str "Content-Type", str "text/xml")])) p /\
    with_body (pg_status p) /\ one_spelling (pg_headers p) /\ pg_headers p = [(str "Content-Type", str "text/xml")] /\ (forall f, nil_template <> @THtml bytes f).
Proof.
  cbv zeta. eexists. split; [apply pt_h|]. split; [unfold with_body; cbn; lia|].
  split; [split; [repeat constructor; intros []|intros k1 v1 k2 v2 [E1|[]] [E2|[]]; congruence]|]. split; [reflexivity|discriminate].
Qed.
