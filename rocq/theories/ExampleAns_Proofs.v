(** * What the example program answers *)
From Coq Require Import List NArith ZArith Ascii String Bool Lia Arith.
From Verif Require Import GoBase Http_Model Glob_Model Pattern_Model Url_Model Match_Model Router_Model Auth_Model Chain_Model Serve_Model
  Mux_Model Resp_Model Json_Model JsonErr_Model Cors_Model App_Model Example_Model Chain_Spec Mux_Spec App_Spec
  Url_Spec Routing_Spec AppWire_Spec Auth_Spec Auth_Proofs AuthText_Proofs JsonErr_Spec JsonErr_Proofs Example_Spec Example_Proofs.
Import ListNotations.
Local Open Scope string_scope.
Local Open Scope list_scope.
Local Open Scope nat_scope.

Section Sent.
Variables (k : compressor) (oh : headers -> headers) (oc : cookies -> cookies) (render : cookie -> bytes) (location : wreq -> bytes -> bytes)
  (redirect_body : Z -> bytes -> bytes) (q : request).
Notation send r := (sends k oh oc render location redirect_body q r).

Lemma text_sends ct t : (ct = "text/plain; charset=utf-8" \/ ct = "text/html; charset=utf-8") ->
  exists b, send (RText (HResp 200 (str ct) None None) t) = (Wrote None, b) /\ received b = (200%Z, typed ct, t).
Proof. intros [->| ->]; destruct t; eexists; (split; [reflexivity|reflexivity]). Qed.

Lemma json_sends st v : In st [200; 400; 401; 403; 404; 500]%Z ->
  exists b, send (json_response st (Some v) None None) = (Wrote None, b) /\ received b = (st, typed "application/json", marshal v).
Proof.
  intros I. cbn in I. unfold json_response. cbn [option_map]. generalize (marshal v) as t. intros t.
  repeat (destruct I as [<-|I]; [destruct t; eexists; (split; [reflexivity|reflexivity])|]). destruct I.
Qed.
End Sent.

Section Ask.
Context {W : Type}.
Variables (o : outside) (p : parts W).
Notation send q r := (sends (os_k o) (os_oh o) (os_oc o) (os_render o) (os_location o) (os_body o) q r).
Notation answer e x q mc w evs w' b fin := (answered_by (parts_user p) (parts_mid p) (os_files o) (os_pages o)
  (sends (os_k o) (os_oh o) (os_oc o) (os_render o) (os_location o) (os_body o) q) e x q mc w evs w' b fin).

Lemma example_ask fuel q ts buf e bs : asked q ts buf -> page ts e bs ->
  exists k0, forall f x w evs w' b fin, example_serve o p (60 + fuel) (k0 + f) q buf x w = (evs, w', b, fin) ->
    exists i mc evs', sees mc q bs /\ visible evs = EvRun i :: evs' /\ answer e x q mc w evs' w' b fin.
Proof.
  intros (M & B & S & L) P.
  destruct (example_served (parts_user p) (parts_mid p) (os_files o) (os_pages o) (os_k o) (os_oh o) (os_oc o) (os_render o) (os_location o) (os_body o)
    (os_grow o) fuel (os_re o) q ts buf B S L) as [k0 A].
  exists k0. intros f x w evs w' b fin E. exact (proj1 (A f x w evs w' b fin E) e bs M P).
Qed.

(** What the common middlewares make of an outcome. *)
Definition guarded (stack : bytes) (r : hout response) : hout response :=
  match r with
  | HReturn _ (Some e) => HReturn (Some (json_response (Z.of_N (error_status e)) (Some (error_payload (err_message e))) None None)) None
  | HReturn r None => HReturn r None
  | HPanic (Some _) => HReturn None (Some (EOther (str "recover from panic, stack: [" ++ stack ++ str "]")))
  | HPanic None => HReturn None None
  end.

Lemma guards (h : handler areq response W) x q w :
  panic_recover_text (pt_stack p) (err_json_response h) x q w = (guarded (pt_stack p x q w) (fst (h x q w)), snd (h x q w)).
Proof.
  unfold panic_recover_text, err_json_response, err_response, guarded. destruct (h x q w) as [[r [e|]|[v|]] w1]; reflexivity.
Qed.

Lemma behind_plain h x q mc w evs w' b fin : answer (behind [] h) x q mc w evs w' b fin ->
  answers (fun r => send q r) (snd (parts_user p h x (AReq q mc) w)) (guarded (pt_stack p x (AReq q mc) w) (fst (parts_user p h x (AReq q mc) w))) evs w' b fin.
Proof.
  intros (inner & outer & D & N & A). cbn [behind en_target does] in D. subst inner.
  cbn in N. inversion N as [|m ms i1 N1]; subst. inversion N1 as [|m2 ms2 i2 N2]; subst. inversion N2; subst.
  cbn [parts_mid example_mid] in A. unfold parts_mid, example_mid in A. rewrite guards in A. exact A.
Qed.

Lemma behind_permission x q mc w v evs w' b fin : answer (behind [Some 2; Some 3] 11) x q mc w evs w' b fin ->
  mc_var mc (str "permission") = Some v ->
  answers (fun r => send q r) w (guarded (pt_stack p x (AReq q mc) w)
    match parse_permission (example_scope ++ str ":" ++ v) with
    | None => HReturn None (Some (EOther (pt_failure p v)))
    | Some pm => if implies pm (Perm example_scope 8) then HReturn (Some (json_ok (GMap [(str "authorized", GStr (str "true"))]))) None
                 else HReturn None (Some EUnauthorized)
    end) evs w' b fin.
Proof.
  intros (inner & outer & D & N & A) V. cbn [behind en_target does] in D. subst inner.
  cbn in N. inversion N as [|m ms i1 N1]; subst. inversion N1 as [|m2 ms2 i2 N2]; subst. inversion N2 as [|m3 ms3 i3 N3]; subst.
  inversion N3 as [|m4 ms4 i4 N4]; subst. inversion N4; subst.
  unfold parts_mid, example_mid in A. rewrite guards in A.
  assert (E : principal_supplier (example_principal (pt_failure p)) (authorize_all [Perm example_scope 8%N] (parts_user p 11)) x (AReq q mc) w =
    (match parse_permission (example_scope ++ str ":" ++ v) with
     | None => HReturn None (Some (EOther (pt_failure p v)))
     | Some pm => if implies pm (Perm example_scope 8) then HReturn (Some (json_ok (GMap [(str "authorized", GStr (str "true"))]))) None
                  else HReturn None (Some EUnauthorized)
     end, w)).
  { unfold principal_supplier, example_principal. cbn [aq_mc]. rewrite V.
    destruct (parse_permission (example_scope ++ str ":" ++ v)) as [pm|]; [|reflexivity].
    unfold authorize_all, authorize. cbn [get_principal with_principal cx_principal all_permitted user_principal pr_has].
    unfold user_has. cbn [us_groups groups_permit group_has gr_roles roles_permit].
    unfold group_has. cbn [gr_roles roles_permit]. unfold role_has. cbn [rl_denied rl_allowed any_implies].
    destruct (implies pm (Perm example_scope 8)); reflexivity. }
  assert (A' : answers (fun r => send q r) (snd (principal_supplier (example_principal (pt_failure p)) (authorize_all [Perm example_scope 8%N] (parts_user p 11)) x (AReq q mc) w))
    (guarded (pt_stack p x (AReq q mc) w) (fst (principal_supplier (example_principal (pt_failure p)) (authorize_all [Perm example_scope 8%N] (parts_user p 11)) x (AReq q mc) w))) evs w' b fin) by exact A.
  rewrite E in A'. exact A'.
Qed.
End Ask.

(** ** The permission of the path *)

Lemma example_levels : levels example_scope [str "domain"; str "subdomain"; str "resource"].
Proof.
  change example_scope with (str "domain" ++ "/"%char :: (str "subdomain" ++ "/"%char :: str "resource")).
  apply lv_more; [Witness_Proofs.not_in|]. apply lv_more; [Witness_Proofs.not_in|]. apply lv_last. Witness_Proofs.not_in.
Qed.
Lemma other_levels x : ~ In "/"%char x -> levels (example_scope ++ ":"%char :: x) [str "domain"; str "subdomain"; str "resource:" ++ x].
Proof.
  intros H. change (example_scope ++ ":"%char :: x) with (str "domain" ++ "/"%char :: (str "subdomain" ++ "/"%char :: (str "resource:" ++ x))).
  apply lv_more; [Witness_Proofs.not_in|]. apply lv_more; [Witness_Proofs.not_in|]. apply lv_last.
  intro I. apply in_app_or in I. destruct I as [I|I]; [|exact (H I)]. revert I. Witness_Proofs.not_in.
Qed.

Lemma grants_delete n : grants n 8 <-> N.testbit n 3 = true.
Proof.
  split; intros H; [apply H; reflexivity|]. intros i T.
  destruct (N.eq_dec i 3) as [->|Ne]; [exact H|]. exfalso.
  change 8%N with (2 ^ 3)%N in T. rewrite N.pow2_bits_false in T; congruence.
Qed.

Lemma numeral_no_colon ds n : numeral ds n -> ~ In ":"%char ds.
Proof.
  induction 1 as [c d H|ds n c d _ IH H].
  - intros [->|[]]. exact (colon_no_digit _ H).
  - intros A. apply in_app_or in A. destruct A as [A|[->|[]]]; [contradiction|]. exact (colon_no_digit _ H).
Qed.

(** A text with a last colon, cut at another one. *)
Lemma last_cut (a v s ds : bytes) : a ++ ":"%char :: v = s ++ ":"%char :: ds -> ~ In ":"%char ds ->
  (s = a /\ v = ds) \/ (exists y, s = a ++ ":"%char :: y /\ v = y ++ ":"%char :: ds).
Proof.
  revert s. induction a as [|c a IH]; intros s E Hd.
  - destruct s as [|c s]; cbn in E.
    + injection E as E. left. auto.
    + injection E as E1 E2. right. exists s. subst c v. auto.
  - destruct s as [|c' s]; cbn in E; injection E as E1 E2.
    + exfalso.  apply Hd. rewrite <- E2. apply in_or_app. right. now left.
    + subst c'. destruct (IH s E2 Hd) as [[-> ->]|(y & -> & ->)]; [left; auto|right; exists y; auto].
Qed.

Lemma permission_parsed v : ~ In "/"%char v ->
  (forall n, names_access v n -> parse_permission (example_scope ++ str ":" ++ v) = Some (Perm example_scope n) /\
     (implies (Perm example_scope n) (Perm example_scope 8) = true <-> N.testbit n 3 = true)) /\
  (other_scope v -> exists pm, parse_permission (example_scope ++ str ":" ++ v) = Some pm /\ implies pm (Perm example_scope 8) = false) /\
  ((forall n, ~ names_access v n) -> ~ other_scope v -> parse_permission (example_scope ++ str ":" ++ v) = None).
Proof.
  intros Sl. change (example_scope ++ str ":" ++ v) with (example_scope ++ ":"%char :: v). split; [|split].
  - intros n [Nn Ln]. split.
    + apply parse_permission_iff. exists v. cbn [pm_scope pm_access]. split; [reflexivity|]. split; [exact Nn|]. split; [exact Ln|].
      eexists. split; [apply example_levels|]. cbn. lia.
    + rewrite (implies_iff (Perm example_scope n) (Perm example_scope 8) _ _ example_levels example_levels). cbn [pm_access]. rewrite grants_delete. split; [tauto|]. intros T. split; [exact T|].
      left. repeat apply cv_same. apply cv_end.
  - intros (x & ds & n & -> & Nn & Ln). exists (Perm (example_scope ++ ":"%char :: x) n).
    assert (Sx : ~ In "/"%char x) by (intro I; apply Sl, in_or_app; left; exact I). split.
    + apply parse_permission_iff. exists ds. cbn [pm_scope pm_access]. split; [rewrite <- app_assoc; reflexivity|]. split; [exact Nn|]. split; [exact Ln|].
      eexists. split; [apply other_levels; exact Sx|]. cbn. lia.
    + apply not_true_iff_false. rewrite (implies_covers (Perm (example_scope ++ ":"%char :: x) n) (Perm example_scope 8) _ _ (other_levels x Sx) example_levels) by (right; reflexivity). intros [_ C].
      inversion C as [|? ? ? C1| |]; subst. inversion C1 as [|? ? ? C2| |]; subst. inversion C2.
  - intros H1 H2. destruct (parse_permission (example_scope ++ ":"%char :: v)) as [pm|] eqn:E; [|reflexivity]. exfalso.
    apply parse_permission_iff in E. destruct E as (ds & E & Nn & Ln & _).
    destruct (last_cut _ _ _ _ E (numeral_no_colon _ _ Nn)) as [[_ ->]|(y & _ & ->)].
    + apply (H1 (pm_access pm)). split; assumption.
    + apply H2. exists y, ds, (pm_access pm). split; [reflexivity|]. split; assumption.
Qed.

(** ** Segments hold no slash *)

Lemma walked_no_slash ps : forall seen, Forall (fun s : bytes => ~ In "/"%char s) seen -> Forall (fun s : bytes => ~ In "/"%char s) ps ->
  Forall (fun s : bytes => ~ In "/"%char s) (walked seen ps).
Proof.
  induction ps as [|p ps IH]; intros seen Hs Hp; [exact Hs|]. inversion Hp; subst. cbn [walked]. apply IH; [|assumption].
  unfold walk. destruct p as [|c p]; [exact Hs|]. destruct (list_eq_dec _ _ _).
  - clear -Hs. induction Hs as [|y ys Hy Hs IH]; [constructor|]. cbn [removelast]. destruct ys; [constructor|]. constructor; assumption.
  - apply Forall_app. split; [exact Hs|]. constructor; [assumption|constructor].
Qed.
Lemma cut_no_slash t ps : cut t ps -> Forall (fun s : bytes => ~ In "/"%char s) ps.
Proof. induction 1; constructor; auto. Qed.
Lemma segments_no_slash path ts : segments_of path ts -> Forall (fun s : bytes => ~ In "/"%char s) ts.
Proof. intros [p H|j t ps _ H _]; [constructor|]. apply walked_no_slash; [constructor|]. eapply cut_no_slash; eassumption. Qed.

(** ** Pieces *)

Lemma concat_app_flat (l : list bytes) : flat_map (fun x => x) l = List.concat l.
Proof. induction l; cbn; congruence. Qed.

Lemma pieces_sent {k : compressor} l : forall e b h, b_final b = Some (200%Z, h) ->
  exists b', write_pieces l e (@Plain k b) = (e, Plain b') /\ b_final b' = Some (200%Z, h) /\ b_body b' = b_body b ++ List.concat l.
Proof.
  induction l as [|c l IH]; intros e b h E.
  - exists b. cbn. rewrite app_nil_r. auto.
  - cbn [write_pieces rw_write List.concat].
    assert (E1 : exists b1, base_write b c = (b1, true) /\ b_final b1 = Some (200%Z, h) /\ b_body b1 = b_body b ++ c).
    { unfold base_write, base_write_header. rewrite E, E. destruct c as [|a c].
      - exists b. rewrite app_nil_r. auto.
      - cbn [body_allowed]. eexists. split; [reflexivity|]. split; reflexivity. }
    destruct E1 as (b1 & -> & F1 & B1). destruct (IH e b1 h F1) as (b2 & -> & F2 & B2).
    exists b2. split; [reflexivity|]. split; [exact F2|]. rewrite B2, B1, app_assoc. reflexivity.
Qed.

Section Sent2.
Variables (k : compressor) (oh : headers -> headers) (oc : cookies -> cookies) (render : cookie -> bytes) (location : wreq -> bytes -> bytes)
  (redirect_body : Z -> bytes -> bytes) (q : request).
Notation send r := (sends k oh oc render location redirect_body q r).

Lemma template_sends l e : exists b, send (RTemplate (HResp 200 (str "text/html; charset=utf-8") None None) (l, Wrote e)) = (Wrote e, b) /\
  received b = (200%Z, typed "text/html; charset=utf-8", List.concat l).
Proof.
  destruct (@pieces_sent k l (Wrote e) (Base_ (typed "text/html; charset=utf-8") [] (Some (200%Z, typed "text/html; charset=utf-8")) [] 0 false) _ eq_refl) as (b & E & F & B).
  exists b. split.
  - unfold sends, write. cbn [write_cut]. unfold after_headers. 
    match goal with |- context [write_headers ?a ?b ?c ?r ?w] => replace (write_headers a b c r w) with (@None err, @Plain k (Base_ (typed "text/html; charset=utf-8") [] (Some (200%Z, typed "text/html; charset=utf-8")) [] 0 false)) by reflexivity end.
    rewrite E. reflexivity.
  - unfold received. rewrite F, B. reflexivity.
Qed.

Lemma stream_sends ct l e : ct = "image/png" -> exists b, send (RStream (HResp 200 (str ct) None None) (Some (l, Wrote e))) = (Wrote e, b) /\
  received b = (200%Z, typed ct, List.concat l).
Proof.
  intros ->.
  destruct (@pieces_sent k l (Wrote e) (Base_ (typed "image/png") [] (Some (200%Z, typed "image/png")) [] 0 false) _ eq_refl) as (b & E & F & B).
  exists b. split.
  - unfold sends, write. cbn [write_cut]. unfold after_headers.
    match goal with |- context [write_headers ?a ?b ?c ?r ?w] => replace (write_headers a b c r w) with (@None err, @Plain k (Base_ (typed "image/png") [] (Some (200%Z, typed "image/png")) [] 0 false)) by reflexivity end.
    rewrite E. reflexivity.
  - unfold received. rewrite F, B. reflexivity.
Qed.
End Sent2.

(** ** The answers *)

Lemma answers_written {W} (write : response -> wout * base) (w1 : W) r e b' evs w' b fin : answers write w1 (HReturn (Some r) None) evs w' b fin ->
  write r = (Wrote e, b') -> b = b' /\ w' = w1 /\ fin = SDone /\ evs = EvWrite r :: match e with Some er => [EvLog (WriteFailed er)] | None => [] end.
Proof. intros A E. inversion A as [| | |? ? E' |? ? ? E'|? ? E']; subst; rewrite E in E'; inversion E'; subst; auto. Qed.

Section Answers.
Context {W : Type}.
Variables (o : outside).

Lemma json_answers q v (w1 : W) (r := json_ok v) evs w' b fin :
  answers (fun r => sends (os_k o) (os_oh o) (os_oc o) (os_render o) (os_location o) (os_body o) q r) w1 (HReturn (Some r) None) evs w' b fin ->
  exists body, received b = (200%Z, typed "application/json", body) /\ says body v /\ w' = w1 /\ fin = SDone /\ evs = [EvWrite r].
Proof.
  intros A. destruct (json_sends (os_k o) (os_oh o) (os_oc o) (os_render o) (os_location o) (os_body o) q 200 v) as (b' & E & R); [now left|].
  destruct (answers_written _ _ _ _ _ _ _ _ _ A E) as (-> & -> & -> & ->).
  exists (marshal v). split; [exact R|]. split; [apply marshal_says|]. auto.
Qed.

Lemma error_answers q st m (w1 : W) evs w' b fin : In st [200; 400; 401; 403; 404; 500]%Z ->
  answers (fun r => sends (os_k o) (os_oh o) (os_oc o) (os_render o) (os_location o) (os_body o) q r) w1
    (HReturn (Some (json_response st (Some (error_payload m)) None None)) None) evs w' b fin ->
  exists body, received b = (st, typed "application/json", body) /\ says_error body m /\ w' = w1 /\ fin = SDone.
Proof.
  intros I A. destruct (json_sends (os_k o) (os_oh o) (os_oc o) (os_render o) (os_location o) (os_body o) q st (error_payload m) I) as (b' & E & R).
  destruct (answers_written _ _ _ _ _ _ _ _ _ A E) as (-> & -> & -> & ->).
  exists (marshal (error_payload m)). split; [exact R|]. split; [apply error_says|]. auto.
Qed.

Lemma text_answers q ct t (w1 : W) evs w' b fin : (ct = "text/plain; charset=utf-8" \/ ct = "text/html; charset=utf-8") ->
  answers (fun r => sends (os_k o) (os_oh o) (os_oc o) (os_render o) (os_location o) (os_body o) q r) w1
    (HReturn (Some (RText (HResp 200 (str ct) None None) t)) None) evs w' b fin ->
  received b = (200%Z, typed ct, t) /\ w' = w1 /\ fin = SDone.
Proof.
  intros I A. destruct (text_sends (os_k o) (os_oh o) (os_oc o) (os_render o) (os_location o) (os_body o) q ct t I) as (b' & E & R).
  destruct (answers_written _ _ _ _ _ _ _ _ _ A E) as (-> & -> & -> & ->). auto.
Qed.

Lemma template_answers q l e (w1 : W) evs w' b fin :
  answers (fun r => sends (os_k o) (os_oh o) (os_oc o) (os_render o) (os_location o) (os_body o) q r) w1
    (HReturn (Some (RTemplate (HResp 200 (str "text/html; charset=utf-8") None None) (l, Wrote e))) None) evs w' b fin ->
  received b = (200%Z, typed "text/html; charset=utf-8", List.concat l) /\ w' = w1 /\ fin = SDone /\
  (forall er, e = Some er -> In (EvLog (WriteFailed er)) evs).
Proof.
  intros A. destruct (template_sends (os_k o) (os_oh o) (os_oc o) (os_render o) (os_location o) (os_body o) q l e) as (b' & E & R).
  destruct (answers_written _ _ _ _ _ _ _ _ _ A E) as (-> & -> & -> & ->). split; [exact R|]. split; [reflexivity|]. split; [reflexivity|].
  intros er ->. right. now left.
Qed.

Lemma stream_answers q ct l e (w1 : W) evs w' b fin : ct = "image/png" ->
  answers (fun r => sends (os_k o) (os_oh o) (os_oc o) (os_render o) (os_location o) (os_body o) q r) w1
    (HReturn (Some (RStream (HResp 200 (str ct) None None) (Some (l, Wrote e)))) None) evs w' b fin ->
  received b = (200%Z, typed ct, List.concat l) /\ w' = w1 /\ fin = SDone /\
  (forall er, e = Some er -> In (EvLog (WriteFailed er)) evs).
Proof.
  intros I A. destruct (stream_sends (os_k o) (os_oh o) (os_oc o) (os_render o) (os_location o) (os_body o) q ct l e I) as (b' & E & R).
  destruct (answers_written _ _ _ _ _ _ _ _ _ A E) as (-> & -> & -> & ->). split; [exact R|]. split; [reflexivity|]. split; [reflexivity|].
  intros er ->. right. now left.
Qed.
End Answers.

Lemma status_listed e : In (Z.of_N (error_status e)) [200; 400; 401; 403; 404; 500]%Z.
Proof. destruct e; cbn; tauto. Qed.
Lemma status_documented e : documented_status e (error_status e).
Proof. destruct e; constructor. Qed.

Lemma example_json {W : Type} (o : outside) (p : parts W) fuel q buf u i : asked q [str "json"; u; i] buf ->
  exists k0, forall f x w evs w' b fin, example_serve o p (60 + fuel) (k0 + f) q buf x w = (evs, w', b, fin) ->
    exists body, received b = (200%Z, typed "application/json", body) /\ says body (GMap [(str "user", GStr u); (str "id", GStr i)]) /\
      w' = w /\ fin = SDone.
Proof.
  intros A. destruct (example_ask o p fuel q _ buf _ _ A (pg_json u i)) as [k0 H]. exists k0. intros f x w evs w' b fin E.
  destruct (H f x w evs w' b fin E) as (j & mc & evs' & S & _ & Q). apply behind_plain in Q.
  assert (V1 : mc_var mc (str "user") = Some u) by (destruct S as (_ & _ & S); rewrite S; reflexivity).
  assert (V2 : mc_var mc (str "id") = Some i) by (destruct S as (_ & _ & S); rewrite S; reflexivity).
  assert (R : parts_user p 7 x (AReq q mc) w = (HReturn (Some (json_ok (GMap [(str "user", GStr u); (str "id", GStr i)]))) None, w)).
  { unfold parts_user, example_user, with_var. cbn [aq_mc]. rewrite V1, V2. reflexivity. }
  rewrite R in Q. cbn [fst snd guarded] in Q. destruct (json_answers _ _ _ _ _ _ _ _ Q) as (body & ? & ? & ? & ? & _). exists body. auto.
Qed.

Lemma example_text {W : Type} (o : outside) (p : parts W) fuel q buf t : asked q [str "text"; t] buf ->
  exists k0, forall f x w evs w' b fin, example_serve o p (60 + fuel) (k0 + f) q buf x w = (evs, w', b, fin) ->
    w' = w /\ fin = SDone /\
    (t = str "html" -> received b = (200%Z, typed "text/html; charset=utf-8", html_text)) /\
    (t <> str "html" -> received b = (200%Z, typed "text/plain; charset=utf-8", str "Text plain response")).
Proof.
  intros A.
  destruct (list_eq_dec ascii_dec t (str "html")) as [->|N1].
  - destruct (example_ask o p fuel q _ buf _ _ A pg_html) as [k0 H]. exists k0. intros f x w evs w' b fin E.
    destruct (H f x w evs w' b fin E) as (j & mc & evs' & S & _ & Q). apply behind_plain in Q.
    destruct (text_answers o _ _ _ _ _ _ _ _ (or_intror eq_refl) Q) as (? & ? & ?). split; [assumption|]. split; [assumption|]. split; [auto|congruence].
  - destruct (list_eq_dec ascii_dec t (str "plain")) as [->|N2].
    + destruct (example_ask o p fuel q _ buf _ _ A pg_plain) as [k0 H]. exists k0. intros f x w evs w' b fin E.
      destruct (H f x w evs w' b fin E) as (j & mc & evs' & S & _ & Q). apply behind_plain in Q.
      destruct (text_answers o _ _ _ _ _ _ _ _ (or_introl eq_refl) Q) as (? & ? & ?). split; [assumption|]. split; [assumption|]. split; [congruence|auto].
    + destruct (example_ask o p fuel q _ buf _ _ A (pg_text t N2 N1)) as [k0 H]. exists k0. intros f x w evs w' b fin E.
      destruct (H f x w evs w' b fin E) as (j & mc & evs' & S & _ & Q). apply behind_plain in Q.
      destruct (text_answers o _ _ _ _ _ _ _ _ (or_introl eq_refl) Q) as (? & ? & ?). split; [assumption|]. split; [assumption|]. split; [congruence|auto].
Qed.

Lemma example_permission {W : Type} (o : outside) (p : parts W) fuel q buf v : asked q [str "security"; str "authorize"; v] buf ->
  exists k0, forall f x w evs w' b fin, example_serve o p (60 + fuel) (k0 + f) q buf x w = (evs, w', b, fin) ->
    w' = w /\ fin = SDone /\
    (forall n, names_access v n -> N.testbit n 3 = true ->
       exists body, received b = (200%Z, typed "application/json", body) /\ says body (GMap [(str "authorized", GStr (str "true"))])) /\
    (forall n, names_access v n -> N.testbit n 3 = false ->
       exists body, received b = (401%Z, typed "application/json", body) /\ says_error body (str "unauthorized request")) /\
    (other_scope v ->
       exists body, received b = (401%Z, typed "application/json", body) /\ says_error body (str "unauthorized request")) /\
    ((forall n, ~ names_access v n) -> ~ other_scope v ->
       exists body, received b = (500%Z, typed "application/json", body) /\ says_error body (pt_failure p v)).
Proof.
  intros A. destruct (example_ask o p fuel q _ buf _ _ A (pg_permission v)) as [k0 H]. exists k0. intros f x w evs w' b fin E.
  destruct (H f x w evs w' b fin E) as (j & mc & evs' & S & _ & Q).
  assert (V1 : mc_var mc (str "permission") = Some v) by (destruct S as (_ & _ & S); rewrite S; reflexivity).
  apply (behind_permission o p x q mc w v) in Q; [|exact V1].
  assert (Sl : ~ In "/"%char v).
  { destruct A as (_ & _ & Sg & _). apply segments_no_slash in Sg. inversion Sg as [|? ? _ Sg1]; subst. inversion Sg1 as [|? ? _ Sg2]; subst. now inversion Sg2. }
  destruct (permission_parsed v Sl) as (P1 & P2 & P3).
  assert (U : forall evs w' b fin, answers (fun r => sends (os_k o) (os_oh o) (os_oc o) (os_render o) (os_location o) (os_body o) q r) w
    (guarded (pt_stack p x (AReq q mc) w) (HReturn None (Some EUnauthorized))) evs w' b fin ->
    w' = w /\ fin = SDone /\ exists body, received b = (401%Z, typed "application/json", body) /\ says_error body (str "unauthorized request")).
  { intros evs1 w1 b1 fin1 B. destruct (error_answers o _ 401 _ _ _ _ _ _ ltac:(cbn; tauto) B) as (body & ? & ? & ? & ?). eauto. }
  clear E. assert (G : w' = w /\ fin = SDone).
  { destruct (parse_permission (example_scope ++ str ":" ++ v)) as [pm|].
    - destruct (implies pm (Perm example_scope 8)).
      + destruct (json_answers o _ _ _ _ _ _ _ Q) as (body & ? & ? & ? & ? & _). auto.
      + destruct (U _ _ _ _ Q) as (? & ? & _). auto.
    - destruct (error_answers o _ 500 _ _ _ _ _ _ ltac:(cbn; tauto) Q) as (body & ? & ? & ? & ?). auto. }
  split; [apply G|]. split; [apply G|]. clear G. split; [|split; [|split]].
  - intros n Nn T. destruct (P1 n Nn) as [Pn I]. rewrite Pn, (proj2 I T) in Q.
    destruct (json_answers o _ _ _ _ _ _ _ Q) as (body & ? & ? & ? & ? & _). eauto.
  - intros n Nn T. destruct (P1 n Nn) as [Pn I]. rewrite Pn in Q.
    destruct (implies (Perm example_scope n) (Perm example_scope 8)); [rewrite (proj1 I eq_refl) in T; discriminate|].
    destruct (U _ _ _ _ Q) as (_ & _ & X). exact X.
  - intros Os. destruct (P2 Os) as (pm & Pn & I). rewrite Pn, I in Q. destruct (U _ _ _ _ Q) as (_ & _ & X). exact X.
  - intros N1 N2. rewrite (P3 N1 N2) in Q. destruct (error_answers o _ 500 _ _ _ _ _ _ ltac:(cbn; tauto) Q) as (body & ? & ? & ? & ?). eauto.
Qed.

(** A handler behind the common middlewares that fails or panics. *)
Lemma example_fails {W : Type} (o : outside) (p : parts W) fuel q ts buf h bs : asked q ts buf -> page ts (behind [] h) bs ->
  exists k0, forall f x w evs w' b fin, example_serve o p (60 + fuel) (k0 + f) q buf x w = (evs, w', b, fin) ->
    forall out w1, (forall mc, sees mc q bs -> parts_user p h x (AReq q mc) w = (out, w1)) ->
    w' = w1 /\
    (forall r e, out = HReturn r (Some e) -> fin = SDone /\
       exists n m body, documented_status e n /\ message e m /\ received b = (Z.of_N n, typed "application/json", body) /\ says_error body m) /\
    (forall v, out = HPanic (Some v) -> fin = SDone /\ received b = (500%Z, [], [])) /\
    (out = HPanic None -> fin = SCrash).
Proof.
  intros A Pg. destruct (example_ask o p fuel q _ buf _ _ A Pg) as [k0 H]. exists k0. intros f x w evs w' b fin E.
  destruct (H f x w evs w' b fin E) as (j & mc & evs' & S & _ & Q). intros out w1 R. specialize (R mc S).
  apply behind_plain in Q. rewrite R in Q. cbn [fst snd] in Q.
  split; [|split; [|split]].
  - inversion Q; reflexivity.
  - intros r e ->. cbn [guarded] in Q. destruct (error_answers o _ _ _ _ _ _ _ _ (status_listed e) Q) as (body & ? & ? & ? & ?).
    split; [assumption|]. exists (error_status e), (err_message e), body. split; [apply status_documented|]. split; [apply message_of|]. auto.
  - intros v ->. cbn [guarded] in Q. inversion Q; subst. auto.
  - intros ->. cbn [guarded] in Q. now inversion Q.
Qed.

(** A template that fails. *)
Lemma example_template {W : Type} (o : outside) (p : parts W) fuel q buf n l e : asked q [str "tmpl"; n] buf -> pt_template p (n ++ str ".html") = (l, e) ->
  exists k0, forall f x w evs w' b fin, example_serve o p (60 + fuel) (k0 + f) q buf x w = (evs, w', b, fin) ->
    received b = (200%Z, typed "text/html; charset=utf-8", List.concat l) /\ w' = w /\ fin = SDone /\
    (forall er, e = Some er -> In (EvLog (WriteFailed er)) evs).
Proof.
  intros A T. destruct (example_ask o p fuel q _ buf _ _ A (pg_template n)) as [k0 H]. exists k0. intros f x w evs w' b fin E.
  destruct (H f x w evs w' b fin E) as (j & mc & evs' & S & Vi & Q). apply behind_plain in Q.
  assert (V1 : mc_var mc (str "tmplName") = Some n) by (destruct S as (_ & _ & S); rewrite S; reflexivity).
  assert (R : parts_user p 9 x (AReq q mc) w = (HReturn (Some (RTemplate (HResp 200 (str "text/html; charset=utf-8") None None) (l, Wrote e))) None, w)).
  { unfold parts_user, example_user, with_var. cbn [aq_mc]. rewrite V1. unfold gives, template_ok. rewrite T. reflexivity. }
  rewrite R in Q. cbn [fst snd guarded] in Q. destruct (template_answers _ _ _ _ _ _ _ _ _ Q) as (? & ? & ? & L).
  split; [assumption|]. split; [assumption|]. split; [assumption|]. intros er Er. specialize (L er Er).
  assert (I : In (EvLog (WriteFailed er)) (visible evs)) by (rewrite Vi; right; exact L). unfold visible in I. apply filter_In in I. apply I.
Qed.

(** All requests. *)
Lemma example_pages {W : Type} (o : outside) (p : parts W) fuel q ts buf :
  (blen (rq_path q) < 65536)%N -> segments_of (rq_path q) ts -> List.length buf = 19 ->
  exists k0, forall f x w evs w' b fin, example_serve o p (60 + fuel) (k0 + f) q buf x w = (evs, w', b, fin) ->
    (forall e bs, same_method (str "GET") (xq_method (rq_x q)) -> page ts e bs ->
       exists i mc evs', sees mc q bs /\ visible evs = EvRun i :: evs' /\
         answered_by (parts_user p) (parts_mid p) (os_files o) (os_pages o)
           (sends (os_k o) (os_oh o) (os_oc o) (os_render o) (os_location o) (os_body o) q) e x q mc w evs' w' b fin) /\
    (~ same_method (str "GET") (xq_method (rq_x q)) \/ (forall e bs, ~ page ts e bs) ->
       visible evs = [EvStatus 404] /\ w' = w /\ received b = (404%Z, [], []) /\ fin = SDone).
Proof.
  intros B S L. exact (example_served (parts_user p) (parts_mid p) (os_files o) (os_pages o) (os_k o) (os_oh o) (os_oc o) (os_render o) (os_location o) (os_body o)
    (os_grow o) fuel (os_re o) q ts buf B S L).
Qed.

(** Paths that are too long. *)
Lemma example_too_long {W : Type} (o : outside) (p : parts W) fuel q buf l e f x w evs w' b fin :
  (blen (rq_path q) < 65536)%N -> overlong (rq_path q) -> List.length buf = 19 -> same_method (str "GET") (xq_method (rq_x q)) ->
  pt_template p (str "index.html") = (l, e) ->
  example_serve o p (60 + fuel) (S f) q buf x w = (evs, w', b, fin) ->
  received b = (200%Z, typed "text/html; charset=utf-8", List.concat l) /\ w' = w /\ fin = SDone.
Proof.
  intros B S L M T E.
  destruct (example_overlong (parts_user p) (parts_mid p) (os_files o) (os_pages o) (os_k o) (os_oh o) (os_oc o) (os_render o) (os_location o) (os_body o)
    (os_grow o) fuel (os_re o) q buf f x w evs w' b fin B S L M E) as (j & mc & evs' & _ & _ & Q). apply behind_plain in Q.
  assert (R : parts_user p 0 x (AReq q mc) w = (HReturn (Some (RTemplate (HResp 200 (str "text/html; charset=utf-8") None None) (l, Wrote e))) None, w)).
  { unfold parts_user, example_user, gives, template_ok. rewrite T. reflexivity. }
  rewrite R in Q. cbn [fst snd guarded] in Q. destruct (template_answers _ _ _ _ _ _ _ _ _ Q) as (? & ? & ? & _). auto.
Qed.

(** Templates that work and templates that fail. *)
Lemma example_template_works {W : Type} (o : outside) (p : parts W) fuel q buf n l : asked q [str "tmpl"; n] buf -> pt_template p (n ++ str ".html") = (l, None) ->
  exists k0, forall f x w evs w' b fin, example_serve o p (60 + fuel) (k0 + f) q buf x w = (evs, w', b, fin) ->
    received b = (200%Z, typed "text/html; charset=utf-8", List.concat l) /\ w' = w /\ fin = SDone.
Proof.
  intros A T. destruct (example_template o p fuel q buf n l None A T) as [k0 H]. exists k0. intros f x w evs w' b fin E.
  destruct (H f x w evs w' b fin E) as (? & ? & ? & _). auto.
Qed.
Lemma example_template_fails {W : Type} (o : outside) (p : parts W) fuel q buf n l er : asked q [str "tmpl"; n] buf -> pt_template p (n ++ str ".html") = (l, Some er) ->
  exists k0, forall f x w evs w' b fin, example_serve o p (60 + fuel) (k0 + f) q buf x w = (evs, w', b, fin) ->
    received b = (200%Z, typed "text/html; charset=utf-8", List.concat l) /\ w' = w /\ fin = SDone /\ In (EvLog (WriteFailed er)) evs.
Proof.
  intros A T. destruct (example_template o p fuel q buf n l (Some er) A T) as [k0 H]. exists k0. intros f x w evs w' b fin E.
  destruct (H f x w evs w' b fin E) as (? & ? & ? & L). auto.
Qed.

(** The index page. *)
Lemma example_index {W : Type} (o : outside) (p : parts W) fuel q buf l : asked q [] buf -> pt_template p (str "index.html") = (l, None) ->
  exists k0, forall f x w evs w' b fin, example_serve o p (60 + fuel) (k0 + f) q buf x w = (evs, w', b, fin) ->
    received b = (200%Z, typed "text/html; charset=utf-8", List.concat l) /\ w' = w /\ fin = SDone.
Proof.
  intros A T. destruct (example_ask o p fuel q _ buf _ _ A pg_index) as [k0 H]. exists k0. intros f x w evs w' b fin E.
  destruct (H f x w evs w' b fin E) as (j & mc & evs' & S & Vi & Q). apply behind_plain in Q.
  assert (R : parts_user p 0 x (AReq q mc) w = (HReturn (Some (RTemplate (HResp 200 (str "text/html; charset=utf-8") None None) (l, Wrote None))) None, w)).
  { unfold parts_user, example_user, gives, template_ok. rewrite T. reflexivity. }
  rewrite R in Q. cbn [fst snd guarded] in Q. destruct (template_answers _ _ _ _ _ _ _ _ _ Q) as (? & ? & ? & _). auto.
Qed.

(** The download. *)
Lemma example_download {W : Type} (o : outside) (p : parts W) fuel q buf : asked q [str "download"] buf ->
  exists k0, forall f x w evs w' b fin, example_serve o p (60 + fuel) (k0 + f) q buf x w = (evs, w', b, fin) ->
    fin = SDone /\
    (forall l w1, pt_image p w = (inl (l, None), w1) -> received b = (200%Z, typed "image/png", List.concat l)) /\
    (forall er w1, pt_image p w = (inr er, w1) ->
       exists n m body, documented_status er n /\ message er m /\ received b = (Z.of_N n, typed "application/json", body) /\ says_error body m).
Proof.
  intros A. destruct (example_ask o p fuel q _ buf _ _ A pg_download) as [k0 H]. exists k0. intros f x w evs w' b fin E.
  destruct (H f x w evs w' b fin E) as (j & mc & evs' & S & Vi & Q). apply behind_plain in Q.
  destruct (pt_image p w) as [[[l e]|er] w1] eqn:I.
  - assert (R : parts_user p 8 x (AReq q mc) w = (HReturn (Some (RStream (HResp 200 (str "image/png") None None) (Some (l, Wrote e)))) None, w1)).
    { unfold parts_user, example_user. rewrite I. reflexivity. }
    rewrite R in Q. cbn [fst snd guarded] in Q. destruct (stream_answers _ _ _ _ _ _ _ _ _ _ eq_refl Q) as (G & ? & ? & _).
    split; [assumption|]. split; [intros l' w2 X; inversion X; subst; exact G|intros er w2 X; discriminate X].
  - assert (R : parts_user p 8 x (AReq q mc) w = (HReturn None (Some er), w1)).
    { unfold parts_user, example_user. rewrite I. reflexivity. }
    rewrite R in Q. cbn [fst snd guarded] in Q. destruct (error_answers o _ _ _ _ _ _ _ _ (status_listed er) Q) as (body & ? & ? & ? & ?).
    split; [assumption|]. split; [intros l' w2 X; discriminate X|]. intros er' w2 X. inversion X; subst.
    exists (error_status er'), (err_message er'), body. split; [apply status_documented|]. split; [apply message_of|]. auto.
Qed.

Lemma example_download_cut {W : Type} (o : outside) (p : parts W) fuel q buf : asked q [str "download"] buf ->
  exists k0, forall f x w evs w' b fin, example_serve o p (60 + fuel) (k0 + f) q buf x w = (evs, w', b, fin) ->
    forall l er w1, pt_image p w = (inl (l, Some er), w1) -> received b = (200%Z, typed "image/png", List.concat l) /\ In (EvLog (WriteFailed er)) evs.
Proof.
  intros A. destruct (example_ask o p fuel q _ buf _ _ A pg_download) as [k0 H]. exists k0. intros f x w evs w' b fin E l er w1 I.
  destruct (H f x w evs w' b fin E) as (j & mc & evs' & S & Vi & Q). apply behind_plain in Q.
  assert (R : parts_user p 8 x (AReq q mc) w = (HReturn (Some (RStream (HResp 200 (str "image/png") None None) (Some (l, Wrote (Some er))))) None, w1)).
  { unfold parts_user, example_user. rewrite I. reflexivity. }
  rewrite R in Q. cbn [fst snd guarded] in Q. destruct (stream_answers _ _ _ _ _ _ _ _ _ _ eq_refl Q) as (G & _ & _ & L). split; [exact G|].
  specialize (L er eq_refl).
  assert (J : In (EvLog (WriteFailed er)) (visible evs)) by (rewrite Vi; right; exact L). unfold visible in J. apply filter_In in J. apply J.
Qed.

(** What is open after opening stays open. *)
Lemma example_download_open {W : Type} (o : outside) (p : parts W) (open : W -> nat) fuel q buf : asked q [str "download"] buf ->
  (forall w f w1, pt_image p w = (inl f, w1) -> open w1 = S (open w)) ->
  exists k0, forall f x w evs w' b fin, example_serve o p (60 + fuel) (k0 + f) q buf x w = (evs, w', b, fin) ->
    forall g w1, pt_image p w = (inl g, w1) -> fin = SDone /\ open w' = S (open w).
Proof.
  intros A N. destruct (example_ask o p fuel q _ buf _ _ A pg_download) as [k0 H]. exists k0. intros f x w evs w' b fin E [l e] w1 I.
  destruct (H f x w evs w' b fin E) as (j & mc & evs' & S & Vi & Q). apply behind_plain in Q.
  assert (R : parts_user p 8 x (AReq q mc) w = (HReturn (Some (RStream (HResp 200 (str "image/png") None None) (Some (l, Wrote e)))) None, w1)).
  { unfold parts_user, example_user. rewrite I. reflexivity. }
  rewrite R in Q. cbn [fst snd guarded] in Q. destruct (stream_answers _ _ _ _ _ _ _ _ _ _ eq_refl Q) as (_ & -> & F & _). split; [exact F|].
  exact (N _ _ _ I).
Qed.
