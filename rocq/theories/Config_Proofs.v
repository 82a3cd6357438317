(** * Proofs about the configuration of muxes *)
From Coq Require Import List NArith ZArith Ascii String Bool Lia Arith.
From Verif Require Import GoBase Glob_Model Pattern_Model Router_Model Auth_Proofs Chain_Model Serve_Model Mux_Model Resp_Model JsonErr_Model App_Model Ctor_Model Config_Model
  Resp_Spec Recover_Spec Config_Spec Witness_Proofs.
Import ListNotations.
Local Open Scope string_scope.
Local Open Scope list_scope.
Local Open Scope nat_scope.

Lemma put_same {A : Type} (l : list A) : forall i x y, nth_error l i = Some y -> nth_error (put l i x) i = Some x.
Proof. induction l as [|z l IH]; intros [|i] x y H; cbn in *; try discriminate; [reflexivity|]. eapply IH; exact H. Qed.
Lemma put_other {A : Type} (l : list A) : forall i j x, j <> i -> nth_error (put l i x) j = nth_error l j.
Proof.
  induction l as [|z l IH]; intros [|i] [|j] x N; cbn; try reflexivity; [congruence|]. apply IH. congruence.
Qed.
Lemma put_length {A : Type} (l : list A) : forall i x, List.length (put l i x) = List.length l.
Proof. induction l as [|z l IH]; intros [|i] x; cbn; auto. Qed.

Definition filled_in (given default : bytes) : bytes := if Nat.eqb (List.length given) 0 then default else given.
Lemma filled_in_filled g d : filled g d (filled_in g d).
Proof. unfold filled, filled_in. destruct g as [|x g]; cbn; split; intros; congruence. Qed.

Section Proofs.
Context {Data : Type}.
Variable parse : bytes -> (bytes -> Data -> list bytes * wout) + err.

Lemma res_defaults_spec r :
  let (r', e) := res_defaults parse r in
  rs_templates r' = filled_in (rs_templates r) (str "resources/templates/*.html") /\ rs_mapping r' = filled_in (rs_mapping r) (str "assets") /\
  match e with
  | None => resources_filled parse r r'
  | Some x => rs_template r = TNone /\ exists e0, parse (rs_templates r') = inr e0 /\ x = templates_error e0
  end.
Proof.
  unfold res_defaults. cbv zeta. fold (filled_in (rs_templates r) (str "resources/templates/*.html")).
  fold (filled_in (rs_dir r) (str "./resources/assets")). fold (filled_in (rs_mapping r) (str "assets")).
  destruct (rs_template r) as [f|f|] eqn:T.
  - split; [reflexivity|]. split; [reflexivity|]. unfold resources_filled. cbn [rs_templates rs_dir rs_mapping rs_template]. rewrite T. repeat split; try apply filled_in_filled; congruence.
  - split; [reflexivity|]. split; [reflexivity|]. unfold resources_filled. cbn [rs_templates rs_dir rs_mapping rs_template]. rewrite T. repeat split; try apply filled_in_filled; congruence.
  - destruct (parse (filled_in (rs_templates r) (str "resources/templates/*.html"))) as [f|e] eqn:P.
    + split; [reflexivity|]. split; [reflexivity|]. unfold resources_filled. cbn [rs_templates rs_dir rs_mapping rs_template]. rewrite T.
      repeat split; try apply filled_in_filled; try congruence. intros _. exists f. split; [exact P|reflexivity].
    + split; [reflexivity|]. split; [reflexivity|]. split; [reflexivity|]. exists e. split; [exact P|reflexivity].
Qed.

Lemma filled_twice g d x : d <> [] -> (if Nat.eqb (List.length (filled_in g d)) 0 then x else filled_in g d) = filled_in g d.
Proof. unfold filled_in. destruct g as [|y g]; cbn; [|reflexivity]. destruct d; [congruence|reflexivity]. Qed.

Lemma new_app_filled fuel re ci context mapping :
  new_app fuel re ci (filled_in context (str "/")) (option_map (fun m => filled_in m (str "assets")) mapping) = new_app fuel re ci context mapping.
Proof.
  unfold new_app, new_mux_handler, static_prefix. rewrite filled_twice by discriminate. destruct mapping as [m|]; cbn [option_map]; [|reflexivity].
  rewrite filled_twice by discriminate. reflexivity.
Qed.

Lemma new_mux_configured fuel re s p s' m : new_mux parse fuel re s p = (s', Made m) -> configured parse fuel re s p s' m.
Proof.
  unfold new_mux, config_defaults. destruct (nth_error (st_configs s) p) as [c|] eqn:C; [|discriminate].
  cbv zeta. fold (filled_in (cf_context c) (str "/")).
  set (log := match cf_log c with None => LPrint | Some l => l end).
  assert (L : log_filled (cf_log c) log) by (unfold log, log_filled; destruct (cf_log c); split; congruence).
  destruct (cf_res c) as [rp|] eqn:R.
  - destruct (nth_error (st_res s) rp) as [r|] eqn:N; [|discriminate].
    pose proof (res_defaults_spec r) as D. destruct (res_defaults parse r) as [r' [e|]]; [discriminate|]. destruct D as (_ & Dm & D).
    cbn [cf_log cf_res cf_ci cf_context st_res set_res set_config]. rewrite (put_same _ _ r' _ N). cbn [option_map].
    pose proof (new_app_filled fuel re (cf_ci c) (cf_context c) (Some (rs_mapping r))) as NA. cbn [option_map] in NA. rewrite <- Dm in NA. rewrite NA.
    destruct (new_app fuel re (cf_ci c) (cf_context c) (Some (rs_mapping r))) as [a x] eqn:E.
    intro H. assert (H2 : s' = set_res (set_config s p (Cfg (cf_ci c) (filled_in (cf_context c) (str "/")) (Some rp) (Some log))) rp r' /\ m = CMux p log (Some (rs_dir r')) a).
    { destruct x as [[]|]; try discriminate; injection H as <- <-; split; reflexivity. }
    destruct H2 as [-> ->].
    exists c, (Cfg (cf_ci c) (filled_in (cf_context c) (str "/")) (Some rp) (Some log)).
    assert (MC : forall lg d a0, mux_config (set_res (set_config s p (Cfg (cf_ci c) (filled_in (cf_context c) (str "/")) (Some rp) (Some log))) rp r') (CMux p lg d a0) =
      Some (Cfg (cf_ci c) (filled_in (cf_context c) (str "/")) (Some rp) (Some log))).
    { intros. unfold mux_config. cbn. eapply put_same. exact C. }
    split; [exact C|]. split; [apply MC|]. split; [reflexivity|]. split; [intros i Ni; apply put_other, Ni|].
    split; [reflexivity|]. split; [symmetry; exact R|]. split; [apply filled_in_filled|]. split; [exact L|]. split; [reflexivity|].
    rewrite R. exists r, r'. split; [exact N|]. split; [cbn; eapply put_same; exact N|]. split; [intros i Ni; apply put_other, Ni|].
    split; [exact D|]. split; [reflexivity|]. split.
    { unfold executable_template. rewrite MC. cbn. rewrite (put_same _ _ r' _ N). reflexivity. }
    cbn [cm_app]. rewrite E. split; [reflexivity|].
    cbn [cf_context]. rewrite Dm. clear - E. unfold new_app, new_mux_handler in E. unfold register in E. cbn [ap_entries ap_router ap_mux List.length List.app] in E.
    match type of E with context [handle ?a1 ?a2 ?a3 ?a4 ?a5 ?a6] => destruct (handle a1 a2 a3 a4 a5 a6) as [r1 x1] end.
    injection E as <- <-. cbn [ap_entries]. unfold static_prefix. fold (filled_in (cf_context c) (str "/")). fold (filled_in (rs_mapping r) (str "assets")). reflexivity.
  - cbn [cf_log cf_res cf_ci cf_context]. cbn [option_map].
    pose proof (new_app_filled fuel re (cf_ci c) (cf_context c) None) as NA. cbn [option_map] in NA. rewrite NA.
    destruct (new_app fuel re (cf_ci c) (cf_context c) None) as [a x] eqn:E.
    intro H. assert (H2 : s' = set_config s p (Cfg (cf_ci c) (filled_in (cf_context c) (str "/")) None (Some log)) /\ m = CMux p log None a).
    { destruct x as [[]|]; try discriminate; injection H as <- <-; split; reflexivity. }
    destruct H2 as [-> ->].
    exists c, (Cfg (cf_ci c) (filled_in (cf_context c) (str "/")) None (Some log)).
    assert (MC : forall lg d a0, mux_config (set_config s p (Cfg (cf_ci c) (filled_in (cf_context c) (str "/")) None (Some log))) (CMux p lg d a0) =
      Some (Cfg (cf_ci c) (filled_in (cf_context c) (str "/")) None (Some log))).
    { intros. unfold mux_config. cbn. eapply put_same. exact C. }
    split; [exact C|]. split; [apply MC|]. split; [reflexivity|]. split; [intros i Ni; apply put_other, Ni|].
    split; [reflexivity|]. split; [symmetry; exact R|]. split; [apply filled_in_filled|]. split; [exact L|]. split; [reflexivity|].
    rewrite R. split; [reflexivity|]. split; [reflexivity|]. split; [unfold executable_template; rewrite MC; reflexivity|].
    cbn [cm_app]. rewrite E. split; [reflexivity|]. clear - E. unfold new_app, new_mux_handler in E. injection E as <- <-. reflexivity.
Qed.

(** The copy shares the resources. *)
Lemma copy_shares (s : store Data) m c rp r s1 p' : mux_config s m = Some c -> cf_res c = Some rp -> nth_error (st_res s) rp = Some r ->
  copy_config s m = (s1, Some p') ->
  exists c', nth_error (st_configs s1) p' = Some c' /\ p' <> cm_config m /\ exists rp', cf_res c' = Some rp' /\
    forall r', mux_config (set_res s1 rp' r') m = Some c /\ executable_template (set_res s1 rp' r') m = Some (rs_template r').
Proof.
  intros M R N. unfold copy_config. rewrite M. unfold add_config. intro H. injection H as <- <-.
  assert (LT : cm_config m < List.length (st_configs s)) by (apply nth_error_Some; unfold mux_config in M; congruence).
  exists c. split.
  { cbn. rewrite nth_error_app2, Nat.sub_diag by lia. reflexivity. }
  split; [lia|]. exists rp. split; [exact R|]. intro r'.
  assert (MC : mux_config (set_res {| st_configs := st_configs s ++ [c]; st_res := st_res s |} rp r') m = Some c).
  { unfold mux_config in *. cbn. rewrite nth_error_app1 by exact LT. exact M. }
  split; [exact MC|]. unfold executable_template. rewrite MC, R. cbn. rewrite (put_same _ _ r' _ N). reflexivity.
Qed.

(** Its own fields are its own. *)
Lemma copy_own (s : store Data) m m2 c s1 p' v : copy_config s m = (s1, Some p') -> mux_config s m2 = Some c ->
  mux_config (set_config s1 p' v) m2 = Some c /\ executable_template (set_config s1 p' v) m2 = executable_template s m2.
Proof.
  unfold copy_config. destruct (mux_config s m) as [c0|] eqn:M; [|discriminate]. unfold add_config. intros H M2. injection H as <- <-.
  assert (LT : cm_config m2 < List.length (st_configs s)) by (apply nth_error_Some; unfold mux_config in M2; congruence).
  assert (MC : mux_config (set_config {| st_configs := st_configs s ++ [c0]; st_res := st_res s |} (List.length (st_configs s)) v) m2 = Some c).
  { unfold mux_config in *. cbn. rewrite put_other by lia. rewrite nth_error_app1 by exact LT. exact M2. }
  split; [exact MC|]. unfold executable_template. rewrite MC, M2. reflexivity.
Qed.

(** Templates that cannot be parsed. *)
Lemma templates_exit fuel re (s : store Data) e : parse (str "resources/templates/*.html") = inr e ->
  new_resources parse s = (s, Exit) /\ new_mux_templates parse fuel re s = (s, Exit).
Proof. intro P. unfold new_mux_templates, new_resources, res_defaults. cbn [rs_templates rs_template List.length Nat.eqb]. rewrite P. split; reflexivity. Qed.

Lemma new_mux_reports fuel re (s : store Data) p c : nth_error (st_configs s) p = Some c ->
  (forall rp, cf_res c = Some rp -> nth_error (st_res s) rp <> None) ->
  (forall x, snd (new_mux parse fuel re s p) = Failed x <->
   exists rp r pat e, cf_res c = Some rp /\ nth_error (st_res s) rp = Some r /\ rs_template r = TNone /\
     filled (rs_templates r) (str "resources/templates/*.html") pat /\ parse pat = inr e /\
     x = EOther (str "failed parsing the templates, err: " ++ err_message e)) /\
  snd (new_mux parse fuel re s p) <> Exit.
Proof.
  intros C V. unfold new_mux, config_defaults. rewrite C. cbv zeta. destruct (cf_res c) as [rp|] eqn:R.
  - destruct (nth_error (st_res s) rp) as [r|] eqn:N; [|destruct (V rp eq_refl N)].
    pose proof (res_defaults_spec r) as D. destruct (res_defaults parse r) as [r' [e|]]; destruct D as (Dt & Dm & D).
    + cbn [snd]. split; [|discriminate]. destruct D as [T (e0 & P & ->)]. intro x. split.
      * intro H. injection H as <-. exists rp, r, (rs_templates r'), e0. repeat split; auto; rewrite Dt; apply filled_in_filled.
      * intros (rp2 & r2 & pat & e & H1 & H2 & H3 & H4 & H5 & ->). assert (rp2 = rp) by congruence. subst rp2. assert (r2 = r) by congruence. subst r2.
        assert (pat = rs_templates r').
        { rewrite Dt. unfold filled in H4. unfold filled_in. destruct (rs_templates r); cbn; [now apply H4|apply H4; discriminate]. }
        subst pat. assert (e = e0) by congruence. subst e. reflexivity.
    + match goal with |- context [new_app ?a1 ?a2 ?a3 ?a4 ?a5] => destruct (new_app a1 a2 a3 a4 a5) as [a x] end. cbn [snd]. split.
      * intro y. split; [intros H; destruct x as [[]|]; discriminate|]. intros (rp2 & r2 & pat & e & H1 & H2 & H3 & H4 & H5 & _). exfalso.
        assert (rp2 = rp) by congruence. subst rp2. assert (r2 = r) by congruence. subst r2.
        destruct D as (F1 & _ & _ & _ & D). destruct (D H3) as (f & P & _).
        assert (pat = rs_templates r').
        { rewrite Dt. unfold filled in H4. unfold filled_in. destruct (rs_templates r); cbn; [now apply H4|apply H4; discriminate]. }
        subst pat. congruence.
      * destruct x as [[]|]; discriminate.
  - cbn [cf_log cf_res cf_ci cf_context]. match goal with |- context [new_app ?a1 ?a2 ?a3 ?a4 ?a5] => destruct (new_app a1 a2 a3 a4 a5) as [a x] end. cbn [snd]. split.
    + intro y. split; [intros H; destruct x as [[]|]; discriminate|]. intros (rp2 & r2 & pat & e & H1 & _). discriminate.
    + destruct x as [[]|]; discriminate.
Qed.

(** The template of a mux. *)
Lemma default_no_template fuel re (s : store Data) : exists s' m, new_mux_default parse fuel re s = (s', Made m) /\ executable_template s' m = Some TNone /\
  forall q n d, breaks q (template_ok (@TNone Data) n d).
Proof.
  destruct (new_mux_default parse fuel re s) as [s' x] eqn:E.
  assert (H : exists m, x = Made m).
  { unfold new_mux_default, add_config, new_mux, config_defaults in E. cbn [st_configs] in E. rewrite nth_error_app2, Nat.sub_diag in E by reflexivity. cbn in E.
    injection E as <- <-. eexists. reflexivity. }
  destruct H as (m & ->). exists s', m. split; [reflexivity|]. split.
  - pose proof (new_mux_configured fuel re _ _ _ _ E) as (c & c' & C & _ & _ & _ & _ & _ & _ & _ & _ & K). cbn in C.
    rewrite nth_error_app2, Nat.sub_diag in C by reflexivity. injection C as <-. cbn in K. apply K.
  - intros q n d. eapply bk_body with (h := HResp 200 plain_text_content_type None None) (st := 200%Z); try reflexivity.
    + right. split; [discriminate|reflexivity].
    + unfold with_body. lia.
Qed.

Lemma template_given fuel re (s : store Data) p s' m c : new_mux parse fuel re s p = (s', Made m) -> nth_error (st_configs s) p = Some c -> cf_res c <> None ->
  exists t, executable_template s' m = Some t /\ t <> TNone.
Proof.
  intros E C R. destruct (new_mux_configured fuel re _ _ _ _ E) as (c0 & c' & C0 & _ & _ & _ & _ & _ & _ & _ & _ & K).
  assert (c0 = c) by congruence. subst c0. destruct (cf_res c) as [rp|]; [|congruence].
  destruct K as (r & r' & _ & _ & _ & F & _ & T & _). exists (rs_template r'). split; [exact T|].
  destruct F as (_ & _ & _ & F1 & F2). destruct (rs_template r) eqn:Y.
  - rewrite F1 by discriminate. discriminate.
  - rewrite F1 by discriminate. discriminate.
  - destruct (F2 eq_refl) as (f & _ & ->). discriminate.
Qed.

(** The functions without a configuration. *)
Lemma default_values fuel re (s : store Data) : exists s' m, new_mux_default parse fuel re s = (s', Made m) /\
  cm_config m = List.length (st_configs s) /\ st_res s' = st_res s /\ only_at (cm_config m) (st_configs s) (st_configs s') /\
  mux_config s' m = Some (Cfg false (str "/") None (Some LPrint)) /\ cm_log m = LPrint /\ cm_dir m = None /\
  cm_app m = fst (new_app fuel re false (str "/") None).
Proof.
  unfold new_mux_default, add_config, new_mux, config_defaults. cbn [st_configs]. rewrite nth_error_app2, Nat.sub_diag by reflexivity. cbn.
  eexists _, _. split; [reflexivity|]. cbn [cm_config cm_log cm_dir cm_app]. split; [reflexivity|]. split; [reflexivity|]. split.
  - intros i N. cbn. rewrite put_other by exact N. destruct (Nat.ltb_spec i (List.length (st_configs s))) as [L|L]; [apply nth_error_app1; exact L|].
    rewrite (proj2 (nth_error_None _ i)), (proj2 (nth_error_None _ i)); [reflexivity|exact L|]. rewrite app_length. cbn. lia.
  - split; [|repeat split]. unfold mux_config. cbn. eapply put_same. rewrite nth_error_app2, Nat.sub_diag by reflexivity. reflexivity.
Qed.

Lemma templates_values fuel re (s : store Data) f : parse (str "resources/templates/*.html") = inl f ->
  forall s' m, new_mux_templates parse fuel re s = (s', Made m) ->
  exists rp, mux_config s' m = Some (Cfg false (str "/") (Some rp) (Some LPrint)) /\ rp = List.length (st_res s) /\
    nth_error (st_res s') rp = Some (Res (str "resources/templates/*.html") (str "./resources/assets") (str "assets") (THtml f)) /\
    cm_log m = LPrint /\ cm_dir m = Some (str "./resources/assets") /\ executable_template s' m = Some (THtml f) /\
    ap_entries (cm_app m) = [Entry [] [] (TStatic (str "/assets/"))].
Proof.
  intros P s' m H. unfold new_mux_templates, new_resources, res_defaults in H. cbn [rs_templates rs_template rs_dir rs_mapping List.length Nat.eqb] in H. rewrite P in H.
  unfold add_res, add_config in H. cbn [st_configs st_res] in H.
  set (r := Res (str "resources/templates/*.html") (str "./resources/assets") (str "assets") (THtml f)) in *.
  destruct (new_mux_configured fuel re _ _ _ _ H) as (c & c' & C & M & CM & _ & K1 & K2 & K3 & K4 & K5 & K6).
  cbn [st_configs] in C. rewrite nth_error_app2, Nat.sub_diag in C by reflexivity. injection C as <-. cbn [cf_ci cf_res cf_context cf_log] in *.
  destruct K6 as (r1 & r' & R1 & R2 & _ & (F1 & F2 & F3 & F4 & _) & D & T & _ & E).
  cbn [st_res] in R1. rewrite nth_error_app2, Nat.sub_diag in R1 by reflexivity. injection R1 as <-.
  destruct K3 as [_ K3]. specialize (K3 eq_refl). destruct K4 as [_ K4]. specialize (K4 eq_refl). rewrite K4 in *.
  destruct F1 as [F1 _], F2 as [F2 _], F3 as [F3 _]. specialize (F1 ltac:(discriminate)). specialize (F2 ltac:(discriminate)). specialize (F3 ltac:(discriminate)). specialize (F4 ltac:(discriminate)).
  destruct r' as [x1 x2 x3 x4], c' as [y1 y2 y3 y4]. cbn in F1, F2, F3, F4, K1, K2, K3, K5, E, D, T. subst.
  exists (List.length (st_res s)). repeat (split; [first [exact M|exact R2|reflexivity|assumption]|]). exact E.
Qed.
End Proofs.

(** ** Cases *)
Definition shop_parse (pat : bytes) : (bytes -> bytes -> list bytes * wout) + err :=
  if beqb pat (str "shop/*.html") then inl (fun n d => ([str "<h1>"; d; str "</h1>"], Wrote None)) else inr (EOther (str "no such files")).
Definition shop_store : store bytes :=
  Store [Cfg true [] None (Some (LGiven 4)); Cfg true (str "/shop") (Some 0) None] [Res (str "shop/*.html") [] (str "files") TNone; Res [] [] [] TNone].
Lemma shop_case :
  let '(s', x) := new_mux shop_parse 60 lit_engine shop_store 1 in
  exists m, x = Made m /\ nth_error (st_configs s') 1 = Some (Cfg true (str "/shop") (Some 0) (Some LPrint)) /\
    nth_error (st_configs s') 0 = Some (Cfg true [] None (Some (LGiven 4))) /\ cm_dir m = Some (str "./resources/assets") /\ cm_log m = LPrint /\
    ap_entries (cm_app m) = [Entry [] [] (TStatic (str "/shop/files/"))] /\
    option_map (fun t => execute t (str "a.html") (str "x")) (executable_template s' m) = Some ([str "<h1>"; str "x"; str "</h1>"], Wrote None).
Proof. vm_compute. eexists. repeat split. Qed.

(** A copy of the configuration is taken and changed. *)
Lemma shop_copy_case :
  let '(s', x) := new_mux shop_parse 60 lit_engine shop_store 1 in
  exists m s1, x = Made m /\ copy_config s' m = (s1, Some 2) /\ mux_config s' m = Some (Cfg true (str "/shop") (Some 0) (Some LPrint)) /\
    executable_template (set_res s1 0 (Res [] [] [] TNone)) m = Some TNone /\
    mux_config (set_config s1 2 (Cfg false (str "/other") None None)) m = mux_config s' m.
Proof. vm_compute. eexists _, _. repeat split. Qed.

(** The second resources: their templates cannot be read. *)
Lemma shop_fails_case :
  let s := Store [Cfg true (str "/shop") (Some 1) None] (st_res shop_store) in
  (exists e, snd (new_mux shop_parse 60 lit_engine s 0) = Failed e) /\ snd (new_mux_templates shop_parse 60 lit_engine s) = Exit /\
  (forall c rp, nth_error (st_configs s) 0 = Some c -> cf_res c = Some rp -> nth_error (st_res s) rp <> None) /\
  exists m, snd (new_mux shop_parse 60 lit_engine (Store [Cfg true (str "/shop") (Some 0) None] [Res [] [] [] nil_template]) 0) = Made m.
Proof.
  cbv zeta. split; [vm_compute; eexists; reflexivity|]. split; [vm_compute; reflexivity|]. split.
  - intros c rp C R. injection C as <-. injection R as <-. discriminate.
  - vm_compute. eexists. reflexivity.
Qed.

Lemma templates_case : exists s' m, new_mux_templates (fun _ => inl (fun _ (d : bytes) => ([d], Wrote None))) 60 lit_engine shop_store = (s', Made m).
Proof. vm_compute. eexists _, _. reflexivity. Qed.
