(** * Properties C129 to C132: the configuration of muxes *)
From Coq Require Import List NArith ZArith Ascii String Bool Arith.
From Verif Require Import GoBase Glob_Model Pattern_Model Router_Model Chain_Model Serve_Model Mux_Model Resp_Model JsonErr_Model App_Model Ctor_Model Config_Model
  Resp_Spec Recover_Spec Config_Spec Witness_Proofs Config_Proofs.
Import ListNotations.
Local Open Scope string_scope.
Local Open Scope list_scope.
Local Open Scope nat_scope.

(** C129: a mux that is made keeps what its configuration gives, has the documented values
    for the rest, uses both, and changes no other configuration. *)
Theorem C129_configured : forall (Data : Type) (parse : bytes -> (bytes -> Data -> list bytes * wout) + err) fuel re s p s' m,
  new_mux parse fuel re s p = (s', Made m) -> configured parse fuel re s p s' m.
Proof. exact (@new_mux_configured). Qed.
Print Assumptions C129_configured.

(** C129, the functions without a configuration. *)
Theorem C129_default : forall (Data : Type) (parse : bytes -> (bytes -> Data -> list bytes * wout) + err) fuel re s,
  exists s' m, new_mux_default parse fuel re s = (s', Made m) /\
    cm_config m = List.length (st_configs s) /\ st_res s' = st_res s /\ only_at (cm_config m) (st_configs s) (st_configs s') /\
    mux_config s' m = Some (Cfg false (str "/") None (Some LPrint)) /\ cm_log m = LPrint /\ cm_dir m = None /\
    cm_app m = fst (new_app fuel re false (str "/") None).
Proof. exact (@default_values). Qed.
Print Assumptions C129_default.
Theorem C129_templates : forall (Data : Type) (parse : bytes -> (bytes -> Data -> list bytes * wout) + err) fuel re s f,
  parse (str "resources/templates/*.html") = inl f -> forall s' m, new_mux_templates parse fuel re s = (s', Made m) ->
  exists rp, mux_config s' m = Some (Cfg false (str "/") (Some rp) (Some LPrint)) /\ rp = List.length (st_res s) /\
    nth_error (st_res s') rp = Some (Res (str "resources/templates/*.html") (str "./resources/assets") (str "assets") (THtml f)) /\
    cm_log m = LPrint /\ cm_dir m = Some (str "./resources/assets") /\ executable_template s' m = Some (THtml f) /\
    ap_entries (cm_app m) = [Entry [] [] (TStatic (str "/assets/"))].
Proof. exact (@templates_values). Qed.
Print Assumptions C129_templates.

Example C129_case :
  let '(s', x) := new_mux shop_parse 60 lit_engine shop_store 1 in
  exists m, x = Made m /\ nth_error (st_configs s') 1 = Some (Cfg true (str "/shop") (Some 0) (Some LPrint)) /\
    nth_error (st_configs s') 0 = Some (Cfg true [] None (Some (LGiven 4))) /\ cm_dir m = Some (str "./resources/assets") /\ cm_log m = LPrint /\
    ap_entries (cm_app m) = [Entry [] [] (TStatic (str "/shop/files/"))] /\
    option_map (fun t => execute t (str "a.html") (str "x")) (executable_template s' m) = Some ([str "<h1>"; str "x"; str "</h1>"], Wrote None).
Proof. exact shop_case. Qed.

Example C129_templates_case : exists s' m, new_mux_templates (fun _ => inl (fun _ (d : bytes) => ([d], Wrote None))) 60 lit_engine shop_store = (s', Made m).
Proof. exact templates_case. Qed.

(** C130 is false: the resources behind the copy are the ones of the mux. *)
Theorem C130_copy_refuted : forall (Data : Type) (s : store Data) m c rp r s1 p',
  mux_config s m = Some c -> cf_res c = Some rp -> nth_error (st_res s) rp = Some r -> copy_config s m = (s1, Some p') ->
  exists c', nth_error (st_configs s1) p' = Some c' /\ p' <> cm_config m /\ exists rp', cf_res c' = Some rp' /\
    forall r', mux_config (set_res s1 rp' r') m = Some c /\ executable_template (set_res s1 rp' r') m = Some (rs_template r').
Proof. exact (@copy_shares). Qed.
Print Assumptions C130_copy_refuted.

(** C130, what holds: whatever is written into the fields of the copy, no mux changes.
    Missing: the resources. *)
Theorem C130_copy_partial : forall (Data : Type) (s : store Data) m m2 c s1 p' v,
  copy_config s m = (s1, Some p') -> mux_config s m2 = Some c ->
  mux_config (set_config s1 p' v) m2 = Some c /\ executable_template (set_config s1 p' v) m2 = executable_template s m2.
Proof. exact (@copy_own). Qed.
Print Assumptions C130_copy_partial.

Example C130_case :
  let '(s', x) := new_mux shop_parse 60 lit_engine shop_store 1 in
  exists m s1, x = Made m /\ copy_config s' m = (s1, Some 2) /\ mux_config s' m = Some (Cfg true (str "/shop") (Some 0) (Some LPrint)) /\
    executable_template (set_res s1 0 (Res [] [] [] TNone)) m = Some TNone /\
    mux_config (set_config s1 2 (Cfg false (str "/other") None None)) m = mux_config s' m.
Proof. exact shop_copy_case. Qed.

(** C131 is false: the functions that make default resources and a mux with them end the
    process whenever the templates cannot be parsed, though the second has an error to return. *)
Theorem C131_error_refuted : forall (Data : Type) (parse : bytes -> (bytes -> Data -> list bytes * wout) + err) fuel re s e,
  parse (str "resources/templates/*.html") = inr e ->
  new_resources parse s = (s, Exit) /\ new_mux_templates parse fuel re s = (s, Exit).
Proof. exact (@templates_exit). Qed.
Print Assumptions C131_error_refuted.

(** C131, what holds: [NewMuxHandler] returns an error exactly if the resources given have
    no template and the ones for the pattern cannot be parsed; it never ends the process.
    Missing: the functions that make default configurations. *)
Theorem C131_error_partial : forall (Data : Type) (parse : bytes -> (bytes -> Data -> list bytes * wout) + err) fuel re s p c,
  nth_error (st_configs s) p = Some c -> (forall rp, cf_res c = Some rp -> nth_error (st_res s) rp <> None) ->
  (forall x, snd (new_mux parse fuel re s p) = Failed x <->
   exists rp r pat e, cf_res c = Some rp /\ nth_error (st_res s) rp = Some r /\ rs_template r = TNone /\
     filled (rs_templates r) (str "resources/templates/*.html") pat /\ parse pat = inr e /\
     x = EOther (str "failed parsing the templates, err: " ++ err_message e)) /\
  snd (new_mux parse fuel re s p) <> Exit.
Proof. exact (@new_mux_reports). Qed.
Print Assumptions C131_error_partial.

Example C131_case :
  let s := Store [Cfg true (str "/shop") (Some 1) None] (st_res shop_store) in
  (exists e, snd (new_mux shop_parse 60 lit_engine s 0) = Failed e) /\ snd (new_mux_templates shop_parse 60 lit_engine s) = Exit /\
  (forall c rp, nth_error (st_configs s) 0 = Some c -> cf_res c = Some rp -> nth_error (st_res s) rp <> None) /\
  exists m, snd (new_mux shop_parse 60 lit_engine (Store [Cfg true (str "/shop") (Some 0) None] [Res [] [] [] nil_template]) 0) = Made m.
Proof. exact shop_fails_case. Qed.

(** C132 is false: the mux of the default configuration has no template, and a response
    made of it panics when it is written (which C127_crash follows through the request). *)
Theorem C132_template_refuted : forall (Data : Type) (parse : bytes -> (bytes -> Data -> list bytes * wout) + err) fuel re s,
  exists s' m, new_mux_default parse fuel re s = (s', Made m) /\ executable_template s' m = Some TNone /\
    forall q n d, breaks q (template_ok (@TNone Data) n d).
Proof. exact (@default_no_template). Qed.
Print Assumptions C132_template_refuted.

(** C132, what holds: with resources there is a template.
    Missing: muxes without resources. *)
Theorem C132_template_partial : forall (Data : Type) (parse : bytes -> (bytes -> Data -> list bytes * wout) + err) fuel re s p s' m c,
  new_mux parse fuel re s p = (s', Made m) -> nth_error (st_configs s) p = Some c -> cf_res c <> None ->
  exists t, executable_template s' m = Some t /\ t <> TNone.
Proof. exact (@template_given). Qed.
Print Assumptions C132_template_partial.

Example C132_case :
  let '(s', x) := new_mux shop_parse 60 lit_engine shop_store 1 in
  exists m, x = Made m /\ nth_error (st_configs s') 1 = Some (Cfg true (str "/shop") (Some 0) (Some LPrint)) /\
    nth_error (st_configs s') 0 = Some (Cfg true [] None (Some (LGiven 4))) /\ cm_dir m = Some (str "./resources/assets") /\ cm_log m = LPrint /\
    ap_entries (cm_app m) = [Entry [] [] (TStatic (str "/shop/files/"))] /\
    option_map (fun t => execute t (str "a.html") (str "x")) (executable_template s' m) = Some ([str "<h1>"; str "x"; str "</h1>"], Wrote None).
Proof. exact shop_case. Qed.
