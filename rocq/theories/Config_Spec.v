(** * What is claimed about the configuration of muxes *)
From Coq Require Import List NArith ZArith Ascii String Bool Arith.
From Verif Require Import GoBase Glob_Model Pattern_Model Router_Model Chain_Model Serve_Model Mux_Model Resp_Model App_Model Ctor_Model Config_Model.
Import ListNotations.
Local Open Scope string_scope.
Local Open Scope list_scope.
Local Open Scope nat_scope.

(** A field with a default value. *)
Definition filled (given default v : bytes) : Prop := (given <> [] -> v = given) /\ (given = [] -> v = default).

(** Nothing but place [p] has changed. *)
Definition only_at {A : Type} (p : nat) (l l' : list A) : Prop := forall i, i <> p -> nth_error l' i = nth_error l i.

(** The documented values of [ResourcesConfig] (gofre.go 32-41): the ones given, or else
    the defaults; the templates are the ones found for the pattern. *)
Definition resources_filled {Data : Type} (parse : bytes -> (bytes -> Data -> list bytes * wout) + err) (r r' : resources Data) : Prop :=
  filled (rs_templates r) (str "resources/templates/*.html") (rs_templates r') /\
  filled (rs_dir r) (str "./resources/assets") (rs_dir r') /\
  filled (rs_mapping r) (str "assets") (rs_mapping r') /\
  (rs_template r <> TNone -> rs_template r' = rs_template r) /\
  (rs_template r = TNone -> exists f, parse (rs_templates r') = inl f /\ rs_template r' = THtml f).

(** The log function: the one given, or else printing. *)
Definition log_filled (l : option logger) (l' : logger) : Prop :=
  (forall x, l = Some x -> l' = x) /\ (l = None -> l' = LPrint).

(** A mux that was made from the configuration at [p]: the values of the configuration,
    and that the mux uses them. *)
Definition configured {Data : Type} (parse : bytes -> (bytes -> Data -> list bytes * wout) + err) (fuel : nat) (re : engine)
    (s : store Data) (p : nat) (s' : store Data) (m : cmux) : Prop :=
  exists c c', nth_error (st_configs s) p = Some c /\ mux_config s' m = Some c' /\ cm_config m = p /\
    only_at p (st_configs s) (st_configs s') /\
    cf_ci c' = cf_ci c /\ cf_res c' = cf_res c /\ filled (cf_context c) (str "/") (cf_context c') /\
    log_filled (cf_log c) (cm_log m) /\ cf_log c' = Some (cm_log m) /\
    match cf_res c with
    | None => st_res s' = st_res s /\ cm_dir m = None /\ executable_template s' m = Some TNone /\
        cm_app m = fst (new_app fuel re (cf_ci c) (cf_context c) None) /\ ap_entries (cm_app m) = []
    | Some rp => exists r r', nth_error (st_res s) rp = Some r /\ nth_error (st_res s') rp = Some r' /\ only_at rp (st_res s) (st_res s') /\
        resources_filled parse r r' /\ cm_dir m = Some (rs_dir r') /\ executable_template s' m = Some (rs_template r') /\
        cm_app m = fst (new_app fuel re (cf_ci c) (cf_context c) (Some (rs_mapping r))) /\
        ap_entries (cm_app m) = [Entry [] [] (TStatic ((if beqb (cf_context c') (str "/") then [] else cf_context c') ++ str "/" ++ rs_mapping r' ++ str "/"))]
    end.
