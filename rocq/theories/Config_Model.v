(** * Model of the configuration of muxes (gofre.go 24-151). *)
From Coq Require Import List NArith ZArith Ascii String Bool Arith.
From Verif Require Import GoBase Glob_Model Pattern_Model Url_Model Match_Model Router_Model Chain_Model Serve_Model Mux_Model Resp_Model JsonErr_Model App_Model Ctor_Model.
Import ListNotations.
Local Open Scope string_scope.
Local Open Scope list_scope.
Local Open Scope nat_scope.

Section Config.
Context {Data : Type}.

(** [ResourcesConfig] (gofre.go 32-41). *)
Record resources := Res { rs_templates : bytes; rs_dir : bytes; rs_mapping : bytes; rs_template : template Data }.

(** A log function: one of the program, known by a number, or the one that prints
    (gofre.go 80-82). *)
Inductive logger := LGiven (n : nat) | LPrint.

(** [Config] (gofre.go 64-73); the resources are a pointer, nil is [None]. *)
Record config := Cfg { cf_ci : bool; cf_context : bytes; cf_res : option nat; cf_log : option logger }.

(** The configurations of a program, which are reached by pointers: [st_configs] and
    [st_res] list the values in memory, pointers are places in them. *)
Record store := Store { st_configs : list config; st_res : list resources }.

Fixpoint put {A : Type} (l : list A) (i : nat) (x : A) : list A :=
  match l, i with
  | [], _ => []
  | _ :: l', 0 => x :: l'
  | y :: l', S j => y :: put l' j x
  end.
Definition set_config (s : store) (p : nat) (c : config) : store := Store (put (st_configs s) p c) (st_res s).
Definition set_res (s : store) (p : nat) (r : resources) : store := Store (st_configs s) (put (st_res s) p r).
Definition add_config (s : store) (c : config) : store * nat := (Store (st_configs s ++ [c]) (st_res s), List.length (st_configs s)).
Definition add_res (s : store) (r : resources) : store * nat := (Store (st_configs s) (st_res s ++ [r]), List.length (st_res s)).

(** What [defaultTemplateFunc] (gofre.go 24-28) finds for a pattern: what the templates
    do, or the error. *)
Variable parse : bytes -> (bytes -> Data -> list bytes * wout) + err.

(** The wrapped error (gofre.go 56). *)
Definition templates_error (e : err) : err := EOther (str "failed parsing the templates, err: " ++ err_message e).

(** [ResourcesConfig.setDefaults] (gofre.go 43-61); the first fields stay set if it fails. *)
Definition res_defaults (r : resources) : resources * option err :=
  let pat := if Nat.eqb (List.length (rs_templates r)) 0 then str "resources/templates/*.html" else rs_templates r in
  let dir := if Nat.eqb (List.length (rs_dir r)) 0 then str "./resources/assets" else rs_dir r in
  let map := if Nat.eqb (List.length (rs_mapping r)) 0 then str "assets" else rs_mapping r in
  match rs_template r with
  | TNone =>
      match parse pat with
      | inr e => (Res pat dir map TNone, Some (templates_error e))
      | inl f => (Res pat dir map (THtml f), None)
      end
  | t => (Res pat dir map t, None)
  end.

(** How a constructor ends: with a mux, with an error, by a panic, without end, or by
    [log.Fatalf], which ends the process. *)
Inductive made (A : Type) := Made (m : A) | Failed (e : err) | MadePanic | MadeRuns | Exit.
Arguments Made {A}. Arguments Failed {A}. Arguments MadePanic {A}. Arguments MadeRuns {A}. Arguments Exit {A}.

(** [Config.setDefaults] (gofre.go 75-90); a pointer that leads nowhere panics. *)
Definition config_defaults (s : store) (p : nat) : store * made config :=
  match nth_error (st_configs s) p with
  | None => (s, MadePanic)
  | Some c =>
      let context := if Nat.eqb (List.length (cf_context c)) 0 then str "/" else cf_context c in
      let log := match cf_log c with None => LPrint | Some l => l end in
      let c' := Cfg (cf_ci c) context (cf_res c) (Some log) in
      let s' := set_config s p c' in
      match cf_res c with
      | None => (s', Made c')
      | Some rp =>
          match nth_error (st_res s) rp with
          | None => (s', MadePanic)
          | Some r =>
              let (r', e) := res_defaults r in
              (set_res s' rp r', match e with Some e => Failed e | None => Made c' end)
          end
      end
  end.

(** A [MuxHandler] (gofre.go 93-98) that has just been made: its configuration, the log
    function of its router, the directory of the static resources, and the application
    with the router. *)
Record cmux := CMux { cm_config : nat; cm_log : logger; cm_dir : option bytes; cm_app : app }.

(** [NewMuxHandler] (gofre.go 120-138). *)
Definition new_mux (fuel : nat) (re : engine) (s : store) (p : nat) : store * made cmux :=
  match config_defaults s p with
  | (s', Made c) =>
      let log := match cf_log c with Some l => l | None => LPrint end in
      let res := match cf_res c with Some rp => nth_error (st_res s') rp | None => None end in
      let (a, x) := new_app fuel re (cf_ci c) (cf_context c) (option_map rs_mapping res) in
      (s', match x with
           | None | Some Registered => Made (CMux p log (option_map rs_dir res) a)
           | Some HandleRuns => MadeRuns
           | Some _ => MadePanic
           end)
  | (s', Failed e) => (s', Failed e)
  | (s', MadeRuns) => (s', MadeRuns)
  | (s', Exit) => (s', Exit)
  | (s', MadePanic) => (s', MadePanic)
  end.

(** [NewMuxHandlerWithDefaultConfig] (gofre.go 101-103). *)
Definition new_mux_default (fuel : nat) (re : engine) (s : store) : store * made cmux :=
  let (s1, p) := add_config s (Cfg false [] None None) in new_mux fuel re s1 p.

(** [NewDefaultResourcesConfig] (gofre.go 111-117). *)
Definition new_resources (s : store) : store * made nat :=
  match res_defaults (Res [] [] [] TNone) with
  | (_, Some _) => (s, Exit)
  | (r, None) => let (s', p) := add_res s r in (s', Made p)
  end.

(** [NewMuxHandlerWithDefaultConfigAndTemplateSupport] (gofre.go 106-108). *)
Definition new_mux_templates (fuel : nat) (re : engine) (s : store) : store * made cmux :=
  match new_resources s with
  | (s1, Made rp) => let (s2, p) := add_config s1 (Cfg false [] (Some rp) None) in new_mux fuel re s2 p
  | (s1, _) => (s1, Exit)
  end.

(** [MuxHandler.Config] (gofre.go 141-143): a new variable with the value of the
    configuration. *)
Definition mux_config (s : store) (m : cmux) : option config := nth_error (st_configs s) (cm_config m).
Definition copy_config (s : store) (m : cmux) : store * option nat :=
  match mux_config s m with
  | None => (s, None)
  | Some c => let (s', p) := add_config s c in (s', Some p)
  end.

(** [MuxHandler.ExecutableTemplate] (gofre.go 146-151); [None] is a panic. *)
Definition executable_template (s : store) (m : cmux) : option (template Data) :=
  match mux_config s m with
  | None => None
  | Some c =>
      match cf_res c with
      | None => Some TNone
      | Some rp => option_map rs_template (nth_error (st_res s) rp)
      end
  end.

End Config.
Arguments resources Data : clear implicits. Arguments store Data : clear implicits.
Arguments Made {A}. Arguments Failed {A}. Arguments MadePanic {A}. Arguments MadeRuns {A}. Arguments Exit {A}.
