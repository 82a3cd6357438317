(** * Model of the router (router/router.go). *)
From Coq Require Import List NArith ZArith Ascii String Bool.
From Verif Require Import GoBase Glob_Model Pattern_Model Url_Model Match_Model.
Import ListNotations.

(** [Router] (router.go 24-28).  The error log function is left out. *)
Record router := Router { r_ci : bool; r_matchers : list (bytes * matcher) }.

(** [NewRouter] (router.go 33-42). *)
Definition new_router (ci : bool) : router := Router ci [].

(** How a call of [Handle] ends: it returns, it panics because the pattern does
    not parse, it panics because the pattern is a duplicate, it hits a run-time
    panic, or it is still running. *)
Inductive handle_end := Registered | BadPattern | Duplicate | HandleCrash | HandleRuns.

(** [pattern.Attachment = handler] (router.go 51); handlers are numbers. *)
Definition attach (p : pattern) (h : nat) : pattern :=
  Pat (p_ci p) (p_caps p) (p_max p) (p_prio p) (p_segs p) (p_raw p) (Some h).

(** [Router.Handle] (router.go 46-62): the router after the call, which the
    caller can still use after recovering a panic, and how the call ended. *)
Definition handle (fuel : nat) (re : engine) (r : router) (method path : bytes) (h : nat)
  : router * handle_end :=
  match parse_pattern fuel re path (r_ci r) with
  | PErr => (r, BadPattern)
  | PPanic => (r, HandleCrash)
  | PFuel => (r, HandleRuns)
  | POk p0 =>
      let p := attach p0 h in
      let key := to_upper method in
      let m := match alookup key (r_matchers r) with
               | Some m => m
               | None => new_matcher (r_ci r)
               end in
      let (m', dup) := add_pattern m p in
      (Router (r_ci r) (aset key m' (r_matchers r)), if dup then Duplicate else Registered)
  end.

(** What [ServeHTTP] (router.go 66-91) does up to the call of the handler: answer
    404, call the handler with a matching context, or panic.  The buffer is what
    the pool returned. *)
Inductive dispatch :=
| NotFound
| Calls (h : nat) (recorded : option pattern) (segs : list useg)
| ServeCrash
| ServeRuns.

Definition dispatch_request (fuel : nat) (re : engine) (r : router) (method path : bytes)
    (buf : list useg) : dispatch :=
  match parse_url_path path buf with
  | None => ServeCrash
  | Some segs =>
      match alookup (to_upper method) (r_matchers r) with
      | None => NotFound
      | Some m =>
          match match_path fuel re m path segs with
          | NoMatch => NotFound
          | MatchPanic => ServeCrash
          | MatchFuel => ServeRuns
          | Matched p rec segs' =>
              match p_att p with
              | Some h => Calls h rec segs'
              | None => ServeCrash            (* nil is not a handler.Handler *)
              end
          end
      end
  end.

(** A program that registers handlers one after the other, recovering panics. *)
Fixpoint handle_all (fuel : nat) (re : engine) (r : router) (regs : list (bytes * bytes * nat))
  : router * list handle_end :=
  match regs with
  | [] => (r, [])
  | (method, path, h) :: regs' =>
      let (r1, e) := handle fuel re r method path h in
      let (r2, es) := handle_all fuel re r1 regs' in
      (r2, e :: es)
  end.
