(** * Model of calls of [Handle] and of requests that run at the same time
    (router/router.go 46-62 and 66-91).

    [r.endpointMatchers] is a plain Go map without a lock.  As in CacheRace_Model the runtime watches
    over it: an assignment (line 56) looks at a flag when it begins, sets it, and clears it
    when it ends; reading (lines 53 and 81) looks at the flag, unless the map has no entries.  Who finds the
    flag set ends the whole process.  The values of the map are pointers to matchers.

    Simplifications: looking at the flag and setting it are one step, and so is reading; an
    assignment takes effect when it ends; [AddPattern] (line 58) and [Match] (line 86) are
    one step each (C141 has the steps of [AddPattern]); every goroutine sees what the others
    wrote. *)
From Coq Require Import List NArith ZArith Ascii String Bool Arith.
From Verif Require Import GoBase Pattern_Model Url_Model Match_Model Router_Model.
Import ListNotations.
Local Open Scope list_scope.
Local Open Scope nat_scope.

(** Where a call of [Handle] is: before line 47; before line 56, with its new matcher; in the
    assignment; before line 58; at its end. *)
Inductive hpc :=
| HBegin
| HAssign (p : pattern) (a : nat)
| HAssigning (p : pattern) (a : nat)
| HAdd (p : pattern) (a : nat)
| HEnd (e : handle_end).

(** Where a request is: before line 79, before line 86, or answered as far as [dispatch] goes. *)
Inductive qpc := QBegin | QMatch (a : nat) (segs : list useg) | QEnd (d : dispatch).

(** A goroutine: a call of [Handle] with method, pattern and handler, or a request with method,
    path and the buffer from the pool. *)
Inductive routine :=
| Handling (reg : bytes * bytes * nat) (pc : hpc)
| Asking (mth path : bytes) (buf : list useg) (pc : qpc).

(** The matchers by their addresses, the map from methods to addresses, its flag and the
    goroutines. *)
Record world := World {
  hw_heap : list matcher;
  hw_map : list (bytes * nat);
  hw_writing : bool;
  hw_routines : list routine
}.
Inductive outcome := Alive (w : world) | Dead.

Definition put_nth {A : Type} (i : nat) (x : A) (l : list A) : list A := firstn i l ++ x :: skipn (S i) l.

Section Steps.
Variable fuel : nat.
Variable re : engine.
Variable ci : bool.

(** Reading the map: [None] is the end of the process. *)
Definition map_read (w : world) (key : bytes) : option (option nat) :=
  match hw_map w with
  | [] => Some None
  | _ => if hw_writing w then None else Some (alookup key (hw_map w))
  end.

(** Handing the answer of [Match] to the rest of [ServeHTTP] (lines 86-91). *)
Definition matched_end (m : match_result) : dispatch :=
  match m with
  | NoMatch => NotFound
  | MatchPanic => ServeCrash
  | MatchFuel => ServeRuns
  | Matched p rec segs => match p_att p with Some h => Calls h rec segs | None => ServeCrash end
  end.

(** One step of the goroutine with number [i]. *)
Definition world_step (w : world) (i : nat) : outcome :=
  match nth_error (hw_routines w) i with
  | None => Alive w
  | Some (Handling ((mth, text, h) as reg) pc) =>
      let go heap map flag pc' := Alive (World heap map flag (put_nth i (Handling reg pc') (hw_routines w))) in
      let stay := go (hw_heap w) (hw_map w) (hw_writing w) in
      match pc with
      | HBegin =>
          match parse_pattern fuel re text ci with
          | PErr => stay (HEnd BadPattern)
          | PPanic => stay (HEnd HandleCrash)
          | PFuel => stay (HEnd HandleRuns)
          | POk p0 =>
              match map_read w (to_upper mth) with
              | None => Dead
              | Some (Some a) => stay (HAdd (attach p0 h) a)
              | Some None =>
                  go (hw_heap w ++ [new_matcher ci]) (hw_map w) (hw_writing w)
                     (HAssign (attach p0 h) (List.length (hw_heap w)))
              end
          end
      | HAssign p a =>
          if hw_writing w then Dead else go (hw_heap w) (hw_map w) true (HAssigning p a)
      | HAssigning p a =>
          if hw_writing w then go (hw_heap w) (aset (to_upper mth) a (hw_map w)) false (HAdd p a) else Dead
      | HAdd p a =>
          let (m, dup) := add_pattern (nth a (hw_heap w) (new_matcher ci)) p in
          go (put_nth a m (hw_heap w)) (hw_map w) (hw_writing w) (HEnd (if dup then Duplicate else Registered))
      | HEnd _ => Alive w
      end
  | Some (Asking mth path buf pc) =>
      let stay pc' := Alive (World (hw_heap w) (hw_map w) (hw_writing w) (put_nth i (Asking mth path buf pc') (hw_routines w))) in
      match pc with
      | QBegin =>
          match parse_url_path path buf with
          | None => stay (QEnd ServeCrash)
          | Some segs =>
              match map_read w (to_upper mth) with
              | None => Dead
              | Some None => stay (QEnd NotFound)
              | Some (Some a) => stay (QMatch a segs)
              end
          end
      | QMatch a segs => stay (QEnd (matched_end (match_path fuel re (nth a (hw_heap w) (new_matcher ci)) path segs)))
      | QEnd _ => Alive w
      end
  end.

(** A schedule: the numbers of the goroutines that make the next steps. *)
Fixpoint world_run (w : world) (schedule : list nat) : outcome :=
  match schedule with
  | [] => Alive w
  | i :: rest => match world_step w i with Alive w' => world_run w' rest | Dead => Dead end
  end.
End Steps.

(** Goroutines that start on a router. *)
Definition world_start (r : router) (rs : list routine) : world :=
  World (map snd (r_matchers r)) (combine (map fst (r_matchers r)) (seq 0 (List.length (r_matchers r)))) false rs.

(** A call and a request at their beginnings. *)
Definition call (reg : bytes * bytes * nat) : routine := Handling reg HBegin.
Definition request (mth path : bytes) (buf : list useg) : routine := Asking mth path buf QBegin.
