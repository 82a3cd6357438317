(** * Model of the wildcard segment matcher (router/path/pattern.go 180-270). *)
From Coq Require Import List NArith Ascii Bool.
From Verif Require Import GoBase.
Import ListNotations.
Local Open Scope nat_scope.

(** Result of the Go function: it returns a boolean, panics (index out of
    range), or is still running when the fuel is used up. *)
Inductive gres := GRet (b : bool) | GPanic | GFuel.

Definition star : ascii := "*"%char.
Definition qmark : ascii := "?"%char.

(** The closure [runesMatches] (pattern.go 194-203). *)
Definition runes_match (ci : bool) (uc pc : byte) : bool :=
  if Ascii.eqb pc qmark then true
  else if ci then N.eqb (latin_upper uc) (latin_upper pc)
  else Ascii.eqb uc pc.

(** The local variables of the main loop (pattern.go 205-209).  The two
    checkpoint indices are always set and cleared together in the Go code, so
    [None] stands for both being -1. *)
Record gstate := GState {
  g_p : nat;                    (* pIndex *)
  g_u : nat;                    (* uIndex *)
  g_restore : bool;             (* checkPointRestore *)
  g_ck : option (nat * nat)     (* pIndexCheckPoint, uIndexCheckPoint *)
}.

(** The loop that skips repeated stars (pattern.go 235-240): starting at
    [i], the first position holding something else than a star moves pIndex
    just before it. *)
Fixpoint skip_stars (rest : bytes) (i : nat) (pi : nat) : nat :=
  match rest with
  | [] => pi
  | c :: rest' => if negb (Ascii.eqb c star) then i - 1
                  else skip_stars rest' (S i) pi
  end.

(** The loop that looks for the byte after the star (pattern.go 250-259):
    first position from [i] on whose byte meets [pc]. *)
Fixpoint find_next (ci : bool) (rest : bytes) (i : nat) (pc : byte) : option nat :=
  match rest with
  | [] => None
  | c :: rest' => if runes_match ci c pc then Some i
                  else find_next ci rest' (S i) pc
  end.

(** One iteration of the main loop (pattern.go 210-268): either the loop goes
    on with a new state or the function ends. *)
Definition glob_step (ci : bool) (u p : bytes) (st : gstate) : gstate + gres :=
  let plen := List.length p in
  let ulen := List.length u in
  let atp := Nat.eqb (g_p st) plen in
  let atu := Nat.eqb (g_u st) ulen in
  if atp && atu then inr (GRet true)
  else
    let restore := g_restore st || atp || atu in
    match (if restore then
             match g_ck st with
             | None => inr (GRet false)
             | Some (cp, cu) => inl (cp, cu + 1)
             end
           else inl (g_p st, g_u st)) with
    | inr r => inr r
    | inl (pi, ui) =>
        match nth_error u ui, nth_error p pi with
        | None, _ => inr GPanic
        | _, None => inr GPanic
        | Some uc, Some pc =>
            if Ascii.eqb pc qmark then
              inl (GState (S pi) (S ui) false (g_ck st))
            else if Ascii.eqb pc star then
              let pi' := skip_stars (skipn (S pi) p) (S pi) pi in
              if Nat.eqb pi' (plen - 1) then inr (GRet true)
              else
                match nth_error p (S pi') with
                | None => inr GPanic
                | Some pc' =>
                    match find_next ci (skipn ui u) ui pc' with
                    | Some k => inl (GState (S pi') k false (Some (pi', k)))
                    | None => inl (GState pi' ulen false None)
                    end
                end
            else if runes_match ci uc pc then
              inl (GState (S pi) (S ui) false (g_ck st))
            else inl (GState pi ui true (g_ck st))
        end
    end.

Fixpoint glob_loop (fuel : nat) (ci : bool) (u p : bytes) (st : gstate) : gres :=
  match fuel with
  | O => GFuel
  | S f => match glob_step ci u p st with
           | inl st' => glob_loop f ci u p st'
           | inr r => r
           end
  end.

(** Enough iterations for every input (shown in Glob_Proofs). *)
Definition glob_fuel (u p : bytes) : nat :=
  S (S (List.length p)) * (S (S (List.length p)) * S (S (List.length u))).

(** [regexSegmentMatch(urlPathSegment, patternSegment, caseInsensitive)]
    (pattern.go 180-270); the fuel is a modelling device only. *)
Definition regex_segment_match (u p : bytes) (ci : bool) : gres :=
  let has_star := existsb (fun c => Ascii.eqb c star) p in
  if negb has_star && negb (Nat.eqb (List.length u) (List.length p)) then GRet false
  else glob_loop (glob_fuel u p) ci u p (GState 0 0 false None).
