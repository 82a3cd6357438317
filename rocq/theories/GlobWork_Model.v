(** * How many steps one wildcard comparison takes

    The rounds of the two loops of [regexSegmentMatch] (pattern.go 210-268 and 250-259),
    along the steps of [Glob_Model.glob_step].  The loop over repeated stars (235-240) is
    left out: in patterns that the parser accepts it ends in its first round. *)
From Coq Require Import List NArith Ascii Bool Arith.
From Verif Require Import GoBase Glob_Model.
Import ListNotations.
Local Open Scope nat_scope.

(** The rounds of the loop that looks for the byte after the star (pattern.go 250-259), as
    in [find_next]. *)
Fixpoint find_rounds (ci : bool) (rest : bytes) (pc : byte) : nat :=
  match rest with
  | [] => 0
  | c :: rest' => if runes_match ci c pc then 1 else S (find_rounds ci rest' pc)
  end.

(** One round of the main loop (pattern.go 210-268) with those inside, as in [glob_step]. *)
Definition step_rounds (ci : bool) (u p : bytes) (st : gstate) : nat :=
  let plen := List.length p in
  let atp := Nat.eqb (g_p st) plen in
  let atu := Nat.eqb (g_u st) (List.length u) in
  S (if atp && atu then 0
     else
       match (if g_restore st || atp || atu then
                match g_ck st with Some (cp, cu) => Some (cp, cu + 1) | None => None end
              else Some (g_p st, g_u st)) with
       | None => 0
       | Some (pi, ui) =>
           match nth_error u ui, nth_error p pi with
           | Some _, Some pc =>
               if Ascii.eqb pc star then
                 let pi' := skip_stars (skipn (S pi) p) (S pi) pi in
                 if Nat.eqb pi' (plen - 1) then 0
                 else match nth_error p (S pi') with
                      | Some pc' => find_rounds ci (skipn ui u) pc'
                      | None => 0
                      end
               else 0
           | _, _ => 0
           end
       end).

Fixpoint loop_rounds (fuel : nat) (ci : bool) (u p : bytes) (st : gstate) : nat :=
  match fuel with
  | O => 0
  | S f => step_rounds ci u p st + match glob_step ci u p st with inl st' => loop_rounds f ci u p st' | inr _ => 0 end
  end.

(** Those of [regexSegmentMatch] (pattern.go 180-270) in its first [fuel] rounds. *)
Definition segment_rounds (fuel : nat) (ci : bool) (u p : bytes) : nat :=
  let has_star := existsb (fun c => Ascii.eqb c star) p in
  if negb has_star && negb (Nat.eqb (List.length u) (List.length p)) then 0
  else loop_rounds fuel ci u p (GState 0 0 false None).
