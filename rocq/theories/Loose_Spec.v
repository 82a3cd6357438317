(** * Readings in which a constraint may be another one *)
From Coq Require Import List NArith ZArith Ascii String Bool.
From Verif Require Import GoBase.
Import ListNotations.
Local Open Scope string_scope.
Local Open Scope list_scope.

(** The constraint of the piece that a text spells: what stands between the first colon and
    the closing brace. *)
Fixpoint after_colon (t : bytes) : option bytes :=
  match t with
  | [] => None
  | c :: t' => if Ascii.eqb c ":" then Some t' else after_colon t'
  end.
Definition spelled_constraint (t : bytes) : option bytes :=
  match t with
  | c :: t' =>
      if Ascii.eqb c "{" then
        match after_colon t' with
        | Some u => if Ascii.eqb (last u "a"%char) "}" then Some (removelast u) else None
        | None => None
        end
      else None
  | [] => None
  end.

(** A text meets a constraint, or the constraint spells a constrained piece of its own and
    the text meets the constraint of that piece. *)
Definition meets (rm : bytes -> bytes -> bool) (source t : bytes) : bool :=
  rm source t || match spelled_constraint source with Some r => rm r t | None => false end.
