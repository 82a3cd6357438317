(** * Model of the generator behind [generateUniqueId].

    The numbers come from [rand.Int63] of math/rand (gofre.go 361).  The module asks for
    Go 1.19 (go.mod line 3), where this function locks and calls [rngSource.Int63]
    (math/rand/rng.go), an additive generator with 607 words.  The state is never seeded by
    the code; here it has any content.  Other users of the generator are left out. *)
From Coq Require Import List NArith ZArith Ascii String Bool.
From Verif Require Import GoBase OAuth_Model.
Import ListNotations.
Local Open Scope Z_scope.

(** [rngSource] (rng.go): the words and two positions. *)
Record rng := Rng { rg_tap : Z; rg_feed : Z; rg_vec : list N }.

(** [rng.tap--] with the step back to the end, for both positions. *)
Definition step_down (i : Z) : Z := if i - 1 <? 0 then i - 1 + 607 else i - 1.

Fixpoint put_word (i : nat) (x : N) (l : list N) : list N :=
  match i, l with
  | _, [] => []
  | O, _ :: r => x :: r
  | S j, y :: r => y :: put_word j x r
  end.
Definition word_at (i : Z) (l : list N) : N := nth (Z.to_nat i) l 0%N.

(** [rngSource.Uint64] and [rngSource.Int63] (rng.go). *)
Definition rng_uint64 (g : rng) : N * rng :=
  let t := step_down (rg_tap g) in
  let f := step_down (rg_feed g) in
  let x := ((word_at f (rg_vec g) + word_at t (rg_vec g)) mod 2 ^ 64)%N in
  (x, Rng t f (put_word (Z.to_nat f) x (rg_vec g))).
Definition rng_int63 (g : rng) : N * rng := let (x, g') := rng_uint64 g in ((x mod 2 ^ 63)%N, g').

(** The calls of [generateUniqueId] with this length (gofre.go 358-364): the numbers it
    draws, and the generator afterwards. *)
Fixpoint rng_draws (len : nat) (g : rng) : list N * rng :=
  match len with
  | O => ([], g)
  | S l => let (y, g1) := rng_int63 g in let (ys, g2) := rng_draws l g1 in (y :: ys, g2)
  end.
