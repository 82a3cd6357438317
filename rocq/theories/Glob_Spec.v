(** * What a wildcard segment is supposed to accept (README, "literal match regex").

    Independent of the matcher: a relation between the wildcard text and the
    request text, built from the meaning of each wildcard. *)
From Coq Require Import List Ascii NArith.
From Verif Require Import GoBase.
Import ListNotations.

(** Two bytes are the same letter for the router. *)
Definition same_letter (ignore_case : bool) (a b : ascii) : Prop :=
  if ignore_case then latin_upper a = latin_upper b else a = b.

(** [accepts ic w t]: the wildcard text [w] accepts the text [t]; a final star
    needs at least one character, any other star accepts any run. *)
Inductive accepts (ic : bool) : bytes -> bytes -> Prop :=
| acc_end : accepts ic [] []
| acc_any : forall w x t, accepts ic w t -> accepts ic ("?"%char :: w) (x :: t)
| acc_char : forall c w x t,
    c <> "*"%char -> c <> "?"%char -> same_letter ic x c ->
    accepts ic w t -> accepts ic (c :: w) (x :: t)
| acc_last_star : forall x t, accepts ic ["*"%char] (x :: t)
| acc_inner_star : forall w run t,
    w <> [] -> accepts ic w t -> accepts ic ("*"%char :: w) (run ++ t).

(** The reading of the README: every star accepts any run, also an empty one. *)
Inductive accepts_readme (ic : bool) : bytes -> bytes -> Prop :=
| accr_end : accepts_readme ic [] []
| accr_any : forall w x t, accepts_readme ic w t -> accepts_readme ic ("?"%char :: w) (x :: t)
| accr_char : forall c w x t,
    c <> "*"%char -> c <> "?"%char -> same_letter ic x c ->
    accepts_readme ic w t -> accepts_readme ic (c :: w) (x :: t)
| accr_star : forall w run t,
    accepts_readme ic w t -> accepts_readme ic ("*"%char :: w) (run ++ t).

(** The parser refuses adjacent stars inside a segment. *)
Inductive no_adjacent_stars : bytes -> Prop :=
| nas_nil : no_adjacent_stars []
| nas_one : forall c, no_adjacent_stars [c]
| nas_cons : forall c d w,
    ~ (c = "*"%char /\ d = "*"%char) -> no_adjacent_stars (d :: w) ->
    no_adjacent_stars (c :: d :: w).

(** [overruns ic w t]: matching [t] against [w] reads past the end of [t] (C02).
    The text is refused; look at the last star of [w] such that [w] up to this
    star accepts [t]: another character follows the star, and the last character
    of [t] fits it. *)
Definition overruns (ic : bool) (w t : bytes) : Prop :=
  ~ accepts ic w t /\
  exists a c b t' x, w = a ++ "*"%char :: c :: b /\ t = t' ++ [x] /\
    (c = "?"%char \/ same_letter ic x c) /\
    accepts ic (a ++ ["*"%char]) t /\
    (forall a' b', w = a' ++ "*"%char :: b' -> List.length a < List.length a' ->
       ~ accepts ic (a' ++ ["*"%char]) t).

Definition calm (ic : bool) (w t : bytes) : Prop := ~ overruns ic w t.
