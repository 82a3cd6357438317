(** * Words for the property about the cookies of a request (C142) *)
From Coq Require Import List NArith ZArith Ascii String Bool.
From Verif Require Import GoBase Cookie_Spec.
Import ListNotations.
Local Open Scope string_scope.
Local Open Scope list_scope.

(** A text between two semicolons is a cookie with this name and this value: the name is a
    token; the value may be missing or stand between quotes. *)
Definition is_cookie (p n v : bytes) : Prop :=
  (bare p = n /\ v = [] \/ bare p = n ++ str "=" ++ v \/ bare p = n ++ str "=""" ++ v ++ str """") /\
  token_name n /\ forall c, In c v -> value_sign c.

(** The cookies in a list of such texts; the others are left out. *)
Inductive cookies_in : list bytes -> list (bytes * bytes) -> Prop :=
| ci_end : cookies_in [] []
| ci_yes : forall p ps n v l, is_cookie p n v -> cookies_in ps l -> cookies_in (p :: ps) ((n, v) :: l)
| ci_no : forall p ps l, (forall n v, ~ is_cookie p n v) -> cookies_in ps l -> cookies_in (p :: ps) l.
Definition between_semicolons (lines : list bytes) : list bytes := flat_map (split_on ";"%char) lines.

(** How a cookie is written: the value stands between quotes when it has a blank or a comma. *)
Definition written (nv : bytes * bytes) (t : bytes) : Prop :=
  (In " "%char (snd nv) \/ In ","%char (snd nv)) /\ t = fst nv ++ str "=""" ++ snd nv ++ str """" \/
  ~ In " "%char (snd nv) /\ ~ In ","%char (snd nv) /\ t = fst nv ++ str "=" ++ snd nv.
