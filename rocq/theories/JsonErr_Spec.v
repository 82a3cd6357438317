(** * What is claimed about JSON bodies *)
From Coq Require Import List NArith ZArith Ascii String Bool.
From Verif Require Import GoBase Chain_Model Json_Model Json_Spec.
Import ListNotations.
Local Open Scope string_scope.
Local Open Scope list_scope.
Local Open Scope N_scope.

(** A byte that is no control character, no angle bracket and no ampersand. *)
Definition harmless (b : byte) : Prop := 32 <= code b /\ code b <> 60 /\ code b <> 62 /\ code b <> 38.

(** A text is JSON, it can be read in one way only, and what it says stands for [v]. *)
Definition says (body : bytes) (v : gval) : Prop :=
  exists w, stands_for v w /\ forall w', json_text body w' <-> w' = w.

(** What a payload means; without one the empty object is meant. *)
Definition meant (p : option gval) : gval := match p with Some v => v | None => GMap [] end.

(** A text is a JSON object with the one member error, which is the message; bytes of
    the message that are no UTF-8 are read as U+FFFD. *)
Definition says_error (body msg : bytes) : Prop :=
  exists key cs, well_encoded (str "error") key /\ text_of msg cs /\
    forall w, json_text body w <-> w = VObj [(key, VStr cs)].

(** The messages of errors. *)
Inductive message : err -> bytes -> Prop :=
| ms_bad : forall m, message (EBadRequest m) m
| ms_missing : forall m, message (EObjectNotFound m) m
| ms_unauthorized : message EUnauthorized (str "unauthorized request")
| ms_credentials : message EWrongCredentials (str "wrong credentials")
| ms_denied : message EAccessDenied (str "access denied")
| ms_other : forall m, message (EOther m) m.

(** A list contains another one. *)
Definition contains {A : Type} (l m : list A) : Prop := exists x y, l = x ++ m ++ y.
