(** * What is claimed about static resources *)
From Coq Require Import List NArith ZArith Ascii String Bool.
From Verif Require Import GoBase.
Import ListNotations.
Local Open Scope string_scope.
Local Open Scope list_scope.
Local Open Scope nat_scope.

(** Where a path leads, as far as its text says: from the root or from the current
    directory, up a number of times, and then down along names. *)
Record place := Place { pl_root : bool; pl_up : nat; pl_names : list bytes }.

(** The parts of a path between slashes. *)
Inductive parts : bytes -> list bytes -> Prop :=
| pt_one : forall p, ~ In "/"%char p -> parts p [p]
| pt_more : forall p s l, ~ In "/"%char p -> parts s l -> parts (p ++ "/"%char :: s) (p :: l).

(** A name of an entry in a directory. *)
Definition entry_name (p : bytes) : Prop := p <> [] /\ p <> str "." /\ p <> str ".." /\ ~ In "/"%char p.

(** One part of a path: empty parts and dots stay, two dots go to the directory above, if
    there is one, and names go down. *)
Inductive step : place -> bytes -> place -> Prop :=
| st_empty : forall x, step x [] x
| st_dot : forall x, step x (str ".") x
| st_name : forall r u l p, entry_name p -> step (Place r u l) p (Place r u (l ++ [p]))
| st_back : forall r u l p, step (Place r u (l ++ [p])) (str "..") (Place r u l)
| st_top : step (Place true 0 []) (str "..") (Place true 0 [])
| st_up : forall u, step (Place false u []) (str "..") (Place false (S u) []).
Inductive steps : place -> list bytes -> place -> Prop :=
| ss_none : forall x, steps x [] x
| ss_some : forall x y z p l, step x p y -> steps y l z -> steps x (p :: l) z.
Definition leads_to (s : bytes) (x : place) : Prop :=
  (exists s' l, s = "/"%char :: s' /\ parts s' l /\ steps (Place true 0 []) l x) \/
  (~ (exists s', s = "/"%char :: s') /\ exists l, parts s l /\ steps (Place false 0 []) l x).

(** A path leads to a place that is reached from the directory by going down along names. *)
Definition inside (dir p : bytes) : Prop :=
  exists r u l names, leads_to dir (Place r u l) /\ Forall entry_name names /\ leads_to p (Place r u (l ++ names)).
Definition at_names (dir p : bytes) (names : list bytes) : Prop :=
  exists r u l, leads_to dir (Place r u l) /\ leads_to p (Place r u (l ++ names)).

(** Texts of names, one below the other. *)
Fixpoint path_of (names : list bytes) : bytes :=
  match names with [] => [] | [n] => n | n :: l => n ++ str "/" ++ path_of l end.

(** A name that HTML shows as it is. *)
Definition plain_name (n : bytes) : Prop := Forall (fun c => ~ In c (str "&<>""'")) n.
Definition part_of (t s : bytes) : Prop := exists a b, s = a ++ t ++ b.

(** What a reader of HTML sees of a text without elements: the five characters with a
    meaning are written by their names or numbers. *)
Inductive seen_as : bytes -> bytes -> Prop :=
| sa_end : seen_as [] []
| sa_plain : forall c t n, ~ In c (str "&<>""'") -> seen_as t n -> seen_as (c :: t) (c :: n)
| sa_amp : forall t n, seen_as t n -> seen_as (str "&amp;" ++ t) ("&"%char :: n)
| sa_lt : forall t n, seen_as t n -> seen_as (str "&lt;" ++ t) ("<"%char :: n)
| sa_gt : forall t n, seen_as t n -> seen_as (str "&gt;" ++ t) (">"%char :: n)
| sa_quote : forall t n, seen_as t n -> seen_as (str "&#34;" ++ t) (""""%char :: n)
| sa_apos : forall t n, seen_as t n -> seen_as (str "&#39;" ++ t) ("'"%char :: n).
