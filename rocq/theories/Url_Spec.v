(** * How a request path is cut into segments *)
From Coq Require Import List Ascii String NArith.
From Verif Require Import GoBase.
Import ListNotations.
Local Open Scope string_scope.
Local Open Scope list_scope.

(** [cut t ps]: the text [t] is the pieces [ps], none holding a slash, with one
    slash between neighbours. *)
Inductive cut : bytes -> list bytes -> Prop :=
| cut_last : forall p, ~ In "/"%char p -> cut p [p]
| cut_more : forall p t ps, ~ In "/"%char p -> cut t ps -> cut (p ++ "/"%char :: t) (p :: ps).

(** One more piece: an empty one is ignored and [..] removes the previous one. *)
Definition walk (seen : list bytes) (p : bytes) : list bytes :=
  match p with
  | [] => seen
  | _ => if list_eq_dec ascii_dec p (str "..") then removelast seen else seen ++ [p]
  end.

(** The segments after reading all pieces, and whether more than 19 were held at
    some moment. *)
Fixpoint walked (seen : list bytes) (ps : list bytes) : list bytes :=
  match ps with
  | [] => seen
  | p :: ps' => walked (walk seen p) ps'
  end.
Fixpoint too_many (seen : list bytes) (ps : list bytes) : Prop :=
  match ps with
  | [] => False
  | p :: ps' => (19 < List.length (walk seen p))%nat \/ too_many (walk seen p) ps'
  end.

(** [segments_of path ts]: the request path has the segments [ts], and never more
    than 19 were held.  Text before the first slash is ignored. *)
Inductive segments_of : bytes -> list bytes -> Prop :=
| so_none : forall path, ~ In "/"%char path -> segments_of path []
| so_some : forall junk t ps, ~ In "/"%char junk -> cut t ps -> ~ too_many [] ps ->
    segments_of (junk ++ "/"%char :: t) (walked [] ps).

(** More than 19 were held at some moment. *)
Inductive overlong : bytes -> Prop :=
| overlong_intro : forall junk t ps, ~ In "/"%char junk -> cut t ps -> too_many [] ps ->
    overlong (junk ++ "/"%char :: t).
