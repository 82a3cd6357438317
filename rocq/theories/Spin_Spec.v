(** * For which patterns the ranking never ends. *)
From Coq Require Import List String Ascii Bool.
From Verif Require Import GoBase Pattern_Spec.
Import ListNotations.
Local Open Scope string_scope.
Local Open Scope list_scope.

(** The shape of a pattern: where its ** stand. *)
Definition is_any (k : piece) : bool := match k with Any => true | _ => false end.
Definition shape (ks : list piece) : list bool := map is_any ks.

(** A shape written with a star for every ** and a dot for every other piece. *)
Definition drawn (s : string) : list bool := map (Ascii.eqb "*") (list_ascii_of_string s).

(** The 67 shapes of at most 19 pieces whose ranking never ends: one of 17
    pieces, ten of 18 and 56 of 19. *)
Definition spinning : list (list bool) := map drawn [
   ".*.*.*.*.*.*.*.*."; "..*.*.*.*.*.*.*.*."; ".*..*.*.*.*.*.*.*.";
   "*...*.*.*.*.*.*.*."; "*.*...*.*.*.*.*.*."; "*.*.*...*.*.*.*.*.";
   "*.*.*.*...*.*.*.*."; "*.*.*.*.*...*.*.*."; "*.*.*.*.*.*...*.*.";
   "*.*.*.*.*.*.*...*."; "*.*.*.*.*.*.*.*.*."; ".....*.*.*.*.*.*.*.";
   "...*...*.*.*.*.*.*."; "...*.*...*.*.*.*.*."; "...*.*.*...*.*.*.*.";
   "...*.*.*.*...*.*.*."; "...*.*.*.*.*...*.*."; "...*.*.*.*.*.*...*.";
   "...*.*.*.*.*.*.*.*."; "..*..*.*.*.*.*.*.*."; ".*.....*.*.*.*.*.*.";
   ".*...*...*.*.*.*.*."; ".*...*.*...*.*.*.*."; ".*...*.*.*...*.*.*.";
   ".*...*.*.*.*...*.*."; ".*...*.*.*.*.*...*."; ".*...*.*.*.*.*.*.*.";
   ".*.*.....*.*.*.*.*."; ".*.*...*...*.*.*.*."; ".*.*...*.*...*.*.*.";
   ".*.*...*.*.*...*.*."; ".*.*...*.*.*.*...*."; ".*.*...*.*.*.*.*.*.";
   ".*.*.*.....*.*.*.*."; ".*.*.*...*...*.*.*."; ".*.*.*...*.*...*.*.";
   ".*.*.*...*.*.*...*."; ".*.*.*...*.*.*.*.*."; ".*.*.*.*.....*.*.*.";
   ".*.*.*.*...*...*.*."; ".*.*.*.*...*.*...*."; ".*.*.*.*...*.*.*.*.";
   ".*.*.*.*.*.....*.*."; ".*.*.*.*.*...*...*."; ".*.*.*.*.*...*.*.*.";
   ".*.*.*.*.*.*.....*."; ".*.*.*.*.*.*...*.*."; ".*.*.*.*.*.*.*...*.";
   ".*.*.*.*.*.*.*.*.*."; "*....*.*.*.*.*.*.*."; "*...*.*..*.*.*.*.*.";
   "*..*...*.*.*.*.*.*."; "*..*.*...*.*.*.*.*."; "*..*.*.*...*.*.*.*.";
   "*..*.*.*.*...*.*.*."; "*..*.*.*.*.*...*.*."; "*..*.*.*.*.*.*...*.";
   "*..*.*.*.*.*.*.*.*."; "*.*....*.*.*.*.*.*."; "*.*..*...*.*.*.*.*.";
   "*.*..*.*...*.*.*.*."; "*.*..*.*.*...*.*.*."; "*.*..*.*.*.*...*.*.";
   "*.*..*.*.*.*.*...*."; "*.*..*.*.*.*.*.*.*."; "*.*.*..*.*.*.*.*.*.";
   "*.*.*.*..*.*.*.*.*."].
