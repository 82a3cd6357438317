(** * When a route is supposed to serve a request (README, "Path Pattern Matching")

    Independent of the router: a relation between the pieces of a pattern and the
    segments of a request path. *)
From Coq Require Import List Ascii String NArith.
From Verif Require Import GoBase Glob_Spec Pattern_Spec.
Import ListNotations.

(** Literal text; letter case is ignored for ASCII letters if asked for. *)
Definition same_text (ic : bool) (a b : bytes) : Prop :=
  if ic then map lower a = map lower b else a = b.

(** [reads_as ic rm ks ts bs]: the request segments [ts] can be read as the pieces
    [ks]; [bs] are the variables with their values from left to right.  [rm] is
    the regular expression engine.  A final [Any] needs at least one segment, any
    other one accepts any run. *)
Inductive reads_as (ic : bool) (rm : bytes -> bytes -> bool)
  : list piece -> list bytes -> list (bytes * bytes) -> Prop :=
| ra_end : reads_as ic rm [] [] []
| ra_lit : forall w ks t ts bs,
    same_text ic w t -> reads_as ic rm ks ts bs -> reads_as ic rm (Lit w :: ks) (t :: ts) bs
| ra_constrained : forall n r ks t ts bs,
    rm (constraint_source ic r) t = true -> reads_as ic rm ks ts bs ->
    reads_as ic rm (Constrained n r :: ks) (t :: ts) ((n, t) :: bs)
| ra_var : forall n ks t ts bs,
    reads_as ic rm ks ts bs -> reads_as ic rm (Var n :: ks) (t :: ts) ((n, t) :: bs)
| ra_glob : forall w ks t ts bs,
    accepts ic w t -> reads_as ic rm ks ts bs -> reads_as ic rm (Glob w :: ks) (t :: ts) bs
| ra_one : forall ks t ts bs,
    reads_as ic rm ks ts bs -> reads_as ic rm (One :: ks) (t :: ts) bs
| ra_any_last : forall t ts, reads_as ic rm [Any] (t :: ts) []
| ra_any : forall ks run ts bs,
    ks <> [] -> reads_as ic rm ks ts bs -> reads_as ic rm (Any :: ks) (run ++ ts) bs.

(** The value of a variable: the first one with that name. *)
Fixpoint value_of (name : bytes) (bs : list (bytes * bytes)) : option bytes :=
  match bs with
  | [] => None
  | (n, v) :: bs' => if list_eq_dec ascii_dec n name then Some v else value_of name bs'
  end.

(** The pieces of a legal pattern text. *)
Definition pieces_of (compiles : bytes -> bool) (ic : bool) (text : bytes) (ks : list piece) : Prop :=
  exists ps, means compiles ic text ps ks.

(** At most 255 pieces (C06). *)
Definition countable (compiles : bytes -> bool) (ic : bool) (text : bytes) : Prop :=
  forall ks, pieces_of compiles ic text ks -> (List.length ks <= 255)%nat.

(** No constraint that starts with a brace, which could be taken for the text of
    another piece (C10).  A router that ignores letter case can not take it so. *)
Definition plain (compiles : bytes -> bool) (ic : bool) (text : bytes) : Prop :=
  ic = false -> forall ks, pieces_of compiles ic text ks ->
  forall n r, In (Constrained n r) ks -> hd "a"%char r <> "{"%char.

(** A method name in another letter case. *)
Definition same_method (a b : bytes) : Prop := map lower a = map lower b.
Definition same_method_dec (a b : bytes) : {same_method a b} + {~ same_method a b} :=
  list_eq_dec ascii_dec (map lower a) (map lower b).

(** A registration: method, pattern text and handler. *)
Definition reg := (bytes * bytes * nat)%type.
Definition reg_method (r : reg) : bytes := fst (fst r).
Definition reg_text (r : reg) : bytes := snd (fst r).
Definition reg_handler (r : reg) : nat := snd r.
