(** * What a path pattern is supposed to mean

    Independent of the parser: the grammar of patterns as a relation between the
    text and a list of pieces.  Only the record types of the model are used, to
    say what a parsed pattern shows. *)
From Coq Require Import List Ascii String NArith.
From Verif Require Import GoBase Glob_Spec Pattern_Model.
Import ListNotations.
Local Open Scope string_scope.
Local Open Scope list_scope.

(** The kinds of pieces a pattern is made of. *)
Inductive piece :=
| Lit (t : bytes)                    (* literal text *)
| Constrained (name re : bytes)      (* {name:re} *)
| Var (name : bytes)                 (* {name} *)
| Glob (t : bytes)                   (* text with ? or * *)
| One                                (* * *)
| Any.                               (* ** *)

(** [reads s k]: the text [s] between two slashes is a piece of kind [k]. *)
Inductive reads : bytes -> piece -> Prop :=
| reads_one : reads (str "*") One
| reads_any : reads (str "**") Any
| reads_var : forall name,
    name <> [] -> ~ In ":"%char name -> no_adjacent_stars name ->
    reads ("{"%char :: name ++ ["}"%char]) (Var name)
| reads_constrained : forall name re,
    name <> [] -> ~ In ":"%char name -> re <> [] -> last re "a"%char <> ":"%char ->
    no_adjacent_stars (name ++ ":"%char :: re) ->
    reads ("{"%char :: name ++ ":"%char :: re ++ ["}"%char]) (Constrained name re)
| reads_glob : forall t,
    (In "*"%char t \/ In "?"%char t) -> t <> str "*" -> no_adjacent_stars t ->
    hd "a"%char t <> "{"%char -> last t "a"%char <> "}"%char -> reads t (Glob t)
| reads_lit : forall t,
    t <> [] -> ~ In "*"%char t -> ~ In "?"%char t ->
    hd "a"%char t <> "{"%char -> last t "a"%char <> "}"%char -> reads t (Lit t).

(** The pieces joined by slashes, each with a slash in front. *)
Fixpoint spelled (ps : list bytes) : bytes :=
  match ps with
  | [] => []
  | p :: ps' => "/"%char :: p ++ spelled ps'
  end.

(** [spells ps t]: the text [t] is the pieces [ps] with a slash before each one
    and possibly one more at the end. *)
Definition spells (ps : list bytes) (t : bytes) : Prop :=
  Forall (fun p => ~ In "/"%char p) ps /\
  (t = spelled ps /\ ps <> [] \/ t = spelled ps ++ ["/"%char]).

(** No two adjacent [Any]. *)
Inductive no_adjacent_any : list piece -> Prop :=
| naa_nil : no_adjacent_any []
| naa_one : forall k, no_adjacent_any [k]
| naa_cons : forall k1 k2 ks,
    ~ (k1 = Any /\ k2 = Any) -> no_adjacent_any (k2 :: ks) -> no_adjacent_any (k1 :: k2 :: ks).

(** The text of the regular expression that is compiled for a constraint. *)
Definition constraint_source (ignore_case : bool) (re : bytes) : bytes :=
  if ignore_case then str "(?i)" ++ re else re.

(** [means compiles ic t ps ks]: the pattern text [t] is legal and consists of
    the texts [ps], read as the pieces [ks]. *)
Definition means (compiles : bytes -> bool) (ic : bool) (t : bytes)
    (ps : list bytes) (ks : list piece) : Prop :=
  spells ps t /\ Forall2 reads ps ks /\ no_adjacent_any ks /\
  (forall name re, In (Constrained name re) ks -> compiles (constraint_source ic re) = true).

(** [shows ic sg s k]: the parsed segment [sg] shows the text [s] read as [k]. *)
Definition shows (ic : bool) (sg : segment) (s : bytes) (k : piece) : Prop :=
  s_val sg = s /\
  match k with
  | Lit _ => s_mt sg = MTLiteral /\ s_name sg = [] /\ s_re sg = None
  | Constrained name re =>
      s_mt sg = MTConstraint /\ s_name sg = name /\ s_re sg = Some (constraint_source ic re)
  | Var name => s_mt sg = MTCapture /\ s_name sg = name /\ s_re sg = None
  | Glob _ => s_mt sg = MTRegex /\ s_name sg = [] /\ s_re sg = None
  | One => s_mt sg = MTSingle /\ s_name sg = [] /\ s_re sg = None
  | Any => s_mt sg = MTMulti /\ s_name sg = [] /\ s_re sg = None
  end.

Inductive shows_all (ic : bool) : list segment -> list bytes -> list piece -> Prop :=
| shows_nil : shows_all ic [] [] []
| shows_cons : forall sg s k sgs ss ks,
    shows ic sg s k -> shows_all ic sgs ss ks -> shows_all ic (sg :: sgs) (s :: ss) (k :: ks).

(** A piece that binds a variable. *)
Definition binds_name (k : piece) : option bytes :=
  match k with Constrained n _ | Var n => Some n | _ => None end.
Definition named (k : piece) : bool :=
  match binds_name k with Some _ => true | None => false end.
