(** * Model of request path parsing and path variables
    (router/path/matching_context.go). *)
From Coq Require Import List NArith ZArith Ascii String Bool.
From Verif Require Import GoBase Glob_Model Pattern_Model.
Import ListNotations.
Local Open Scope string_scope.
Local Open Scope list_scope.
Local Open Scope N_scope.

(** [UrlSegment] (matching_context.go 17-21); the offsets are uint16. *)
Record useg := USeg { u_start : N; u_end : N; u_mt : mtype }.

(** [UrlSegment.Reset] (matching_context.go 23-27). *)
Definition useg_zero : useg := USeg 0 0 MTUnknown.

(** Local variables of [ParseURLPath] (matching_context.go 99-100) and the
    slice of the matching context. *)
Record ustate := UState {
  us_idx : nat;           (* segmentsIndex, never negative between calls *)
  us_start : Z;           (* segmentStartPos *)
  us_segs : list useg
}.

Inductive uadd := UAdded (st : ustate) | UTooMany | UPanic.

(** The closure [addSegment] (matching_context.go 101-122), called only when
    segmentStartPos is not -1. *)
Definition add_segment (path : bytes) (st : ustate) (endi : N) : uadd :=
  match slice path (Z.to_N (us_start st)) endi with
  | None => UPanic
  | Some seg =>
      if Nat.eqb (List.length seg) 0 then UAdded st
      else if beqb seg (str "..") then UAdded (UState (us_idx st - 1) (us_start st) (us_segs st))
      else if Nat.leb max_path_segments (us_idx st) then UTooMany
      else match update (us_segs st) (us_idx st)
                   (USeg (u16 (Z.to_N (us_start st))) (u16 endi) MTUnknown) with
           | None => UPanic
           | Some segs' => UAdded (UState (S (us_idx st)) (us_start st) segs')
           end
  end.

(** The loop over the positions (matching_context.go 124-135). *)
Fixpoint url_loop (path rest : bytes) (pos : N) (st : ustate) : uadd :=
  match rest with
  | [] => UAdded st
  | c :: rest' =>
      if Ascii.eqb c slash then
        match (if (us_start st =? -1)%Z then UAdded st else add_segment path st pos) with
        | UAdded st' =>
            url_loop path rest' (pos + 1) (UState (us_idx st') (Z.of_N (pos + 1)) (us_segs st'))
        | r => r
        end
      else url_loop path rest' (pos + 1) st
  end.

(** [ParseURLPath] (matching_context.go 91-147): the new value of
    [mc.PathSegments] given the buffer it holds before; [None] is a panic.  The
    empty list stands for nil. *)
Definition parse_url_path (path : bytes) (buf : list useg) : option (list useg) :=
  if beqb path [] || beqb path (str "/") then Some []
  else
    match url_loop path path 0 (UState 0 (-1)%Z buf) with
    | UPanic => None
    | UTooMany => Some []
    | UAdded st =>
        match (if negb (us_start st =? -1)%Z && (us_start st <? Z.of_N (blen path))%Z
               then add_segment path st (blen path) else UAdded st) with
        | UPanic => None
        | UTooMany => Some []
        | UAdded st' =>
            if Nat.eqb (us_idx st') 0 then Some []
            else Some (firstn (us_idx st') (us_segs st'))
        end
    end.

(** The text of a recorded segment, [urlPath[s.startIndex:s.endIndex]]. *)
Definition useg_text (path : bytes) (s : useg) : option bytes := slice path (u_start s) (u_end s).

(** Is a match type a capture of some kind (matching_context.go 64, 80-81). *)
Definition is_capture (m : mtype) : bool := mt_eqb m MTCapture || mt_eqb m MTConstraint.

(** The search for the pattern segment (matching_context.go 59-71): the number of
    captures before it, if there is one with that name. *)
Fixpoint find_capture (name : bytes) (segs : list segment) (idx : nat) : option nat :=
  match segs with
  | [] => None
  | s :: segs' =>
      if is_capture (s_mt s)
      then if beqb (s_name s) name then Some idx else find_capture name segs' (S idx)
      else find_capture name segs' idx
  end.

(** The search for the request segment (matching_context.go 78-87): the capture
    number [idx] from here on. *)
Fixpoint nth_capture (idx : nat) (us : list useg) : option useg :=
  match us with
  | [] => None
  | s :: us' =>
      if is_capture (u_mt s)
      then match idx with O => Some s | S i => nth_capture i us' end
      else nth_capture idx us'
  end.

(** [MatchingContext.PathVar] (matching_context.go 53-89) on the matched pattern,
    the request path and the segments; [None] is a panic. *)
Definition path_var (mp : option pattern) (path : bytes) (us : list useg) (name : bytes)
  : option bytes :=
  match mp with
  | None => Some []
  | Some p =>
      if p_caps p =? 0 then Some []
      else match find_capture name (p_segs p) 0 with
           | None => Some []
           | Some idx => match nth_capture idx us with
                         | None => Some []
                         | Some s => useg_text path s
                         end
           end
  end.
