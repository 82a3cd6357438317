(** * Model of pattern parsing and ranking
    (router/path/pattern.go 12-178, 272-343 and router/path/encode.go). *)
From Coq Require Import List NArith ZArith Ascii String Bool.
From Verif Require Import GoBase Glob_Model.
Import ListNotations.
Local Open Scope string_scope.
Local Open Scope list_scope.
Local Open Scope N_scope.

(** [MatchType] and its constants (encode.go 3-14). *)
Inductive mtype := MTUnknown | MTLiteral | MTConstraint | MTCapture | MTRegex | MTSingle | MTMulti.

(** The numeric value of a [MatchType] (encode.go 7-13). *)
Definition mt_code (m : mtype) : N :=
  match m with
  | MTUnknown => 0 | MTLiteral => 1 | MTConstraint => 2 | MTCapture => 3
  | MTRegex => 4 | MTSingle => 5 | MTMulti => 6
  end.
Definition mt_eqb (a b : mtype) : bool := mt_code a =? mt_code b.

(** [MaxPathSegments] (encode.go 6). *)
Definition max_path_segments : nat := 19.

(** The [regexp] package: which texts compile and what a compiled expression
    matches.  Both are arbitrary; a compiled expression is represented by its
    source text, which is what [Regexp.String] returns. *)
Record engine := Engine {
  re_ok : bytes -> bool;
  re_match : bytes -> bytes -> bool    (* expression, text *)
}.

(** [segment] (pattern.go 14-19). *)
Record segment := Seg {
  s_val : bytes;
  s_mt : mtype;
  s_name : bytes;
  s_re : option bytes
}.

(** [Pattern] (pattern.go 61-69).  The attachment, a value of any type in Go, is
    a number standing for the handler that the router stores there. *)
Record pattern := Pat {
  p_ci : bool;
  p_caps : N;
  p_max : N;
  p_prio : N;
  p_segs : list segment;
  p_raw : bytes;
  p_att : option nat
}.

(** [greedyPatternMaxMatchableSegments] (pattern.go 12). *)
Definition greedy_max : N := 255.

(** [Pattern.isGreedy] (pattern.go 78-80). *)
Definition is_greedy (p : pattern) : bool := p_max p =? greedy_max.

(** [Pattern.HighPriorityThan] (pattern.go 71-76). *)
Definition high_priority_than (p q : pattern) : bool :=
  if p_prio p =? p_prio q
  then match bcompare (p_raw p) (p_raw q) with Lt => true | _ => false end
  else p_prio p <? p_prio q.

(** First and last byte of a text known to be non-empty. *)
Definition first_is (c : byte) (s : bytes) : bool :=
  match s with [] => false | x :: _ => Ascii.eqb x c end.
Definition last_is (c : byte) (s : bytes) : bool :=
  match rev s with [] => false | x :: _ => Ascii.eqb x c end.

Definition slash : byte := "/"%char.
Definition obrace : byte := "{"%char.
Definition cbrace : byte := "}"%char.
Definition colon : byte := ":"%char.

(** [determineMatchTypeForSegment] (pattern.go 272-294). *)
Definition determine_match_type (s : bytes) : mtype :=
  if beqb s (str "*") then MTSingle
  else if beqb s (str "**") then MTMulti
  else if first_is obrace s && last_is cbrace s then
    if existsb (Ascii.eqb colon) s then MTConstraint else MTCapture
  else if existsb (fun c => Ascii.eqb c qmark || Ascii.eqb c star) s then MTRegex
  else MTLiteral.

(** The loop over the inside of the braces (pattern.go 314-323): [true] when a
    colon stands right after the opening or right before the closing brace. *)
Fixpoint bad_colon (s : bytes) (pos len : nat) : bool :=
  match s with
  | [] => false
  | c :: s' =>
      if Nat.ltb pos (len - 1) then
        (Ascii.eqb c colon && (Nat.eqb pos 1 || Nat.eqb pos (len - 2)))
        || bad_colon s' (S pos) len
      else false
  end.

(** The loop that looks for adjacent stars (pattern.go 330-340). *)
Fixpoint two_stars (s : bytes) (count : nat) : bool :=
  match s with
  | [] => false
  | c :: s' =>
      let count' := if Ascii.eqb c star then S count else O in
      if Nat.leb 2 count' then true else two_stars s' count'
  end.

(** [validatePathSegment] (pattern.go 296-343): [true] when no error is
    returned. *)
Definition validate_path_segment (s : bytes) : bool :=
  if Nat.eqb (List.length s) 0 then false
  else if first_is obrace s && negb (last_is cbrace s) then false
  else if last_is cbrace s && negb (first_is obrace s) then false
  else if first_is obrace s && last_is cbrace s
          && (Nat.eqb (List.length s) 2 || bad_colon (skipn 1 s) 1 (List.length s))
  then false
  else if beqb s (str "*") || beqb s (str "**") then true
  else negb (two_stars s 0).

(** [getDecimalDivider] (encode.go 68-109): the power of ten for 1..18, else 1. *)
Definition decimal_divider (z : Z) : N :=
  if ((1 <=? z) && (z <=? 18))%Z then 10 ^ Z.to_N z else 1.

(** The closure [getSplitIndex] (encode.go 34-44).  The loop runs while n > 0 and
    divides n by m; m is 1 when [dividerDigits] is outside 1..18.  [None] means
    that the loop is still running after [fuel] iterations. *)
Fixpoint split_index_loop (fuel : nat) (n m : N) (idx : Z) : option Z :=
  match fuel with
  | O => None
  | S f =>
      if n =? 0 then Some idx
      else if n mod 10 =? 6 then Some idx
      else split_index_loop f (n / m) m (idx + 1)%Z
  end.
Definition get_split_index (fuel : nat) (nr : N) (divider_digits : Z) : option Z :=
  match split_index_loop fuel nr (decimal_divider divider_digits) 0%Z with
  | None => None
  | Some i => Some (i + divider_digits)%Z
  end.

(** The loop that appends digits (encode.go 57-59), in uint64. *)
Fixpoint append_six (k : nat) (n : N) : N :=
  match k with
  | O => n
  | S k' => append_six k' (u64 (u64 (n * 10) + 6))
  end.

(** The loop over the ** pieces (encode.go 46-62); [i] counts down, [i = 1] is
    the last round. *)
Fixpoint spread (fuel : nat) (i : nat) (prio : N) (divider_digits per_seg rem : Z) : option N :=
  match i with
  | O => Some prio
  | S i' =>
      match get_split_index fuel prio divider_digits with
      | None => None
      | Some split =>
          let m := decimal_divider split in
          let n := prio / m in
          let r := prio mod m in
          let add := if Nat.eqb i' 0 then (per_seg + rem)%Z else per_seg in
          let n' := append_six (Z.to_nat add) n in
          spread fuel i' (u64 (u64 (n' * m) + r)) (split + add)%Z per_seg rem
      end
  end.

(** [computePriority] (encode.go 16-66).  Division of Go ints truncates. *)
Definition base_priority (segs : list segment) : N :=
  fold_left (fun acc s => u64 (u64 (acc * 10) + mt_code (s_mt s))) segs 0.
Definition multi_count (segs : list segment) : nat :=
  List.length (filter (fun s => mt_eqb (s_mt s) MTMulti) segs).
Definition compute_priority (fuel : nat) (segs : list segment) : option N :=
  let digits := Z.of_nat (List.length segs) in
  let prio := base_priority segs in
  let cnt := multi_count segs in
  if Nat.eqb cnt 0 then Some (u64 (prio * decimal_divider (19 - digits)))
  else
    spread fuel cnt prio 1%Z
      (Z.quot (19 - digits) (Z.of_nat cnt)) (Z.rem (19 - digits) (Z.of_nat cnt)).

(** Position of the first colon, [strings.IndexRune(s, ':')] (pattern.go 147),
    for a text that holds one. *)
Fixpoint before_colon (s : bytes) : bytes :=
  match s with
  | [] => []
  | c :: s' => if Ascii.eqb c colon then [] else c :: before_colon s'
  end.
Fixpoint after_colon (s : bytes) : bytes :=
  match s with
  | [] => []
  | c :: s' => if Ascii.eqb c colon then s' else after_colon s'
  end.

(** Construction of one segment (pattern.go 136-158); [None] when the constraint
    does not compile.  The second component says whether [captureVarsLen]
    grows. *)
Definition make_segment (re : engine) (ci : bool) (val : bytes) : option (segment * bool) :=
  match determine_match_type val with
  | MTCapture => Some (Seg val MTCapture (skipn 1 (removelast val)) None, true)
  | MTConstraint =>
      let src0 := removelast (after_colon val) in
      let src := if ci then str "(?i)" ++ src0 else src0 in
      if re_ok re src
      then Some (Seg val MTConstraint (skipn 1 (before_colon val)) (Some src), true)
      else None
  | mt => Some (Seg val mt [] None, false)
  end.

(** Local variables of the parsing loop (pattern.go 106-112).  [None] entries of
    the segments slice are nil pointers. *)
Record pstate := PState {
  ps_count : N;                       (* pathSegmentsCount, uint8 *)
  ps_caps : N;                        (* captureVarsLen, uint8 *)
  ps_last : mtype;
  ps_max : mtype;
  ps_segs : list (option segment)
}.

Inductive presult := PErr | PPanic | PFuel | POk (p : pattern).

(** One piece (pattern.go 116-160). *)
Definition add_piece (re : engine) (ci : bool) (val : bytes) (st : pstate)
  : presult + pstate :=
  if negb (validate_path_segment val) then inl PErr
  else
    let mt := determine_match_type val in
    if mt_eqb (ps_last st) MTMulti && mt_eqb mt MTMulti then inl PErr
    else
      match make_segment re ci val with
      | None => inl PErr
      | Some (sg, cap) =>
          match update (ps_segs st) (N.to_nat (ps_count st)) (Some sg) with
          | None => inl PPanic
          | Some segs' =>
              inr (PState (u8 (ps_count st + 1))
                          (if cap then u8 (ps_caps st + 1) else ps_caps st)
                          mt
                          (if mt_code (ps_max st) <? mt_code mt then mt else ps_max st)
                          segs')
          end
      end.

(** The loop over the positions 1.. of the pattern (pattern.go 114-162); [cur]
    holds, reversed, the bytes since the last slash. *)
Fixpoint parse_loop (re : engine) (ci : bool) (rest cur : bytes) (st : pstate)
  : presult + pstate :=
  match rest with
  | [] => inr st
  | c :: rest' =>
      if Ascii.eqb c slash then
        match add_piece re ci (rev cur) st with
        | inl r => inl r
        | inr st' => parse_loop re ci rest' [] st'
        end
      else
        match rest' with
        | [] => add_piece re ci (rev (c :: cur)) st
        | _ => parse_loop re ci rest' (c :: cur) st
        end
  end.

(** The dereferenced slice: [None] when a nil entry is reached (computePriority
    reads the match type of every entry). *)
Fixpoint all_some (l : list (option segment)) : option (list segment) :=
  match l with
  | [] => Some []
  | Some s :: l' => match all_some l' with Some r => Some (s :: r) | None => None end
  | None :: _ => None
  end.

(** [ParsePattern] (pattern.go 86-178).  The error texts are not modelled. *)
Definition parse_pattern (fuel : nat) (re : engine) (path : bytes) (ci : bool) : presult :=
  match path with
  | [] => PErr
  | c :: rest =>
      if negb (Ascii.eqb c slash) then PErr
      else match rest with
      | [] => POk (Pat ci 0 0 0 [] (str "/") None)
      | _ =>
          let size := List.length (filter (Ascii.eqb slash) path) in
          match parse_loop re ci rest [] (PState 0 0 MTUnknown MTUnknown (repeat None size)) with
          | inl r => r
          | inr st =>
              match all_some (firstn (N.to_nat (ps_count st)) (ps_segs st)) with
              | None => PPanic
              | Some segs =>
                  match compute_priority fuel segs with
                  | None => PFuel
                  | Some prio =>
                      POk (Pat ci (ps_caps st)
                             (if mt_eqb (ps_max st) MTMulti then greedy_max else ps_count st)
                             prio segs path None)
                  end
              end
          end
      end
  end.
