(** * Model of [MuxHandler]: path prefixes and common middlewares (gofre.go).

    Muxes are objects, slices point into arrays on a heap. *)
From Coq Require Import List NArith ZArith Ascii String Bool Arith.
From Verif Require Import GoBase.
Import ListNotations.
Local Open Scope string_scope.
Local Open Scope list_scope.
Local Open Scope nat_scope.

(** A middleware value: a number that stands for the function, or nil. *)
Definition mref := option nat.

(** A slice of middlewares: the array it points into, if it is not nil, and its
    length.  All slices of this code start at the first element; the capacity is
    the length of the array. *)
Record mslice := MSlice { sl_arr : option nat; sl_len : nat }.
Definition nil_slice : mslice := MSlice None 0.

(** The heap of arrays. *)
Definition mheap := list (list mref).

Definition array_of (h : mheap) (s : mslice) : list mref :=
  match sl_arr s with Some a => nth a h [] | None => [] end.

(** The elements of a slice, as a range over it sees them. *)
Definition elems (h : mheap) (s : mslice) : list mref := firstn (sl_len s) (array_of h s).

Fixpoint set_nth {A : Type} (l : list A) (i : nat) (x : A) : list A :=
  match l, i with
  | [], _ => []
  | _ :: l', O => x :: l'
  | y :: l', S i' => y :: set_nth l' i' x
  end.

(** The built-in [append]: in place if the capacity suffices, else into a new array
    whose additional capacity is chosen by [grow]; without new elements the slice
    is returned as it is. *)
Definition append (grow : nat -> nat -> nat) (h : mheap) (s : mslice) (xs : list mref) : mheap * mslice :=
  if Nat.eqb (List.length xs) 0 then (h, s)
  else
    let arr := array_of h s in
    let need := sl_len s + List.length xs in
    match sl_arr s with
    | Some a =>
        if Nat.leb need (List.length arr)
        then (set_nth h a (firstn (sl_len s) arr ++ xs ++ skipn need arr), MSlice (Some a) need)
        else (h ++ [elems h s ++ xs ++ repeat None (grow (List.length arr) need)], MSlice (Some (List.length h)) need)
    | None => (h ++ [xs ++ repeat None (grow 0 need)], MSlice (Some (List.length h)) need)
    end.

(** [MuxHandler] (gofre.go 93-98); the router and the configuration are shared by
    all muxes and left out here. *)
Record mux := Mux { mx_prefix : bytes; mx_common : mslice }.

(** All muxes made so far, the handle of a mux is its number, and the heap. *)
Record mstate := MState { ms_muxes : list mux; ms_heap : mheap }.

(** The mux that [NewMuxHandler] returns (gofre.go 134-137): no prefix, no
    middlewares. *)
Definition new_mux : mstate := MState [Mux [] nil_slice] [].

(** [NewMuxHandler] (gofre.go 120-138) with the defaults of [Config.setDefaults]
    (75-78) and [ResourcesConfig.setDefaults] (50-52): the mux, and the pattern under
    which the static resources are registered if there is a resources
    configuration, of which the mapping path is given. *)
Definition new_mux_handler (context_path : bytes) (mapping : option bytes) : mstate * option bytes :=
  let context := if Nat.eqb (List.length context_path) 0 then str "/" else context_path in
  (new_mux,
   match mapping with
   | None => None
   | Some a =>
       let assets := if Nat.eqb (List.length a) 0 then str "assets" else a in
       let c := if beqb context (str "/") then [] else context in
       Some (c ++ str "/" ++ assets ++ str "/**")
   end).

(** [resolvePath] (gofre.go 301-317). *)
Definition resolve_path (prefix path : bytes) : bytes :=
  match prefix with
  | [] => path
  | _ :: _ =>
      match path with
      | [] => prefix
      | c :: rest =>
          let ends := Ascii.eqb (last prefix "a"%char) "/"%char in
          let starts := Ascii.eqb c "/"%char in
          if ends && starts then prefix ++ rest
          else if negb ends && negb starts then prefix ++ "/"%char :: path
          else prefix ++ path
      end
  end.

(** The calls a program can make on the mux with number [m]. *)
Inductive mcall :=
| CClone (m : nat)
| CRoute (m : nat) (prefix : bytes)
| CCommon (m : nat) (xs : list mref)
| CHandle (m : nat) (method path : bytes) (own : list mref) (h : nat).

(** What a call gives: a mux, nothing, or a registration on the router: the method,
    the path, the middlewares in the order in which they are wrapped around the
    handler, common ones first, and the handler.  A number that is no mux is not a
    call a program can make. *)
Inductive mgives :=
| GMux (m : nat)
| GNothing
| GReg (method path : bytes) (common own : list mref) (h : nat)
| GNoMux.

Definition add_mux (st : mstate) (h : mheap) (x : mux) : mstate * mgives :=
  (MState (ms_muxes st ++ [x]) h, GMux (List.length (ms_muxes st))).

(** [Clone] (gofre.go 155-162), [RouteUsingPathPrefix] (166-176),
    [CommonMiddlewares] (179-183), [HandleRequest] (296-299). *)
Definition mcall_step (grow : nat -> nat -> nat) (st : mstate) (c : mcall) : mstate * mgives :=
  match c with
  | CClone m =>
      match nth_error (ms_muxes st) m with
      | None => (st, GNoMux)
      | Some x =>
          let (h, s) := append grow (ms_heap st) nil_slice (elems (ms_heap st) (mx_common x)) in
          add_mux st h (Mux (mx_prefix x) s)
      end
  | CRoute m prefix =>
      match nth_error (ms_muxes st) m with
      | None => (st, GNoMux)
      | Some x =>
          if Nat.eqb (List.length prefix) 0 || beqb prefix (mx_prefix x) then (st, GMux m)
          else
            let (h, s) := append grow (ms_heap st) nil_slice (elems (ms_heap st) (mx_common x)) in
            add_mux st h (Mux (resolve_path (mx_prefix x) prefix) s)
      end
  | CCommon m xs =>
      match nth_error (ms_muxes st) m with
      | None => (st, GNoMux)
      | Some x =>
          if Nat.ltb 0 (List.length xs)
          then
            let (h, s) := append grow (ms_heap st) (mx_common x) xs in
            (MState (set_nth (ms_muxes st) m (Mux (mx_prefix x) s)) h, GNothing)
          else (st, GNothing)
      end
  | CHandle m method path own h =>
      match nth_error (ms_muxes st) m with
      | None => (st, GNoMux)
      | Some x =>
          (st, GReg method (resolve_path (mx_prefix x) path) (elems (ms_heap st) (mx_common x)) own h)
      end
  end.

Fixpoint mcalls (grow : nat -> nat -> nat) (st : mstate) (cs : list mcall) : mstate * list mgives :=
  match cs with
  | [] => (st, [])
  | c :: cs' =>
      let (st1, g) := mcall_step grow st c in
      let (st2, gs) := mcalls grow st1 cs' in
      (st2, g :: gs)
  end.
