(** * Model of matching contexts in the hands of middlewares and handlers

    handler/handler.go 12 and middleware/middleware.go 8: a [path.MatchingContext]
    (router/path/matching_context.go 29-33) is passed by value, so that each middleware has
    its own copy, but the request and the array of the segments are reached by pointers.
    Kept are the path of the URL of a request and the segments; the fields of a segment are
    private, so that other packages can reset, copy and cut segments only. *)
From Coq Require Import List NArith Ascii String Bool Arith.
From Verif Require Import GoBase Pattern_Model Url_Model.
Import ListNotations.
Local Open Scope list_scope.
Local Open Scope nat_scope.

(** A matching context: which URL, which pattern, and which part of which array. *)
Record mvalue := MValue { mv_url : nat; mv_pattern : option pattern; mv_array : nat; mv_off : nat; mv_len : nat }.

(** The URLs' paths, the arrays, and the contexts that exist. *)
Record memory := Memory { me_urls : list bytes; me_arrays : list (list useg); me_contexts : list mvalue }.

(** What is done with the contexts: passing a copy on, [Clone] (matching_context.go 35-51),
    another request with a URL of its own ([mc.R = r2]), a new path in the URL
    ([mc.R.URL.Path = t]), other bounds ([mc.PathSegments = mc.PathSegments[lo:hi]]),
    [UrlSegment.Reset] (23-27) of a segment, an assignment between segments, [PathVar]. *)
Inductive deed :=
| Pass (i : nat)
| CloneOf (i : nat)
| OtherRequest (i : nat) (t : bytes)
| SetPath (i : nat) (t : bytes)
| Cut (i lo hi : nat)
| ResetAt (i k : nat)
| CopySegment (i k j l : nat)
| Ask (i : nat) (name : bytes).

Definition put_at {A : Type} (i : nat) (x : A) (l : list A) : list A := firstn i l ++ x :: skipn (S i) l.

(** [mc.PathSegments]. *)
Definition segments_at (m : memory) (c : mvalue) : list useg :=
  firstn (mv_len c) (skipn (mv_off c) (nth (mv_array c) (me_arrays m) [])).

(** An assignment to [mc.PathSegments[k]]; an index out of range is a panic, which changes
    nothing. *)
Definition assign_segment (m : memory) (c : mvalue) (k : nat) (u : useg) : memory :=
  if k <? List.length (segments_at m c) then
    Memory (me_urls m) (put_at (mv_array c) (put_at (mv_off c + k) u (nth (mv_array c) (me_arrays m) [])) (me_arrays m)) (me_contexts m)
  else m.

(** One of these, with what [PathVar] gave ([Some None] if it panicked). *)
Definition do_deed (m : memory) (d : deed) : memory * option (option bytes) :=
  let ctx i := nth_error (me_contexts m) i in
  match d with
  | Pass i =>
      match ctx i with Some c => (Memory (me_urls m) (me_arrays m) (me_contexts m ++ [c]), None) | None => (m, None) end
  | CloneOf i =>
      match ctx i with
      | Some c =>
          let s := segments_at m c in
          (Memory (me_urls m) (me_arrays m ++ [s]) (me_contexts m ++ [MValue (mv_url c) (mv_pattern c) (List.length (me_arrays m)) 0 (List.length s)]), None)
      | None => (m, None)
      end
  | OtherRequest i t =>
      match ctx i with
      | Some c =>
          (Memory (me_urls m ++ [t]) (me_arrays m)
             (put_at i (MValue (List.length (me_urls m)) (mv_pattern c) (mv_array c) (mv_off c) (mv_len c)) (me_contexts m)), None)
      | None => (m, None)
      end
  | SetPath i t =>
      match ctx i with
      | Some c => (Memory (put_at (mv_url c) t (me_urls m)) (me_arrays m) (me_contexts m), None)
      | None => (m, None)
      end
  | Cut i lo hi =>
      match ctx i with
      | Some c =>
          if (lo <=? hi) && (hi <=? List.length (nth (mv_array c) (me_arrays m) []) - mv_off c) then
            (Memory (me_urls m) (me_arrays m)
               (put_at i (MValue (mv_url c) (mv_pattern c) (mv_array c) (mv_off c + lo) (hi - lo)) (me_contexts m)), None)
          else (m, None)
      | None => (m, None)
      end
  | ResetAt i k =>
      match ctx i with Some c => (assign_segment m c k useg_zero, None) | None => (m, None) end
  | CopySegment i k j l =>
      match ctx i, ctx j with
      | Some c, Some c' =>
          match nth_error (segments_at m c') l with Some u => (assign_segment m c k u, None) | None => (m, None) end
      | _, _ => (m, None)
      end
  | Ask i name =>
      match ctx i with
      | Some c => (m, Some (path_var (mv_pattern c) (nth (mv_url c) (me_urls m) []) (segments_at m c) name))
      | None => (m, None)
      end
  end.
Definition do_deeds (m : memory) (l : list deed) : memory := fold_left (fun m d => fst (do_deed m d)) l m.

(** What the router passes to the first middleware (router/router.go 79-94): the request and
    the segments in the buffer of the pool. *)
Definition routed (p : option pattern) (path : bytes) (segs rest : list useg) : memory :=
  Memory [path] [segs ++ rest] [MValue 0 p 0 0 (List.length segs)].
