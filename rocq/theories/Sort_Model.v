(** * Model of Go's [sort.SliceStable] (package sort, zsortfunc.go of Go 1.19)

    The routing tree sorts the children of a node with it (router/path/matcher.go
    119).  The elements are kept in lists; an index into a part of the slice is
    counted from the beginning of the part.  All midpoints the code takes, such as
    [(a+b) >> 1], are the same when counted that way. *)
From Coq Require Import List Arith Bool.
Import ListNotations.

Section Sorting.
Context {A : Type}.
(** The function the caller passes, on elements instead of indices. *)
Variable less : A -> A -> bool.

(** ** [insertionSort_func] *)

(** One round of the inner loop: the new element is moved to the left as long as
    it is less than its neighbour.  The elements before it are given reversed. *)
Fixpoint insert_left (x : A) (sorted_rev : list A) : list A :=
  match sorted_rev with
  | [] => [x]
  | y :: l => if less x y then y :: insert_left x l else x :: y :: l
  end.
Definition insertion_sort (l : list A) : list A :=
  rev (fold_left (fun acc x => insert_left x acc) l []).

(** ** Binary search, as [symMerge_func] spells it out three times

    [for i < j { h := (i+j) >> 1; if go_right(h) { i = h+1 } else { j = h } }].
    The distance [j - i] is enough fuel. *)
Fixpoint search (fuel : nat) (go_right : nat -> bool) (i j : nat) : nat :=
  match fuel with
  | O => i
  | S f =>
      if i <? j then
        let h := Nat.div2 (i + j) in
        if go_right h then search f go_right (S h) j else search f go_right i h
      else i
  end.

(** [data.Less(i, j)] on the part of the slice given as a list; the indices are
    always inside. *)
Definition less_at (data : list A) (i j : nat) : bool :=
  match nth_error data i, nth_error data j with
  | Some x, Some y => less x y
  | _, _ => false
  end.

(** [data[i:j]]. *)
Definition part (i j : nat) (data : list A) : list A := firstn (j - i) (skipn i data).

(** [rotate_func(data, a, m, b)]: the blocks [data[a:m]] and [data[m:b]] change
    places.  The exchanges of single elements that lead there are not followed. *)
Definition rotate (a m b : nat) (data : list A) : list A :=
  part 0 a data ++ part m b data ++ part a m data ++ part b (length data) data.

(** [symMerge_func(data, a, m, b)] with [a = 0] and [b] the length.  Moving one
    element by swaps with its neighbours is a rotation by one. *)
Fixpoint sym_merge (fuel : nat) (m : nat) (data : list A) : list A :=
  let b := length data in
  match fuel with
  | O => data
  | S f =>
      if m =? 1 then
        let i := search b (fun h => less_at data h 0) m b in
        part 1 i data ++ part 0 1 data ++ part i b data
      else if b - m =? 1 then
        let i := search m (fun h => negb (less_at data m h)) 0 m in
        part 0 i data ++ part m b data ++ part i m data
      else
        let mid := Nat.div2 b in
        let n := mid + m in
        let p := n - 1 in
        let start0 := if mid <? m then n - b else 0 in
        let r0 := if mid <? m then mid else m in
        let start := search b (fun c => negb (less_at data (p - c) c)) start0 r0 in
        let end_ := n - start in
        let data1 := if (start <? m) && (m <? end_) then rotate start m end_ data else data in
        let left := part 0 mid data1 in
        let right := part mid b data1 in
        (if (0 <? start) && (start <? mid) then sym_merge f start left else left) ++
        (if (mid <? end_) && (end_ <? b) then sym_merge f (end_ - mid) right else right)
  end.

(** ** [stable_func]

    The blocks the first loop sorts: 20 elements each, the last one may be
    shorter.  The length is enough fuel. *)
Fixpoint blocks (fuel : nat) (l : list A) : list (list A) :=
  match fuel, l with
  | O, _ => []
  | _, [] => []
  | S f, _ => firstn 20 l :: blocks f (skipn 20 l)
  end.

(** One round of the second loop: neighbouring blocks are merged two by two; a
    last block without a neighbour stays. *)
Fixpoint merge_round (bs : list (list A)) : list (list A) :=
  match bs with
  | x :: y :: bs' => sym_merge (length (x ++ y)) (length x) (x ++ y) :: merge_round bs'
  | _ => bs
  end.

(** The rounds go on while there is more than one block ([blockSize < n]). *)
Fixpoint merge_all (fuel : nat) (bs : list (list A)) : list A :=
  match fuel, bs with
  | _, [] => []
  | _, [x] => x
  | O, _ => concat bs
  | S f, _ => merge_all f (merge_round bs)
  end.

Definition stable (l : list A) : list A :=
  let bs := map insertion_sort (blocks (length l) l) in
  merge_all (length bs) bs.

End Sorting.
