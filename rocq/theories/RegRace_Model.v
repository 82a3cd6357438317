(** * Model of a route that is registered while a request is looked up
    (router/path/matcher.go 107-130 and 169-176).

    [AddPattern] adds a child to a node in four steps that a request can come between:
    [append] puts the pointer to the new node behind the others, [sort.SliceStable]
    moves the pointers, [currentNode.children = children] makes them the children of
    the node, and [newNode.maxMatchableSegments] is set last.  When the array of the
    children has room for one more, [append] uses the same array, and what is sorted
    is the array that requests are reading.

    Nodes are pointers: a child is given by its number, the children that the node had
    before are 0, 1, ..., and the new node comes next.

    Simplifications: one node of the tree, the root; the new route has one piece, so
    that nothing is added below the new node; the sorting is one step, and so is the
    loading of the slice [currentNode.children], which is three words; every goroutine
    sees what the others wrote in the order in which it was written.  A request only
    reads, so one request is enough.  The loop in lines 171-176 ends at the first child
    that fits; here it goes on and what it reads then is of no use. *)
From Coq Require Import List NArith ZArith Ascii String Bool Arith.
From Verif Require Import GoBase Sort_Model Pattern_Model Url_Model Match_Model.
Import ListNotations.
Local Open Scope list_scope.
Local Open Scope nat_scope.

(** [newNode] with another [maxMatchableSegments]; it is 0 until line 130. *)
Definition with_max (n : node) (mx : N) : node := Node mx (n_prio n) (n_seg n) (n_pat n) (n_ch n).

(** Where [AddPattern] is: before line 118, 119, 128 and 130, and after it. *)
Inductive wpc := AtAppend | AtSort | AtStore | AtMax | AtEnd.

(** The loop of [Match] over the children: before line 169, or in the loop with the
    slice it has loaded (the number of the array and the length) and the nodes as they
    were when it read them. *)
Inductive lookup := NotBegun | Looking (arr len : nat) (seen : list node).

Record reg := Reg {
  g_arrays : list (list nat);   (* the arrays with the pointers in them *)
  g_head : nat * nat;           (* currentNode.children: array and length *)
  g_mine : nat;                 (* the array of the variable children of AddPattern *)
  g_max : N;                    (* newNode.maxMatchableSegments *)
  g_pc : wpc;
  g_lookup : lookup
}.

Section Steps.
(** The children before, the capacity of their array, and the new node as it is in
    the end. *)
Variable olds : list node.
Variable cap : nat.
Variable fresh : node.

(** The node behind a pointer; all pointers there are point to one of these. *)
Definition node_at (mx : N) (i : nat) : node := nth i (olds ++ [with_max fresh mx]) fresh.

(** The comparison in lines 119-127. *)
Definition ptr_less (i j : nat) : bool := child_less (node_at 0 i) (node_at 0 j).

Definition set_array (l : list (list nat)) (a : nat) (x : list nat) : list (list nat) :=
  firstn a l ++ x :: skipn (S a) l.

(** The next step of [AddPattern] (lines 118, 119-127, 128, 130). *)
Definition reg_step (g : reg) : reg :=
  let n := snd (g_head g) in
  let mine := nth (g_mine g) (g_arrays g) [] in
  match g_pc g with
  | AtAppend =>
      let grown := firstn n (nth (fst (g_head g)) (g_arrays g) []) ++ [List.length olds] in
      if n <? cap
      then Reg (set_array (g_arrays g) (fst (g_head g)) grown) (g_head g) (fst (g_head g)) (g_max g) AtSort (g_lookup g)
      else Reg (g_arrays g ++ [grown]) (g_head g) (List.length (g_arrays g)) (g_max g) AtSort (g_lookup g)
  | AtSort => Reg (set_array (g_arrays g) (g_mine g) (stable ptr_less mine)) (g_head g) (g_mine g) (g_max g) AtStore (g_lookup g)
  | AtStore => Reg (g_arrays g) (g_mine g, S n) (g_mine g) (g_max g) AtMax (g_lookup g)
  | AtMax => Reg (g_arrays g) (g_head g) (g_mine g) (n_max fresh) AtEnd (g_lookup g)
  | AtEnd => g
  end.

(** The next step of the request (lines 169 and 172). *)
Definition lookup_step (g : reg) : reg :=
  let go l := Reg (g_arrays g) (g_head g) (g_mine g) (g_max g) (g_pc g) l in
  match g_lookup g with
  | NotBegun => go (Looking (fst (g_head g)) (snd (g_head g)) [])
  | Looking a len seen =>
      if List.length seen <? len then
        match nth_error (nth a (g_arrays g) []) (List.length seen) with
        | Some i => go (Looking a len (seen ++ [node_at (g_max g) i]))
        | None => g
        end
      else g
  end.

(** A schedule says whose step comes next: [true] for [AddPattern]. *)
Definition reg_run (schedule : list bool) (g : reg) : reg :=
  fold_left (fun g (writer : bool) => if writer then reg_step g else lookup_step g) schedule g.

(** Before the call: one array with the children in it. *)
Definition reg_start : reg :=
  Reg [seq 0 (List.length olds)] (0, List.length olds) 0 0%N AtAppend NotBegun.
End Steps.

(** The node that line 107 makes for a route with one piece, as it is in the end. *)
Definition fresh_node (p : pattern) (s : segment) : node := Node (max_at p 0) (p_prio p) s (Some p) [].

(** What [Match] answers to a request with one segment when it has read these children
    of the root: the root is read once only. *)
Definition lookup_answer (fuel : nat) (re : engine) (m : matcher) (path : bytes) (u : useg) (seen : list node) : match_result :=
  match_path fuel re (Matcher (m_ci m) (m_root m) (set_children (m_trie m) seen)) path [u].
