(** * Threads that recycle objects through pools

    The memory that requests share: objects on a heap and pools of objects
    ([sync.Pool], standard library).  Threads take turns in any order; a turn is one
    step, i.e. one use of a pool or one access to one object. *)
From Coq Require Import List Arith.
Import ListNotations.

Section Machine.
Variables Obj Val Ev : Type.

(** What the [New] function of pool number [n] returns. *)
Variable fresh : nat -> Obj.

(** The rest of a thread (a change can fail, e.g. with an index out of range): take an object from pool [n], put one back, make a new one
    outside of the pools, look at one, change one, show
    something to an observer, get anything from outside, start another thread. *)
Inductive prog :=
| Stop
| Get (n : nat) (k : nat -> prog)
| Put (n l : nat) (k : prog)
| New (o : Obj) (k : nat -> prog)
| Look (l : nat) (f : Obj -> Val) (k : Val -> prog)
| Change (l : nat) (f : Obj -> option Obj) (k : bool -> prog)
| Emit (e : Ev) (k : prog)
| Ask (k : nat -> prog)
| Go (g k : prog).

(** Objects are known by their place on the heap. *)
Record config := Config {
  cf_heap : list Obj;
  cf_pools : nat -> list nat;
  cf_threads : list prog;
  cf_log : list Ev
}.

Definition start : config := Config [] (fun _ => []) [] [].

(** What happens next: thread [t] takes a turn ([c] is the object that the pool picks,
    or the input), a new thread begins, the garbage collector takes an object from a
    pool. *)
Inductive label := Turn (t c : nat) | Begin (p : prog) | Drop (n j : nat).

Fixpoint set_nth {A : Type} (l : list A) (i : nat) (x : A) : list A :=
  match l, i with
  | [], _ => []
  | _ :: l', O => x :: l'
  | y :: l', S i' => y :: set_nth l' i' x
  end.
Fixpoint del_nth {A : Type} (l : list A) (i : nat) : list A :=
  match l, i with
  | [], _ => []
  | _ :: l', O => l'
  | y :: l', S i' => y :: del_nth l' i'
  end.
Definition set_pool (ps : nat -> list nat) (n : nat) (l : list nat) : nat -> list nat :=
  fun n' => if Nat.eqb n' n then l else ps n'.

(** One step; [None] is an access to an object that does not exist. *)
Definition step (a : label) (c : config) : option config :=
  match a with
  | Begin p => Some (Config (cf_heap c) (cf_pools c) (cf_threads c ++ [p]) (cf_log c))
  | Drop n j => Some (Config (cf_heap c) (set_pool (cf_pools c) n (del_nth (cf_pools c n) j)) (cf_threads c) (cf_log c))
  | Turn t x =>
      match nth_error (cf_threads c) t with
      | None | Some Stop => Some c
      | Some (Get n k) =>
          match nth_error (cf_pools c n) x with
          | Some l => Some (Config (cf_heap c) (set_pool (cf_pools c) n (del_nth (cf_pools c n) x)) (set_nth (cf_threads c) t (k l)) (cf_log c))
          | None => Some (Config (cf_heap c ++ [fresh n]) (cf_pools c) (set_nth (cf_threads c) t (k (List.length (cf_heap c)))) (cf_log c))
          end
      | Some (Put n l k) =>
          Some (Config (cf_heap c) (set_pool (cf_pools c) n (l :: cf_pools c n)) (set_nth (cf_threads c) t k) (cf_log c))
      | Some (New o k) =>
          Some (Config (cf_heap c ++ [o]) (cf_pools c) (set_nth (cf_threads c) t (k (List.length (cf_heap c)))) (cf_log c))
      | Some (Look l f k) =>
          match nth_error (cf_heap c) l with
          | None => None
          | Some o => Some (Config (cf_heap c) (cf_pools c) (set_nth (cf_threads c) t (k (f o))) (cf_log c))
          end
      | Some (Change l f k) =>
          match nth_error (cf_heap c) l with
          | None => None
          | Some o =>
              match f o with
              | Some o' => Some (Config (set_nth (cf_heap c) l o') (cf_pools c) (set_nth (cf_threads c) t (k true)) (cf_log c))
              | None => Some (Config (cf_heap c) (cf_pools c) (set_nth (cf_threads c) t (k false)) (cf_log c))
              end
          end
      | Some (Emit e k) => Some (Config (cf_heap c) (cf_pools c) (set_nth (cf_threads c) t k) (cf_log c ++ [e]))
      | Some (Ask k) => Some (Config (cf_heap c) (cf_pools c) (set_nth (cf_threads c) t (k x)) (cf_log c))
      | Some (Go g k) => Some (Config (cf_heap c) (cf_pools c) (set_nth (cf_threads c) t k ++ [g]) (cf_log c))
      end
  end.

Fixpoint steps (l : list label) (c : config) : option config :=
  match l with
  | [] => Some c
  | a :: l' => match step a c with None => None | Some c' => steps l' c' end
  end.

End Machine.
Arguments Stop {Obj Val Ev}. Arguments Get {Obj Val Ev}. Arguments Put {Obj Val Ev}. Arguments New {Obj Val Ev}.
Arguments Look {Obj Val Ev}. Arguments Change {Obj Val Ev}. Arguments Emit {Obj Val Ev}. Arguments Ask {Obj Val Ev}. Arguments Go {Obj Val Ev}.
Arguments Config {Obj Val Ev}. Arguments cf_heap {Obj Val Ev}. Arguments cf_pools {Obj Val Ev}.
Arguments cf_threads {Obj Val Ev}. Arguments cf_log {Obj Val Ev}.
Arguments start {Obj Val Ev}. Arguments Turn {Obj Val Ev}. Arguments Begin {Obj Val Ev}. Arguments Drop {Obj Val Ev}.
Arguments step {Obj Val Ev}. Arguments steps {Obj Val Ev}.
