(** * Model of the in-memory cache (cache/cache.go).

    Times are integers (nanoseconds); the calls of [time.Now] are arguments. *)
From Coq Require Import List NArith ZArith Ascii String Bool.
From Verif Require Import GoBase.
Import ListNotations.
Local Open Scope Z_scope.

(** [InMemory] (cache.go 16-18). *)
Definition cache := list (bytes * Z).

(** [NewInMemory] (cache.go 20-22). *)
Definition new_cache : cache := [].

(** [InMemory.Add] (cache.go 24-27). *)
Definition cache_add (c : cache) (now : Z) (key : bytes) (expires_in : Z) : cache := aset key (now + expires_in) c.

(** [InMemory.Remove] (cache.go 29-31). *)
Definition cache_remove (c : cache) (key : bytes) : cache := aremove key c.

(** [InMemory.Contains] (cache.go 33-36). *)
Definition cache_contains (c : cache) (now : Z) (key : bytes) : bool :=
  match alookup key c with
  | Some t => now <? t
  | None => false
  end.

(** The calls on a cache and the cache after a history of calls. *)
Inductive ccall :=
| CAdd (now : Z) (key : bytes) (expires_in : Z)
| CRemove (key : bytes)
| CContains (now : Z) (key : bytes).

Definition cache_step (c : cache) (op : ccall) : cache :=
  match op with
  | CAdd now key d => cache_add c now key d
  | CRemove key => cache_remove c key
  | CContains _ _ => c
  end.
Definition cache_after (ops : list ccall) : cache := fold_left cache_step ops new_cache.
