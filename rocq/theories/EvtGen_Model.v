(** * Model of the event source of the example (examples/evtgen.go, examples/cmd.go
    101-127): one ring buffer that all clients read from. *)
From Coq Require Import List NArith ZArith Ascii String Bool Arith.
From Verif Require Import GoBase Mux_Model Auth_Model Resp_Model.
Import ListNotations.
Local Open Scope string_scope.
Local Open Scope list_scope.
Local Open Scope Z_scope.

(** [EventGenerator] (evtgen.go 11-15).  The counters are int64; that they pass 2^63 by
    counting, one a second, is left out. *)
Record egen := EGen { eg_read : Z; eg_write : Z; eg_list : list event }.
Definition cap (g : egen) : Z := Z.of_nat (List.length (eg_list g)).

(** [strconv.Atoi] (standard library): a sign or none, digits, and an int64. *)
Fixpoint digits_value (s : bytes) (n : N) : option N :=
  match s with
  | [] => Some n
  | c :: s' => if is_digit c then digits_value s' (n * 10 + (code c - 48))%N else None
  end.
Definition number (s : bytes) : option N := match s with [] => None | _ => digits_value s 0 end.
Definition in_int64 (z : Z) : option Z := if (- 2 ^ 63 <=? z) && (z <? 2 ^ 63) then Some z else None.
Definition atoi (s : bytes) : option Z :=
  match s with
  | c :: s' =>
      if Ascii.eqb c "-"%char then match number s' with Some n => in_int64 (- Z.of_N n) | None => None end
      else if Ascii.eqb c "+"%char then match number s' with Some n => in_int64 (Z.of_N n) | None => None end
      else match number s with Some n => in_int64 (Z.of_N n) | None => None end
  | [] => None
  end.

(** The event with a number (evtgen.go 54-59). *)
Definition message (n : Z) : event := Event (str "message") (itoa_z n) [str "message " ++ itoa_z n] 0.
(** The value of a slot that nothing has been written to. *)
Definition no_event : event := Event [] [] [] 0.

(** Where the goroutine of a client is in [Next] (evtgen.go 23-34): outside, behind the
    first load, behind the comparison, and behind the read of the slot. *)
Inductive phase := POutside | PLoaded (ri : Z) | PSlot (ri : Z) | PRead (e : event).
(** A client: the goroutine that serves it, and the events it got. *)
Record client := Client { cl_phase : phase; cl_got : list event }.

(** The generator, whether [push] (evtgen.go 17-21) is between the slot and the counter,
    the clients, and whether the process has ended by a panic; the goroutines have no
    recover. *)
Record esys := ESys { es_gen : egen; es_stored : bool; es_clients : nat -> client; es_crashed : bool }.

(** [NewEventGenerator] (evtgen.go 40-65). *)
Definition esys_new (n : nat) : esys := ESys (EGen 0 0 (repeat no_event n)) false (fun _ => Client POutside []) false.

Definition set_client (f : nat -> client) (i : nat) (c : client) : nat -> client := fun j => if Nat.eqb j i then c else f j.

(** Steps.  The atomic operations are steps of their own; so is the read of a slot, which
    is not synchronised with [push] (a mixture of two events is left out).  [EConnect]
    stands for a request with the header Last-Event-Id (cmd.go 104-106). *)
Inductive eact := EStore | EBump | EConnect (i : nat) (last : bytes) | ELoad (i : nat) | ECompare (i : nat) | EFetch (i : nat) | EAdvance (i : nat).

Definition edo (s : esys) (a : eact) : option esys :=
  let g := es_gen s in
  let phase_of i := cl_phase (es_clients s i) in
  let to i p := ESys g (es_stored s) (set_client (es_clients s) i (Client p (cl_got (es_clients s i)))) false in
  let crash := ESys g (es_stored s) (es_clients s) true in
  if es_crashed s then None else
  match a with
  | EStore => if es_stored s then None
      else if cap g =? 0 then Some crash
      else Some (ESys (EGen (eg_read g) (eg_write g) (set_nth (eg_list g) (Z.to_nat (Z.rem (eg_write g) (cap g))) (message (eg_write g + 1))))
                  true (es_clients s) false)
  | EBump => if es_stored s then Some (ESys (EGen (eg_read g) (eg_write g + 1) (eg_list g)) false (es_clients s) false) else None
  | EConnect i last =>
      match phase_of i with
      | POutside =>
          let g' := match atoi last with Some n => EGen n (eg_write g) (eg_list g) | None => g end in
          Some (ESys g' (es_stored s) (es_clients s) false)
      | _ => None
      end
  | ELoad i => match phase_of i with POutside => Some (to i (PLoaded (eg_read g))) | _ => None end
  | ECompare i => match phase_of i with PLoaded ri => Some (to i (if eg_write g <=? ri then POutside else PSlot ri)) | _ => None end
  | EFetch i =>
      match phase_of i with
      | PSlot ri =>
          if (cap g =? 0) || (Z.rem ri (cap g) <? 0) then Some crash
          else Some (to i (PRead (nth (Z.to_nat (Z.rem ri (cap g))) (eg_list g) no_event)))
      | _ => None
      end
  | EAdvance i =>
      match phase_of i with
      | PRead e => Some (ESys (EGen (eg_read g + 1) (eg_write g) (eg_list g)) (es_stored s)
                          (set_client (es_clients s) i (Client POutside (cl_got (es_clients s i) ++ [e]))) false)
      | _ => None
      end
  end.

Fixpoint erun (s : esys) (l : list eact) : option esys :=
  match l with
  | [] => Some s
  | a :: l' => match edo s a with Some s' => erun s' l' | None => None end
  end.
