(** * Model of requests that build a security header at the same time
    (middleware/security.go 36-49 and 60-71).

    [getHeaderValue] and [getAntiClickJackingHeaderValue] keep the text in the field
    [headerValue] without a lock.  A string is two words, the address of its bytes and
    its length; a write of a string is a write of both words, and the Go memory model
    does not forbid others to see one without the other.  Which word is written first
    is the choice of the compiler.

    Simplifications: single words are read and written at once, in program order; an
    address stands for the bytes behind it. *)
From Coq Require Import List NArith ZArith Ascii String Bool Arith.
From Verif Require Import GoBase CacheRace_Model.
Import ListNotations.
Local Open Scope list_scope.
Local Open Scope nat_scope.

(** The field: the bytes behind the address, none for the nil address; the length. *)
Record word2 := Word2 { w_data : option bytes; w_len : nat }.
Definition empty_field : word2 := Word2 None 0.

(** Where a request is: before the comparison with the empty string (line 37, 61), which
    reads the length; in front of the first and the second write (line 46, 68); in front
    of the read of the address and of the length (line 48, 70); done with a string. *)
Inductive tpc := TCheck | TFirst | TSecond | TData | TLen (data : option bytes) | TDone (s : word2).

(** One step; [text] is what the configuration asks for (lines 38-45, 62-67). *)
Definition torn_step (len_first : bool) (text : bytes) (f : word2) (pc : tpc) : word2 * tpc :=
  let put_len := Word2 (w_data f) (List.length text) in
  let put_data := Word2 (Some text) (w_len f) in
  match pc with
  | TCheck => (f, if w_len f =? 0 then TFirst else TData)
  | TFirst => (if len_first then put_len else put_data, TSecond)
  | TSecond => (if len_first then put_data else put_len, TData)
  | TData => (f, TLen (w_data f))
  | TLen d => (f, TDone (Word2 d (w_len f)))
  | TDone s => (f, TDone s)
  end.

(** Requests at the same time; a schedule names who makes the next step. *)
Fixpoint torn_run (len_first : bool) (text : bytes) (f : word2) (ts : list tpc) (schedule : list nat) : word2 * list tpc :=
  match schedule with
  | [] => (f, ts)
  | i :: rest =>
      match nth_error ts i with
      | None => torn_run len_first text f ts rest
      | Some pc => let (f', pc') := torn_step len_first text f pc in torn_run len_first text f' (set_nth i pc' ts) rest
      end
  end.

(** What a string says when it is written to the client: the bytes behind the address up
    to the length, or none where there are not so many: the process ends with a
    memory fault. *)
Definition reads_as (s : word2) : option bytes :=
  match w_len s, w_data s with
  | O, _ => Some []
  | S _, None => None
  | n, Some d => if n <=? List.length d then Some (firstn n d) else None
  end.
