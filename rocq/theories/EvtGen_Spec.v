(** * What the event source of the example should do. *)
From Coq Require Import List NArith ZArith Ascii String Bool Arith.
From Verif Require Import GoBase Auth_Spec Resp_Model EvtGen_Model.
Import ListNotations.
Local Open Scope string_scope.
Local Open Scope list_scope.
Local Open Scope Z_scope.

(** A text that is a number that fits into 64 bits. *)
Definition says_number (s : bytes) (z : Z) : Prop :=
  - 2 ^ 63 <= z < 2 ^ 63 /\
  exists n, (numeral s n /\ z = Z.of_N n) \/ (exists ds, s = str "+" ++ ds /\ numeral ds n /\ z = Z.of_N n) \/
            (exists ds, s = str "-" ++ ds /\ numeral ds n /\ z = - Z.of_N n).

(** Runs in which a condition holds before each step. *)
Inductive runs_with (P : esys -> eact -> Prop) : esys -> list eact -> esys -> Prop :=
| rw_nil : forall s, runs_with P s [] s
| rw_cons : forall s a s1 l s2, P s a -> edo s a = Some s1 -> runs_with P s1 l s2 -> runs_with P s (a :: l) s2.

(** The first [n] events: named message, numbered from 1, with the number as id and at the
    end of the text. *)
Definition numbered (k : nat) : event := Event (str "message") (itoa_z (Z.of_nat k)) [str "message " ++ itoa_z (Z.of_nat k)] 0.
Definition first_events (n : nat) : list event := map numbered (seq 1 n).

(** One client, which reconnects with the id of the last event it got, or without any, and
    is never behind by as much as the buffer holds. *)
Definition one_client (s : esys) (a : eact) : Prop :=
  eg_write (es_gen s) - eg_read (es_gen s) < cap (es_gen s) /\
  match a with
  | EConnect i last => i = 0%nat /\ ((forall z, ~ says_number last z) \/ exists b e, cl_got (es_clients s 0%nat) = b ++ [e] /\ last = ev_id e)
  | ELoad i | ECompare i | EFetch i | EAdvance i => i = 0%nat
  | EStore | EBump => True
  end.

(** No client connects with such a number. *)
Definition never_from (z : Z -> Prop) (_ : esys) (a : eact) : Prop :=
  match a with EConnect _ last => forall n, says_number last n -> ~ z n | _ => True end.
