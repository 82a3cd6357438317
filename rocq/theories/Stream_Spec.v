(** * What event streams should do over time. *)
From Coq Require Import List NArith ZArith Ascii String Bool.
From Verif Require Import GoBase Resp_Model Stream_Model.
Import ListNotations.
Local Open Scope list_scope.

(** The events that the generator gave and those that were written, of a run. *)
Definition given (ls : list label) : list event := flat_map (fun l => match l with LGive e => [e] | _ => [] end) ls.
Definition written (ls : list label) : list event := flat_map (fun l => match l with LWrite e => [e] | _ => [] end) ls.

(** The generator never gives an event or closes the channel. *)
Definition mute (g : generator) : Prop := forall d p a p', gn_step g d p a p' -> a = PTau.

(** A generator that does not insist: like that of the example, but it gives up sending
    when the context is done. *)
Inductive pstep : bool -> tstate -> pact -> tstate -> Prop :=
| ps_like : forall d s a s', tstep d s a s' -> pstep d s a s'
| ps_give_up : forall e, pstep true (TSend e) PTau TClosing.
Definition polite : generator := Generator tstate (fun _ => TSelect) pstep.
