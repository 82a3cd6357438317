(** * Model of event streams over time: the loop of [HttpSSEResponse.Write] against a
    generator that runs in its own goroutine (response/sse.go 62-104), and the goroutine
    of the example (examples/cmd.go 103-126). *)
From Coq Require Import List NArith ZArith Ascii String Bool.
From Verif Require Import GoBase Resp_Model.
Import ListNotations.
Local Open Scope list_scope.

(** What the goroutine behind a channel does next: something of its own, send, or close
    the channel. *)
Inductive pact := PTau | PSend (e : event) | PClose.

(** An [EventGenerator] (sse.go 62): the state of its goroutine for a last event id, and
    its steps, which may depend on whether the context is done.  The channel has no
    buffer.  Sending on a closed channel or closing it twice, which panics, is left out. *)
Record generator := Generator {
  gn_state : Type;
  gn_start : bytes -> gn_state;
  gn_step : bool -> gn_state -> pact -> gn_state -> Prop
}.

(** Where the loop of [Write] (sse.go 91-101) is: waiting for the channel, with an event
    before the [select], or behind the loop. *)
Inductive wstate := WWait | WGot (e : event) | WEnd.

(** The goroutine, whether the channel is closed, the loop, and whether the context of the
    request is done. *)
Record stream (g : generator) := Stream { sm_gen : gn_state g; sm_closed : bool; sm_write : wstate; sm_done : bool }.
Arguments Stream {g}. Arguments sm_gen {g}. Arguments sm_closed {g}. Arguments sm_write {g}. Arguments sm_done {g}.

Inductive label := LOwn | LGive (e : event) | LClose | LWrite (e : event) | LEnd | LLeave.

(** The steps.  The context gets done when the client leaves, and when [Write] has
    returned (net/http); that may be at any time. *)
Inductive sstep {g : generator} : stream g -> label -> stream g -> Prop :=
| ss_own : forall p p' c w d, gn_step g d p PTau p' -> sstep (Stream p c w d) LOwn (Stream p' c w d)
| ss_give : forall p p' e d, gn_step g d p (PSend e) p' -> sstep (Stream p false WWait d) (LGive e) (Stream p' false (WGot e) d)
| ss_close : forall p p' w d, gn_step g d p PClose p' -> sstep (Stream p false w d) LClose (Stream p' true w d)
| ss_closed : forall p d, sstep (Stream p true WWait d) LEnd (Stream p true WEnd d)
| ss_done : forall p c e, sstep (Stream p c (WGot e) true) LEnd (Stream p c WEnd true)
| ss_write : forall p c e, sstep (Stream p c (WGot e) false) (LWrite e) (Stream p c WWait false)
| ss_fail : forall p c e, sstep (Stream p c (WGot e) false) LEnd (Stream p c WEnd false)
| ss_leave : forall p c w, sstep (Stream p c w false) LLeave (Stream p c w true).

Inductive sruns {g : generator} : stream g -> list label -> stream g -> Prop :=
| sr_nil : forall s, sruns s [] s
| sr_cons : forall s l s1 ls s2, sstep s l s1 -> sruns s1 ls s2 -> sruns s (l :: ls) s2.

(** The stream when the loop begins. *)
Definition begin (g : generator) (last : bytes) : stream g := Stream (gn_start g last) false WWait false.

(** The goroutine of the example (cmd.go 109-123): waiting in the [select], at the send,
    at the deferred close, and behind it.  Which events come is open.  A [select] with
    both channels ready takes either. *)
Inductive tstate := TSelect | TSend (e : event) | TClosing | TEnded.
Inductive tstep : bool -> tstate -> pact -> tstate -> Prop :=
| ts_none : forall d, tstep d TSelect PTau TSelect
| ts_event : forall d e, tstep d TSelect PTau (TSend e)
| ts_done : tstep true TSelect PTau TClosing
| ts_send : forall d e, tstep d (TSend e) (PSend e) TSelect
| ts_close : forall d, tstep d TClosing PClose TEnded.
Definition ticking : generator := Generator tstate (fun _ => TSelect) tstep.
