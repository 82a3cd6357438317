(** * The event stream format (HTML standard, section server-sent events), on bytes *)
From Coq Require Import List NArith ZArith Ascii String Bool.
From Verif Require Import GoBase Resp_Model.
Import ListNotations.
Local Open Scope string_scope.
Local Open Scope list_scope.

Definition lf : byte := ascii_of_N 10.
Definition cr : byte := ascii_of_N 13.
Definition nul : byte := ascii_of_N 0.

(** The complete lines of a stream; a line ends with LF, CR or CR LF.  [cur] is the
    current line, reversed; [skip] tells that an LF right here belongs to the CR before
    it. *)
Fixpoint lines_from (cur : bytes) (skip : bool) (s : bytes) : list bytes :=
  match s with
  | [] => []
  | c :: s' =>
      if Ascii.eqb c lf then if skip then lines_from [] false s' else rev cur :: lines_from [] false s'
      else if Ascii.eqb c cr then rev cur :: lines_from [] true s'
      else lines_from (c :: cur) false s'
  end.
Definition stream_lines (s : bytes) : list bytes := lines_from [] false s.

(** A dispatched event: type, data, last event id. *)
Record got := Got { got_type : bytes; got_data : bytes; got_id : bytes }.

(** The state of the reader: data buffer, event type buffer, last event id buffer,
    reconnection time, dispatched events. *)
Record reader := Reader { rd_data : bytes; rd_type : bytes; rd_id : bytes; rd_retry : option N; rd_got : list got }.
Definition reader_start : reader := Reader [] [] [] None [].

(** The value of a text of ASCII digits. *)
Fixpoint decimal_from (n : N) (s : bytes) : option N :=
  match s with
  | [] => Some n
  | c :: s' =>
      if ((48 <=? N_of_ascii c) && (N_of_ascii c <=? 57))%N
      then decimal_from (10 * n + (N_of_ascii c - 48)) s' else None
  end.
Definition decimal (s : bytes) : option N := match s with [] => None | _ => decimal_from 0 s end.

(** Field name and value of a line: up to and after the first colon, one space after
    the colon is not part of the value. *)
Fixpoint line_field (s : bytes) : bytes * option bytes :=
  match s with
  | [] => ([], None)
  | c :: s' => if Ascii.eqb c ":"%char then ([], Some s') else let (f, v) := line_field s' in (c :: f, v)
  end.
Definition field_value (v : option bytes) : bytes :=
  match v with
  | None => []
  | Some (c :: s) => if Ascii.eqb c " "%char then s else c :: s
  | Some [] => []
  end.

Definition read_line (r : reader) (line : bytes) : reader :=
  match line with
  | [] =>
      match rd_data r with
      | [] => Reader [] [] (rd_id r) (rd_retry r) (rd_got r)
      | d => Reader [] [] (rd_id r) (rd_retry r)
               (rd_got r ++ [Got (match rd_type r with [] => str "message" | t => t end) (removelast d) (rd_id r)])
      end
  | _ =>
      let (f, v0) := line_field line in
      let v := field_value v0 in
      if beqb f (str "event") then Reader (rd_data r) v (rd_id r) (rd_retry r) (rd_got r)
      else if beqb f (str "data") then Reader (rd_data r ++ v ++ [lf]) (rd_type r) (rd_id r) (rd_retry r) (rd_got r)
      else if beqb f (str "id") then
        if existsb (Ascii.eqb nul) v then r else Reader (rd_data r) (rd_type r) v (rd_retry r) (rd_got r)
      else if beqb f (str "retry") then
        match decimal v with
        | Some n => Reader (rd_data r) (rd_type r) (rd_id r) (Some n) (rd_got r)
        | None => r
        end
      else r
  end.

(** Reading a whole stream: a client that has received exactly these bytes. *)
Definition read_stream (s : bytes) : reader := fold_left read_line (stream_lines s) reader_start.

(** ** What should be received *)

(** One event after another, [id] being the last id that was not empty. *)
Fixpoint expected (id : bytes) (l : list event) : list got :=
  match l with
  | [] => []
  | e :: l' =>
      let id' := match ev_id e with [] => id | i => i end in
      match ev_data e with
      | [] => expected id' l'
      | ds => Got (match ev_name e with [] => str "message" | n => n end) (join [lf] ds) id' :: expected id' l'
      end
  end.
Fixpoint expected_retry (t : option N) (l : list event) : option N :=
  match l with
  | [] => t
  | e :: l' => expected_retry (if (0 <? ev_retry e)%Z then Some (Z.to_N (ev_retry e)) else t) l'
  end.

(** Texts that fit on a line. *)
Definition on_line (s : bytes) : Prop := ~ In lf s /\ ~ In cr s.
Definition plain_event (e : event) : Prop :=
  on_line (ev_name e) /\ on_line (ev_id e) /\ ~ In nul (ev_id e) /\ (forall d, In d (ev_data e) -> on_line d).
