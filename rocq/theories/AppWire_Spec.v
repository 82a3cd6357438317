(** * What a whole program registers and which handler a request is for *)
From Coq Require Import List NArith ZArith Ascii String Bool.
From Verif Require Import GoBase Http_Model Url_Model Pattern_Model Match_Model Router_Model Chain_Model Serve_Model Mux_Model Resp_Model Cors_Model App_Model
  Chain_Spec Mux_Spec Pattern_Spec Url_Spec Routing_Spec Priority_Spec Choice_Spec App_Spec.
Import ListNotations.
Local Open Scope string_scope.
Local Open Scope list_scope.
Local Open Scope nat_scope.

(** A registration: the method, the whole pattern, and what it leads to. *)
Record wired := Wired { wr_method : bytes; wr_path : bytes; wr_entry : entry }.

(** [wire vs c vs' rs]: with the muxes [vs], the call [c] makes the registrations [rs]
    and leaves the muxes [vs'].  Prefixes that are empty or repeated are left out (C26). *)
Inductive wire : list vmux -> acall -> list vmux -> list wired -> Prop :=
| wi_mux : forall vs c vs' m, value_step vs c vs' (GMux m) -> ~ idle_prefix vs c -> wire vs (AMux c) vs' []
| wi_common : forall vs c vs', value_step vs c vs' GNothing -> wire vs (AMux c) vs' []
| wi_handle : forall vs c vs' method path common own h, value_step vs c vs' (GReg method path common own h) ->
    wire vs (AMux c) vs' [Wired method path (Entry common own (TUser h))]
| wi_debug : forall vs m x rs, nth_error vs m = Some x ->
    Forall2 (fun pd w => wr_method w = str "GET" /\ joined (vm_prefix x) (fst pd) (wr_path w) /\
      wr_entry w = Entry [] [] (TDebug (match snd pd with POther d => d | _ => DIndex end))) endpoints rs ->
    wire vs (ADebug m) vs rs.

Inductive wires : list vmux -> list acall -> list wired -> Prop :=
| ws_end : forall vs, wires vs [] []
| ws_more : forall vs c vs' rs cs rs', wire vs c vs' rs -> wires vs' cs rs' -> wires vs (c :: cs) (rs ++ rs').

(** The directory of the static resources in URLs, and what is registered for them. *)
Inductive resource_dir : bytes -> bytes -> bytes -> Prop :=
| rd : forall context mapping c a,
    ((context = [] \/ context = str "/") /\ c = []) \/ (context <> [] /\ context <> str "/" /\ c = context) ->
    (mapping = [] /\ a = str "assets") \/ (mapping <> [] /\ a = mapping) ->
    resource_dir context mapping (c ++ "/"%char :: a ++ str "/").
Inductive resources : bytes -> option bytes -> list wired -> Prop :=
| rs_none : forall context, resources context None []
| rs_some : forall context mapping dir, resource_dir context mapping dir ->
    resources context (Some mapping) [Wired (str "GET") (dir ++ str "**") (Entry [] [] (TStatic dir))].

(** A program that starts without a panic. *)
Definition smooth (x : option handle_end) : Prop := x = None \/ x = Some Registered.

(** The registrations in numbers that this code can count (C06, C10). *)
Definition ordinary (re : engine) (ci : bool) (rs : list wired) : Prop :=
  (N.of_nat (List.length rs) < 65536)%N /\
  Forall (fun w => countable (re_ok re) ci (wr_path w) /\ plain (re_ok re) ci (wr_path w)) rs.

(** The registrations for a method, with their pieces. *)
Definition leads (re : engine) (ci : bool) (rs : list wired) (mth : bytes) (i : nat) (w : wired) (ks : list piece) : Prop :=
  nth_error rs i = Some w /\ same_method (wr_method w) mth /\ pieces_of (re_ok re) ci (wr_path w) ks.
Definition as_routes (re : engine) (ci : bool) (rs : list wired) (mth : bytes) : reg -> list piece -> Prop :=
  fun rg ks => exists i w, rg = (wr_method w, wr_path w, i) /\ leads re ci rs mth i w ks.

(** The conditions of C11 and C12. *)
Definition clear_choice (re : engine) (ci : bool) (rs : list wired) (mth : bytes) (ts : list bytes) : Prop :=
  (forall i w ks, leads re ci rs mth i w ks ->
     List.length ks <= 19 /\ any_only_last ks /\ calm_on ci ts ks /\ not_cut ci (re_match re) (as_routes re ci rs mth) ts ks) /\
  (forall i1 w1 ks1 bs1 i2 w2 ks2 bs2, leads re ci rs mth i1 w1 ks1 -> leads re ci rs mth i2 w2 ks2 ->
     reads_as ci (re_match re) ks1 ts bs1 -> reads_as ci (re_match re) ks2 ts bs2 -> same_globs ci ks1 ks2).

(** The path variables that the handler sees are these. *)
Definition sees (mc : mctx) (q : request) (bs : list (bytes * bytes)) : Prop :=
  mc_method mc = xq_method (rq_x q) /\ mc_path mc = rq_path q /\
  forall name, mc_var mc name = Some (match value_of name bs with Some v => v | None => [] end).

(** The request is answered by the registration: its middlewares, the common ones
    outside, around its handler. *)
Definition answered_by {W : Type} (user : nat -> handler areq response W) mid files pages (send1 : response -> wout * base)
    (e : entry) (x : ctx) (q : request) (mc : mctx) (w : W) (evs : list (sevent response)) (w' : W) (b : base) (fin : send) : Prop :=
  exists inner outer, does user files pages (en_target e) inner /\ nested inner (present (map (option_map mid) (en_common e ++ en_own e))) outer /\
    answers send1 (snd (outer x (AReq q mc) w)) (fst (outer x (AReq q mc) w)) evs w' b fin.
