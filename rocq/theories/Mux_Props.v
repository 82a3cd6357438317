(** * Properties C25, C26 and C59: prefixes, common middlewares, context path

    [grow] is the growth of slice capacities, chosen by the run time. *)
From Coq Require Import List Ascii String NArith Arith.
From Verif Require Import GoBase Mux_Model Mux_Spec Mux_Proofs.
Import ListNotations.
Local Open Scope string_scope.
Local Open Scope list_scope.
Local Open Scope nat_scope.

(** C25 is false: a prefix that equals the prefix of the mux is lost. *)
Theorem C25_prefixes_refuted : forall grow, exists ps path method own h st m r common r',
  nest grow new_mux 0 ps = Some (st, m) /\
  snd (mcall_step grow st (CHandle m method path own h)) = GReg method r common own h /\
  prefixed (ps ++ [path]) r' /\ r <> r'.
Proof. exact (@same_prefix_lost). Qed.
Print Assumptions C25_prefixes_refuted.

(** C25, what holds: a handler registered through nested prefixes is registered
    under their concatenation with exactly one slash at every joint.  Missing: a
    prefix that equals the concatenation of all prefixes before it. *)
Theorem C25_prefixes_partial : forall grow ps method path own h,
  (forall ps1 p ps2 a, ps = ps1 ++ p :: ps2 -> prefixed ps1 a -> p <> [] -> p <> a) ->
  exists st m r common, nest grow new_mux 0 ps = Some (st, m) /\ prefixed (ps ++ [path]) r /\
    snd (mcall_step grow st (CHandle m method path own h)) = GReg method r common own h.
Proof. exact (@prefixes_joined). Qed.
Print Assumptions C25_prefixes_partial.

(** The concatenation is unique. *)
Theorem C25_concatenation_unique : forall ps,
  forall a b, prefixed ps a -> prefixed ps b -> a = b.
Proof. exact (@prefixed_unique). Qed.
Print Assumptions C25_concatenation_unique.

(** Case: three prefixes, with and without slashes. *)
Example C25_case : forall ps1 p ps2 a, [str "/api/"; str "/v1"; str "users"] = ps1 ++ p :: ps2 -> prefixed ps1 a -> p <> [] -> p <> a.
Proof. exact (@prefixes_case). Qed.

Example C25_case_path : exists st m common,
  nest (fun _ n => n) new_mux 0 [str "/api/"; str "/v1"; str "users"] = Some (st, m) /\
  snd (mcall_step (fun _ n => n) st (CHandle m (str "GET") [] [] 1)) = GReg (str "GET") (str "/api/v1/users") common [] 1.
Proof. exact (@prefixes_case_path). Qed.

(** C26 is false: a middleware added to the mux made by RouteUsingPathPrefix applies
    to a handler registered on the other mux if the prefix is the one it has
    already. *)
Theorem C26_isolation_refuted : forall grow, exists cs m1 m2 path common own h,
  cs = [CRoute 0 (str "/v1"); CRoute 1 (str "/v1"); CCommon m2 [Some 7]; CHandle m1 (str "GET") path own h] /\
  snd (mcalls grow new_mux cs) = [GMux m1; GMux m2; GNothing; GReg (str "GET") (str "/v1/x") common own h] /\
  In (Some 7) common.
Proof. exact (@same_prefix_shared). Qed.
Print Assumptions C26_isolation_refuted.

(** C26 is false with an empty prefix too: the calls differ from the value
    semantics of the specification. *)
Theorem C26_isolation_empty_refuted : forall grow, exists cs ms gs,
  value_run [VMux [] []] cs ms gs /\ snd (mcalls grow new_mux cs) <> gs.
Proof. exact (@empty_prefix_shared). Qed.
Print Assumptions C26_isolation_empty_refuted.

(** C26, what holds: apart from such prefixes all histories of calls behave as if
    each mux had its own list of middlewares. *)
Theorem C26_values_partial : forall grow cs ms gs,
  value_run [VMux [] []] cs ms gs -> never_idle cs -> snd (mcalls grow new_mux cs) = gs.
Proof. exact (@muxes_are_values). Qed.
Print Assumptions C26_values_partial.

(** C26, what holds: apart from such prefixes, adding middlewares to a mux changes no
    registration on a mux that is not made from it afterwards. *)
Theorem C26_isolation_partial : forall grow pre m xs post ms gs,
  value_run [VMux [] []] (pre ++ CCommon m xs :: post) ms gs ->
  never_idle (pre ++ CCommon m xs :: post) ->
  forall i k method path own h,
    nth_error post i = Some (CHandle k method path own h) ->
    ~ In k (heirs (List.length (ms_muxes (fst (mcalls grow new_mux pre)))) [m] (firstn i post)) ->
    nth_error (snd (mcalls grow new_mux (pre ++ CCommon m xs :: post))) (List.length pre + 1 + i) =
    nth_error (snd (mcalls grow new_mux (pre ++ post))) (List.length pre + i).
Proof. exact (@middlewares_isolated). Qed.
Print Assumptions C26_isolation_partial.

Example C26_case_history : exists ms, value_run [VMux [] []] mux_history ms
  [GNothing; GMux 1; GMux 2; GNothing; GNothing; GReg (str "GET") (str "/v1/x") [Some 1; Some 2; None] [Some 9] 5;
   GReg (str "GET") (str "/x") [Some 1] [] 6].
Proof. exact (@mux_history_run). Qed.

Example C26_case_prefixes : never_idle mux_history.
Proof. exact (@mux_history_calm). Qed.

(** C59 is false: a handler is not registered below the context path. *)
Theorem C59_context_path_refuted : forall grow, exists c path mapping method own h r common r',
  snd (mcall_step grow (fst (new_mux_handler c mapping)) (CHandle 0 method path own h)) = GReg method r common own h /\
  prefixed [c; path] r' /\ r <> r'.
Proof. exact (@context_path_ignored). Qed.
Print Assumptions C59_context_path_refuted.

(** C59, what holds: the static resources are below the context path. *)
Theorem C59_context_path_assets_partial : forall c a st p,
  c <> [] -> a <> [] -> hd "a"%char a <> "/"%char -> last a "a"%char <> "/"%char ->
  (c = str "/" \/ last c "a"%char <> "/"%char) ->
  new_mux_handler c (Some a) = (st, Some p) -> prefixed [c; a; str "**"] p.
Proof. exact (@assets_below). Qed.
Print Assumptions C59_context_path_assets_partial.

Example C59_case : exists st, new_mux_handler (str "/app") (Some (str "files")) = (st, Some (str "/app/files/**")).
Proof. exact (@assets_case). Qed.

