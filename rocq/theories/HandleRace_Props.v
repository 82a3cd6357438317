(** * Property C143: routes are registered while requests are served *)
From Coq Require Import List NArith ZArith Ascii String Bool Arith.
From Verif Require Import GoBase Pattern_Model Url_Model Match_Model Router_Model Witness_Proofs HandleRace_Model HandleRace_Spec HandleRace_Proofs.
Import ListNotations.
Local Open Scope string_scope.
Local Open Scope list_scope.
Local Open Scope nat_scope.

(** C143 is false: a request during the registration of the first route of a method can end
    the process. *)
Theorem C143_crash_refuted : forall fuel re r rs i j m t h p mth path buf, r_matchers r <> [] -> i <> j ->
  nth_error rs i = Some (call (m, t, h)) -> parse_pattern fuel re t (r_ci r) = POk p -> ~ knows r m ->
  nth_error rs j = Some (request mth path buf) -> List.length buf = 19 ->
  world_run fuel re (r_ci r) (world_start r rs) [i; i; j] = Dead.
Proof. exact race_crash. Qed.
Print Assumptions C143_crash_refuted.

(** So can two registrations of first routes, of one method or of two. *)
Theorem C143_two_refuted : forall fuel re r rs i j m1 t1 h1 p1 m2 t2 h2 p2, i <> j ->
  nth_error rs i = Some (call (m1, t1, h1)) -> parse_pattern fuel re t1 (r_ci r) = POk p1 -> ~ knows r m1 ->
  nth_error rs j = Some (call (m2, t2, h2)) -> parse_pattern fuel re t2 (r_ci r) = POk p2 -> ~ knows r m2 ->
  world_run fuel re (r_ci r) (world_start r rs) [i; j; i; j] = Dead.
Proof. exact race_two. Qed.
Print Assumptions C143_two_refuted.

(** When the process does not end, a route can get lost although its registration returned no
    error: later requests are answered as if there had been only the other registration. *)
Theorem C143_lost_refuted : forall fuel re r rs i j m1 t1 h1 m2 t2 h2, i <> j ->
  nth_error rs i = Some (call (m1, t1, h1)) -> nth_error rs j = Some (call (m2, t2, h2)) ->
  to_upper m1 = to_upper m2 -> ~ knows r m1 ->
  snd (handle fuel re r m1 t1 h1) = Registered -> snd (handle fuel re r m2 t2 h2) = Registered ->
  exists schedule w, world_run fuel re (r_ci r) (world_start r rs) schedule = Alive w /\ ended w i Registered /\ ended w j Registered /\
    (forall k mth path buf, k <> i -> k <> j -> nth_error rs k = Some (request mth path buf) ->
     exists w', world_run fuel re (r_ci r) w [k; k] = Alive w' /\
       got w' k mth path buf (dispatch_request fuel re (fst (handle fuel re r m2 t2 h2)) mth path buf)).
Proof. exact race_lost. Qed.
Print Assumptions C143_lost_refuted.

(** Case: a router with a route for GET, two registrations for POST, five other goroutines.
    The request for [/x] finds nothing under the third schedule. *)
Example C143_case_facts : r_matchers one_route <> [] /\ ~ knows one_route POST /\ knows one_route GET /\
  snd (handle 20 lit_engine one_route POST (str "/x") 1) = Registered /\ snd (handle 20 lit_engine one_route POST (str "/y") 2) = Registered.
Proof. exact busy_facts. Qed.
Example C143_case :
  busy_run [0; 0; 2] = Dead /\ busy_run [0; 1; 0; 1] = Dead /\
  ends (busy_run [0; 1; 0; 0; 0; 1; 1; 1; 2; 2; 3; 3]) = Some [Some Registered; Some Registered; None; None; None; None; None] /\
  hits (busy_run [0; 1; 0; 0; 0; 1; 1; 1; 2; 2; 3; 3]) = Some [None; None; None; Some 2; None; None; None] /\
  hits (busy_run [0; 0; 0; 1; 0; 1; 2; 2; 3; 3]) = Some [None; None; Some 1; Some 2; None; None; None].
Proof. exact busy_runs. Qed.

(** C143, exactly when the process ends: when somebody uses the map while somebody else adds a
    method to it. *)
Theorem C143_exactly_partial : forall fuel re r rs schedule, all_begin rs ->
  (world_run fuel re (r_ci r) (world_start r rs) schedule = Dead <->
   exists before i after w, schedule = before ++ i :: after /\
     world_run fuel re (r_ci r) (world_start r rs) before = Alive w /\ map_clash fuel re (r_ci r) w i).
Proof. exact race_exactly. Qed.
Print Assumptions C143_exactly_partial.

(** C143: registrations for methods that have routes never end the process. *)
Theorem C143_known_partial : forall fuel re r rs schedule, all_begin rs ->
  (forall m t h, In (call (m, t, h)) rs -> knows r m) ->
  exists w, world_run fuel re (r_ci r) (world_start r rs) schedule = Alive w.
Proof. exact race_known. Qed.
Print Assumptions C143_known_partial.

(** C143: unless two registrations are for the same new method, and as long as the process
    lives, there is an order of the registrations that explains everything: each ended as it
    would have in this order, and each request was answered by the router with the first
    ones of them, among which are all that had ended before the request was looked at. *)
Theorem C143_order_partial : forall fuel re r rs s1 s2 w1 w2, 1 <= fuel -> all_begin rs -> (forall i j, ~ both_new r rs i j) ->
  world_run fuel re (r_ci r) (world_start r rs) s1 = Alive w1 -> world_run fuel re (r_ci r) w1 s2 = Alive w2 ->
  exists order1 order2 regs1 regs2, NoDup (order1 ++ order2) /\
    Forall2 (fun i reg => nth_error rs i = Some (call reg)) (order1 ++ order2) (regs1 ++ regs2) /\
    (forall i e, ended w1 i e <-> exists n, nth_error order1 n = Some i /\ nth_error (snd (handle_all fuel re r regs1)) n = Some e) /\
    (forall i e, ended w2 i e <-> exists n, nth_error (order1 ++ order2) n = Some i /\ nth_error (snd (handle_all fuel re r (regs1 ++ regs2))) n = Some e) /\
    (forall k mth path buf d, got w2 k mth path buf d -> got w1 k mth path buf d \/
       exists early late, regs2 = early ++ late /\ d = dispatch_request fuel re (fst (handle_all fuel re r (regs1 ++ early))) mth path buf).
Proof. exact race_order. Qed.
Print Assumptions C143_order_partial.

(** Case: registrations for GET and one for POST; of the two requests for [/b] the one that is
    answered before its registration ends finds nothing. *)
Example C143_case_order : all_begin calm_busy /\ (forall i j, ~ both_new one_route calm_busy i j).
Proof. exact calm_facts. Qed.
Example C143_case_order_run :
  ends (world_run 20 lit_engine false (world_start one_route calm_busy) [2; 0; 1; 2; 1; 0; 3; 3]) = Some [Some Registered; None; Some Duplicate; None; None] /\
  hits (world_run 20 lit_engine false (world_start one_route calm_busy) [2; 0; 1; 2; 1; 0; 3; 3]) = Some [None; None; None; Some 3; None].
Proof. exact calm_runs. Qed.
