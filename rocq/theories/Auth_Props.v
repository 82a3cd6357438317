(** * Properties C30 to C33, C56 and C57: permissions *)
From Coq Require Import List Ascii String NArith.
From Verif Require Import GoBase Auth_Model Auth_Spec Auth_Proofs AuthText_Proofs.
Import ListNotations.
Local Open Scope string_scope.
Local Open Scope list_scope.

(** C30 is false: a permission also implies scopes that repeat its last level. *)
Theorem C30_implies_refuted : exists p q lp lq, levels (pm_scope p) lp /\ levels (pm_scope q) lq /\
  implies p q = true /\ ~ covers lp lq.
Proof. exact implies_more. Qed.
Print Assumptions C30_implies_refuted.

(** C30, what holds: implication is the described one, plus the scopes that repeat
    the last level of the permission. *)
Theorem C30_implies_exact_partial : forall p q lp lq, levels (pm_scope p) lp -> levels (pm_scope q) lq ->
  implies p q = true <-> grants (pm_access p) (pm_access q) /\ (covers lp lq \/ repeats lp lq).
Proof. exact implies_iff. Qed.
Print Assumptions C30_implies_exact_partial.

(** C30, what holds: implication is exactly the described one if the permission
    ends with a star or has as many levels as the request. *)
Theorem C30_implies_partial : forall p q lp lq, levels (pm_scope p) lp -> levels (pm_scope q) lq ->
  last lp [] = wild \/ List.length lp = List.length lq ->
  implies p q = true <-> grants (pm_access p) (pm_access q) /\ covers lp lq.
Proof. exact implies_covers. Qed.
Print Assumptions C30_implies_partial.

Example C30_case :
  levels (str "admin/*") [str "admin"; wild] /\ levels (str "admin/sheet/team1") [str "admin"; str "sheet"; str "team1"] /\
  last [str "admin"; wild] [] = wild /\
  implies (Perm (str "admin/*") 7) (Perm (str "admin/sheet/team1") 5) = true /\
  implies (Perm (str "admin/*") 7) (Perm (str "user/sheet/team1") 5) = false /\
  implies (Perm (str "admin/*") 7) (Perm (str "admin/sheet/team1") 9) = false /\
  implies (Perm (str "admin/*/team1") 7) (Perm (str "admin/sheet/team1") 1) = true /\
  implies (Perm (str "admin/*/team1") 7) (Perm (str "admin/sheet/team2") 1) = false /\
  implies (Perm (str "admin/sheet") 7) (Perm (str "admin") 1) = false.
Proof. exact implies_case. Qed.

(** C31 is false: a request for two access bits of which only one is denied is
    granted. *)
Theorem C31_deny_wins_refuted : exists r d q k ld lq,
  In d (rl_denied r) /\ levels (pm_scope d) ld /\ levels (pm_scope q) lq /\ covers ld lq /\
  N.testbit (pm_access d) k = true /\ N.testbit (pm_access q) k = true /\ role_has r q = true.
Proof. exact deny_bypassed. Qed.
Print Assumptions C31_deny_wins_refuted.

(** C31, what holds: a request all of whose bits are covered by one denied
    permission is refused, in particular a request for a single denied bit. *)
Theorem C31_deny_wins_partial : forall r scope lq, levels scope lq ->
  (forall d ld q, pm_scope q = scope -> In d (rl_denied r) -> levels (pm_scope d) ld -> covers ld lq ->
     grants (pm_access d) (pm_access q) -> role_has r q = false) /\
  (forall d ld k, In d (rl_denied r) -> levels (pm_scope d) ld -> covers ld lq ->
     N.testbit (pm_access d) k = true -> role_has r (Perm scope (2 ^ k)%N) = false).
Proof. exact deny_partial. Qed.
Print Assumptions C31_deny_wins_partial.

Example C31_case :
  levels (str "docs/secret") [str "docs"; str "secret"] /\
  covers [str "docs"; str "secret"] [str "docs"; str "secret"] /\ N.testbit 8 3 = true /\
  role_has editor (Perm (str "docs/secret") 8) = false /\ role_has editor (Perm (str "docs/secret") 1) = true /\
  role_has editor (Perm (str "docs/open") 8) = true.
Proof. exact deny_case. Qed.

(** C32: a user has a permission exactly if some role of some group grants it, and
    a role exactly if some group has a role of that name. *)
Theorem C32_grants_add_up : forall u q name,
  (user_has u q = true <-> exists g r, In g (us_groups u) /\ In r (gr_roles g) /\
     (forall d, In d (rl_denied r) -> implies d q = false) /\ exists p, In p (rl_allowed r) /\ implies p q = true) /\
  (user_has_role u name = true <-> exists g r, In g (us_groups u) /\ In r (gr_roles g) /\ rl_name r = name).
Proof. exact user_grants. Qed.
Print Assumptions C32_grants_add_up.

(** C32: another group never takes a grant away. *)
Theorem C32_more_groups : forall u q g, user_has u q = true -> user_has (User (us_id u) (us_name u) (us_platform u) (g :: us_groups u)) q = true.
Proof. exact user_monotone. Qed.
Print Assumptions C32_more_groups.

Example C32_case : user_has editor_user (Perm (str "docs/open") 3) = true /\
  user_has editor_user (Perm (str "other") 3) = false /\ user_has_role editor_user (str "editor") = true /\
  user_has_role editor_user (str "admin") = false.
Proof. exact user_case. Qed.

(** C33: parsing the printed form gives the permission back. *)
Theorem C33_print_parse : forall p, (pm_access p < 4294967296)%N -> three_levels (pm_scope p) ->
  parse_permission (perm_string p) = Some p.
Proof. exact print_parse. Qed.
Print Assumptions C33_print_parse.

(** C33: exactly the texts scope, colon, decimal number are accepted. *)
Theorem C33_parse_exact : forall s p, parse_permission s = Some p <->
  exists ds, s = pm_scope p ++ ":"%char :: ds /\ numeral ds (pm_access p) /\
    (pm_access p < 4294967296)%N /\ three_levels (pm_scope p).
Proof. exact parse_permission_iff. Qed.
Print Assumptions C33_parse_exact.

(** C33: two permissions with the same printed form are equal, also with more than
    three levels. *)
Theorem C33_print_injective : forall p q, perm_string p = perm_string q -> p = q.
Proof. exact print_injective. Qed.
Print Assumptions C33_print_injective.

Example C33_case_levels : three_levels (str "a:b/*/c").
Proof. exact three_case. Qed.

Example C33_case : perm_string (Perm (str "a:b/*/c") 511) = str "a:b/*/c:511" /\
  parse_permission (str "a:b/*/c:0511") = Some (Perm (str "a:b/*/c") 511) /\
  parse_permission (str "a/b/c/d:1") = None /\ parse_permission (str "a:4294967296") = None /\
  parse_permission (str "a:") = None /\ parse_permission (str "a") = None /\ parse_permission (str "a:+1") = None.
Proof. exact parse_case. Qed.

(** C56: a permission implies itself. *)
Theorem C56_implies_reflexive : forall p, implies p p = true.
Proof. exact implies_refl. Qed.
Print Assumptions C56_implies_reflexive.

(** C56: implication can be chained. *)
Theorem C56_implies_transitive : forall p q r, implies p q = true -> implies q r = true -> implies p r = true.
Proof. exact implies_trans. Qed.
Print Assumptions C56_implies_transitive.

Example C56_case : let a := Perm (str "admin/*") 7 in let b := Perm (str "admin/sheet/*") 5 in let c := Perm (str "admin/sheet/team1") 4 in
  implies a b = true /\ implies b c = true /\ implies a c = true /\ implies c b = false /\ implies b a = false.
Proof. vm_compute. auto 6. Qed.

(** C57: the permission for everything implies exactly the permissions that use
    the nine defined access bits only. *)
Theorem C57_all_permissions : forall q, implies all_permissions q = true <-> forall k, N.testbit (pm_access q) k = true -> (k < 9)%N.
Proof. exact all_permissions_implies. Qed.
Print Assumptions C57_all_permissions.

Example C57_case : implies all_permissions (Perm (str "x/y/z/w") 511) = true /\
  implies all_permissions (Perm (str "x") 512) = false.
Proof. split; reflexivity. Qed.
