(** * Properties C01, C02 and C03: wildcard segments *)
From Coq Require Import List Ascii String.
From Verif Require Import GoBase Glob_Model Glob_Spec Glob_Proofs GlobExact_Proofs.
Import ListNotations.
Local Open Scope string_scope.
Local Open Scope list_scope.

(** C01.  Every accepted segment is answered with true (never with a panic), and
    every answer given is the right one. *)
Theorem C01_wildcard_exact : forall ci u p, no_adjacent_stars p ->
  (accepts ci p u -> regex_segment_match u p ci = GRet true) /\
  (forall b, regex_segment_match u p ci = GRet b -> (b = true <-> accepts ci p u)).
Proof. exact glob_answers. Qed.
Print Assumptions C01_wildcard_exact.

(** C01: the search ends for every input. *)
Theorem C01_wildcard_terminates : forall ci u p, no_adjacent_stars p ->
  regex_segment_match u p ci <> GFuel.
Proof. exact glob_terminates. Qed.
Print Assumptions C01_wildcard_terminates.

(** Case: three stars with the single back-track point overwritten twice. *)
Example C01_case_true :
  regex_segment_match (str "aXbYbbZcd") (str "a*b*b?*cd") false = GRet true.
Proof. vm_compute. reflexivity. Qed.
Example C01_case_false :
  regex_segment_match (str "aabddcddx") (str "a?b*ddce") false = GRet false.
Proof. vm_compute. reflexivity. Qed.
Example C01_case_hyp : no_adjacent_stars (str "a*b*b?*cd").
Proof. repeat (constructor; [intros [H1 H2]; discriminate|]). constructor. Qed.

(** C02 is false: a comparison can read past the end of the request segment. *)
Theorem C02_no_crash_refuted : exists ci u p,
  no_adjacent_stars p /\ regex_segment_match u p ci = GPanic.
Proof. exact glob_panics. Qed.
Print Assumptions C02_no_crash_refuted.

(** C02, what holds: no panic if the last character of the request segment fits
    no pattern character that stands after a star.  Missing: the other pairs,
    where the property is false for some. *)
Theorem C02_no_crash_partial : forall ci u p, no_adjacent_stars p ->
  (forall a c b, p = a ++ "*"%char :: c :: b ->
     forall u' x, u = u' ++ [x] -> c <> "?"%char /\ ~ same_letter ci x c) ->
  exists b, regex_segment_match u p ci = GRet b.
Proof. exact glob_no_panic. Qed.
Print Assumptions C02_no_crash_partial.

(** C02, what holds for all request segments: no panic if the only star is the
    last character (or there is no star). *)
Theorem C02_no_crash_final_star_partial : forall ci u p, no_adjacent_stars p ->
  ~ In "*"%char (removelast p) ->
  exists b, regex_segment_match u p ci = GRet b.
Proof. exact glob_no_panic_suffix. Qed.
Print Assumptions C02_no_crash_final_star_partial.

(** C02, exactly which pairs panic: the request segment is refused, and its last
    character fits the character after the last star up to which the pattern
    accepts it. *)
Theorem C02_crash_exact_partial : forall ci u p, no_adjacent_stars p ->
  (regex_segment_match u p ci = GPanic <-> overruns ci p u).
Proof. exact glob_panic_iff. Qed.
Print Assumptions C02_crash_exact_partial.

(** Case: two stars; the second one is the last that is reached. *)
Example C02_case_crash : overruns false (str "a*bc*de") (str "axbcdxd").
Proof. exact glob_panic_case. Qed.

(** C02: a panic never replaces a positive answer. *)
Theorem C02_crash_only_when_refused_partial : forall ci u p, no_adjacent_stars p ->
  regex_segment_match u p ci = GPanic -> ~ accepts ci p u.
Proof. exact glob_panic_only_refused. Qed.
Print Assumptions C02_crash_only_when_refused_partial.

(** Case: an inner star, and a last character that fits no character after it. *)
Example C02_case : forall a c b, str "a*bc" = a ++ "*"%char :: c :: b ->
  forall u' x, str "abx" = u' ++ [x] -> c <> "?"%char /\ ~ same_letter false x c.
Proof.
  intros a c b E u' x E'.
  apply (f_equal (fun l => last l "z"%char)) in E'. rewrite last_last in E'. subst x.
  destruct a as [|a0 [|a1 [|a2 [|a3 a]]]]; simpl in E; try discriminate.
  - injection E as <- <- <-. split; discriminate.
  - injection E as _ _ _ _ E. destruct a; discriminate.
Qed.
Example C02_case_final_star : ~ In "*"%char (removelast (str "a?b*")).
Proof. simpl. intuition discriminate. Qed.

(** C03 is false for a final star. *)
Theorem C03_star_any_run_refuted : exists ci u p,
  no_adjacent_stars p /\ accepts_readme ci p u /\ regex_segment_match u p ci = GRet false.
Proof. exact glob_readme_refuted. Qed.
Print Assumptions C03_star_any_run_refuted.

(** C03, what holds: the README reading is exact for patterns that do not end in
    a star, and never too narrow for the others.  Missing: the empty run at a
    final star. *)
Theorem C03_star_any_run_partial : forall ci u p, no_adjacent_stars p ->
  (last p "a"%char <> "*"%char ->
     (regex_segment_match u p ci = GRet true <-> accepts_readme ci p u)) /\
  (regex_segment_match u p ci = GRet true -> accepts_readme ci p u).
Proof. exact glob_readme. Qed.
Print Assumptions C03_star_any_run_partial.

(** C03, what a final star does accept: any run of at least one character. *)
Theorem C03_final_star_partial : forall ci u w, no_adjacent_stars (w ++ ["*"%char]) ->
  (regex_segment_match u (w ++ ["*"%char]) ci = GRet true <->
   exists t1 x t2, u = t1 ++ x :: t2 /\ accepts_readme ci w t1).
Proof. exact glob_final_star. Qed.
Print Assumptions C03_final_star_partial.

(** Case: two inner stars, one of them meeting the empty run. *)
Example C03_case : regex_segment_match (str "abXc") (str "a*b*c") false = GRet true /\
  last (str "a*b*c") "a"%char <> "*"%char.
Proof. split; [vm_compute; reflexivity|discriminate]. Qed.
