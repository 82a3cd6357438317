(** * Properties C04, C05, C06, C19 and C20: path patterns *)
From Coq Require Import List Ascii String NArith Lia.
From Verif Require Import GoBase Glob_Spec Pattern_Model Pattern_Spec Priority_Spec Pattern_Proofs Priority_Proofs Spin_Spec Spin_Proofs SpinCase_Proofs LongPattern_Proofs.
Import ListNotations.
Local Open Scope string_scope.
Local Open Scope list_scope.

(** C04.  A pattern is refused exactly when it has no reading, and parsing never
    panics. *)
Theorem C04_grammar_exact : forall fuel re t ci,
  (parse_pattern fuel re t ci <> PErr <-> exists ps ks, means (re_ok re) ci t ps ks) /\
  parse_pattern fuel re t ci <> PPanic.
Proof. exact grammar_exact. Qed.
Print Assumptions C04_grammar_exact.

(** C04: a text has at most one reading. *)
Theorem C04_reading_unique : forall c ic t ps1 ks1 ps2 ks2,
  means c ic t ps1 ks1 -> means c ic t ps2 ks2 -> ps1 = ps2 /\ ks1 = ks2.
Proof. exact means_unique. Qed.
Print Assumptions C04_reading_unique.

Example C04_case_accepted : exists p,
  parse_pattern 1 (Engine (fun _ => true) (fun _ _ => true))
    (str "/users/{id:[0-9]+}/f*le?/*/**/") false = POk p.
Proof. eexists. vm_compute. reflexivity. Qed.
Example C04_case_refused : forall re, parse_pattern 1 re (str "/a/**/**/b") false = PErr
  /\ parse_pattern 1 re (str "/a//b") false = PErr /\ parse_pattern 1 re (str "/{a") false = PErr.
Proof. intros re. repeat split. Qed.

(** C05.  The parsed pattern shows the pieces of the text, in order. *)
Theorem C05_parsed_meaning : forall fuel re t ci p ps ks,
  parse_pattern fuel re t ci = POk p -> means (re_ok re) ci t ps ks ->
  (List.length ps <= 255)%nat ->
  shows_all ci (p_segs p) ps ks /\ p_ci p = ci /\ p_raw p = t /\
  p_caps p = N.of_nat (named_count ks) /\
  (In Any ks -> p_max p = 255%N) /\ (~ In Any ks -> p_max p = N.of_nat (List.length ps)) /\
  (ps <> [] -> compute_priority fuel (p_segs p) = Some (p_prio p)).
Proof. exact parse_shows. Qed.
Print Assumptions C05_parsed_meaning.

Example C05_case : exists p,
  parse_pattern 1 (Engine (fun _ => true) (fun _ _ => true)) (str "/a/{x:b+}/") true = POk p /\
  p_segs p = [Seg (str "a") MTLiteral [] None;
              Seg (str "{x:b+}") MTConstraint (str "x") (Some (str "(?i)b+"))].
Proof. eexists. split; reflexivity. Qed.

(** C06 is false: a legal pattern of 256 pieces is parsed as one without pieces. *)
Theorem C06_long_pattern_refuted : forall re, exists t ps ks p,
  means (re_ok re) false t ps ks /\ List.length ps = 256%nat /\
  parse_pattern 1 re t false = POk p /\ p_segs p = [] /\ p_max p = 0%N /\ p_caps p = 0%N.
Proof. exact long_confused. Qed.
Print Assumptions C06_long_pattern_refuted.

(** C06, exactly: of any pattern only the pieces behind a multiple of 256 are left, read at the
    first segments. *)
Theorem C06_last_partial : forall fuel re t ci p front back ks,
  parse_pattern fuel re t ci = POk p -> means (re_ok re) ci t (front ++ back) ks ->
  Nat.modulo (List.length front) 256 = 0%nat -> (List.length back <= 255)%nat ->
  shows_all ci (p_segs p) back (skipn (List.length front) ks) /\
  (~ In Any ks -> p_max p = N.of_nat (List.length back)).
Proof. exact parse_last. Qed.
Print Assumptions C06_last_partial.

Example C06_last_case : exists p, parse_pattern 1 (Engine (fun _ => true) (fun _ _ => true)) far_text false = POk p /\
  map s_val (p_segs p) = [str "{x}"] /\ p_max p = 1%N /\ List.length far_pieces = 257%nat /\
  means (fun _ => true) false far_text (repeat (str "a") 256 ++ [str "{x}"]) far_kinds.
Proof. exact last_case. Qed.

(** C06, what holds: up to 255 pieces two patterns with the same parsed
    segments have the same pieces.  Missing: longer patterns. *)
Theorem C06_long_pattern_partial : forall fuel1 fuel2 re ci t1 t2 p1 p2 ps1 ps2 ks1 ks2,
  parse_pattern fuel1 re t1 ci = POk p1 -> parse_pattern fuel2 re t2 ci = POk p2 ->
  means (re_ok re) ci t1 ps1 ks1 -> means (re_ok re) ci t2 ps2 ks2 ->
  (List.length ps1 <= 255)%nat -> (List.length ps2 <= 255)%nat ->
  p_segs p1 = p_segs p2 -> ps1 = ps2.
Proof. exact parsed_not_confused. Qed.
Print Assumptions C06_long_pattern_partial.

(** Case: two texts with the same pieces. *)
Example C06_case : let re := Engine (fun _ => true) (fun _ _ => true) in
  let t := str "/a/{x:b+}/**" in
  means (re_ok re) true t [str "a"; str "{x:b+}"; str "**"] [Lit (str "a"); Constrained (str "x") (str "b+"); Any] /\
  means (re_ok re) true (t ++ str "/") [str "a"; str "{x:b+}"; str "**"] [Lit (str "a"); Constrained (str "x") (str "b+"); Any] /\
  exists p1 p2, parse_pattern 1 re t true = POk p1 /\ parse_pattern 1 re (t ++ str "/") true = POk p2 /\ p_segs p1 = p_segs p2 /\ p_raw p1 <> p_raw p2.
Proof. exact (@same_pieces_case). Qed.

(** C19 is false: for a legal pattern of 17 pieces the ranking never ends. *)
Theorem C19_registration_ends_refuted : forall re, exists t,
  (exists ps ks, means (re_ok re) false t ps ks) /\ forall fuel, parse_pattern fuel re t false = PFuel.
Proof. exact register_hangs. Qed.
Print Assumptions C19_registration_ends_refuted.

(** C19, what holds: with at most one ** parsing ends, whatever the length.
    Missing: patterns with several **. *)
Theorem C19_registration_ends_partial : forall re t ci ps ks,
  means (re_ok re) ci t ps ks -> (List.length ps <= 255)%nat -> (any_count ks <= 1)%nat ->
  exists fuel p, parse_pattern fuel re t ci = POk p.
Proof. exact register_ends. Qed.
Print Assumptions C19_registration_ends_partial.

Example C19_case : forall re, exists fuel p,
  parse_pattern fuel re (str "/a/**/b") false = POk p /\ List.length (p_segs p) = 3%nat.
Proof. intros re. exists 5%nat. eexists. split; [vm_compute; reflexivity|reflexivity]. Qed.

(** C19 is false with only two **, once there are more than 19 pieces: with one **
    fewer the theorem above applies. *)
Theorem C19_two_refuted : forall re, exists t ps ks,
  means (re_ok re) false t ps ks /\ List.length ps = 20%nat /\ any_count ks = 2%nat /\
  forall fuel, parse_pattern fuel re t false = PFuel.
Proof. exact register_hangs_two. Qed.
Print Assumptions C19_two_refuted.

(** C19, exactly, for patterns of at most 19 pieces: the ranking never ends for
    the 67 listed shapes, and for every other shape it ends, in each round after
    fewer than 20 steps.  Missing: more than 19 pieces and several **. *)
Theorem C19_which_spin_partial : forall re t ci ps ks,
  means (re_ok re) ci t ps ks -> (List.length ps <= 19)%nat ->
  (In (shape ks) spinning -> forall fuel, parse_pattern fuel re t ci = PFuel) /\
  (~ In (shape ks) spinning -> forall fuel, (20 <= fuel)%nat ->
     exists p, parse_pattern fuel re t ci = POk p).
Proof. exact parse_spins_or_ends. Qed.
Print Assumptions C19_which_spin_partial.

Example C19_case_spins : forall re, means (re_ok re) false nine_text nine_texts nine_pieces /\
  In (shape nine_pieces) spinning /\ forall fuel, parse_pattern fuel re nine_text false = PFuel.
Proof. exact nine_spins. Qed.

(** C19, in words: with at most 19 pieces, registration ends if there are at most
    16 pieces, or at most six **, or the last piece is **.  Missing: as above. *)
Theorem C19_short_ends_partial : forall re t ci ps ks,
  means (re_ok re) ci t ps ks -> (List.length ps <= 19)%nat ->
  (List.length ps <= 16)%nat \/ (any_count ks <= 6)%nat \/ last ks One = Any ->
  forall fuel, (20 <= fuel)%nat -> exists p, parse_pattern fuel re t ci = POk p.
Proof. exact parse_ends. Qed.
Print Assumptions C19_short_ends_partial.

Example C19_case_short : forall re fuel, (20 <= fuel)%nat ->
  exists p, parse_pattern fuel re (str "/x/**/{id}/**/*/**/y?/**/b") true = POk p.
Proof. exact four_ends. Qed.

(** C20.  The rank orders patterns as the left to right comparison does. *)
Theorem C20_rank_is_specificity : forall re fuel1 fuel2 t1 t2 ci1 ci2 p1 p2 ps1 ps2 ks1 ks2,
  parse_pattern fuel1 re t1 ci1 = POk p1 -> parse_pattern fuel2 re t2 ci2 = POk p2 ->
  means (re_ok re) ci1 t1 ps1 ks1 -> means (re_ok re) ci2 t2 ps2 ks2 ->
  (0 < fuel1)%nat -> (0 < fuel2)%nat ->
  (1 <= List.length ps1 <= 19)%nat -> (1 <= List.length ps2 <= 19)%nat ->
  any_only_last ks1 -> any_only_last ks2 ->
  (p_prio p1 < p_prio p2)%N <-> more_specific ks1 ks2.
Proof. exact rank_more_specific. Qed.
Print Assumptions C20_rank_is_specificity.

(** Case: a deeper pattern that is more specific at its first piece. *)
Example C20_case : forall re, exists p1 p2,
  parse_pattern 1 re (str "/a/*/{x}/**") false = POk p1 /\
  parse_pattern 1 re (str "/{y}/b") false = POk p2 /\ (p_prio p1 < p_prio p2)%N.
Proof. intros re. do 2 eexists. split; [|split]; [vm_compute; reflexivity..|vm_compute; reflexivity]. Qed.
