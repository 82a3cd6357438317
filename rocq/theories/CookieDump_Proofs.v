(** * Proofs about the cookies of a request. *)
From Coq Require Import List NArith ZArith Ascii String Bool Lia Arith Permutation.
From Verif Require Import GoBase Http_Model Auth_Model Chain_Model Serve_Model Resp_Model Chain_Spec Resp_Spec Json_Model Json_Spec Dump_Model Dump_Spec Dump_Proofs RespMisc_Proofs DumpCases_Proofs.
From Verif Require Import Auth_Proofs OAuthUrl_Proofs OAuthWire_Proofs Cookie_Model Cookie_Spec Cookie_Proofs CookieText_Proofs CookieBack_Proofs
  CookieDump_Model CookieDump_Spec.
Import ListNotations.
Local Open Scope string_scope.
Local Open Scope list_scope.
Local Open Scope nat_scope.

(** ** One text between semicolons *)

Lemma cut_parts t : let (n, v) := cut_equals t in
  (t = n /\ v = [] \/ t = n ++ str "=" ++ v) /\ forall c, In c n -> c <> "="%char.
Proof.
  induction t as [|c t IH]; cbn [cut_equals].
  - split; [left; split; reflexivity|intros c []].
  - destruct (Ascii.eqb_spec c "="%char) as [->|N].
    + split; [right; reflexivity|intros c []].
    + destruct (cut_equals t) as [n v]. destruct IH as [IH Q]. split.
      * destruct IH as [[-> ->]| ->]; [left; split; reflexivity|right; reflexivity].
      * intros x [<-|I1]; [assumption|now apply Q].
Qed.
Lemma cut_whole n : (forall c, In c n -> c <> "="%char) -> cut_equals n = (n, []).
Proof.
  induction n as [|c n IH]; intros H; [reflexivity|]. cbn [cut_equals]. rewrite ascii_eqb_no by (apply H; now left).
  rewrite IH by (intros x I1; apply H; now right). reflexivity.
Qed.
Lemma token_no_equals n : token_name n -> forall c, In c n -> c <> "="%char.
Proof. intros T c I1. apply name_iff in T. exact (token_not c "="%char (token_equals n T c I1) eq_refl). Qed.

Lemma unquoted_cases w : unquoted w = w /\ (forall v, w <> str """" ++ v ++ str """") \/ w = str """" ++ unquoted w ++ str """".
Proof.
  destruct w as [|c w]; [left; split; [reflexivity|intros v; discriminate]|]. cbn [unquoted].
  destruct w as [|d r _] using rev_ind.
  - left. split; [reflexivity|]. intros v E. apply (f_equal (@List.length byte)) in E. rewrite !app_length in E. cbn in E. lia.
  - rewrite rev_app_distr. cbn [rev List.app].
    destruct (Ascii.eqb_spec c """"%char) as [->|N1]; [destruct (Ascii.eqb_spec d """"%char) as [->|N2]|]; cbn [andb].
    + right. rewrite rev_involutive. reflexivity.
    + left. split; [reflexivity|]. intros v E. cbn [str List.app] in E. injection E as E. change (r ++ [d] = v ++ [""""%char]) in E.
      apply app_inj_tail in E. destruct E. contradiction.
    + left. split; [reflexivity|]. intros v E. cbn [str List.app] in E. injection E. intros _ E2. contradiction.
Qed.
Lemma unquoted_in v : unquoted (str """" ++ v ++ str """") = v.
Proof.
  change (unquoted (""""%char :: v ++ [""""%char]) = v). cbn [unquoted]. rewrite rev_app_distr. cbn [rev List.app]. cbn. apply rev_involutive.
Qed.
Lemma unquoted_free v : (forall c, In c v -> value_sign c) -> unquoted v = v.
Proof.
  intros H. destruct (unquoted_cases v) as [[E _]|E]; [assumption|]. exfalso.
  assert (I1 : In """"%char v) by (rewrite E; left; reflexivity). destruct (H _ I1) as [_ [N _]]. apply N. left. reflexivity.
Qed.

Lemma parse_iff w v : parse_cookie_value w = Some v <-> (w = v \/ w = str """" ++ v ++ str """") /\ forall c, In c v -> value_sign c.
Proof.
  unfold parse_cookie_value. split.
  - destruct (forallb cookie_value_byte (unquoted w)) eqn:F; [|discriminate]. intros E. injection E as <-. split.
    + destruct (unquoted_cases w) as [[-> _]|E]; [left; reflexivity|right; assumption].
    + intros c I1. apply value_sign_iff. rewrite forallb_forall in F. now apply F.
  - intros [E H]. assert (unquoted w = v) as ->.
    { destruct E as [-> | ->]; [now apply unquoted_free|apply unquoted_in]. }
    replace (forallb cookie_value_byte v) with true; [reflexivity|]. symmetry. apply forallb_forall. intros c I1. apply value_sign_iff. now apply H.
Qed.

Lemma part_is p n v : read_part p = [(n, v)] <-> is_cookie p n v.
Proof.
  unfold read_part, is_cookie. rewrite trim_bare. generalize (bare p). intros t. split.
  - intros H. destruct t as [|c0 t0] eqn:Et; [discriminate|]. rewrite <- Et in *. clear Et.
    pose proof (cut_parts t) as C. destruct (cut_equals t) as [n1 w]. destruct C as [C _].
    destruct (cookie_name_valid n1) eqn:V; [|discriminate]. destruct (parse_cookie_value w) as [v1|] eqn:P; [|discriminate].
    injection H as -> ->. apply parse_iff in P. destruct P as [P Q]. split; [|split; [now apply name_iff|assumption]].
    destruct C as [[-> ->]| ->].
    + left. split; [reflexivity|]. destruct P as [->|P]; [reflexivity|]. destruct v; discriminate P.
    + right. destruct P as [-> | ->]; [left; reflexivity|right]. rewrite <- ?app_assoc. reflexivity.
  - intros (E & T & H). pose proof (token_no_equals n T) as Q. assert (V : cookie_name_valid n = true) by now apply name_iff.
    assert (exists w, cut_equals t = (n, w) /\ (w = v \/ w = str """" ++ v ++ str """") /\ t <> []) as (w & C & W & N).
    { destruct T as [T _]. destruct E as [[-> ->]|[-> | ->]].
      - exists []. split; [now apply cut_whole|]. split; [left; reflexivity|assumption].
      - exists v. split; [now apply cut_first|]. split; [left; reflexivity|]. destruct n; [contradiction|discriminate].
      - exists (str """" ++ v ++ str """"). split; [exact (cut_first n (str """" ++ v ++ str """") Q)|]. split; [right; reflexivity|].
        destruct n; [contradiction|discriminate]. }
    destruct t as [|c0 t0]; [contradiction|]. rewrite C, V. rewrite (proj2 (parse_iff w v)); [reflexivity|]. split; assumption.
Qed.
Lemma part_short p : read_part p = [] \/ exists n v, read_part p = [(n, v)].
Proof.
  unfold read_part. destruct (trim_blank p); [left; reflexivity|]. destruct (cut_equals _) as [n w].
  destruct (cookie_name_valid n); [|left; reflexivity]. destruct (parse_cookie_value w); [right; eauto|left; reflexivity].
Qed.

Lemma parts_are ps : cookies_in ps (flat_map read_part ps).
Proof.
  induction ps as [|p ps IH]; [constructor|]. cbn [flat_map]. destruct (part_short p) as [E|(n & v & E)]; rewrite E.
  - apply ci_no; [|exact IH]. intros n v C. apply part_is in C. congruence.
  - apply ci_yes; [now apply part_is|exact IH].
Qed.
Lemma cookies_unique ps l : cookies_in ps l -> l = flat_map read_part ps.
Proof.
  induction 1 as [|p ps n v l C H IH|p ps l C H IH]; [reflexivity| |]; cbn [flat_map].
  - apply part_is in C. rewrite C, <- IH. reflexivity.
  - destruct (part_short p) as [E|(n & v & E)]; [rewrite E; exact IH|]. exfalso. apply (C n v). now apply part_is.
Qed.

(** ** Blanks around a line *)

Lemma bare_before c s : blank_sign c = true -> bare (c :: s) = bare s.
Proof. intros B. unfold bare. cbn [skip_blanks]. rewrite B. reflexivity. Qed.
Lemma skip_snoc s c : blank_sign c = true -> skip_blanks (s ++ [c]) = match skip_blanks s with [] => [] | t => t ++ [c] end.
Proof.
  intros B. induction s as [|x s IH]; cbn [List.app skip_blanks]; [rewrite B; reflexivity|].
  destruct (blank_sign x); [exact IH|reflexivity].
Qed.
Lemma bare_behind c s : blank_sign c = true -> bare (s ++ [c]) = bare s.
Proof.
  intros B. unfold bare. rewrite skip_snoc by assumption. destruct (skip_blanks s) as [|x t]; [reflexivity|].
  rewrite rev_app_distr. cbn [rev List.app skip_blanks]. rewrite B. reflexivity.
Qed.
Lemma part_bare p q : bare p = bare q -> read_part p = read_part q.
Proof. intros E. unfold read_part. rewrite !trim_bare, E. reflexivity. Qed.
Lemma blank_semi c : blank_sign c = true -> Ascii.eqb c ";"%char = false.
Proof. intros B. destruct (Ascii.eqb_spec c ";"%char) as [->|]; [discriminate|reflexivity]. Qed.

Lemma line_before c s : blank_sign c = true -> flat_map read_part (split_on ";"%char (c :: s)) = flat_map read_part (split_on ";"%char s).
Proof.
  intros B. cbn [split_on]. rewrite (blank_semi c B). destruct (split_on ";"%char s) as [|p ps] eqn:E.
  - destruct s as [|x s]; [discriminate|]. cbn [split_on] in E. destruct (Ascii.eqb x ";"%char); [discriminate|]. destruct (split_on ";"%char s); discriminate.
  - cbn [flat_map]. f_equal. apply part_bare. now apply bare_before.
Qed.
Lemma split_snoc c s : Ascii.eqb c ";"%char = false -> exists ps p, split_on ";"%char s = ps ++ [p] /\ split_on ";"%char (s ++ [c]) = ps ++ [p ++ [c]].
Proof.
  intros N. induction s as [|x s IH].
  - exists [], []. cbn. rewrite N. split; reflexivity.
  - destruct IH as (ps & p & E1 & E2). cbn [List.app split_on]. rewrite E1, E2. destruct (Ascii.eqb x ";"%char).
    + exists ([] :: ps), p. split; reflexivity.
    + destruct ps as [|q ps]; cbn [List.app].
      * exists [], (x :: p). split; reflexivity.
      * exists ((x :: q) :: ps), p. split; reflexivity.
Qed.
Lemma line_behind c s : blank_sign c = true -> flat_map read_part (split_on ";"%char (s ++ [c])) = flat_map read_part (split_on ";"%char s).
Proof.
  intros B. destruct (split_snoc c s (blank_semi c B)) as (ps & p & -> & ->). rewrite !flat_map_app. f_equal. cbn [flat_map].
  f_equal. apply part_bare. now apply bare_behind.
Qed.
Lemma line_skip s : flat_map read_part (split_on ";"%char (skip_blanks s)) = flat_map read_part (split_on ";"%char s).
Proof.
  induction s as [|c s IH]; [reflexivity|]. cbn [skip_blanks]. destruct (blank_sign c) eqn:B; [|reflexivity]. rewrite line_before by assumption. exact IH.
Qed.
Lemma line_skip_end s : flat_map read_part (split_on ";"%char (rev (skip_blanks s))) = flat_map read_part (split_on ";"%char (rev s)).
Proof.
  induction s as [|c s IH]; [reflexivity|]. cbn [skip_blanks]. destruct (blank_sign c) eqn:B; [|reflexivity]. cbn [rev]. rewrite line_behind by assumption. exact IH.
Qed.

Lemma read_exact lines l : cookies_in (between_semicolons lines) l <-> read_cookies lines = l.
Proof.
  assert (E : read_cookies lines = flat_map read_part (between_semicolons lines)).
  { unfold read_cookies, between_semicolons. induction lines as [|s lines IH]; [reflexivity|]. cbn [flat_map].
    rewrite flat_map_app, IH. f_equal. rewrite trim_bare. unfold bare. rewrite line_skip_end, rev_involutive. apply line_skip. }
  rewrite E. split; [intros H; symmetry; now apply cookies_unique|intros <-; apply parts_are].
Qed.

(** ** What is written *)

Lemma written_as n v : token_name n -> (forall c, In c v -> value_sign c) -> written (n, v) (cookie_string n [] [] (only_value v)).
Proof.
  intros T H. apply name_iff in T. unfold cookie_string. rewrite T. cbn [negb only_value cd_value cd_expires cd_max_age cd_http_only cd_secure cd_same_site].
  change (domain_valid []) with false. cbv iota. change (0 <? 0)%Z with false. cbv iota. cbn [List.app]. rewrite ?app_nil_r.
  unfold sanitize_value, written. cbn [fst snd].
  assert (filter cookie_value_byte v = v) as ->.
  { clear T. induction v as [|c v IH]; [reflexivity|]. cbn [filter]. rewrite (proj2 (value_sign_iff c)) by (apply H; now left). f_equal. apply IH. intros x I1. apply H. now right. }
  destruct (existsb (fun c => Ascii.eqb c " "%char || Ascii.eqb c ","%char) v) eqn:E.
  - left. split.
    + apply existsb_exists in E. destruct E as (x & I1 & E). apply orb_true_iff in E. destruct E as [E|E]; apply Ascii.eqb_eq in E; subst x; auto.
    + rewrite <- ?app_assoc. reflexivity.
  - right. assert (N : forall x, In x v -> x <> " "%char /\ x <> ","%char).
    { intros x I1. split; intros ->; (assert (existsb (fun c => Ascii.eqb c " "%char || Ascii.eqb c ","%char) v = true) by (apply existsb_exists; eexists; split; [exact I1|reflexivity])); congruence. }
    split; [intros I1; exact (proj1 (N _ I1) eq_refl)|]. split; [intros I1; exact (proj2 (N _ I1) eq_refl)|]. reflexivity.
Qed.

Lemma cookies_good ps l : cookies_in ps l -> Forall (fun nv => token_name (fst nv) /\ forall c, In c (snd nv) -> value_sign c) l.
Proof. induction 1 as [|p ps n v l (_ & T & H) _ IH|]; [constructor| |assumption]. constructor; [split; assumption|assumption]. Qed.

Lemma dumped_exact lines l : cookies_in (between_semicolons lines) l -> Forall2 written l (dumped_cookies lines).
Proof.
  intros H. pose proof (cookies_good _ _ H) as G. apply read_exact in H. unfold dumped_cookies. rewrite H. clear H.
  induction G as [|[n v] l [T V] _ IH]; [constructor|]. cbn [map fst snd]. constructor; [|exact IH]. now apply written_as.
Qed.

(** In the text that is logged. *)
Lemma dump_cookies (Req World : Type) (view : Req -> dreq) (header form : World -> option hmap) (now : World -> Z)
    (log : bytes -> World -> World) (oc : cookies -> cookies) (render : cookie -> bytes) :
  (forall m, Permutation (oc m) m) -> forall (h : handler Req response World) c rq w r w' st hs cs lines l,
  h c rq w = (HReturn (Some r) None, w') -> shown r st hs cs ->
  dq_cookies (view rq) = dumped_cookies lines -> cookies_in (between_semicolons lines) l ->
  exists r' t v rv, request_dumper view header form now log oc render h c rq w = (HReturn (Some r') None, log t w') /\
    (forall v', json_text t v' <-> v' = v) /\ member v (str "request") rv /\
    (l = [] -> lacks rv (str "cookies")) /\
    (l <> [] -> exists ts, Forall2 written l ts /\ holds rv (str "cookies") (texts ts)).
Proof.
  intros Ho h c rq w r w' st hs cs lines l E Sh D C.
  destruct (dumped Req World view header form now log oc render Ho h c rq w r w' st hs cs E Sh) as (t & v & rv & sv & A & _ & B & _ & _ & M & R & _).
  exists (touch r), t, v, rv. split; [exact A|]. split; [exact B|]. split; [exact M|]. pose proof (dumped_exact _ _ C) as F. rewrite <- D in F. split.
  - intros ->. inversion F as [F0|]. apply (tr_no_cookies _ _ _ _ R). congruence.
  - intros N. exists (dq_cookies (view rq)). split; [exact F|]. apply (tr_cookies _ _ _ _ R). intros Z. rewrite Z in F. inversion F. subst l. now apply N.
Qed.

(** ** Cases *)

Lemma is_cookie_case : is_cookie (str " a=""1, 2"" ") (str "a") (str "1, 2") /\ is_cookie (str "flag") (str "flag") [] /\
  (forall n v, ~ is_cookie (str "b=""x") n v) /\ (forall n v, ~ is_cookie (str "a b=1") n v) /\ (forall n v, ~ is_cookie (str " =1") n v).
Proof.
  split; [apply part_is; reflexivity|]. split; [apply part_is; reflexivity|].
  split; [|split]; intros n v H; apply part_is in H; discriminate H.
Qed.
Lemma dumped_case : let lines := [str " a=""1, 2"" ; b=""x; flag;"; str "c=d=e"] in
  cookies_in (between_semicolons lines) [(str "a", str "1, 2"); (str "flag", []); (str "c", str "d=e")] /\
  dumped_cookies lines = [str "a=""1, 2"""; str "flag="; str "c=d=e"].
Proof. cbv zeta. split; [apply read_exact; reflexivity|reflexivity]. Qed.
