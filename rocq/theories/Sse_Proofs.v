(** * Proofs about event streams *)
From Coq Require Import List NArith ZArith Ascii String Bool Lia Arith.
From Verif Require Import GoBase Auth_Model Auth_Spec Auth_Proofs AuthText_Proofs Csrf_Spec Csrf_Proofs OAuthUrl_Proofs
  Chain_Model Resp_Model Sse_Spec.
Import ListNotations.
Local Open Scope string_scope.
Local Open Scope list_scope.
Local Open Scope nat_scope.

(** ** Lines *)

Definition ended (l : bytes) : bytes := l ++ [lf].

Lemma lines_run l : forall cur skip s, on_line l -> (l <> [] \/ skip = false) ->
  lines_from cur skip (l ++ lf :: s) = (rev cur ++ l) :: lines_from [] false s.
Proof.
  induction l as [|c l IH]; intros cur skip s [L C] NE.
  - cbn [app lines_from]. replace (Ascii.eqb lf lf) with true by reflexivity. destruct NE as [NE| ->]; [congruence|].
    now rewrite app_nil_r.
  - cbn [app lines_from]. rewrite ascii_eqb_no by (intro E; apply L; left; congruence).
    rewrite ascii_eqb_no by (intro E; apply C; left; congruence).
    rewrite IH.
    + cbn [rev]. rewrite <- app_assoc. reflexivity.
    + split; intro A; [apply L|apply C]; now right.
    + now right.
Qed.

Lemma lines_ended ls : forall s, (forall l, In l ls -> on_line l) ->
  lines_from [] false (flat_map ended ls ++ s) = ls ++ lines_from [] false s.
Proof.
  induction ls as [|l ls IH]; intros s A; [reflexivity|]. cbn [flat_map]. unfold ended at 1. rewrite <- !app_assoc. cbn [app].
  rewrite lines_run; [|apply A; now left|now right]. cbn [rev app]. rewrite IH; [reflexivity|]. intros x B. apply A. now right.
Qed.

(** The lines of one event. *)
Definition event_lines (e : event) : list bytes :=
  let body :=
    (if beqb (ev_name e) [] then [] else [str "event: " ++ ev_name e]) ++
    map (fun d => str "data: " ++ d) (ev_data e) in
  let tail :=
    (if beqb (ev_id e) [] then [] else [str "id: " ++ ev_id e]) ++
    (if (0 <? ev_retry e)%Z then [str "retry: " ++ itoa_z (ev_retry e)] else []) in
  match body, tail with
  | [], [] => []
  | [], _ => [] :: tail ++ [[]]
  | _, _ => body ++ tail ++ [[]]
  end.

Lemma data_started ds : event_data true ds ++ nl = nl ++ flat_map ended (map (fun d => str "data: " ++ d) ds).
Proof.
  induction ds as [|d ds IH]; [reflexivity|]. cbn [event_data map flat_map]. unfold ended at 1.
  rewrite <- !app_assoc. rewrite IH. reflexivity.
Qed.

Lemma data_fresh d ds : event_data false (d :: ds) ++ nl = flat_map ended (map (fun d => str "data: " ++ d) (d :: ds)).
Proof.
  cbn [event_data map flat_map]. unfold ended at 1. rewrite <- !app_assoc. rewrite data_started. reflexivity.
Qed.

Lemma event_string_lines e : event_string e = flat_map ended (event_lines e).
Proof.
  unfold event_string, event_lines.
  set (idl := if beqb (ev_id e) [] then [] else [str "id: " ++ ev_id e]).
  set (rtl := if (0 <? ev_retry e)%Z then [str "retry: " ++ itoa_z (ev_retry e)] else []).
  set (dl := map (fun d => str "data: " ++ d) (ev_data e)).
  assert (T : (if beqb (ev_id e) [] then [] else nl ++ str "id: " ++ ev_id e) ++
              (if (0 <? ev_retry e)%Z then nl ++ str "retry: " ++ itoa_z (ev_retry e) else []) ++ nl ++ nl =
              nl ++ flat_map ended (idl ++ rtl) ++ nl).
  { unfold idl, rtl. destruct (beqb (ev_id e) []), (0 <? ev_retry e)%Z; cbn [app flat_map]; unfold ended;
      rewrite ?app_nil_r; rewrite <- ?app_assoc; reflexivity. }
  assert (T0 : forall s, idl ++ rtl = [] -> (s ++ (if beqb (ev_id e) [] then [] else nl ++ str "id: " ++ ev_id e) ++
              (if (0 <? ev_retry e)%Z then nl ++ str "retry: " ++ itoa_z (ev_retry e) else [])) = s).
  { intros s. unfold idl, rtl. destruct (beqb (ev_id e) []), (0 <? ev_retry e)%Z; cbn [app]; intro Q; try discriminate Q.
    now rewrite app_nil_r. }
  assert (N0 : idl ++ rtl <> [] -> (if beqb (ev_id e) [] then [] else nl ++ str "id: " ++ ev_id e) ++
              (if (0 <? ev_retry e)%Z then nl ++ str "retry: " ++ itoa_z (ev_retry e) else []) <> []).
  { unfold idl, rtl. destruct (beqb (ev_id e) []), (0 <? ev_retry e)%Z; cbn [app]; try discriminate. intro Q; congruence. }
  set (X := (if beqb (ev_id e) [] then [] else nl ++ str "id: " ++ ev_id e)) in *.
  set (Y := (if (0 <? ev_retry e)%Z then nl ++ str "retry: " ++ itoa_z (ev_retry e) else [])) in *.
  destruct (beqb (ev_name e) []) eqn:NM; cbn [negb app].
  - destruct (ev_data e) as [|d ds] eqn:DS.
    + cbn [event_data map app]. unfold dl. cbn [map].
      destruct (idl ++ rtl) as [|t0 ts] eqn:TL.
      * specialize (T0 [] eq_refl). cbn [app] in T0. rewrite T0. reflexivity.
      * assert (NE : X ++ Y <> []) by (apply N0; discriminate).
        destruct (X ++ Y) as [|c s] eqn:XY; [congruence|]. rewrite <- XY. rewrite <- app_assoc. rewrite T.
        cbn [flat_map]. change (ended []) with nl. rewrite flat_map_app. cbn [flat_map]. change (ended []) with nl.
        rewrite app_nil_r. reflexivity.
    + assert (HD : exists c s, event_data false (d :: ds) ++ X ++ Y = c :: s) by (eexists; eexists; reflexivity).
      destruct HD as (c & s & HD). rewrite HD. rewrite <- HD.
      assert (A : (event_data false (d :: ds) ++ X ++ Y) ++ nl ++ nl = flat_map ended (dl ++ (idl ++ rtl) ++ [[]])).
      { rewrite <- !app_assoc. rewrite T. rewrite app_assoc. rewrite data_fresh. fold dl. rewrite !flat_map_app.
        cbn [flat_map]. change (ended []) with nl. rewrite app_nil_r. rewrite <- ?app_assoc. reflexivity. }
      rewrite A. unfold dl. cbn [map]. reflexivity.
  - assert (HD : exists c s, (str "event: " ++ ev_name e) ++ event_data true (ev_data e) ++ X ++ Y = c :: s)
      by (eexists; eexists; reflexivity).
    destruct HD as (c & s & HD). rewrite HD. rewrite <- HD.
    rewrite <- !app_assoc. rewrite T. rewrite (app_assoc (event_data true (ev_data e))). rewrite data_started. fold dl.
    cbn [app]. cbn [flat_map]. rewrite !flat_map_app. cbn [flat_map]. change (ended []) with nl.
    unfold ended at 4. rewrite app_nil_r. rewrite <- ?app_assoc. reflexivity.
Qed.

Lemma events_lines l : flat_map event_string l = flat_map ended (flat_map event_lines l).
Proof.
  induction l as [|e l IH]; [reflexivity|]. cbn [flat_map]. rewrite event_string_lines, IH, flat_map_app. reflexivity.
Qed.

Lemma on_line_app a b : on_line a -> on_line b -> on_line (a ++ b).
Proof. intros [A1 A2] [B1 B2]. split; intro C; apply in_app_or in C; tauto. Qed.

Lemma on_line_test s : forallb (fun c => negb (Ascii.eqb c lf) && negb (Ascii.eqb c cr)) s = true -> on_line s.
Proof.
  intro A. rewrite forallb_forall in A. split; intro B; specialize (A _ B); now rewrite Ascii.eqb_refl, ?andb_false_r in A.
Qed.

Lemma numeral_digits ds n : numeral ds n -> forall c, In c ds -> exists d, digit_of c d.
Proof.
  induction 1 as [c d D|ds m c d _ IH D]; intros x X.
  - destruct X as [<-|[]]. now exists d.
  - apply in_app_or in X. destruct X as [X|[<-|[]]]; [now apply IH|now exists d].
Qed.

Lemma itoa_line n : on_line (itoa n).
Proof.
  split; intro A; destruct (numeral_digits _ _ (itoa_numeral n) _ A) as (d & D & E); unfold lf, cr in E; rewrite N_ascii_embedding in E by lia; lia.
Qed.

Lemma event_lines_on e : plain_event e -> forall l, In l (event_lines e) -> on_line l.
Proof.
  intros (A & B & _ & C) l I1.
  assert (D : In l ((if beqb (ev_name e) [] then [] else [str "event: " ++ ev_name e]) ++
     map (fun d => str "data: " ++ d) (ev_data e)) \/
     In l ((if beqb (ev_id e) [] then [] else [str "id: " ++ ev_id e]) ++
     (if (0 <? ev_retry e)%Z then [str "retry: " ++ itoa_z (ev_retry e)] else [])) \/ l = []).
  { unfold event_lines in I1. cbv zeta in I1.
    match goal with |- In l ?B \/ In l ?T \/ _ => destruct B as [|b bs]; destruct T as [|t ts] end; cbn in I1.
    - destruct I1.
    - destruct I1 as [I1|[I1|I1]]; [right; right; congruence|right; left; left; exact I1|].
      apply in_app_or in I1. destruct I1 as [I1|[I1|[]]]; [right; left; right; exact I1|right; right; congruence].
    - destruct I1 as [I1|I1]; [left; left; exact I1|]. apply in_app_or in I1.
      destruct I1 as [I1|[I1|[]]]; [left; right; exact I1|right; right; congruence].
    - destruct I1 as [I1|I1]; [left; left; exact I1|]. apply in_app_or in I1.
      destruct I1 as [I1|[I1|I1]]; [left; right; exact I1|right; left; left; exact I1|].
      apply in_app_or in I1. destruct I1 as [I1|[I1|[]]]; [right; left; right; exact I1|right; right; congruence]. }
  destruct D as [D|[D| ->]].
  - apply in_app_or in D. destruct D as [D|D].
    + destruct (beqb (ev_name e) []); [destruct D|]. destruct D as [<-|[]]. apply on_line_app; [now apply on_line_test|exact A].
    + apply in_map_iff in D. destruct D as (d & <- & D). apply on_line_app; [now apply on_line_test|now apply C].
  - apply in_app_or in D. destruct D as [D|D].
    + destruct (beqb (ev_id e) []); [destruct D|]. destruct D as [<-|[]]. apply on_line_app; [now apply on_line_test|exact B].
    + destruct (0 <? ev_retry e)%Z eqn:P; [|destruct D]. destruct D as [<-|[]]. apply on_line_app; [now apply on_line_test|].
      unfold itoa_z. destruct (ev_retry e); try discriminate P. apply itoa_line.
  - now apply on_line_test.
Qed.

Lemma stream_of l : (forall e, In e l -> plain_event e) -> stream_lines (flat_map event_string l) = flat_map event_lines l.
Proof.
  intro P. unfold stream_lines. rewrite events_lines. rewrite <- (app_nil_r (flat_map ended _)).
  rewrite lines_ended.
  - cbn. apply app_nil_r.
  - intros x A. apply in_flat_map in A. destruct A as (e & E1 & E2). eapply event_lines_on; eauto.
Qed.

(** ** Fields *)

Lemma decimal_numeral ds n : numeral ds n -> decimal ds = Some n.
Proof.
  intro M. assert (A : decimal_from 0 ds = Some n).
  { induction M as [c d [D E]|ds m c d _ IH [D E]].
    - cbn [decimal_from]. rewrite E. destruct (N.leb_spec 48 (48 + d)); [|lia]. destruct (N.leb_spec (48 + d) 57); [|lia]. cbn [andb]. f_equal. lia.
    - assert (B : forall ds x, decimal_from x (ds ++ [c]) = match decimal_from x ds with Some y => decimal_from y [c] | None => None end).
      { clear. induction ds as [|a ds IH]; intro x; [reflexivity|]. cbn [app decimal_from]. destruct (_ && _)%bool; [apply IH|reflexivity]. }
      rewrite B, IH. cbn [decimal_from]. rewrite E. destruct (N.leb_spec 48 (48 + d)); [|lia]. destruct (N.leb_spec (48 + d) 57); [|lia]. cbn [andb]. f_equal. lia. }
  destruct ds; [|exact A]. exfalso. inversion M. destruct ds; discriminate.
Qed.

Lemma read_event r v : read_line r (str "event: " ++ v) = Reader (rd_data r) v (rd_id r) (rd_retry r) (rd_got r).
Proof. reflexivity. Qed.
Lemma read_data r v : read_line r (str "data: " ++ v) = Reader (rd_data r ++ v ++ [lf]) (rd_type r) (rd_id r) (rd_retry r) (rd_got r).
Proof. reflexivity. Qed.
Lemma read_id r v : ~ In nul v -> read_line r (str "id: " ++ v) = Reader (rd_data r) (rd_type r) v (rd_retry r) (rd_got r).
Proof.
  intro N. assert (E : existsb (Ascii.eqb nul) v = false).
  { destruct (existsb (Ascii.eqb nul) v) eqn:E; [|reflexivity]. apply existsb_exists in E. destruct E as (c & C & E).
    apply Ascii.eqb_eq in E. subst c. contradiction. }
  change (read_line r (str "id: " ++ v)) with
    (if existsb (Ascii.eqb nul) v then r else Reader (rd_data r) (rd_type r) v (rd_retry r) (rd_got r)).
  rewrite E. reflexivity.
Qed.
Lemma read_retry r z : (0 < z)%Z ->
  read_line r (str "retry: " ++ itoa_z z) = Reader (rd_data r) (rd_type r) (rd_id r) (Some (Z.to_N z)) (rd_got r).
Proof.
  intro P. assert (A : itoa_z z = itoa (Z.to_N z)) by (destruct z; [reflexivity|reflexivity|lia]). rewrite A.
  assert (D : decimal (itoa (Z.to_N z)) = Some (Z.to_N z)) by (apply decimal_numeral, itoa_numeral).
  set (v := itoa (Z.to_N z)) in *. clearbody v.
  change (read_line r (str "retry: " ++ v)) with
    (match decimal v with Some n => Reader (rd_data r) (rd_type r) (rd_id r) (Some n) (rd_got r) | None => r end).
  rewrite D. reflexivity.
Qed.

Lemma read_datas ds : forall r, fold_left read_line (map (fun d => str "data: " ++ d) ds) r =
  Reader (rd_data r ++ flat_map ended ds) (rd_type r) (rd_id r) (rd_retry r) (rd_got r).
Proof.
  induction ds as [|d ds IH]; intro r; cbn [map fold_left].
  - cbn. rewrite app_nil_r. now destruct r.
  - rewrite IH, read_data. cbn [rd_data rd_type rd_id rd_retry rd_got flat_map]. unfold ended at 2. now rewrite <- !app_assoc.
Qed.

Lemma ended_join ds : ds <> [] -> removelast (flat_map ended ds) = join [lf] ds.
Proof.
  intro NE. assert (A : flat_map ended ds = join [lf] ds ++ [lf]).
  { clear -NE. induction ds as [|d ds IH]; [congruence|]. destruct ds as [|d' ds].
    - cbn. unfold ended. now rewrite app_nil_r.
    - cbn [flat_map]. change (ended d ++ flat_map ended (d' :: ds) = (d ++ [lf] ++ join [lf] (d' :: ds)) ++ [lf]).
      rewrite IH by discriminate. unfold ended. now rewrite <- !app_assoc. }
  rewrite A. apply removelast_last.
Qed.

Lemma ended_some d ds : exists c s, flat_map ended (d :: ds) = c :: s.
Proof. cbn. unfold ended. destruct d; cbn; eauto. Qed.

(** Reading one event from between two events. *)
Definition quiet (r : reader) : Prop := rd_data r = [] /\ rd_type r = [].

Lemma read_one e r : plain_event e -> quiet r ->
  fold_left read_line (event_lines e) r =
  Reader [] [] (match ev_id e with [] => rd_id r | i => i end)
    (if (0 <? ev_retry e)%Z then Some (Z.to_N (ev_retry e)) else rd_retry r)
    (rd_got r ++ expected (rd_id r) [e]).
Proof.
  intros (A & B & NU & C) [Q1 Q2]. destruct r as [d t i rt g]. cbn in Q1, Q2. subst d t.
  assert (TL : forall d0 t0, fold_left read_line
     ((if beqb (ev_id e) [] then [] else [str "id: " ++ ev_id e]) ++
      (if (0 <? ev_retry e)%Z then [str "retry: " ++ itoa_z (ev_retry e)] else [])) (Reader d0 t0 i rt g) =
     Reader d0 t0 (match ev_id e with [] => i | x => x end) (if (0 <? ev_retry e)%Z then Some (Z.to_N (ev_retry e)) else rt) g).
  { intros d0 t0. rewrite fold_left_app.
    assert (I1 : fold_left read_line (if beqb (ev_id e) [] then [] else [str "id: " ++ ev_id e]) (Reader d0 t0 i rt g) =
       Reader d0 t0 (match ev_id e with [] => i | x => x end) rt g).
    { destruct (beqb (ev_id e) []) eqn:E.
      - apply beqb_iff in E. rewrite E. reflexivity.
      - cbn [fold_left]. rewrite read_id by exact NU. cbn [rd_data rd_type rd_retry rd_got].
        destruct (ev_id e); [discriminate E|reflexivity]. }
    rewrite I1. destruct (0 <? ev_retry e)%Z eqn:P; [|reflexivity]. cbn [fold_left]. rewrite read_retry by lia. reflexivity. }
  unfold event_lines.
  set (tail := (if beqb (ev_id e) [] then [] else [str "id: " ++ ev_id e]) ++
      (if (0 <? ev_retry e)%Z then [str "retry: " ++ itoa_z (ev_retry e)] else [])) in *.
  set (body := (if beqb (ev_name e) [] then [] else [str "event: " ++ ev_name e]) ++
    map (fun d => str "data: " ++ d) (ev_data e)).
  assert (BD : fold_left read_line body (Reader [] [] i rt g) = Reader (flat_map ended (ev_data e)) (ev_name e) i rt g).
  { unfold body. rewrite fold_left_app.
    assert (I1 : fold_left read_line (if beqb (ev_name e) [] then [] else [str "event: " ++ ev_name e]) (Reader [] [] i rt g) =
       Reader [] (ev_name e) i rt g).
    { destruct (beqb (ev_name e) []) eqn:E.
      - apply beqb_iff in E. rewrite E. reflexivity.
      - cbn [fold_left]. rewrite read_event. reflexivity. }
    rewrite I1, read_datas. reflexivity. }
  assert (X : fold_left read_line (body ++ tail ++ [[]]) (Reader [] [] i rt g) =
     Reader [] [] (match ev_id e with [] => i | x => x end) (if (0 <? ev_retry e)%Z then Some (Z.to_N (ev_retry e)) else rt)
       (g ++ expected i [e])).
  { rewrite !fold_left_app, BD, TL. cbn [fold_left expected]. unfold read_line. cbn [rd_data rd_type rd_id rd_retry rd_got].
    destruct (ev_data e) as [|d ds] eqn:DS.
    - cbn [flat_map]. now rewrite app_nil_r.
    - destruct (ended_some d ds) as (c & s & E). rewrite E. rewrite <- E. rewrite ended_join by discriminate. reflexivity. }
  assert (GOAL : forall s, fold_left read_line s (Reader [] [] i rt g) = fold_left read_line (body ++ tail ++ [[]]) (Reader [] [] i rt g) ->
    fold_left read_line s (Reader [] [] i rt g) =
    Reader [] [] (match ev_id e with [] => i | x => x end) (if (0 <? ev_retry e)%Z then Some (Z.to_N (ev_retry e)) else rt) (g ++ expected i [e])).
  { intros s E. rewrite E. exact X. }
  apply GOAL. clear GOAL X.
  destruct body as [|b bs] eqn:BE; destruct tail as [|t ts] eqn:TE; reflexivity.
Qed.

Lemma expected_app id l1 l2 : exists id', expected id (l1 ++ l2) = expected id l1 ++ expected id' l2.
Proof.
  revert id. induction l1 as [|e l1 IH]; intro id; cbn [app expected].
  - now exists id.
  - destruct (IH (match ev_id e with [] => id | i => i end)) as (id' & E). exists id'. rewrite E.
    destruct (ev_data e); reflexivity.
Qed.

Lemma read_events l : forall r, (forall e, In e l -> plain_event e) -> quiet r ->
  exists id, fold_left read_line (flat_map event_lines l) r =
    Reader [] [] id (expected_retry (rd_retry r) l) (rd_got r ++ expected (rd_id r) l).
Proof.
  induction l as [|e l IH]; intros r P Q.
  - exists (rd_id r). cbn. rewrite app_nil_r. destruct Q as [Q1 Q2]. destruct r; cbn in *; now subst.
  - cbn [flat_map]. rewrite fold_left_app. rewrite read_one; [|apply P; now left|exact Q].
    destruct (IH (Reader [] [] (match ev_id e with [] => rd_id r | i => i end)
       (if (0 <? ev_retry e)%Z then Some (Z.to_N (ev_retry e)) else rd_retry r) (rd_got r ++ expected (rd_id r) [e]))) as (id & E).
    + intros x A. apply P. now right.
    + split; reflexivity.
    + exists id. rewrite E. cbn [rd_retry rd_got rd_id expected expected_retry]. f_equal. rewrite <- app_assoc. f_equal.
      destruct (ev_data e); reflexivity.
Qed.

Lemma stream_read l : (forall e, In e l -> plain_event e) ->
  rd_got (read_stream (flat_map event_string l)) = expected [] l /\
  rd_retry (read_stream (flat_map event_string l)) = expected_retry None l.
Proof.
  intro P. unfold read_stream. rewrite stream_of by exact P.
  destruct (read_events l reader_start P) as (id & E); [split; reflexivity|]. rewrite E. split; reflexivity.
Qed.
