(** * Routing cut into reads and writes decides like routing *)
From Coq Require Import List NArith ZArith Ascii String Bool Lia Arith.
From Verif Require Import GoBase Glob_Model Pattern_Model Url_Model Match_Model Router_Model
  RoutePool_Model RoutePool_Spec RoutePool_Proofs.
Import ListNotations.
Local Open Scope string_scope.
Local Open Scope list_scope.
Local Open Scope nat_scope.

Lemma run_bind {A B : Type} (p : proc A) (f : A -> proc B) : forall b,
  run (bind p f) b = match run p b with (Some a, b') => run (f a) b' | (None, b') => (None, b') end.
Proof.
  induction p as [a| |i k IH|i u k IH]; intro b; cbn [bind run]; auto.
  - destruct (nth_error b i); auto.
  - destruct (update b i u); auto.
Qed.

(** ** Parsing the path *)

Lemma add_proc_runs path idx start endi b : idx <= List.length b ->
  match add_segment path (UState idx start b) endi with
  | UAdded st => run (add_proc path idx start endi) b = (Some (Some (us_idx st)), us_segs st) /\ us_start st = start /\
      List.length (us_segs st) = List.length b /\ us_idx st <= List.length b
  | UTooMany => run (add_proc path idx start endi) b = (Some None, b)
  | UPanic => fst (run (add_proc path idx start endi) b) = None /\ List.length (snd (run (add_proc path idx start endi) b)) = List.length b
  end.
Proof.
  intro L. unfold add_segment, add_proc. cbn [us_start us_idx us_segs].
  destruct (slice path (Z.to_N start) endi) as [seg|]; [|auto].
  destruct (Nat.eqb (List.length seg) 0); [cbn; auto|].
  destruct (beqb seg (str "..")); [cbn; repeat split; lia|].
  destruct (Nat.leb max_path_segments idx); [reflexivity|].
  cbn [run]. destruct (update b idx _) as [b'|] eqn:U; [|auto]. cbn. apply upd_length in U. repeat split; lia.
Qed.

Lemma url_proc_runs path rest : forall pos idx start b, idx <= List.length b ->
  match url_loop path rest pos (UState idx start b) with
  | UAdded st => run (url_proc path rest pos idx start) b = (Some (Some (us_idx st, us_start st)), us_segs st) /\
      List.length (us_segs st) = List.length b /\ us_idx st <= List.length b
  | UTooMany => exists b', run (url_proc path rest pos idx start) b = (Some None, b') /\ List.length b' = List.length b
  | UPanic => exists b', run (url_proc path rest pos idx start) b = (None, b') /\ List.length b' = List.length b
  end.
Proof.
  induction rest as [|c rest IH]; intros pos idx start b L; cbn [url_loop url_proc].
  - cbn. auto.
  - destruct (Ascii.eqb c slash); [|now apply IH]. cbn [us_start us_idx us_segs]. rewrite run_bind.
    destruct (start =? -1)%Z.
    + cbn [run us_idx us_segs]. now apply IH.
    + pose proof (add_proc_runs path idx start pos b L) as A. destruct (add_segment path (UState idx start b) pos) as [st| |].
      * destruct A as (A1 & A2 & A3 & A4). rewrite A1. rewrite <- A3. apply IH. lia.
      * rewrite A. exists b. auto.
      * destruct A as [A1 A2]. destruct (run (add_proc path idx start pos) b) as [o b']. cbn in A1, A2. subst o. exists b'. auto.
Qed.

Lemma parse_proc_runs path b : exists b', List.length b' = List.length b /\
  match parse_url_path path b with
  | Some segs => run (parse_proc path) b = (Some (List.length segs), b') /\ firstn (List.length segs) b' = segs
  | None => run (parse_proc path) b = (None, b')
  end.
Proof.
  unfold parse_url_path, parse_proc. destruct (beqb path [] || beqb path (str "/")); [exists b; cbn; auto|].
  rewrite run_bind. pose proof (url_proc_runs path path 0 0 (-1)%Z b (Nat.le_0_l _)) as U.
  destruct (url_loop path path 0 (UState 0 (-1)%Z b)) as [st| |].
  - destruct U as (U1 & U2 & U3). rewrite U1. rewrite run_bind.
    destruct (negb (us_start st =? -1)%Z && (us_start st <? Z.of_N (blen path))%Z).
    + assert (L : us_idx st <= List.length (us_segs st)) by lia.
      pose proof (add_proc_runs path (us_idx st) (us_start st) (blen path) (us_segs st) L) as A.
      destruct st as [i s b1]. cbn [us_idx us_start us_segs] in *.
      destruct (add_segment path (UState i s b1) (blen path)) as [st| |].
      * destruct A as (A1 & A2 & A3 & A4). rewrite A1. cbn [run]. exists (us_segs st). split; [lia|].
        destruct (Nat.eqb_spec (us_idx st) 0) as [->|D]; [auto|]. rewrite firstn_length, Nat.min_l by lia. auto.
      * rewrite A. cbn [run]. exists b1. auto.
      * destruct A as [A1 A2]. destruct (run (add_proc path i s (blen path)) b1) as [o b']. cbn in A1, A2. subst o. exists b'. split; [lia|reflexivity].
    + cbn [run]. exists (us_segs st). split; [exact U2|]. destruct (Nat.eqb_spec (us_idx st) 0) as [->|D]; [auto|].
      rewrite firstn_length, Nat.min_l by lia. auto.
  - destruct U as (b' & U1 & U2). rewrite U1. cbn [run]. exists b'. auto.
  - destruct U as (b' & U1 & U2). rewrite U1. exists b'. auto.
Qed.

(** ** Reading and writing back *)

Lemma read_proc_runs b n : forall i, i + n <= List.length b -> run (read_proc n i) b = (Some (firstn n (skipn i b)), b).
Proof.
  induction n as [|n IH]; intros i L; cbn [read_proc run]; [reflexivity|].
  destruct (nth_error b i) as [u|] eqn:E.
  2: { apply nth_error_None in E. lia. }
  rewrite run_bind, IH by lia. cbn [run]. f_equal. f_equal.
  assert (SK : skipn i b = u :: skipn (S i) b).
  { clear - E. revert i E. induction b as [|x b IH]; intros [|i] E; cbn in *; try discriminate; [congruence|]. apply IH. exact E. }
  now rewrite SK.
Qed.

Lemma write_proc_runs us : forall i b, i + List.length us <= List.length b ->
  exists b', run (write_proc us i) b = (Some tt, b') /\ List.length b' = List.length b /\ firstn i b' = firstn i b /\
    firstn (List.length us) (skipn i b') = us.
Proof.
  induction us as [|u us IH]; intros i b L; cbn [write_proc run List.length] in *; [exists b; auto|].
  destruct (upd_some b i u) as (b1 & U & L1 & N1 & N2 & U2); [lia|]. rewrite U.
  destruct (IH (S i) b1) as (b' & R & L' & F & G); [lia|]. exists b'. split; [exact R|]. split; [lia|].
  assert (FI : firstn i b' = firstn i b).
  { transitivity (firstn i (firstn (S i) b')); [now rewrite firstn_firstn, Nat.min_l by lia|]. rewrite F, firstn_firstn, Nat.min_l by lia.
    rewrite U2, firstn_app, firstn_length, Nat.min_l by lia. rewrite Nat.sub_diag. cbn [firstn]. rewrite app_nil_r, firstn_firstn. now rewrite Nat.min_l. }
  split; [exact FI|].
  assert (E : nth_error b' i = Some u).
  { assert (T : forall (l : list useg) , nth_error (firstn (S i) l) i = nth_error l i).
    { clear. induction i as [|i IH]; intros [|x l]; try reflexivity. cbn [firstn nth_error]. apply IH. }
    rewrite <- T, F, T. exact N1. }
  assert (SK : skipn i b' = u :: skipn (S i) b').
  { clear - E. revert i E. induction b' as [|x b IH]; intros [|i] E; cbn in *; try discriminate; [congruence|]. apply IH. exact E. }
  rewrite SK. cbn [firstn]. now rewrite G.
Qed.

(** ** Matching keeps the number of segments *)

Lemma set_mt_length segs i m : List.length (set_mt segs i m) = List.length segs.
Proof.
  unfold set_mt. destruct (nth_error segs (N.to_nat i)) as [u|]; [|reflexivity].
  destruct (update segs (N.to_nat i) (with_mt u m)) as [l|] eqn:E; [|reflexivity]. now apply upd_length in E.
Qed.
Lemma fill_length k : forall i segs, List.length (fill_multi k i segs) = List.length segs.
Proof. induction k as [|k IH]; intros i segs; cbn [fill_multi]; [reflexivity|]. now rewrite IH, set_mt_length. Qed.
Lemma greedy_length re ci path k l : forall i segs,
  match greedy re ci path k l i segs with
  | GrNone s | GrAt _ s => List.length s = List.length segs
  | GrPanic => True
  end.
Proof.
  induction k as [|k IH]; intros i segs; cbn [greedy]; [reflexivity|]. destruct (nth_error segs (N.to_nat i)) as [u|]; [|exact I].
  destruct (some_matches re ci path l u); [| |exact I].
  - specialize (IH (u8 (i + 1)) (set_mt segs i MTMulti)). rewrite set_mt_length in IH. exact IH.
  - apply set_mt_length.
Qed.

Definition seg_count (x : mstate + mres) (n : nat) : Prop :=
  match x with inl st => List.length (ms_segs st) = n | inr (MRet _ segs) => List.length segs = n | _ => True end.
Lemma failed_length st : seg_count (round_failed st) (List.length (ms_segs st)).
Proof.
  unfold round_failed. destruct (ms_anc st); [reflexivity|]. destruct (update _ _ _); [|exact I]. destruct (update _ _ _); [|exact I].
  destruct (ms_depth st); [exact I|]. destruct (nth_error _ _) as [[? ?]|]; [reflexivity|exact I].
Qed.
Lemma matched_length ul st : seg_count (round_matched ul st) (List.length (ms_segs st)).
Proof. unfold round_matched. destruct (_ && _); reflexivity. Qed.
Lemma round_length re ci path ul st : seg_count (round re ci path ul st) (List.length (ms_segs st)).
Proof.
  unfold round. destruct (negb (ms_idx st <? ul)%N); [reflexivity|].
  destruct (nth_error (ms_segs st) _) as [u|]; [|exact I]. destruct (nth_error (ms_mts st) _) as [mt0|]; [|exact I].
  destruct (nth_error (ms_nstack st) _) as [[c0 x]|]; [|exact I].
  set (segs := if mt_eqb mt0 MTUnknown then ms_segs st else set_mt (ms_segs st) (ms_idx st) mt0).
  assert (SL : List.length segs = List.length (ms_segs st)) by (unfold segs; destruct (mt_eqb mt0 MTUnknown); [reflexivity|apply set_mt_length]).
  clearbody segs. destruct (first_match _ _ _ _ _ _ _) as [| |c child m]; [|exact I|].
  - pose proof (failed_length (MS (ms_idx st) (ms_depth st) (ms_cur st) (ms_anc st) (ms_nstack st) (ms_mts st) segs)) as F.
    cbn [ms_segs] in F. rewrite SL in F. exact F.
  - assert (OTHER : seg_count (if (ms_idx st =? sub8 ul 1)%N
      then if is_leaf child then inr (MRet (n_pat child) (set_mt segs (ms_idx st) m))
           else round_failed (MS (ms_idx st) (ms_depth st) (ms_cur st) (ms_anc st) (ms_nstack st) (ms_mts st) (set_mt segs (ms_idx st) m))
      else match update (ms_nstack st) (ms_depth st) (u16 (c + 1), ms_idx st) with
           | Some ns' => round_matched ul (MS (ms_idx st) (S (ms_depth st)) child (ms_cur st :: ms_anc st) ns' (ms_mts st) (set_mt segs (ms_idx st) m))
           | None => inr MPanic
           end) (List.length (ms_segs st))).
    { destruct (ms_idx st =? sub8 ul 1)%N.
      - destruct (is_leaf child); [cbn; now rewrite set_mt_length|].
        pose proof (failed_length (MS (ms_idx st) (ms_depth st) (ms_cur st) (ms_anc st) (ms_nstack st) (ms_mts st) (set_mt segs (ms_idx st) m))) as F.
        cbn [ms_segs] in F. rewrite set_mt_length, SL in F. exact F.
      - destruct (update _ _ _) as [ns'|]; [|exact I].
        pose proof (matched_length ul (MS (ms_idx st) (S (ms_depth st)) child (ms_cur st :: ms_anc st) ns' (ms_mts st) (set_mt segs (ms_idx st) m))) as F.
        cbn [ms_segs] in F. rewrite set_mt_length, SL in F. exact F. }
    destruct m; try exact OTHER. clear OTHER.
    assert (GR : forall l, seg_count match greedy re ci path (N.to_nat (ul - ms_idx st)) l (ms_idx st) segs with
       | GrNone segs' => inr (MRet None segs')
       | GrPanic => inr MPanic
       | GrAt j segs' => match update (ms_nstack st) (ms_depth st) (c, u8 (j + 1)) with
            | Some ns' => match update (ms_mts st) (N.to_nat j) MTMulti with
                 | Some mts' => round_matched ul (MS (sub8 j 1) (S (ms_depth st)) child (ms_cur st :: ms_anc st) ns' mts' segs')
                 | None => inr MPanic end
            | None => inr MPanic end
       end (List.length (ms_segs st))).
    { intro l. pose proof (greedy_length re ci path (N.to_nat (ul - ms_idx st)) l (ms_idx st) segs) as G.
      destruct (greedy _ _ _ _ _ _ _) as [s'| |j s']; [cbn; congruence|exact I|].
      destruct (update _ _ _) as [ns'|]; [|exact I]. destruct (update _ _ _) as [mts'|]; [|exact I].
      pose proof (matched_length ul (MS (sub8 j 1) (S (ms_depth st)) child (ms_cur st :: ms_anc st) ns' mts' s')) as F.
      cbn [ms_segs] in F. rewrite G, SL in F. exact F. }
    destruct (n_ch child) as [|ch chs]; [|apply GR].
    destruct (is_leaf child); [cbn; now rewrite fill_length|apply (GR [])].
Qed.
Lemma loop_length re ci path ul fuel : forall st,
  match match_loop re ci path ul fuel st with MRet _ segs => List.length segs = List.length (ms_segs st) | _ => True end.
Proof.
  induction fuel as [|f IH]; intro st; cbn [match_loop]; [exact I|]. pose proof (round_length re ci path ul st) as R.
  destruct (round re ci path ul st) as [st'|[p segs| |]]; cbn in R; auto. specialize (IH st').
  destruct (match_loop re ci path ul f st'); auto. congruence.
Qed.
Lemma match_path_length fuel re m path segs p rec segs' : match_path fuel re m path segs = Matched p rec segs' ->
  List.length segs' = List.length segs.
Proof.
  unfold match_path. destruct (Nat.ltb _ _); [discriminate|]. intro E.
  assert (G : forall x, match match_loop re (m_ci m) path (u8 (N.of_nat (List.length segs))) fuel x with
        | MRet (Some p) s => Matched p (Some p) s | MRet None _ => NoMatch | MPanic => MatchPanic | MFuel => MatchFuel end = Matched p rec segs' ->
        ms_segs x = segs -> List.length segs' = List.length segs).
  { intros x H X. pose proof (loop_length re (m_ci m) path (u8 (N.of_nat (List.length segs))) fuel x) as L.
    destruct (match_loop re (m_ci m) path (u8 (N.of_nat (List.length segs))) fuel x) as [[p'|] s| |]; try discriminate H.
    assert (s = segs') by congruence. congruence. }
  destruct segs as [|u us].
  - destruct (m_root m) as [p'|]; [assert (HE : @nil useg = segs') by congruence; now rewrite <- HE|]. eapply G; [exact E|reflexivity].
  - eapply G; [exact E|reflexivity].
Qed.

(** ** Routing *)

Lemma route_proc_routes fuel re r : routes_as fuel re r (route_proc fuel re r).
Proof.
  intro q. unfold route_proc, dispatch_request. rewrite run_bind. destruct (parse_proc_runs (q_path q) (new_buffer 0)) as (b & LB & PP).
  change (List.length (new_buffer 0)) with 19 in LB.
  destruct (parse_url_path (q_path q) (new_buffer 0)) as [segs|].
  2: { rewrite PP. exists None, b. split; [reflexivity|]. split; [exact LB|]. split; [exact I|discriminate]. }
  destruct PP as [PP PF]. rewrite PP, run_bind. pose proof (firstn_fits _ _ PF) as LS.
  rewrite read_proc_runs by exact LS. cbn [skipn]. rewrite PF.
  destruct (alookup (to_upper (q_method q)) (r_matchers r)) as [m|].
  2: { exists (Some NotFound), b. split; [reflexivity|]. split; [exact LB|]. split; [reflexivity|discriminate]. }
  destruct (match_path fuel re m (q_path q) segs) as [p rec segs'| | |] eqn:MP.
  - apply match_path_length in MP. rewrite run_bind. destruct (write_proc_runs segs' 0 b) as (b' & R & L' & _ & G); [cbn; lia|].
    rewrite R. cbn [skipn] in G. destruct (p_att p) as [h|]; cbn [run].
    + exists (Some (Calls h rec segs')), b'. split; [reflexivity|]. split; [lia|]. split; [reflexivity|].
      intros h1 rec1 segs1 E. injection E as <- <- <-. exact G.
    + exists None, b'. split; [reflexivity|]. split; [lia|]. split; [exact I|discriminate].
  - exists (Some NotFound), b. split; [reflexivity|]. split; [exact LB|]. split; [reflexivity|discriminate].
  - exists None, b. split; [reflexivity|]. split; [exact LB|]. split; [exact I|discriminate].
  - exists (Some ServeRuns), b. split; [reflexivity|]. split; [exact LB|]. split; [reflexivity|discriminate].
Qed.
