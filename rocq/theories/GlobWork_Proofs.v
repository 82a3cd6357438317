(** * Proofs for C148 *)
From Coq Require Import List NArith Ascii String Bool Lia Arith.
From Verif Require Import GoBase Glob_Model Pattern_Model Glob_Spec Glob_Proofs Ends_Proofs GlobWork_Model.
Import ListNotations.
Local Open Scope string_scope.
Local Open Scope list_scope.
Local Open Scope nat_scope.

Lemma find_rounds_some ci rest : forall i pc k, find_next ci rest i pc = Some k -> find_rounds ci rest pc = S (k - i) /\ i <= k /\ k < i + List.length rest.
Proof.
  induction rest as [|c rest IH]; intros i pc k; cbn [find_next find_rounds]; [discriminate|].
  destruct (runes_match ci c pc); [intros [= <-]; cbn [List.length]; rewrite Nat.sub_diag; lia|].
  intro E. apply IH in E. destruct E as (E & L1 & L2). cbn [List.length]. rewrite E. lia.
Qed.
Lemma find_rounds_none ci rest : forall i pc, find_next ci rest i pc = None -> find_rounds ci rest pc = List.length rest.
Proof.
  induction rest as [|c rest IH]; intros i pc; cbn [find_next find_rounds]; [reflexivity|].
  destruct (runes_match ci c pc); [discriminate|]. intro E. cbn [List.length]. rewrite (IH _ _ E). reflexivity.
Qed.

Section Steps.
Variable ci : bool.
Variables u p : bytes.
Hypothesis Nas : no_adjacent_stars p.
Local Notation P := (List.length p).
Local Notation U := (List.length u).

Definition sound_st (st : gstate) : Prop :=
  g_p st <= P /\ g_u st <= U /\
  match g_ck st with None => True | Some (cp, cu) => nth_error p cp = Some star /\ cu <= g_u st /\ cu < U end.
Definition level (st : gstate) : nat := match g_ck st with None => 0 | Some (_, cu) => S cu end.
Definition charge (st : gstate) : nat :=
  if Nat.eqb (g_u st) U && match g_ck st with None => true | _ => false end then 0
  else (S U - level st) * (2 * P + 3) + 2 * (P - g_p st) + (if g_restore st then 0 else 1).

Lemma lt_nth (l : bytes) n x : nth_error l n = Some x -> n < List.length l.
Proof. intro H. apply nth_error_Some. congruence. Qed.

Lemma star_charge pi ui c r : (* the star at pi, looked at from ui *)
  nth_error p pi = Some star -> ui < U ->
  (forall k, ui <= k -> k < U -> (U - k) * (2 * P + 3) + 2 * (P - S pi) + 1 + S (S (k - ui)) <= c) -> S (U - ui) <= c ->
  r = (let pi' := skip_stars (skipn (S pi) p) (S pi) pi in
       if Nat.eqb pi' (P - 1) then inr (GRet true)
       else match nth_error p (S pi') with
            | None => inr GPanic
            | Some pc' => match find_next ci (skipn ui u) ui pc' with
                          | Some k => inl (GState (S pi') k false (Some (pi', k)))
                          | None => inl (GState pi' U false None)
                          end
            end) ->
  let w := S (let pi' := skip_stars (skipn (S pi) p) (S pi) pi in
              if Nat.eqb pi' (P - 1) then 0
              else match nth_error p (S pi') with Some pc' => find_rounds ci (skipn ui u) pc' | None => 0 end) in
  match r with inl st' => sound_st st' /\ w + charge st' <= c | inr _ => w <= S c end.
Proof.
  intros Hs Hu Hk Hn Er w. subst r w. cbv zeta. rewrite (skip_stars_nas p pi Nas Hs). pose proof (lt_nth _ _ _ Hs) as Lp.
  destruct (Nat.eqb pi (P - 1)); [lia|]. destruct (nth_error p (S pi)) as [pc|] eqn:Ep; [|lia]. pose proof (lt_nth _ _ _ Ep) as Lp'.
  destruct (find_next ci (skipn ui u) ui pc) as [k|] eqn:F.
  - pose proof (find_rounds_some _ _ _ _ _ F) as (E & L1 & L2). rewrite E. rewrite skipn_length in L2.
    split; [unfold sound_st; cbn; repeat split; try lia; exact Hs|]. unfold charge, level. cbn [g_p g_u g_ck g_restore]. rewrite andb_false_r.
    specialize (Hk k L1 ltac:(lia)). replace (S U - S k) with (U - k) by lia. lia.
  - pose proof (find_rounds_none _ _ _ _ F) as E. rewrite E, skipn_length.
    split; [unfold sound_st; cbn; repeat split; lia|]. unfold charge. cbn [g_p g_u g_ck g_restore]. rewrite Nat.eqb_refl. cbn [andb]. lia.
Qed.

Definition body (ck : option (nat * nat)) (pi ui : nat) : gstate + gres :=
  match nth_error u ui, nth_error p pi with
  | None, _ => inr GPanic
  | _, None => inr GPanic
  | Some uc, Some pc =>
      if Ascii.eqb pc qmark then inl (GState (S pi) (S ui) false ck)
      else if Ascii.eqb pc star then
        let pi' := skip_stars (skipn (S pi) p) (S pi) pi in
        if Nat.eqb pi' (P - 1) then inr (GRet true)
        else match nth_error p (S pi') with
             | None => inr GPanic
             | Some pc' => match find_next ci (skipn ui u) ui pc' with
                           | Some k => inl (GState (S pi') k false (Some (pi', k)))
                           | None => inl (GState pi' U false None)
                           end
             end
      else if runes_match ci uc pc then inl (GState (S pi) (S ui) false ck)
      else inl (GState pi ui true ck)
  end.
Definition body_rounds (pi ui : nat) : nat :=
  S (match nth_error u ui, nth_error p pi with
     | Some _, Some pc =>
         if Ascii.eqb pc star then
           let pi' := skip_stars (skipn (S pi) p) (S pi) pi in
           if Nat.eqb pi' (P - 1) then 0
           else match nth_error p (S pi') with Some pc' => find_rounds ci (skipn ui u) pc' | None => 0 end
         else 0
     | _, _ => 0
     end).
Definition paid (r : gstate + gres) (w c : nat) : Prop :=
  match r with inl st' => sound_st st' /\ w + charge st' <= c | inr _ => w <= S c end.

Lemma back_charge pi ui rs cp cu : sound_st (GState pi ui rs (Some (cp, cu))) ->
  paid (body (Some (cp, cu)) cp (cu + 1)) (body_rounds cp (cu + 1)) (charge (GState pi ui rs (Some (cp, cu)))).
Proof.
  intros (_ & _ & Hs & L1 & L2). unfold body, body_rounds, paid. rewrite Hs. destruct (nth_error u (cu + 1)) as [uc|] eqn:En; [|lia].
  change (Ascii.eqb star qmark) with false. change (Ascii.eqb star star) with true. cbv iota.
  pose proof (lt_nth _ _ _ En) as Lu. pose proof (lt_nth _ _ _ Hs) as Lp.
  apply (star_charge cp (cu + 1) _ _ Hs Lu); [| |reflexivity];
    unfold charge, level; cbn [g_p g_u g_ck g_restore]; rewrite andb_false_r; replace (S U - S cu) with (U - cu) by lia.
  - intros k K1 K2. assert (X : U - cu = (U - k) + (k - cu)) by lia. rewrite X, Nat.mul_add_distr_r.
    assert (Y : k - cu = S (k - (cu + 1))) by lia. rewrite Y, Nat.mul_succ_l.
    pose proof (Nat.mul_le_mono_l 1 (2 * P + 3) (k - (cu + 1)) ltac:(lia)) as Z. lia.
  - pose proof (Nat.mul_le_mono_l 3 (2 * P + 3) (U - cu) ltac:(lia)) as Z. lia.
Qed.

Lemma on_charge pi ui ck : sound_st (GState pi ui false ck) -> pi < P -> ui < U ->
  paid (body ck pi ui) (body_rounds pi ui) (charge (GState pi ui false ck)).
Proof.
  intros (_ & _ & Hc) Lp Lu. cbn [g_p g_u g_ck] in Hc. unfold body, body_rounds.
  destruct (nth_error u ui) as [uc|] eqn:En; [|apply nth_error_None in En; lia].
  destruct (nth_error p pi) as [pc|] eqn:Ep; [|apply nth_error_None in Ep; lia].
  assert (C0 : charge (GState pi ui false ck) = (S U - level (GState pi ui false ck)) * (2 * P + 3) + 2 * (P - pi) + 1).
  { unfold charge. cbn [g_p g_u g_ck g_restore]. destruct (Nat.eqb_spec ui U); [lia|reflexivity]. }
  assert (LV : level (GState pi ui false ck) <= S ui) by (unfold level; cbn [g_ck]; destruct ck as [[cp cu]|]; lia).
  assert (Adv : paid (inl (GState (S pi) (S ui) false ck)) 1 (charge (GState pi ui false ck))).
  { split; [unfold sound_st; cbn [g_p g_u g_ck]; split; [lia|split; [lia|]]; destruct ck as [[cp cu]|]; [intuition lia|exact I]|].
    rewrite C0. change (level (GState pi ui false ck)) with (level (GState (S pi) (S ui) false ck)). unfold charge. cbn [g_p g_u g_ck g_restore].
    generalize ((S U - level (GState (S pi) (S ui) false ck)) * (2 * P + 3)). intro x. destruct (Nat.eqb (S ui) U && _); lia. }
  destruct (Ascii.eqb_spec pc qmark) as [->|Nq]; [exact Adv|].
  destruct (Ascii.eqb_spec pc star) as [->|Ns].
  - apply (star_charge pi ui _ _ Ep Lu); [| |reflexivity]; rewrite C0.
    + intros k K1 K2. set (L := level _) in *. pose proof (Nat.mul_le_mono_r ((U - k) + (k - ui)) (S U - L) (2 * P + 3) ltac:(lia)) as Y.
      rewrite Nat.mul_add_distr_r in Y. pose proof (Nat.mul_le_mono_l 1 (2 * P + 3) (k - ui) ltac:(lia)) as Z. lia.
    + set (L := level _) in *. pose proof (Nat.mul_le_mono (U - ui) (S U - L) 1 (2 * P + 3) ltac:(lia) ltac:(lia)) as Y. lia.
  - destruct (runes_match ci uc pc); [exact Adv|]. split; [unfold sound_st; cbn [g_p g_u g_ck]; split; [lia|split; [lia|exact Hc]]|].
    rewrite C0. change (level (GState pi ui false ck)) with (level (GState pi ui true ck)). unfold charge. cbn [g_p g_u g_ck g_restore].
    generalize ((S U - level (GState pi ui true ck)) * (2 * P + 3)). intro x. destruct (Nat.eqb ui U && _); lia.
Qed.

Lemma step_charge st : sound_st st -> paid (glob_step ci u p st) (step_rounds ci u p st) (charge st).
Proof.
  destruct st as [pi ui rs ck]. intro H.
  assert (G : glob_step ci u p (GState pi ui rs ck) =
    if Nat.eqb pi P && Nat.eqb ui U then inr (GRet true)
    else if rs || Nat.eqb pi P || Nat.eqb ui U then match ck with None => inr (GRet false) | Some (cp, cu) => body ck cp (cu + 1) end
    else body ck pi ui).
  { unfold glob_step. cbn [g_p g_u g_ck g_restore]. destruct (Nat.eqb pi P && Nat.eqb ui U); [reflexivity|].
    destruct (rs || Nat.eqb pi P || Nat.eqb ui U); [destruct ck as [[cp cu]|]|]; reflexivity. }
  assert (W : step_rounds ci u p (GState pi ui rs ck) =
    if Nat.eqb pi P && Nat.eqb ui U then 1
    else if rs || Nat.eqb pi P || Nat.eqb ui U then match ck with None => 1 | Some (cp, cu) => body_rounds cp (cu + 1) end
    else body_rounds pi ui).
  { unfold step_rounds. cbn [g_p g_u g_ck g_restore]. destruct (Nat.eqb pi P && Nat.eqb ui U); [reflexivity|].
    destruct (rs || Nat.eqb pi P || Nat.eqb ui U); [destruct ck as [[cp cu]|]|]; reflexivity. }
  rewrite G, W. destruct (Nat.eqb pi P && Nat.eqb ui U); [cbn; lia|].
  destruct rs; cbn [orb].
  - destruct ck as [[cp cu]|]; [apply back_charge; exact H|cbn; lia].
  - destruct (Nat.eqb_spec pi P) as [Ep|Ep]; cbn [orb]; [destruct ck as [[cp cu]|]; [apply back_charge; exact H|cbn; lia]|].
    destruct (Nat.eqb_spec ui U) as [Eu|Eu]; [destruct ck as [[cp cu]|]; [apply back_charge; exact H|cbn; lia]|].
    destruct H as (H1 & H2 & H3). cbn [g_p g_u] in H1, H2. apply on_charge; [split; [exact H1|split; [exact H2|exact H3]]|lia|lia].
Qed.

Lemma loop_charge f : forall st, sound_st st -> loop_rounds f ci u p st <= S (charge st).
Proof.
  induction f as [|f IH]; intros st H; cbn [loop_rounds]; [lia|]. pose proof (step_charge st H) as SC. unfold paid in SC.
  destruct (glob_step ci u p st) as [st'|r]; [|lia]. destruct SC as (S1 & S2). specialize (IH st' S1). lia.
Qed.
Lemma loop_ends f : forall st, sound_st st -> charge st < f -> glob_loop f ci u p st <> GFuel.
Proof.
  induction f as [|f IH]; intros st H L; [lia|]. cbn [glob_loop]. pose proof (step_charge st H) as SC. unfold paid in SC.
  destruct (glob_step ci u p st) as [st'|r] eqn:G.
  - destruct SC as (S1 & S2). apply IH; [exact S1|]. assert (1 <= step_rounds ci u p st) by (unfold step_rounds; lia). lia.
  - intros ->. revert G. clear. unfold glob_step.
    destruct (Nat.eqb (g_p st) P && Nat.eqb (g_u st) U); [discriminate|].
    destruct (g_restore st || Nat.eqb (g_p st) P || Nat.eqb (g_u st) U); [destruct (g_ck st) as [[cp cu]|]; [|discriminate]|]; cbv beta iota zeta;
    repeat match goal with |- context [match ?x with _ => _ end] => destruct x end; discriminate.
Qed.
Lemma start_sound : sound_st (GState 0 0 false None).
Proof. unfold sound_st. cbn [g_p g_u g_ck]. repeat split; lia. Qed.
Lemma start_charge : S (charge (GState 0 0 false None)) <= (U + 2) * (2 * P + 3).
Proof.
  unfold charge, level. cbn [g_p g_u g_ck g_restore]. destruct (Nat.eqb 0 U && true); [|rewrite !Nat.sub_0_r].
  - pose proof (Nat.mul_le_mono 1 (U + 2) 1 (2 * P + 3) ltac:(lia) ltac:(lia)). lia.
  - replace (U + 2) with (S (S U)) by lia. rewrite (Nat.mul_succ_l (S U)). lia.
Qed.
End Steps.

Lemma wildcard_work fuel ci u p : no_adjacent_stars p ->
  segment_rounds fuel ci u p <= (List.length u + 2) * (2 * List.length p + 3).
Proof.
  intro N. unfold segment_rounds. cbv zeta. destruct (negb _ && _); [apply Nat.le_0_l|].
  etransitivity; [apply loop_charge; [exact N|apply start_sound]|apply start_charge].
Qed.

(** The answer is there after so many rounds. *)
Lemma wildcard_soon ci u p n : no_adjacent_stars p -> (List.length u + 2) * (2 * List.length p + 3) <= n ->
  existsb (fun c => Ascii.eqb c star) p = true \/ List.length u = List.length p ->
  glob_loop n ci u p (GState 0 0 false None) = regex_segment_match u p ci.
Proof.
  intros N L H. assert (E : glob_loop n ci u p (GState 0 0 false None) <> GFuel).
  { apply loop_ends; [exact N|apply start_sound|]. pose proof (start_charge u p). lia. }
  unfold regex_segment_match. cbv zeta. assert (X : negb (existsb (fun c => Ascii.eqb c star) p) && negb (Nat.eqb (List.length u) (List.length p)) = false).
  { destruct H as [H|H]; [now rewrite H|]. rewrite H, Nat.eqb_refl. apply andb_false_r. }
  rewrite X. assert (M : glob_loop (glob_fuel u p) ci u p (GState 0 0 false None) <> GFuel).
  { pose proof (glob_terminates ci u p N) as T. unfold regex_segment_match in T. cbv zeta in T. now rewrite X in T. }
  clear - E M. revert E M. generalize (GState 0 0 false None) (glob_fuel u p). clear. induction n as [|n IH]; intros st m E M; [cbn in E; congruence|].
  destruct m as [|m]; [cbn in M; congruence|]. cbn [glob_loop] in *. destruct (glob_step ci u p st); [now apply IH|reflexivity].
Qed.

Lemma parsed_work : forall fuel re t ci p s, parse_pattern fuel re t ci = POk p -> In s (p_segs p) -> s_mt s = MTRegex ->
  forall f u, segment_rounds f ci u (s_val s) <= (List.length u + 2) * (2 * List.length (s_val s) + 3).
Proof. intros fuel re t ci p s E I1 T f u. apply wildcard_work. exact (wildcards_calm _ _ _ _ _ _ E I1 T). Qed.

Lemma work_parsed :
  let re := Engine (fun _ => true) (fun _ _ => true) in
  exists p s, parse_pattern 20 re (str "/x/*aaaaaaab") false = POk p /\ In s (p_segs p) /\ s_mt s = MTRegex /\
    segment_rounds 400 false (str "aaaaaaaaaaaaaaaaaaac") (s_val s) = 172 /\ (20 + 2) * (2 * List.length (s_val s) + 3) = 462.
Proof. cbv zeta. eexists. eexists. split; [vm_compute; reflexivity|]. split; [right; left; reflexivity|]. split; [reflexivity|]. split; vm_compute; reflexivity. Qed.

Lemma wildcard_case :
  let u := str "aaaaaaaaaaaaaaaaaaac" in let p := str "*aaaaaaab" in
  no_adjacent_stars p /\ regex_segment_match u p false = GRet false /\ segment_rounds 400 false u p = 172.
Proof. cbv zeta. split; [repeat (apply nas_cons; [intros (X & Y); discriminate|]); apply nas_one|]. split; vm_compute; reflexivity. Qed.
