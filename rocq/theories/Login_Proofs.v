(** * Proofs about logins through the router *)
From Coq Require Import List NArith ZArith Ascii String Bool Lia Arith.
From Verif Require Import GoBase Http_Model Glob_Model Pattern_Model Url_Model Match_Model Router_Model Cache_Model Auth_Model Chain_Model Serve_Model
  Mux_Model Resp_Model Cors_Model App_Model OAuth_Model Login_Model Chain_Spec Mux_Spec Mux_Proofs App_Spec
  Pattern_Spec Url_Spec Routing_Spec Priority_Spec Choice_Spec AppWire_Spec Routing_Proofs Choice_Proofs Witness_Proofs
  AppWire_Proofs AppExact_Proofs Covers_Proofs.
Import ListNotations.
Local Open Scope string_scope.
Local Open Scope list_scope.
Local Open Scope nat_scope.

(** ** A registration of literals and variables *)

Definition simple (k : piece) : Prop := match k with Lit _ | Var _ => True | _ => False end.

Lemma simple_values ci rm ks : Forall simple ks -> forall ts bs bs', reads_as ci rm ks ts bs -> reads_as ci rm ks ts bs' -> bs = bs'.
Proof.
  induction 1 as [|k ks S F IH]; intros ts bs bs' A B.
  - inversion A; subst. inversion B; subst. reflexivity.
  - destruct k; destruct S; inversion A; subst; inversion B; subst; [|f_equal]; eapply IH; eassumption.
Qed.

Lemma as_specific ci rm ks : Forall simple ks -> forall ts bs ks1 bs1, reads_as ci rm ks ts bs -> reads_as ci rm ks1 ts bs1 ->
  ~ more_specific ks ks1 -> ~ more_specific ks1 ks -> Forall2 (same_piece ci) ks1 ks.
Proof.
  induction 1 as [|k ks S F IH]; intros ts bs ks1 bs1 A B N1 N2.
  - destruct ks1 as [|k1 ks1]; [constructor|]. destruct N1. constructor.
  - destruct ks1 as [|k1 ks1]; [destruct N2; constructor|].
    assert (E : kind_rank k1 = kind_rank k).
    { destruct (Nat.lt_trichotomy (kind_rank k) (kind_rank k1)) as [L|[L|L]]; [destruct N1; apply ms_here; exact L|congruence|destruct N2; apply ms_here; exact L]. }
    assert (Lt : forall ts' c c', reads_as ci rm ks ts' c -> reads_as ci rm ks1 ts' c' -> Forall2 (same_piece ci) ks1 ks).
    { intros ts' c c' A' B'. eapply IH; [exact A'|exact B'| |]; intro M; [apply N1|apply N2]; (apply ms_later; [congruence|exact M]). }
    destruct k as [t|n re|n|t| |]; destruct S; inversion A; subst; destruct k1 as [t1|n1 re1|n1|t1| |]; try discriminate E; inversion B; subst.
    + constructor; [|eapply Lt; eassumption]. cbn [same_piece]. eapply same_text_trans; [|apply same_text_sym]; eassumption.
    + constructor; [exact I|eapply Lt; eassumption].
Qed.

Section Best.
Variable W : Type.
Variable user : nat -> handler areq response W.
Variable mid : nat -> middleware areq response W.
Variable files : bytes -> request -> list act.
Variable pages : debug_page -> request -> list act.
Variable k : compressor.
Variable oh : headers -> headers.
Variable oc : cookies -> cookies.
Variable render : cookie -> bytes.
Variable location : wreq -> bytes -> bytes.
Variable redirect_body : Z -> bytes -> bytes.

(** If no registration that reads the request is more specific, it is answered by this
    one. *)
Lemma best_wins grow fuel re ci context mapping rs0 cs rs a0 x0 a xs q ts buf i r ks bs :
  resources context mapping rs0 -> wires [VMux [] []] cs rs ->
  new_app fuel re ci context mapping = (a0, x0) -> smooth x0 -> acalls grow fuel re a0 cs = (a, xs) -> Forall smooth xs ->
  ordinary re ci (rs0 ++ rs) -> (blen (rq_path q) < 65536)%N -> segments_of (rq_path q) ts -> List.length buf = 19 ->
  clear_choice re ci (rs0 ++ rs) (xq_method (rq_x q)) ts ->
  Forall simple ks -> leads re ci (rs0 ++ rs) (xq_method (rq_x q)) i r ks -> reads_as ci (re_match re) ks ts bs ->
  (forall i2 r2 ks2 bs2, leads re ci (rs0 ++ rs) (xq_method (rq_x q)) i2 r2 ks2 -> reads_as ci (re_match re) ks2 ts bs2 -> ~ more_specific ks2 ks) ->
  exists k0, forall f x w evs w' b fin,
    app_serve user mid files pages k oh oc render location redirect_body (k0 + f) re a q buf x w = (evs, w', b, fin) ->
    exists mc evs', sees mc q bs /\ visible evs = EvRun i :: evs' /\
      answered_by user mid files pages (sends k oh oc render location redirect_body q) (wr_entry r) x q mc w evs' w' b fin.
Proof.
  intros R Wi E0 S0 E Sm Or Bl Sg Bu Cl Si L Rd Best.
  destruct (whole_answers W user mid files pages k oh oc render location redirect_body grow fuel re ci context mapping rs0 cs rs a0 x0 a xs q ts buf
    R Wi E0 S0 E Sm Or Bl Sg Bu Cl) as (k0 & K).
  exists k0. intros f x w evs w' b fin Sv. destruct (K f x w evs w' b fin Sv) as [_ K2].
  destruct K2 as (j & r1 & ks1 & bs1 & mc & evs' & L1 & Rd1 & B & Se & V & A).
  { exists i, r, ks, bs. split; [exact L|exact Rd]. }
  pose proof (as_specific _ _ _ Si _ _ _ _ Rd Rd1 (B _ _ _ _ L Rd) (Best _ _ _ _ L1 Rd1)) as F.
  pose proof (program_wired _ _ _ _ _ _ _ _ _ _ _ _ _ R Wi E0 S0 E Sm) as H.
  assert (NC : forall n x, ~ In (Constrained n x) ks).
  { intros n y I. rewrite Forall_forall in Si. exact (Si _ I). }
  assert (F' : Forall2 (same_piece ci) ks ks1).
  { clear -F Si. induction F as [|p1 p l1 l S F IH]; constructor; [|inversion Si; auto].
    inversion Si as [|? ? S1 S2]; subst. destruct p; destruct S1; destruct p1; try destruct S; cbn in *; auto using same_text_sym. }
  assert (NC1 : forall n x, ~ In (Constrained n x) ks1).
  { intros n y I. clear -I F Si. induction F as [|p1 p l1 l S F IH]; [destruct I|]. inversion Si as [|? ? S1 S2]; subst.
    destruct I as [->|I]; [destruct p; destruct S1; destruct S|auto]. }
  assert (j = i).
  { destruct (wired_distinct _ _ _ _ _ _ H Or _ _ _ _ _ _ L1 L NC F) as [A1|A1]; [|exact A1].
    destruct (wired_distinct _ _ _ _ _ _ H Or _ _ _ _ _ _ L L1 NC1 F') as [A2|A2]; [lia|congruence]. }
  subst j. destruct L as (N & _ & P), L1 as (N1 & _ & P1). rewrite N in N1. injection N1 as <-.
  destruct P as [ps P], P1 as [ps1 P1].
  pose proof (pieces_unique _ _ _ _ _ _ P (ex_intro _ ps1 P1)) as <-.
  rewrite (simple_values _ _ _ Si _ _ _ Rd Rd1). exists mc, evs'. auto.
Qed.

End Best.

(** ** The registrations of the endpoints *)

Lemma acall_prefix grow fuel re a c a' x m y : acall_step grow fuel re a c = (a', x) -> nth_error (ms_muxes (ap_mux a)) m = Some y ->
  exists y', nth_error (ms_muxes (ap_mux a')) m = Some y' /\ mx_prefix y' = mx_prefix y.
Proof.
  assert (G : forall fuel re a meth p e, ap_mux (fst (register fuel re a meth p e)) = ap_mux a).
  { intros. unfold register. destruct (handle _ _ _ _ _ _). reflexivity. }
  intros E N. destruct c as [c|d]; cbn [acall_step] in E.
  - destruct (mcall_step grow (ap_mux a) c) as [st g] eqn:Q.
    assert (M : exists y', nth_error (ms_muxes st) m = Some y' /\ mx_prefix y' = mx_prefix y).
    { assert (App : forall l z, nth_error l m = Some y -> exists y' : mux, nth_error (l ++ [z]) m = Some y' /\ mx_prefix y' = mx_prefix y).
      { intros l z Nl. exists y. split; [|reflexivity]. rewrite nth_error_app1; [exact Nl|]. apply nth_error_Some. congruence. }
      destruct c as [j|j p|j ys|j meth p own h]; cbn [mcall_step] in Q; destruct (nth_error (ms_muxes (ap_mux a)) j) as [z|] eqn:Z;
        try (injection Q as <- <-; exists y; auto; fail).
      - destruct (append _ _ _ _) as [hh s]. unfold add_mux in Q. injection Q as <- <-. cbn [ms_muxes]. apply App. exact N.
      - destruct (Nat.eqb _ _ || _); [injection Q as <- <-; exists y; auto|].
        destruct (append _ _ _ _) as [hh s]. unfold add_mux in Q. injection Q as <- <-. cbn [ms_muxes]. apply App. exact N.
      - destruct (Nat.ltb _ _); [|injection Q as <- <-; exists y; auto].
        destruct (append _ _ _ _) as [hh s]. injection Q as <- <-. cbn [ms_muxes]. clear -N Z. revert j m Z N.
        induction (ms_muxes (ap_mux a)) as [|u l IH]; intros j m Z N; [destruct j; discriminate Z|].
        destruct j as [|j], m as [|m]; cbn [nth_error set_nth] in *.
        + injection Z as ->. injection N as ->. eexists. split; reflexivity.
        + exists y. auto.
        + exists y. auto.
        + eapply IH; eassumption. }
    destruct g; try (injection E as <- <-; exact M).
    match type of E with context [register ?f0 ?e0 ?a0 ?g0 ?p0 ?n0] => pose proof (G f0 e0 a0 g0 p0 n0) as R; destruct (register f0 e0 a0 g0 p0 n0) as [a2 z] end.
    injection E as <- <-. cbn [fst] in R. rewrite R. exact M.
  - destruct (nth_error (ms_muxes (ap_mux a)) d) as [z|]; [|injection E as <- <-; exists y; auto].
    assert (D : forall l a, ap_mux (fst (register_debug fuel re a (mx_prefix z) l)) = ap_mux a).
    { induction l as [|[p dh] l IH]; intro a1; [reflexivity|]. cbn [register_debug].
      pose proof (G fuel re a1 (str "GET") (resolve_path (mx_prefix z) p) (Entry [] [] (TDebug dh))) as R.
      destruct (register _ _ _ _ _ _) as [a2 e]. cbn [fst] in R. destruct e; try exact R. rewrite IH. exact R. }
    pose proof (D debug_endpoints a) as R. destruct (register_debug _ _ _ _ _) as [a2 e]. injection E as <- <-. cbn [fst] in R. rewrite R. exists y. auto.
Qed.

Lemma acalls_prefix grow fuel re cs : forall a a' xs m y, acalls grow fuel re a cs = (a', xs) -> nth_error (ms_muxes (ap_mux a)) m = Some y ->
  exists y', nth_error (ms_muxes (ap_mux a')) m = Some y' /\ mx_prefix y' = mx_prefix y.
Proof.
  induction cs as [|c cs IH]; intros a a' xs m y E N; cbn [acalls] in E; [injection E as <- <-; exists y; auto|].
  destruct (acall_step grow fuel re a c) as [a1 x] eqn:E1. destruct (acalls grow fuel re a1 cs) as [a2 ys] eqn:E2. injection E as <- <-.
  destruct (acall_prefix _ _ _ _ _ _ _ _ _ E1 N) as (y1 & N1 & P1). destruct (IH _ _ _ _ _ E2 N1) as (y2 & N2 & P2). exists y2. split; [exact N2|congruence].
Qed.

(** The two registrations, below the prefix of the mux. *)
Lemma login_wired grow fuel re r0 m ip base own1 own2 h1 h2 cs2 cs1 : forall vs ws rs a a' xs x,
  wires vs (cs1 ++ handle_oauth_at m ip base own1 own2 h1 h2 ++ cs2) ws ->
  has_wired fuel re r0 rs a -> refines (ap_mux a) vs ->
  acalls grow fuel re a (cs1 ++ handle_oauth_at m ip base own1 own2 h1 h2 ++ cs2) = (a', xs) -> Forall smooth xs ->
  nth_error (ms_muxes (ap_mux a')) m = Some x ->
  exists i common, nth_error ws i = Some (Wired (str "GET") (resolve_path (mx_prefix x) ip) (Entry common own1 (TUser h1))) /\
    nth_error ws (S i) = Some (Wired (str "GET") (resolve_path (mx_prefix x) (base ++ str "/{providerName}")) (Entry common own2 (TUser h2))).
Proof.
  induction cs1 as [|c cs1 IH]; intros vs ws rs a a' xs x Wi H R E Sm X.
  - cbn [List.app] in *. unfold handle_oauth_at in Wi, E. cbn [List.app] in Wi, E.
    inversion Wi as [|? ? vs1 rs1 ? rs2 W1 W2]; subst. inversion W2 as [|? ? vs2 rs3 ? rs4 W3 W4]; subst.
    inversion W1 as [? ? ? ? V|? ? ? V|? ? ? meth p common own h V|]; subst; try (inversion V; fail). inversion V as [| | |? ? v ? ? r1 ? ? N J]; subst.
    inversion W3 as [? ? ? ? V'|? ? ? V'|? ? ? meth' p' common' own' h' V'|]; subst; try (inversion V'; fail). inversion V' as [| | |? ? v' ? ? r2 ? ? N' J']; subst.
    rewrite N in N'. injection N' as <-.
    destruct (refines_nth _ _ _ _ R N) as (y & Ny & Ok). destruct Ok as (P & _).
    destruct (acalls_prefix _ _ _ _ _ _ _ _ _ E Ny) as (y' & Ny' & P'). rewrite X in Ny'. injection Ny' as <-. rewrite P', P.
    exists 0, (vm_common v). rewrite (joined_resolve _ _ _ J), (joined_resolve _ _ _ J'). split; reflexivity.
  - cbn [List.app acalls] in *. inversion Wi as [|? ? vs1 rs1 ? rs2 W1 W2]; subst.
    destruct (acall_step grow fuel re a c) as [a1 z] eqn:E1. destruct (acalls grow fuel re a1 _) as [a2 ys] eqn:E2. injection E as <- <-.
    inversion Sm as [|? ? S1 S2]; subst. destruct (wire_wired _ _ _ _ _ _ _ _ W1 _ _ _ _ H R E1 S1) as [H1 R1].
    destruct (IH _ _ _ _ _ _ _ W2 H1 R1 E2 S2 X) as (i & common & A & B).
    exists (List.length rs1 + i), common. rewrite !nth_error_app2 by lia.
    replace (List.length rs1 + i - List.length rs1) with i by lia. replace (S (List.length rs1 + i) - List.length rs1) with (S i) by lia. auto.
Qed.

(** ** Paths made of literals *)

Lemma lits_spelled ls : forall ps, Forall2 reads ps (map Lit ls) -> ps = ls.
Proof.
  induction ls as [|l ls IH]; intros ps F; inversion F as [|p q ps' ? R F']; subst; [reflexivity|].
  rewrite (IH _ F'). inversion R; subst; reflexivity.
Qed.

Lemma walked_plain ps : forall seen, ~ In [] ps -> ~ In (str "..") ps -> walked seen ps = seen ++ ps.
Proof.
  induction ps as [|p ps IH]; intros seen N1 N2; cbn [walked]; [rewrite app_nil_r; reflexivity|].
  rewrite IH; [|intro I; apply N1; right; exact I|intro I; apply N2; right; exact I].
  unfold walk. destruct p as [|c p]; [destruct N1; left; reflexivity|].
  destruct (list_eq_dec ascii_dec (c :: p) (str "..")) as [Q|Q]; [destruct N2; left; exact Q|]. rewrite <- app_assoc. reflexivity.
Qed.

Lemma few_plain ps : forall seen, ~ In (str "..") ps -> List.length seen + List.length ps <= 19 -> ~ too_many seen ps.
Proof.
  induction ps as [|p ps IH]; intros seen N L; cbn [too_many]; [tauto|]. cbn [List.length] in L.
  assert (Lw : List.length (walk seen p) <= S (List.length seen)).
  { unfold walk. destruct p as [|c p]; [lia|]. destruct (list_eq_dec _ _ _); [|rewrite app_length; cbn; lia].
    destruct N. left. assumption. }
  intros [H|H]; [lia|]. revert H. apply IH; [intro I; apply N; right; exact I|lia].
Qed.

Lemma spelled_app a b : spelled (a ++ b) = spelled a ++ spelled b.
Proof. induction a as [|x a IH]; [reflexivity|]. cbn [List.app spelled]. rewrite IH, app_assoc. reflexivity. Qed.

Lemma last_app_one {A : Type} (l : list A) x d : last (l ++ [x]) d = x.
Proof. induction l as [|y l IH]; [reflexivity|]. cbn [List.app]. destruct (l ++ [x]) eqn:E; [destruct l; discriminate E|]. exact IH. Qed.
Lemma app_one_inj {A : Type} (l l' : list A) x : l ++ [x] = l' ++ [x] -> l = l'.
Proof. intro E. apply app_inj_tail in E. apply E. Qed.
Lemma app_suffix {A : Type} (a b c : list A) : a ++ c = b ++ c -> a = b.
Proof. apply app_inv_tail. Qed.

(** The pattern of the callback and the path of the redirect URL. *)
Lemma callback_pieces ok ci root ls name : pieces_of ok ci (root ++ str "/{providerName}") (map Lit ls ++ [Var (str "providerName")]) ->
  ~ In (str "..") ls -> List.length ls <= 18 -> name <> [] -> name <> str ".." -> ~ In "/"%char name ->
  segments_of (root ++ str "/" ++ name) (ls ++ [name]).
Proof.
  intros (ps & Sp & F & _) Nd Len N1 N2 N3.
  assert (exists qs v, ps = qs ++ [v] /\ Forall2 reads qs (map Lit ls) /\ reads v (Var (str "providerName"))) as (qs & v & -> & F1 & F2).
  { apply Forall2_app_inv_r in F. destruct F as (qs & l2 & A & B & ->). inversion B as [|v ? l3 ? B1 B2]; subst. inversion B2; subst. exists qs, v. auto. }
  apply lits_spelled in F1 as E. subst qs.
  assert (v = str "{providerName}") as -> by (inversion F2; subst; reflexivity).
  destruct Sp as [Sl Sp].
  assert (Eq : root = spelled ls).
  { rewrite spelled_app in Sp. destruct Sp as [[Sp _]|Sp].
    - apply app_suffix in Sp. exact Sp.
    - exfalso. assert (Q : last (root ++ str "/{providerName}") "a"%char = "/"%char) by (rewrite Sp; apply last_app_one).
      change (str "/{providerName}") with (str "/{providerName" ++ ["}"%char]) in Q. rewrite app_assoc, last_app_one in Q. discriminate Q. }
  rewrite Eq. replace (spelled ls ++ str "/" ++ name) with (spelled (ls ++ [name])) by (rewrite spelled_app; cbn [spelled List.app]; rewrite app_nil_r; reflexivity).
  assert (NE : ~ In [] (ls ++ [name])).
  { intro I. apply in_app_iff in I. destruct I as [I|[I|[]]]; [|congruence].
    clear -I F1. revert I F1. induction ls as [|l ls IH]; intros I F1; [destruct I|]. inversion F1 as [|? ? ? ? R R']; subst.
    destruct I as [->|I]; [inversion R; congruence|auto]. }
  assert (ND : ~ In (str "..") (ls ++ [name])).
  { intro I. apply in_app_iff in I. destruct I as [I|[I|[]]]; [exact (Nd I)|congruence]. }
  rewrite <- (walked_plain (ls ++ [name]) [] NE ND) at 2.
  apply Forall_app in Sl. destruct Sl as [Sl _].
  assert (Fs : Forall (fun p => ~ In "/"%char p) (ls ++ [name])) by (apply Forall_app; split; [exact Sl|repeat constructor; exact N3]).
  assert (Fe : ~ too_many [] (ls ++ [name])) by (apply few_plain; [exact ND|cbn; rewrite app_length; cbn; lia]).
  destruct (ls ++ [name]) as [|p l] eqn:Q; [destruct ls; discriminate Q|]. apply segments_spelled; assumption.
Qed.
