(** * Proofs about the CORS middleware *)
From Coq Require Import List NArith ZArith Ascii String Bool Lia Arith.
From Verif Require Import GoBase Http_Model Auth_Model Auth_Proofs Csrf_Spec Csrf_Proofs Chain_Model.
From Verif Require Import Resp_Model Resp_Spec Resp_Proofs RespBody_Proofs RespMisc_Proofs Cors_Model Cors_Spec.
Import ListNotations.
Local Open Scope string_scope.
Local Open Scope list_scope.
Local Open Scope nat_scope.

(** ** Ports *)

Lemma from_last_some c s t : from_last c s = Some t -> exists a b, s = a ++ c :: b /\ t = c :: b /\ ~ In c b.
Proof.
  revert t. induction s as [|x s IH]; intros t E; [discriminate E|]. cbn in E. destruct (from_last c s) as [t'|] eqn:F.
  - injection E as <-. destruct (IH t' eq_refl) as (a & b & -> & -> & N). exists (x :: a), b. auto.
  - destruct (Ascii.eqb_spec x c) as [->|]; [|discriminate E]. injection E as <-. exists [], s. split; [reflexivity|]. split; [reflexivity|].
    clear IH. induction s as [|y s IHs]; [easy|]. cbn in F. destruct (from_last c s); [discriminate F|].
    destruct (Ascii.eqb_spec y c) as [->|D]; [discriminate F|]. intros [->|H]; [now apply D|now apply IHs].
Qed.

Lemma from_last_none c s : from_last c s = None <-> ~ In c s.
Proof.
  induction s as [|x s IH]; [split; [easy|reflexivity]|]. cbn. destruct (from_last c s) as [t|].
  - split; [discriminate|]. intro H. exfalso. destruct IH as [_ IH]. assert (X : ~ In c s) by tauto. apply IH in X. discriminate.
  - destruct (Ascii.eqb_spec x c) as [->|D]; [split; [discriminate|tauto]|]. split; [|reflexivity]. intros _ [E|H]; [congruence|].
    destruct IH as [IH _]. now apply IH.
Qed.

Lemma from_last_eq c a b : ~ In c b -> from_last c (a ++ c :: b) = Some (c :: b).
Proof.
  intro N. induction a as [|x a IH]; cbn.
  - apply from_last_none in N. rewrite N. now rewrite Ascii.eqb_refl.
  - now rewrite IH.
Qed.

Lemma is_num_iff c : is_num c = true <-> (48 <= code c <= 57)%N.
Proof. unfold is_num. rewrite andb_true_iff, !N.leb_le. tauto. Qed.

Lemma digits_iff p : forallb is_num p = true <-> all_digits p.
Proof. unfold all_digits. rewrite forallb_forall. split; intros H c I1; apply is_num_iff, H, I1. Qed.

Lemma digits_no_colon p : all_digits p -> ~ In ":"%char p.
Proof. intros D H. apply D in H. vm_compute in H. destruct H as [_ H]. now apply H. Qed.

Lemma port_with n p : all_digits p -> url_port (n ++ str ":" ++ p) = p.
Proof.
  intro D. unfold url_port. change (n ++ str ":" ++ p) with (n ++ ":"%char :: p). rewrite from_last_eq by now apply digits_no_colon.
  cbn. apply digits_iff in D. rewrite D. reflexivity.
Qed.

Lemma port_without n : host_port n n None -> url_port n = [].
Proof.
  intro H. inversion H as [|m N]; subst. unfold url_port. destruct (from_last ":"%char n) as [t|] eqn:F; [|reflexivity].
  apply from_last_some in F. destruct F as (a & b & E & -> & _). destruct (valid_optional_port (":"%char :: b)) eqn:V; [|reflexivity].
  exfalso. cbn in V. apply (N a b); [exact E|]. now apply digits_iff.
Qed.

Lemma host_port_ex h : exists n po, host_port h n po.
Proof.
  destruct (from_last ":"%char h) as [t|] eqn:F.
  - apply from_last_some in F. destruct F as (a & b & -> & -> & N). destruct (forallb is_num b) eqn:D.
    + exists a, (Some b). apply (with_port a b). now apply digits_iff.
    + exists (a ++ ":"%char :: b), None. constructor. intros m p E Dp.
      assert (b = p) as ->.
      { pose proof (from_last_eq ":"%char a b N) as X. rewrite E in X.
        change (m ++ str ":" ++ p) with (m ++ ":"%char :: p) in X. rewrite from_last_eq in X by now apply digits_no_colon. congruence. }
      apply digits_iff in Dp. congruence.
  - exists h, None. constructor. intros m p -> D. apply from_last_none in F. apply F. rewrite in_app_iff. right. now left.
Qed.

Lemma host_port_fun h n po n' po' : host_port h n po -> host_port h n' po' -> n = n' /\ po = po'.
Proof.
  intros A B. inversion A as [m p D|m N]; subst; inversion B as [m' p' D' E|m' N']; subst.
  - change (n' ++ str ":" ++ p') with (n' ++ ":"%char :: p') in E. change (n ++ str ":" ++ p) with (n ++ ":"%char :: p) in E.
    pose proof (from_last_eq ":"%char n' p' (digits_no_colon _ D')) as X. rewrite E in X.
    rewrite from_last_eq in X by now apply digits_no_colon. injection X as ->. apply app_inv_tail in E. auto.
  - exfalso. eapply N'; [reflexivity|exact D].
  - exfalso. eapply N; [reflexivity|exact D'].
  - auto.
Qed.

(** ** The same origin *)

Lemma default_is s d : default_port s d ->
  (if beqb s (str "https") || beqb s (str "wss") then str "443" else str "80") = d /\
  forall p, ((beqb s (str "http") || beqb s (str "ws")) && negb (beqb p (str "80"))) ||
     ((beqb s (str "https") || beqb s (str "wss")) && negb (beqb p (str "443"))) = negb (beqb p d).
Proof.
  intros [[[->| ->] ->]|[[->| ->] ->]]; (split; [reflexivity|]); intro p.
  - change (beqb (str "http") (str "http") || beqb (str "http") (str "ws")) with true.
    change (beqb (str "http") (str "https") || beqb (str "http") (str "wss")) with false. cbn. now rewrite orb_false_r.
  - change (beqb (str "ws") (str "http") || beqb (str "ws") (str "ws")) with true.
    change (beqb (str "ws") (str "https") || beqb (str "ws") (str "wss")) with false. cbn [andb]. now rewrite orb_false_r.
  - reflexivity.
  - reflexivity.
Qed.

Lemma same_origin_iff us h o d : default_port (to_lower us) d ->
  let base := to_lower us ++ str "://" ++ h in
  let p := match url_port h with [] => d | p => p end in
  same_origin us h o = true <-> h <> [] /\ ((o = base /\ p = d) \/ o = base ++ str ":" ++ p).
Proof.
  cbv zeta. intro D. unfold same_origin.
  assert (US : beqb us [] = false).
  { destruct us; [|reflexivity]. destruct D as [[[E|E] _]|[[E|E] _]]; discriminate E. }
  rewrite US. cbn [orb]. destruct (beqb h []) eqn:H.
  { apply beqb_iff in H. subst h. split; [discriminate|]. intros [H _]. now elim H. }
  assert (HN : h <> []) by (intros ->; discriminate H).
  cbv zeta. destruct (default_is _ _ D) as [DP TP]. rewrite DP. rewrite TP.
  set (base := to_lower us ++ str "://" ++ h). set (p := match url_port h with [] => d | c :: q => c :: q end).
  destruct (Nat.eqb_spec (List.length base) (List.length o)) as [L|L].
  - destruct (beqb p d) eqn:B; cbn [negb].
    + apply beqb_iff in B. rewrite beqb_iff. split; [auto|]. intros [_ [[-> _]|E]]; [reflexivity|].
      exfalso. rewrite E in L. rewrite app_length in L. cbn in L. lia.
    + split; [discriminate|]. intros [_ [[-> E]|E]].
      * rewrite E in B. rewrite beqb_same in B. discriminate B.
      * exfalso. rewrite E in L. rewrite app_length in L. cbn in L. lia.
  - rewrite beqb_iff. split; [auto|]. intros [_ [[-> _]|E]]; [congruence|now symmetry].
Qed.

Lemma same_is_own us h o d : default_port (to_lower us) d -> same_origin us h o = true -> ~ odd_ports (to_lower us) h o ->
  own (to_lower us) h o.
Proof.
  intros D S O. apply (same_origin_iff us h o d D) in S. cbv zeta in S. destruct S as [HN S].
  destruct (host_port_ex h) as (n & po & HP). exists n, po, d. split; [exact HP|]. split; [exact D|]. cbv zeta.
  inversion HP as [m p DG|m N]; subst.
  - rewrite port_with in S by exact DG. destruct p as [|c p].
    + exfalso. apply O. exists n, []. auto.
    + destruct S as [[-> E]|E].
      * left. reflexivity.
      * exfalso. apply O. exists n, (c :: p). split; [exact HP|]. right. rewrite E. now rewrite <- !app_assoc.
  - rewrite (port_without n HP) in S. destruct S as [[-> E]|E].
    + right. auto.
    + left. rewrite E. now rewrite <- !app_assoc.
Qed.

Lemma no_scheme_not_same us h o : us = [] \/ h = [] -> same_origin us h o = false.
Proof. unfold same_origin. intros [->| ->]; [reflexivity|]. rewrite orb_true_r. reflexivity. Qed.

(** ** Headers of the request *)

Lemma canonical_names n : In n [h_origin; h_acrm; h_acrh; str "Content-Type"] -> canonical n = n.
Proof. cbn. intros [<-|[<-|[<-|[<-|[]]]]]; reflexivity. Qed.

Lemma carries_get q n v : canonical n = n -> carries q n v -> has_header (xq_headers q) n = true /\ hget (xq_headers q) n = v.
Proof.
  intros C (vs & E & ->). unfold has_header, hget, hvalues. rewrite C, E. split; [reflexivity|]. now destruct vs.
Qed.
Lemma has_carries q n : canonical n = n -> has_header (xq_headers q) n = true -> carries q n (hget (xq_headers q) n).
Proof.
  unfold has_header, carries, hget, hvalues. intros -> H. destruct (alookup n (xq_headers q)) as [vs|]; [|discriminate H]. exists vs. auto.
Qed.
Lemma carries_not q n : canonical n = n -> has_header (xq_headers q) n = false -> forall v, ~ carries q n v.
Proof. intros C H v K. apply carries_get in K; [|exact C]. destruct K as [K _]. congruence. Qed.

Lemma can_o : canonical h_origin = h_origin. Proof. reflexivity. Qed.
Lemma can_m : canonical h_acrm = h_acrm. Proof. reflexivity. Qed.
Lemma can_h : canonical h_acrh = h_acrh. Proof. reflexivity. Qed.

Lemma fold_iff l x : contains_fold l x = true <-> listed_fold l x.
Proof. unfold contains_fold, listed_fold. apply existsb_exists. Qed.

Lemma origin_allowed_iff o c : origin_allowed o c = true <-> allows_origin c o.
Proof.
  unfold origin_allowed, allows_origin, contains_exact. destruct (cc_any c); [tauto|]. rewrite existsb_exists. split.
  - intros (x & I1 & E). apply beqb_iff in E. subst x. now right.
  - intros [H|H]; [discriminate H|]. exists o. split; [exact H|apply beqb_same].
Qed.

(** ** Trimming *)

Lemma trim_left_spaces a s : forallb is_space a = true -> trim_left (a ++ s) = trim_left s.
Proof. induction a as [|c a IH]; [reflexivity|]. cbn. intro H. apply andb_prop in H. destruct H as [-> H]. auto. Qed.

Lemma trim_left_split s : exists a, forallb is_space a = true /\ s = a ++ trim_left s.
Proof.
  induction s as [|c s (a & A & E)]; [exists []; auto|]. cbn. destruct (is_space c) eqn:S.
  - exists (c :: a). cbn. rewrite S, A. split; [reflexivity|]. now rewrite <- E.
  - exists []. auto.
Qed.

Lemma forallb_rev {A : Type} (f : A -> bool) l : forallb f (rev l) = forallb f l.
Proof. induction l as [|x l IH]; [reflexivity|]. cbn. rewrite forallb_app, IH. cbn. rewrite andb_true_r. apply andb_comm. Qed.

Lemma trim_app_right s b : forallb is_space b = true -> trim_space (s ++ b) = trim_space s.
Proof.
  intro B. unfold trim_space. apply f_equal. destruct (trim_left_split s) as (a & A & E).
  destruct (trim_left s) as [|c t] eqn:T.
  - assert (X : trim_left (s ++ b) = []).
    { rewrite E, app_nil_r. rewrite trim_left_spaces by exact A. rewrite <- (app_nil_r b). rewrite trim_left_spaces by exact B. reflexivity. }
    rewrite X. reflexivity.
  - assert (X : trim_left (s ++ b) = (c :: t) ++ b).
    { rewrite E, <- app_assoc. rewrite trim_left_spaces by exact A. cbn [app trim_left].
      assert (S : is_space c = false).
      { clear - T. revert T. induction s as [|x s IH]; [discriminate|]. cbn. destruct (is_space x) eqn:Q; [exact IH|]. intro E. injection E as <- _. exact Q. }
      rewrite S. reflexivity. }
    rewrite X, rev_app_distr. apply trim_left_spaces. now rewrite forallb_rev.
Qed.

Lemma trim_space_split v : exists a b, forallb is_space a = true /\ forallb is_space b = true /\ v = a ++ trim_space v ++ b.
Proof.
  destruct (trim_left_split v) as (a & A & E). destruct (trim_left_split (rev (trim_left v))) as (b & B & F).
  exists a, (rev b). split; [exact A|]. split; [now rewrite forallb_rev|]. unfold trim_space.
  rewrite E at 1. apply f_equal. rewrite <- (rev_involutive (trim_left v)) at 1. rewrite F at 1. now rewrite rev_app_distr.
Qed.

Lemma space_not_comma c : is_space c = true -> Ascii.eqb c ","%char = false.
Proof. intro H. destruct (Ascii.eqb_spec c ","%char) as [->|]; [discriminate H|reflexivity]. Qed.

Lemma split_nonempty c s : split_on c s <> [].
Proof. destruct s as [|x s]; cbn; [discriminate|]. destruct (Ascii.eqb x c); [discriminate|]. destruct (split_on c s); discriminate. Qed.

Lemma split_spaces_left a s : forallb is_space a = true ->
  map trim_space (split_on ","%char (a ++ s)) = map trim_space (split_on ","%char s).
Proof.
  induction a as [|c a IH]; [reflexivity|]. cbn [forallb app split_on]. intro H. apply andb_prop in H. destruct H as [S H].
  rewrite space_not_comma by exact S. rewrite <- (IH H). pose proof (split_nonempty ","%char (a ++ s)) as NE.
  destruct (split_on ","%char (a ++ s)) as [|p ps]; [congruence|]. cbn [map]. apply f_equal2; [|reflexivity].
  unfold trim_space. cbn [trim_left]. now rewrite S.
Qed.

Lemma split_spaces_right b s : forallb is_space b = true ->
  map trim_space (split_on ","%char (s ++ b)) = map trim_space (split_on ","%char s).
Proof.
  intro B. assert (X : exists l t, split_on ","%char s = l ++ [t] /\ split_on ","%char (s ++ b) = l ++ [t ++ b]).
  { induction s as [|c s (l & t & E & F)].
    - exists [], []. cbn [app]. split; [reflexivity|]. clear -B. induction b as [|c b IH]; [reflexivity|]. cbn in *.
      apply andb_prop in B. destruct B as [S B]. rewrite space_not_comma by exact S. now rewrite (IH B).
    - cbn [split_on app]. destruct (Ascii.eqb c ","%char).
      + exists ([] :: l), t. rewrite E, F. auto.
      + rewrite E, F. destruct l as [|p l]; cbn [app].
        * exists [], (c :: t). auto.
        * exists ((c :: p) :: l), t. auto. }
  destruct X as (l & t & -> & ->). rewrite !map_app. cbn [map]. now rewrite trim_app_right.
Qed.

Lemma split_trim v : map trim_space (split_on ","%char (trim_space v)) = map trim_space (split_on ","%char v).
Proof.
  destruct (trim_space_split v) as (a & b & A & B & E). rewrite E at 2.
  rewrite split_spaces_left by exact A. now rewrite split_spaces_right.
Qed.

Lemma trim_left_id s : match s with c :: _ => is_space c = false | [] => True end -> trim_left s = s.
Proof. destruct s as [|c s]; [reflexivity|]. cbn. now intros ->. Qed.

Lemma trim_left_head s : match trim_left s with c :: _ => is_space c = false | [] => True end.
Proof. induction s as [|c s IH]; [exact I|]. cbn. destruct (is_space c) eqn:E; [exact IH|exact E]. Qed.

Lemma trim_twice v : trim_space (trim_space v) = trim_space v.
Proof.
  unfold trim_space. set (t := trim_left v). pose proof (trim_left_head v) as H. fold t in H.
  destruct (trim_left_split (rev t)) as (b & B & E). set (u := trim_left (rev t)) in *.
  assert (R : t = rev u ++ rev b) by (rewrite <- rev_app_distr, <- E, rev_involutive; reflexivity).
  assert (HU : match rev u with c :: _ => is_space c = false | [] => True end).
  { destruct (rev u) as [|c r] eqn:F; [exact I|]. rewrite R in H. cbn in H. exact H. }
  rewrite (trim_left_id (rev u) HU). rewrite rev_involutive. apply f_equal. apply trim_left_id. apply trim_left_head.
Qed.

(** ** The decision *)

Lemma preflight_iff q c o : carries q h_origin o -> is_preflight q -> ~ carries q h_acrm [] ->
  (preflight_allowed q c = true <-> allows_origin c o /\ allows c q).
Proof.
  intros CO P NE. destruct (carries_get q _ o can_o CO) as [_ GO]. pose proof P as P0. destruct P as [PM (v & CM)].
  destruct (carries_get q _ v can_m CM) as [HM GM]. unfold preflight_allowed. rewrite GO, HM, GM. cbn [negb].
  destruct (origin_allowed o c) eqn:OA; cbn [negb].
  2: { split; [discriminate|]. intros [A _]. apply origin_allowed_iff in A. congruence. }
  apply origin_allowed_iff in OA.
  destruct (contains_fold (cc_methods c) (trim_space v)) eqn:CF; cbn [negb].
  2: { split; [discriminate|]. intros [_ (A & _)]. specialize (A P0 v CM). apply fold_iff in A. congruence. }
  apply fold_iff in CF.
  assert (X : forallb (fun h0 => beqb (trim_space h0) [] || contains_fold (cc_headers c) (trim_space (trim_space h0)))
                (split_on ","%char (trim_space (hget (xq_headers q) h_acrh))) = true <->
              forall h, asked_headers q h -> listed_fold (cc_headers c) h).
  { rewrite forallb_forall. split.
    - intros H h (v' & C' & I1 & N). destruct (carries_get q _ v' can_h C') as [_ G]. rewrite <- split_trim in I1.
      apply in_map_iff in I1. destruct I1 as (p & <- & I1). rewrite <- G in I1. apply H in I1. rewrite trim_twice in I1.
      apply orb_prop in I1. destruct I1 as [I1|I1]; [apply beqb_iff in I1; congruence|now apply fold_iff].
    - intros H p I1. destruct (beqb (trim_space p) []) eqn:B; [reflexivity|]. cbn [orb]. rewrite trim_twice. apply fold_iff, H.
      destruct (has_header (xq_headers q) h_acrh) eqn:HH.
      + exists (hget (xq_headers q) h_acrh). split; [apply has_carries; [reflexivity|exact HH]|].
        split; [|intro E; rewrite E in B; discriminate B]. rewrite <- split_trim. now apply in_map.
      + exfalso. unfold has_header in HH. unfold hget, hvalues in I1. rewrite can_h in I1.
        destruct (alookup h_acrh (xq_headers q)); [discriminate HH|]. cbn in I1. destruct I1 as [<-|[]]. discriminate B. }
  cbv zeta. rewrite X. unfold allows. split.
  - intro H. split; [exact OA|]. split; [|split; [auto|tauto]]. intros _ v' C'.
    destruct (carries_get q _ v' can_m C') as [_ G]. rewrite GM in G. now subst v'.
  - intros [_ (_ & A & _)]. auto.
Qed.

Lemma simple_iff q c o : carries q h_origin o -> ~ is_preflight q ->
  (simple_allowed q c = true <-> allows_origin c o /\ allows c q).
Proof.
  intros CO P. destruct (carries_get q _ o can_o CO) as [_ GO]. unfold simple_allowed. rewrite GO.
  destruct (origin_allowed o c) eqn:OA; cbn [negb].
  - apply origin_allowed_iff in OA. rewrite fold_iff. unfold allows. tauto.
  - split; [discriminate|]. intros [A _]. apply origin_allowed_iff in A. congruence.
Qed.

Lemma type_cross q o : carries q h_origin o -> valid_origin o = true -> same_origin (xq_scheme q) (xq_host q) o = false ->
  match request_type q with
  | SimpleCors | ActualCors => ~ is_preflight q /\ complete q
  | PreflightCors => is_preflight q /\ ~ carries q h_acrm [] /\ complete q
  | NotCors => False
  | InvalidCors => ~ complete q
  end.
Proof.
  intros CO V SO. destruct (carries_get q _ o can_o CO) as [HO GO]. unfold request_type. rewrite HO. cbn [negb]. rewrite GO, V. cbn [negb].
  rewrite SO. cbv zeta.
  assert (NP : forall m, xq_method q = m -> m <> str "OPTIONS" -> ~ is_preflight q) by (intros m E D [A _]; congruence).
  assert (CP : forall m, xq_method q = m -> m <> str "OPTIONS" -> m <> str "POST" -> complete q).
  { intros m E D1 D2. split; [congruence|]. intros [A _]. congruence. }
  destruct (beqb (xq_method q) (str "GET") || beqb (xq_method q) (str "HEAD")) eqn:G.
  { apply orb_prop in G. destruct G as [G|G]; apply beqb_iff in G; (split; [apply (NP _ G)|apply (CP _ G)]); discriminate. }
  destruct (beqb (xq_method q) (str "OPTIONS")) eqn:O.
  { apply beqb_iff in O. destruct (has_header (xq_headers q) h_acrm) eqn:HM.
    - pose proof (has_carries q _ can_m HM) as CM. destruct (beqb (hget (xq_headers q) h_acrm) []) eqn:B.
      + apply beqb_iff in B. intros [_ K]. apply K; [split; [exact O|eauto]|]. now rewrite B in CM.
      + assert (NE : ~ carries q h_acrm []).
        { intro K. destruct (carries_get q _ [] can_m K) as [_ G2]. rewrite G2 in B. discriminate B. }
        split; [split; [exact O|eauto]|]. split; [exact NE|]. split; [intro E; rewrite O in E; discriminate E|auto].
    - assert (N : ~ is_preflight q) by (intros [_ (v & K)]; eapply carries_not; eauto using can_m).
      split; [exact N|]. split; [intro E; rewrite O in E; discriminate E|tauto]. }
  assert (OO : xq_method q <> str "OPTIONS") by (intro E; rewrite E in O; discriminate O).
  assert (N : ~ is_preflight q) by (intros [E _]; congruence).
  destruct (beqb (xq_method q) (str "POST")) eqn:PO.
  - apply beqb_iff in PO. destruct (beqb (media_type (hget (xq_headers q) (str "Content-Type"))) []) eqn:M; cbn [negb].
    + apply beqb_iff in M. intros [K _]. now apply K.
    + assert (K : complete q).
      { split; [intros _ E; rewrite E in M; discriminate M|tauto]. }
      destruct (beqb _ _ || beqb _ _ || beqb _ _); auto.
  - split; [exact N|]. apply (CP _ eq_refl OO). intro E. rewrite E in PO. discriminate PO.
Qed.

(** ** The headers of the answer *)

Lemma put_all_some r m : has_headers r -> exists r', put_all r m = Some r' /\ get_headers r' = Some m /\ kept_kind r' = kept_kind r /\ has_headers r'.
Proof.
  unfold has_headers. induction r as [h|h p|h p|h p|h p|h p|h p n|h p| |hs cs a|l r IH|l]; cbn [core put_all];
    try (intros _; eexists; split; [reflexivity|]; split; [reflexivity|]; split; [reflexivity|exact I]); try (intros []).
  intro H. destruct (IH H) as (r' & E & G & K & HH). rewrite E. exists (RCompress l r'). cbn. rewrite K. auto.
Qed.

Lemma put_all_headers r m r' : put_all r m = Some r' -> has_headers r /\ get_headers r' = Some m /\ kept_kind r' = kept_kind r.
Proof.
  intro E. assert (H : has_headers r).
  { revert r' E. unfold has_headers. induction r as [h|h p|h p|h p|h p|h p|h p n|h p| |hs cs a|l r IH|l]; cbn; intros r' E; try exact I; try discriminate E.
    destruct (put_all r m) as [x|]; [eapply IH; reflexivity|discriminate E]. }
  split; [exact H|]. destruct (put_all_some r m H) as (r2 & E2 & G & K & _). assert (r2 = r') as -> by congruence. auto.
Qed.

Lemma headers_get r : has_headers r -> exists m, get_headers r = Some m.
Proof.
  unfold has_headers. induction r as [h|h p|h p|h p|h p|h p|h p n|h p| |hs cs a|l r IH|l]; cbn; intro H; try (eexists; reflexivity); try (destruct H).
  apply IH, H.
Qed.

Lemma set_other (m : headers) k v n : n <> k -> alookup n (headers_set m k v) = alookup n m.
Proof. intro D. unfold headers_set. rewrite lookup_set. rewrite beqb_ne by exact D. reflexivity. Qed.
Lemma set_this (m : headers) k v : alookup k (headers_set m k v) = Some v.
Proof. unfold headers_set. rewrite lookup_set, beqb_same. reflexivity. Qed.

Lemma vary_other m name n : n <> h_vary -> alookup n (add_vary m name) = alookup n m.
Proof.
  intro D. unfold add_vary. cbv zeta.
  set (vs := match alookup h_vary m with Some (c :: v) => map trim_space (split_on ","%char (c :: v)) | _ => [] end). clearbody vs.
  destruct (beqb name (str "*") || (List.length vs =? 0)); [now apply set_other|].
  destruct ((List.length vs =? 1) && beqb (trim_space (nth 0 vs [])) (str "*")); [reflexivity|].
  destruct (existsb _ vs); now apply set_other.
Qed.

(** What the answer says about the origin and credentials, and which headers stay. *)
Definition cors_names : list bytes := [h_acao; h_acac; h_aceh; h_acma; h_acam; h_acah; h_vary].

Lemma standard_acao q m c o : hget (xq_headers q) h_origin = o ->
  alookup h_acao (add_standard q m c) = Some (if cc_any c then str "*" else o) /\
  alookup h_acac (add_standard q m c) = (if cc_credentials c then Some (str "true") else alookup h_acac m) /\
  (forall n, ~ In n cors_names -> alookup n (add_standard q m c) = alookup n m).
Proof.
  intros <-. unfold add_standard. cbv zeta. set (o := hget (xq_headers q) h_origin). clearbody o.
  set (m1 := if cc_any c then _ else _).
  assert (A1 : alookup h_acao m1 = Some (if cc_any c then str "*" else o)).
  { unfold m1. destruct (cc_any c); [apply set_this|]. rewrite vary_other by discriminate. apply set_this. }
  assert (B1 : forall n, n <> h_acao -> n <> h_vary -> alookup n m1 = alookup n m).
  { intros n D1 D2. unfold m1. destruct (cc_any c); [now apply set_other|]. rewrite vary_other by exact D2. now apply set_other. }
  clearbody m1. set (m2 := if cc_credentials c then _ else _).
  assert (A2 : alookup h_acao m2 = Some (if cc_any c then str "*" else o)).
  { unfold m2. destruct (cc_credentials c); [|exact A1]. rewrite set_other by discriminate. exact A1. }
  assert (C2 : alookup h_acac m2 = if cc_credentials c then Some (str "true") else alookup h_acac m).
  { unfold m2. destruct (cc_credentials c); [apply set_this|]. apply B1; discriminate. }
  assert (B2 : forall n, n <> h_acao -> n <> h_vary -> n <> h_acac -> alookup n m2 = alookup n m).
  { intros n D1 D2 D3. unfold m2. destruct (cc_credentials c); [rewrite set_other by exact D3|]; now apply B1. }
  clearbody m2. set (m3 := match cc_exposed c with [] => m2 | _ :: _ => _ end).
  assert (X3 : forall n, n <> h_aceh -> alookup n m3 = alookup n m2).
  { intros n D. unfold m3. destruct (cc_exposed c); [reflexivity|now apply set_other]. }
  clearbody m3.
  assert (F : forall m', (forall n, n <> h_acma -> n <> h_acam -> n <> h_acah -> n <> h_vary -> alookup n m' = alookup n m3) ->
     alookup h_acao m' = Some (if cc_any c then str "*" else o) /\
     alookup h_acac m' = (if cc_credentials c then Some (str "true") else alookup h_acac m) /\
     (forall n, ~ In n cors_names -> alookup n m' = alookup n m)).
  { intros m' H. split; [|split].
    - rewrite H by discriminate. rewrite X3 by discriminate. exact A2.
    - rewrite H by discriminate. rewrite X3 by discriminate. exact C2.
    - intros n N. cbn in N. rewrite H by (intro E; apply N; rewrite E; tauto). rewrite X3 by (intro E; apply N; rewrite E; tauto).
      apply B2; intro E; apply N; rewrite E; tauto. }
  destruct (beqb (xq_method q) (str "OPTIONS")); [|apply F; reflexivity].
  apply F. intros n D1 D2 D3 D4.
  set (m6 := match cc_methods c with [] => _ | _ :: _ => _ end).
  assert (Y : alookup n m6 = alookup n m3).
  { unfold m6. destruct (cc_methods c); [|rewrite set_other by exact D2];
      (destruct (0 <? cc_max_age c)%Z; [rewrite set_other by exact D1|]; rewrite !vary_other by exact D4; reflexivity). }
  destruct (cc_headers c); [exact Y|]. rewrite set_other by exact D3. exact Y.
Qed.

(** ** C39: who gets an answer *)

Section M.
Variable World : Type.
Variable h : handler xreq response World.

Lemma cors_answer c x q w r w' : cors c h x q w = (HReturn (Some r) None, w') ->
  exists r0 m, h x q w = (HReturn (Some r0) None, w') /\ has_headers r0 /\ get_headers r0 = Some m /\
    get_headers r = Some (add_standard q m c) /\ kept_kind r = kept_kind r0 /\
    match request_type q with
    | SimpleCors | ActualCors => simple_allowed q c = true
    | PreflightCors => preflight_allowed q c = true
    | NotCors => True
    | InvalidCors => False
    end.
Proof.
  intro E. unfold cors in E. destruct (h x q w) as [[[r0|] [e|]|v] w1]; cbn in E; try discriminate E.
  2: { destruct (request_type q); discriminate E. }
  destruct (get_headers r0) as [m|] eqn:G.
  2: { destruct (request_type q); discriminate E. }
  assert (F : forall ok : bool, (if ok then match put_all r0 (add_standard q m c) with
                                     | None => (runtime_panic, w1) | Some r1 => (HReturn (Some r1) None, w1) end
                          else (HReturn None (Some EAccessDenied), w1)) = (HReturn (Some r) None, w') ->
              ok = true /\ put_all r0 (add_standard q m c) = Some r /\ w1 = w').
  { intros ok K. destruct ok; [|discriminate K]. destruct (put_all r0 (add_standard q m c)) as [r1|]; [|discriminate K].
    injection K as -> ->. auto. }
  exists r0, m.
  destruct (request_type q).
  - apply F in E. destruct E as (OK & P & ->). apply put_all_headers in P. tauto.
  - apply F in E. destruct E as (OK & P & ->). apply put_all_headers in P. tauto.
  - apply F in E. destruct E as (OK & P & ->). apply put_all_headers in P. tauto.
  - apply (F true) in E. destruct E as (OK & P & ->). apply put_all_headers in P. tauto.
  - discriminate E.
Qed.

Lemma type_valid q o : carries q h_origin o -> request_type q <> InvalidCors -> valid_origin o = true.
Proof.
  intros CO N. destruct (carries_get q _ o can_o CO) as [HO GO]. unfold request_type in N. rewrite HO in N. cbn [negb] in N. rewrite GO in N.
  destruct (valid_origin o); [reflexivity|]. cbn in N. congruence.
Qed.

Lemma cross_origin_answer c x q w r w' o :
  cors c h x q w = (HReturn (Some r) None, w') -> carries q h_origin o -> web_url q ->
  ~ odd_ports (to_lower (xq_scheme q)) (xq_host q) o -> ~ own (to_lower (xq_scheme q)) (xq_host q) o ->
  allows_origin c o /\ allows c q /\
  exists m, get_headers r = Some m /\ alookup h_acao m = Some (if cc_any c then str "*" else o).
Proof.
  intros E CO WU OP NO. apply cors_answer in E. destruct E as (r0 & m & _ & _ & _ & GR & _ & T).
  assert (V : valid_origin o = true).
  { eapply type_valid; [exact CO|]. intro X. now rewrite X in T. }
  assert (SO : same_origin (xq_scheme q) (xq_host q) o = false).
  { destruct (same_origin (xq_scheme q) (xq_host q) o) eqn:S; [|reflexivity]. exfalso. destruct WU as [WU|(d & WU)].
    - rewrite no_scheme_not_same in S by auto. discriminate S.
    - apply NO. eapply same_is_own; eauto. }
  pose proof (type_cross q o CO V SO) as TC.
  assert (A : allows_origin c o /\ allows c q).
  { destruct (request_type q); try easy.
    - apply (simple_iff q c o CO); tauto.
    - apply (simple_iff q c o CO); tauto.
    - apply (preflight_iff q c o CO); tauto. }
  destruct A as [A1 A2]. split; [exact A1|]. split; [exact A2|]. exists (add_standard q m c). split; [exact GR|].
  apply standard_acao. now apply carries_get.
Qed.

Lemma allowed_answered c x q w r w' o :
  h x q w = (HReturn (Some r) None, w') -> has_headers r -> carries q h_origin o -> valid_origin o = true ->
  allows_origin c o -> allows c q -> complete q ->
  exists r' m, cors c h x q w = (HReturn (Some r') None, w') /\ kept_kind r' = kept_kind r /\ get_headers r' = Some m /\
    alookup h_acao m = Some (if cc_any c then str "*" else o) /\
    (cc_credentials c = true -> alookup h_acac m = Some (str "true")).
Proof.
  intros E HH CO V AO AL CP. destruct (headers_get r HH) as (m & G).
  assert (ST := standard_acao q m c o (proj2 (carries_get q _ o can_o CO))). destruct ST as (S1 & S2 & _).
  destruct (put_all_some r (add_standard q m c) HH) as (r' & P & GR & K & _).
  exists r', (add_standard q m c). split.
  - unfold cors. rewrite E. cbv zeta. rewrite G, P.
    destruct (same_origin (xq_scheme q) (xq_host q) o) eqn:SO.
    + assert (T : request_type q = NotCors).
      { destruct (carries_get q _ o can_o CO) as [HO GO]. unfold request_type. rewrite HO, GO, V, SO. reflexivity. }
      rewrite T. reflexivity.
    + pose proof (type_cross q o CO V SO) as TC. destruct (request_type q).
      * replace (simple_allowed q c) with true; [reflexivity|]. symmetry. apply (simple_iff q c o CO); tauto.
      * replace (simple_allowed q c) with true; [reflexivity|]. symmetry. apply (simple_iff q c o CO); tauto.
      * replace (preflight_allowed q c) with true; [reflexivity|]. symmetry. apply (preflight_iff q c o CO); tauto.
      * destruct TC.
      * tauto.
  - split; [exact K|]. split; [exact GR|]. split; [exact S1|]. intro C. rewrite S2, C. reflexivity.
Qed.

(** The handler always runs. *)
Lemma cors_world c x q w : snd (cors c h x q w) = snd (h x q w).
Proof.
  unfold cors. destruct (h x q w) as [[r [e|]|v] w1]; try reflexivity. cbv zeta.
  destruct r as [r0|].
  - destruct (get_headers r0) as [m|].
    + destruct (put_all r0 (add_standard q m c)) as [r1|]; destruct (request_type q); try reflexivity;
        try (destruct (simple_allowed q c); reflexivity); destruct (preflight_allowed q c); reflexivity.
    + destruct (request_type q); reflexivity.
  - destruct (request_type q); reflexivity.
Qed.

(** ** C41 *)

Lemma same_origin_answered c x q w r w' o :
  h x q w = (HReturn (Some r) None, w') -> has_headers r -> carries q h_origin o -> valid_origin o = true ->
  same_origin (xq_scheme q) (xq_host q) o = true ->
  exists r', cors c h x q w = (HReturn (Some r') None, w') /\ kept_kind r' = kept_kind r.
Proof.
  intros E HH CO V SO. destruct (headers_get r HH) as (m & G). destruct (put_all_some r (add_standard q m c) HH) as (r' & P & GR & K & _).
  exists r'. split; [|exact K]. unfold cors. rewrite E. cbv zeta. rewrite G, P.
  assert (T : request_type q = NotCors).
  { destruct (carries_get q _ o can_o CO) as [HO GO]. unfold request_type. rewrite HO, GO, V, SO. reflexivity. }
  rewrite T. reflexivity.
Qed.

Lemma origin_form_refused c x q w r w' o :
  h x q w = (HReturn (Some r) None, w') -> has_headers r -> xq_scheme q = [] -> carries q h_origin o ->
  ~ allows_origin c o -> cors c h x q w = (HReturn None (Some EAccessDenied), w').
Proof.
  intros E HH S CO NA. destruct (headers_get r HH) as (m & G). unfold cors. rewrite E. cbv zeta. rewrite G.
  destruct (valid_origin o) eqn:V.
  - assert (SO : same_origin (xq_scheme q) (xq_host q) o = false) by (apply no_scheme_not_same; auto).
    pose proof (type_cross q o CO V SO) as TC. destruct (request_type q); try easy.
    + replace (simple_allowed q c) with false; [reflexivity|]. symmetry. apply not_true_is_false. intro X.
      apply (simple_iff q c o CO) in X; tauto.
    + replace (simple_allowed q c) with false; [reflexivity|]. symmetry. apply not_true_is_false. intro X.
      apply (simple_iff q c o CO) in X; tauto.
    + replace (preflight_allowed q c) with false; [reflexivity|]. symmetry. apply not_true_is_false. intro X.
      apply (preflight_iff q c o CO) in X; tauto.
  - destruct (carries_get q _ o can_o CO) as [HO GO]. unfold request_type. rewrite HO, GO, V. reflexivity.
Qed.

End M.

Lemma own_no_port_same us h o d : default_port (to_lower us) d -> h <> [] -> host_port h h None -> own (to_lower us) h o ->
  same_origin us h o = true.
Proof.
  intros D HN HP (n & po & d' & HP' & D' & O). cbv zeta in O.
  destruct (host_port_fun _ _ _ _ _ HP HP') as [<- <-].
  assert (d' = d) as ->.
  { destruct D as [[[E|E] ->]|[[E|E] ->]]; destruct D' as [[[F|F] ->]|[[F|F] ->]]; try reflexivity; rewrite E in F; discriminate F. }
  apply (same_origin_iff us h o d D). cbv zeta. rewrite (port_without h HP). split; [exact HN|].
  destruct O as [->|[_ ->]]; [right|left; auto]. now rewrite <- !app_assoc.
Qed.
