(** * Redirects: proofs *)
From Coq Require Import List NArith ZArith Ascii String Bool Lia Arith.
From Verif Require Import GoBase Http_Model Resp_Model App_Model Cors_Model Cors_Spec Cors_Proofs CorsMisc_Proofs Origin_Spec Origin_Proofs.
From Verif Require Import Files_Model Files_Spec Files_Proofs Redirect_Model Redirect_Spec.
Import ListNotations.
Local Open Scope string_scope.
Local Open Scope list_scope.
Local Open Scope nat_scope.

(** ** Texts *)

Lemma before_stop c a t : ~ In c a -> before c (a ++ c :: t) = a.
Proof. intro N. apply before_app; eauto. Qed.

Lemma in_exists c s : existsb (Ascii.eqb c) s = true <-> In c s.
Proof.
  rewrite existsb_exists. split.
  - intros (x & I1 & E). apply Ascii.eqb_eq in E. now subst.
  - intro I1. exists c. split; [exact I1|apply Ascii.eqb_refl].
Qed.

Lemma in_not_exists c s : existsb (Ascii.eqb c) s = false <-> ~ In c s.
Proof. rewrite <- not_true_iff_false, in_exists. tauto. Qed.

Lemma prefix_iff p s : has_prefix p s = true <-> starts p s.
Proof.
  unfold has_prefix, starts. rewrite beqb_eq. split.
  - intro E. exists (skipn (List.length p) s). rewrite <- E at 1. now rewrite firstn_skipn.
  - intros (r & ->). now rewrite firstn_app, Nat.sub_diag, firstn_all, firstn_O, app_nil_r.
Qed.

Lemma slash_not_prefix c s : c <> "/"%char -> has_prefix (str "/") (c :: s) = false.
Proof.
  intro N. apply not_true_is_false. rewrite prefix_iff. intros (r & E). injection E as E _. contradiction.
Qed.

Lemma get_scheme_none s raw : forall acc r, get_scheme acc s raw = Some ([], r) -> r = raw.
Proof.
  induction s as [|c s IH]; intros acc r E; cbn [get_scheme] in E; [congruence|].
  destruct (is_alpha c); [eauto|]. destruct (is_num c || existsb (Ascii.eqb c) (str "+-.")); [destruct acc; [congruence|eauto]|].
  destruct (Ascii.eqb c ":"%char); [|congruence]. destruct acc as [|a acc]; [discriminate E|]. injection E as E _.
  apply (f_equal (@List.length _)) in E. cbn in E. rewrite app_length in E. cbn in E. lia.
Qed.

Lemma before_same c a t : ~ In c a -> before c (a ++ t) = a ++ before c t.
Proof.
  induction a as [|x a IH]; intro N; [reflexivity|]. cbn. destruct (Ascii.eqb_spec x c) as [->|D]; [exfalso; apply N; now left|].
  rewrite IH; [reflexivity|]. intro; apply N; now right.
Qed.

Lemma before_sub c d s : In d (before c s) -> In d s.
Proof. induction s as [|x s IH]; cbn; [easy|]. destruct (Ascii.eqb x c); [easy|]. intros [E|I1]; auto. Qed.

Lemma hex_escape_ascii s : (forall c, In c s -> (code c < 128)%N) -> hex_escape s = s.
Proof.
  unfold hex_escape. induction s as [|c s IH]; intro H; [reflexivity|]. cbn [flat_map]. rewrite IH by (intros; apply H; now right).
  unfold hex_byte. replace (128 <=? code c)%N with false; [reflexivity|]. symmetry. apply N.leb_gt, H. now left.
Qed.

(** ** References with a scheme or a host are not local *)

Lemma scheme_not_local s t : s <> [] -> lacks (str ":/?#") s -> local_url (s ++ str ":" ++ t) = false.
Proof.
  intros NE L. unfold local_url. cbv zeta. apply andb_false_iff. right.
  assert (N : forall d, In d (str ":/?#") -> ~ In d s) by (intros d I1 I2; exact (L d I2 I1)).
  rewrite before_same by (apply N; cbn; tauto). cbn [str list_ascii_of_string List.app before Ascii.eqb Bool.eqb].
  set (t1 := before "#"%char t). clearbody t1.
  apply orb_false_iff. split.
  - apply not_true_is_false. rewrite beqb_eq. intro E. destruct s as [|c [|d s]]; [congruence|discriminate E|discriminate E].
  - destruct (get_scheme [] (s ++ ":"%char :: t1) (s ++ ":"%char :: t1)) as [[[|z sch] r]|] eqn:G; try reflexivity.
    apply get_scheme_none in G. subst r.
    rewrite before_same by (apply N; cbn; tauto). cbn [before Ascii.eqb Bool.eqb].
    set (t2 := before "?"%char t1). clearbody t2.
    destruct s as [|c s]; [congruence|]. cbn [List.app]. rewrite slash_not_prefix.
    2: { intros ->. apply (N "/"%char); [cbn; tauto|now left]. }
    cbn [negb]. apply andb_false_iff. left. apply negb_false_iff. apply in_exists.
    change (c :: s ++ ":"%char :: t2) with ((c :: s) ++ ":"%char :: t2). rewrite before_same by (apply N; cbn; tauto).
    apply in_app_iff. right. cbn. now left.
Qed.

Lemma host_not_local a p t : a <> [] -> (forall u, a <> u ++ str "@") -> lacks (str "/?#") a -> (p = [] \/ starts (str "/") p) ->
  lacks (str "?#") p -> (t = [] \/ exists t', t = "?"%char :: t' \/ t = "#"%char :: t') ->
  local_url (str "//" ++ a ++ p ++ t) = false.
Proof.
  intros NE NA L P LP T. unfold local_url. cbv zeta. apply andb_false_iff. right.
  assert (N : forall d, In d (str "/?#") -> ~ In d a) by (intros d I1 I2; exact (L d I2 I1)).
  assert (NP : forall d, In d (str "?#") -> ~ In d p) by (intros d I1 I2; exact (LP d I2 I1)).
  cbn [str list_ascii_of_string List.app before Ascii.eqb Bool.eqb].
  rewrite before_same by (apply N; cbn; tauto). rewrite before_same by (apply NP; cbn; tauto).
  set (t1 := before "#"%char t).
  assert (T1 : t1 = [] \/ exists t', t1 = "?"%char :: t').
  { destruct T as [->|(t' & [->| ->])]; [now left|right; unfold t1; cbn; eauto|now left]. }
  clearbody t1. apply orb_false_iff. split; [reflexivity|].
  cbn [get_scheme is_alpha]. replace (is_alpha "/"%char) with false by reflexivity. replace (is_num "/"%char) with false by reflexivity.
  cbn [orb existsb str list_ascii_of_string Ascii.eqb Bool.eqb before].
  rewrite before_same by (apply N; cbn; tauto). rewrite before_same by (apply NP; cbn; tauto).
  replace (before "?"%char t1) with (@nil byte) by (destruct T1 as [->|(t' & ->)]; reflexivity). rewrite app_nil_r.
  replace (has_prefix ["/"%char] _) with true by reflexivity. replace (has_prefix ["/"%char; "/"%char] _) with true by reflexivity.
  replace (has_prefix ["/"%char; "/"%char; "/"%char] ("/"%char :: "/"%char :: a ++ p)) with false.
  2: { symmetry. apply not_true_is_false. intro H. apply (prefix_iff (str "///")) in H. destruct H as (r & E). injection E as E.
       destruct a as [|c a]; [congruence|]. injection E as -> _. apply (N "/"%char); [cbn; tauto|now left]. }
  cbn [negb andb skipn].
  replace (before "/"%char (a ++ p)) with a.
  2: { symmetry. apply before_app; [apply N; cbn; tauto|]. destruct P as [->|(p' & ->)]; [now left|right; exists p'; reflexivity]. }
  apply andb_false_iff. left. unfold no_host. destruct (from_last "@"%char a) as [x|] eqn:F.
  - apply from_last_some in F. destruct F as (u & v & -> & -> & _). apply andb_false_iff. left. apply not_true_is_false. rewrite beqb_eq.
    intro E. injection E as ->. now apply (NA u).
  - apply not_true_is_false. rewrite beqb_eq. exact NE.
Qed.

(** ** Segments *)

Lemma segs s : exists l z, cut s = l ++ [z] /\ Forall (fun p => ~ In slash p) (l ++ [z]) /\ s = join [slash] (l ++ [z]).
Proof.
  assert (NE : cut s <> []).
  { destruct s as [|c s]; [discriminate|]. cbn. destruct (Ascii.eqb c slash); [discriminate|]. destruct (cut s); discriminate. }
  destruct (exists_last NE) as (l & z & E). exists l, z. split; [exact E|]. rewrite <- E. split; [apply cut_none|].
  clear. induction s as [|c s IH]; [reflexivity|]. cbn. destruct (Ascii.eqb_spec c slash) as [->|D].
  - assert (NE : cut s <> []).
    { destruct s as [|d s]; [discriminate|]. cbn. destruct (Ascii.eqb d slash); [discriminate|]. destruct (cut s); discriminate. }
    destruct (cut s) as [|q l]; [congruence|]. cbn [join]. cbn [join] in IH. rewrite IH at 1. reflexivity.
  - destruct (cut s) as [|q l]; [now subst|]. cbn [join] in *. destruct l; rewrite IH at 1; reflexivity.
Qed.

Lemma join_end l z x : join [slash] (l ++ [z ++ x]) = join [slash] (l ++ [z]) ++ x.
Proof.
  destruct l as [|p l]; [reflexivity|]. rewrite !join_snoc by discriminate. now rewrite <- app_assoc.
Qed.

Lemma double_slash l z : In [] l -> exists x y, slash :: join [slash] (l ++ [z]) = x ++ str "//" ++ y.
Proof.
  induction l as [|p l IH]; [easy|]. intros [->|I1].
  - exists [], (join [slash] (l ++ [z])). cbn [List.app]. destruct (l ++ [z]) eqn:E; [now destruct l|]. reflexivity.
  - destruct (IH I1) as (x & y & E). exists (slash :: p ++ x), y. cbn [List.app]. destruct (l ++ [z]) as [|q m] eqn:Q; [now destruct l|].
    change (join [slash] (p :: q :: m)) with (p ++ slash :: join [slash] (q :: m)). rewrite E. rewrite <- !app_assoc. reflexivity.
Qed.

Lemma last_segment l z t : l <> [] \/ True -> exists x, slash :: join [slash] (l ++ [z ++ t]) = x ++ slash :: z ++ t.
Proof.
  intros _. destruct l as [|p l]; [exists []; reflexivity|]. rewrite join_snoc by discriminate. exists (slash :: join [slash] (p :: l)). reflexivity.
Qed.

Lemma walk_dots l : Forall (fun p => p <> []) l -> forall st, Forall entry_name st -> Forall (fun p => ~ In slash p) l ->
  walk (Place true 0 (rev st)) l = Place true 0 (rev (fold_left dot_step l st)) /\ Forall entry_name (fold_left dot_step l st).
Proof.
  induction 1 as [|p l NE F IH]; intros st S NS; [split; [reflexivity|exact S]|]. inversion NS as [|? ? NP NL]; subst.
  cbn [fold_left]. unfold walk in *. cbn [fold_left].
  assert (E : stepf (Place true 0 (rev st)) p = Place true 0 (rev (dot_step st p)) /\ Forall entry_name (dot_step st p)).
  { unfold stepf, dot_step. cbn [pl_names pl_root pl_up]. rewrite (beqb_ne p []) by exact NE.
    destruct (beqb p (str ".")) eqn:E1; [auto|]. destruct (beqb p (str "..")) eqn:E2.
    - rewrite rev_involutive. destruct st as [|q st]; [auto|]. inversion S; subst. auto.
    - split; [reflexivity|]. constructor; [|exact S]. split; [exact NE|]. split; [intros ->; discriminate E1|]. split; [intros ->; discriminate E2|exact NP]. }
  destruct E as [-> E]. now apply IH.
Qed.

Lemma dots_sub l c : forall st, (exists p, In p (fold_left dot_step l st) /\ In c p) -> exists p, (In p l \/ In p st) /\ In c p.
Proof.
  induction l as [|q l IH]; intros st (p & I1 & I2); [exists p; auto|]. cbn in I1.
  destruct (IH (dot_step st q) (ex_intro _ p (conj I1 I2))) as (p' & [J|J] & K); [exists p'; cbn; tauto|].
  unfold dot_step in J. destruct (beqb q (str ".")); [exists p'; cbn; tauto|]. destruct (beqb q (str "..")).
  - exists p'. split; [|exact K]. right. destruct st; [easy|now right].
  - destruct J as [->|J]; exists p'; cbn; tauto.
Qed.

Lemma dots_names st : Forall entry_name st -> fold_left dot_step st [] = rev st.
Proof.
  intro F. assert (G : forall a, fold_left dot_step st a = rev st ++ a); [|now rewrite G, app_nil_r].
  induction F as [|p l (A & B & C & D) F IH]; intro a; [reflexivity|]. cbn [fold_left rev]. unfold dot_step at 2.
  rewrite (beqb_ne p (str ".")), (beqb_ne p (str "..")) by assumption. rewrite IH. now rewrite <- app_assoc.
Qed.

Lemma in_join c l : In c (join [slash] l) -> c = slash \/ exists p, In p l /\ In c p.
Proof.
  induction l as [|p l IH]; [easy|]. cbn [join]. destruct l as [|q l]; [intro; right; exists p; cbn; auto|].
  rewrite !in_app_iff. intros [I1|[[<-|[]]|I1]]; [right; exists p; cbn; auto|now left|].
  destruct (IH I1) as [->|(x & J & K)]; [now left|right; exists x; cbn in *; tauto].
Qed.

Lemma join_in c p l : In p l -> In c p -> In c (join [slash] l).
Proof.
  induction l as [|q l IH]; [easy|]. cbn [join]. intros [->|I1] I2.
  - destruct l; [exact I2|]. apply in_app_iff. now left.
  - destruct l as [|r l]; [easy|]. apply in_app_iff. right. apply in_app_iff. right. auto.
Qed.

Lemma remove_dots_eq l z : Forall (fun p => ~ In slash p) (l ++ [z]) ->
  remove_dots (slash :: join [slash] (l ++ [z])) = slash :: join [slash] (rev (dot_last (fold_left dot_step l []) z)).
Proof.
  intro F. cbn [remove_dots slash]. change "/"%char with slash. rewrite cut_join; [|destruct l; discriminate|exact F].
  now rewrite removelast_last, last_last.
Qed.

(** Cleaning a rooted path without double slashes. *)
Lemma clean_kept s x : (forall a b, slash :: s <> a ++ str "//" ++ b) -> (forall a, slash :: s <> a ++ str "/." /\ slash :: s <> a ++ str "/..") ->
  (x = [] \/ exists f, x = "#"%char :: f) -> ~ In slash x ->
  exists v, (let u := slash :: s ++ x in if last_slash u && negb (last_slash (clean u)) then clean u ++ [slash] else clean u) = v ++ x /\
    starts (str "/") v /\ ~ starts (str "//") v /\ remove_dots v = remove_dots (slash :: s) /\ (forall c, In c v -> In c (slash :: s)).
Proof.
  intros ND NL X NX. destruct (segs s) as (l & z & CS & NS & ->).
  assert (NE : Forall (fun p => p <> []) l).
  { apply Forall_forall. intros p I1 ->. destruct (double_slash l z I1) as (a & b & E). now apply (ND a b). }
  pose proof NS as NS'. apply Forall_app in NS'. destruct NS' as [NSl NSz]. inversion NSz as [|? ? NZ _]; subst.
  destruct (walk_dots l NE [] (Forall_nil _) NSl) as [W EN]. cbn [rev] in W.
  set (st := fold_left dot_step l []) in *.
  assert (ENR : Forall entry_name (rev st)).
  { apply Forall_forall. intros p I1. rewrite Forall_forall in EN. apply EN. now apply in_rev. }
  assert (NSv : Forall (fun p => ~ In slash p) (rev st ++ [z])).
  { apply Forall_app. split; [|now constructor]. eapply Forall_impl; [|exact ENR]. intros p P. apply P. }
  assert (NZX : ~ In slash (z ++ x)). { rewrite in_app_iff. tauto. }
  assert (NSx : Forall (fun p => ~ In slash p) (l ++ [z ++ x])).
  { apply Forall_app. split; [exact NSl|]. now constructor. }
  set (v := slash :: join [slash] (rev st ++ [z])). exists v.
  assert (IU : slash :: join [slash] (l ++ [z]) ++ x = slash :: join [slash] (l ++ [z ++ x])) by now rewrite join_end.
  assert (VX : v ++ x = slash :: join [slash] (rev st ++ [z ++ x])). { unfold v. cbn [List.app]. now rewrite join_end. }
  split; [|split; [|split; [|split]]].
  - cbv zeta. rewrite IU, VX. rewrite clean_is. unfold lead, start. replace (Ascii.eqb slash slash) with true by reflexivity.
    rewrite cut_join by (destruct l; [discriminate|discriminate] || assumption). unfold walk. rewrite fold_left_app. fold (walk (Place true 0 []) l). rewrite W.
    cbn [fold_left].
    destruct (z ++ x) as [|d y] eqn:ZX.
    + unfold stepf. cbn [beqb]. unfold shown. cbn [pl_root pl_up pl_names repeat List.app].
      replace (last_slash (slash :: join [slash] (l ++ [[]]))) with true.
      2: { symmetry. unfold last_slash. destruct l as [|p l']; [reflexivity|]. rewrite join_snoc by discriminate. cbn [rev]. rewrite rev_app_distr. reflexivity. }
      destruct (rev st) as [|p m] eqn:R; [reflexivity|]. rewrite join_snoc by discriminate.
      replace (last_slash (slash :: join [slash] (p :: m))) with false; [reflexivity|].
      symmetry. unfold last_slash. destruct (@exists_last _ (p :: m)) as (m' & e & E); [discriminate|]. rewrite E in *.
      apply Forall_app in ENR. destruct ENR as [_ ENR]. inversion ENR as [|? ? (E1 & _ & _ & E4) _]; subst.
      destruct (@exists_last _ e E1) as (e' & c & ->).
      destruct m' as [|q m']; [|rewrite join_snoc by discriminate]; cbn [rev List.app join]; rewrite ?rev_app_distr; cbn [rev List.app]; rewrite ?rev_app_distr; cbn [rev List.app];
        (destruct (Ascii.eqb_spec c slash) as [->|]; [exfalso; apply E4, in_app_iff; right; now left|reflexivity]).
    + assert (ENZ : entry_name (d :: y)).
      { rewrite <- ZX. split; [rewrite ZX; discriminate|]. destruct X as [->|(f & ->)].
        - rewrite app_nil_r in *. destruct (last_segment l z [] (or_intror I)) as (w & E). rewrite app_nil_r in E.
          split; [intros ->; now apply (proj1 (NL w))|]. split; [intros ->; now apply (proj2 (NL w))|exact NZ].
        - split; [intro E; assert (J : In "#"%char (str ".")) by (rewrite <- E; apply in_app_iff; right; now left); destruct J as [J|[]]; discriminate J|].
          split; [intro E; assert (J : In "#"%char (str "..")) by (rewrite <- E; apply in_app_iff; right; now left); destruct J as [J|[J|[]]]; discriminate J|].
          rewrite ZX. exact NZX. }
      destruct ENZ as (Z1 & Z2 & Z3 & Z4). unfold stepf. rewrite !beqb_ne by assumption. cbn [pl_root pl_up pl_names]. unfold shown. cbn [pl_root pl_up pl_names repeat List.app].
      replace (last_slash (slash :: join [slash] (l ++ [d :: y]))) with false; [reflexivity|].
      symmetry. unfold last_slash. destruct (@exists_last _ (d :: y) Z1) as (e' & c & E). rewrite E in *.
      destruct l as [|q m']; [|rewrite join_snoc by discriminate]; cbn [rev List.app join]; rewrite ?rev_app_distr; cbn [rev List.app]; rewrite ?rev_app_distr; cbn [rev List.app];
        (destruct (Ascii.eqb_spec c slash) as [->|]; [exfalso; apply Z4, in_app_iff; right; now left|reflexivity]).
  - exists (join [slash] (rev st ++ [z])). reflexivity.
  - intros (r & E). unfold v in E. injection E as E. destruct (rev st) as [|p m] eqn:R.
    + cbn in E. subst z. apply NZ. now left.
    + inversion ENR as [|? ? (E1 & _ & _ & E4) _]; subst. destruct p as [|c p]; [congruence|]. cbn [List.app] in E.
      destruct (m ++ [z]) eqn:M; [now destruct m|]. cbn [join List.app] in E. injection E as -> _. apply E4. now left.
  - unfold v. rewrite !remove_dots_eq by assumption. rewrite dots_names by exact ENR. rewrite rev_involutive. reflexivity.
  - intros c [<-|I1]; [now left|]. apply in_join in I1. destruct I1 as [->|(p & I1 & I2)]; [now left|]. right.
    apply in_app_iff in I1. destruct I1 as [I1|[<-|[]]]; [|eapply join_in; [|exact I2]; apply in_app_iff; right; now left].
    apply in_rev in I1. destruct (dots_sub l c [] (ex_intro _ p (conj I1 I2))) as (p' & [J|[]] & K).
    eapply join_in; [|exact K]. apply in_app_iff. now left.
Qed.

(** ** Where a redirect leads *)

Lemma dir_drop p : dir_of p = drop_last p /\ (In slash p <-> dir_of p <> []).
Proof.
  induction p as [|c p [E I1]]; [split; [reflexivity|split; [easy|intro H; now elim H]]|]. cbn [dir_of drop_last].
  destruct (existsb (Ascii.eqb "/"%char) p) eqn:X.
  - apply in_exists in X. destruct (dir_of p) as [|d t] eqn:D; [exfalso; apply I1; [exact X|reflexivity]|].
    rewrite E. split; [reflexivity|]. split; [discriminate|]. intros _. right. exact X.
  - apply in_not_exists in X. destruct (dir_of p) as [|d t] eqn:D; [|exfalso; apply X, I1; discriminate].
    destruct (Ascii.eqb_spec c slash) as [->|N].
    + split; [reflexivity|]. split; [discriminate|]. intros _. now left.
    + split; [now rewrite (proj2 (Ascii.eqb_neq c "/"%char) N)|]. split; [intros [->|I2]; [now elim N|contradiction]|congruence].
Qed.

Lemma drop_last_sub p c : In c (drop_last p) -> In c p.
Proof.
  induction p as [|x p IH]; [easy|]. cbn [drop_last]. destruct (existsb _ p).
  - intros [->|I1]; cbn; auto.
  - destruct (Ascii.eqb x "/"%char); [|easy]. intros [->|[]]. now left.
Qed.

Lemma drop_last_root p : exists d, drop_last (slash :: p) = slash :: d.
Proof. cbn [drop_last]. destruct (existsb _ p); eauto. exists []. reflexivity. Qed.

Lemma skip_before c s : exists t, s = before c s ++ t /\ skipn (List.length (before c s)) s = t.
Proof.
  destruct (before_split c s) as (t & E & _). exists t. split; [exact E|]. rewrite E at 2. now rewrite skipn_app, skipn_all, Nat.sub_diag.
Qed.

Lemma target_local b p q f : starts (str "/") p -> ~ starts (str "//") p ->
  target b (Reference None None p q f) = Reference (Some (bs_scheme b)) (Some (bs_authority b)) (remove_dots p) q f.
Proof. intros (r & ->) _. reflexivity. Qed.

Lemma target_whole b r : rf_scheme r = None -> rf_authority r = None -> rf_path r <> [] ->
  target b r = Reference (Some (bs_scheme b)) (Some (bs_authority b)) (remove_dots (whole_path b r)) (rf_query r) (rf_fragment r).
Proof.
  intros S A P. unfold target, whole_path. rewrite S, A. destruct (rf_path r) as [|c p]; [congruence|].
  destruct c as [[] [] [] [] [] [] [] []]; reflexivity.
Qed.

Lemma redirect_leads b url r :
  starts (str "/") (bs_path b) -> lacks (str "?#%") (bs_path b) -> visible (bs_path b) -> visible url ->
  reads url r -> kept_reference b r -> leads_alike b (redirect_location (bs_path b) url) url.
Proof.
  intros (p0 & BP) LB VB VU RD K. destruct RD as [WF EU].
  assert (ASCII : forall s, (forall c, In c s -> In c url \/ In c (bs_path b)) -> hex_escape s = s).
  { intros s H. apply hex_escape_ascii. intros c I1. apply H in I1. destruct I1 as [I1|I1]; [apply VU in I1|apply VB in I1]; lia. }
  assert (SAME : local_url url = false -> leads_alike b (redirect_location (bs_path b) url) url).
  { intro L. unfold redirect_location, redirect_url. rewrite L, ASCII by auto. exists r, r. split; [split; assumption|]. split; [split; assumption|reflexivity]. }
  pose proof WF as (W1 & W2 & W3 & W4 & W5 & W6).
  destruct (rf_scheme r) as [s|] eqn:SC.
  { apply SAME. subst url. unfold reference_text. rewrite SC. rewrite <- app_assoc. apply scheme_not_local; now apply W1. }
  destruct K as [K|[(a & A & A1 & A2)|(A & PN & ND & NL & NF)]]; [congruence| |].
  { apply SAME. subst url. unfold reference_text. rewrite SC, A. cbn [List.app]. rewrite <- app_assoc.
    apply (host_not_local a (rf_path r) _ A1 A2 (proj1 (W2 a A)) (proj2 (W2 a A)) W5).
    destruct (rf_query r); [right; eexists; left; reflexivity|]. destruct (rf_fragment r); [right; eexists; right; reflexivity|now left]. }
  destruct (local_url url) eqn:L; [|now apply SAME].
  set (tail := behind_sign "?"%char (rf_query r) ++ behind_sign "#"%char (rf_fragment r)).
  assert (EU' : url = rf_path r ++ tail). { subst url. unfold reference_text. rewrite SC, A. reflexivity. }
  set (w := whole_path b r) in *.
  assert (U1 : (if has_prefix (str "/") url then url else dir_of (match bs_path b with [] => str "/" | _ => bs_path b end) ++ url) = w ++ tail).
  { unfold w, whole_path. rewrite EU'. destruct (dir_drop (bs_path b)) as [-> _] || idtac.
    destruct (rf_path r) as [|c p]; [congruence|]. cbn [List.app]. destruct (Ascii.eqb_spec c "/"%char) as [->|NC].
    - replace (has_prefix (str "/") ("/"%char :: p ++ tail)) with true by reflexivity. reflexivity.
    - rewrite slash_not_prefix by exact NC. replace (match bs_path b with [] => str "/" | _ => bs_path b end) with (bs_path b) by (rewrite BP; reflexivity).
      rewrite (proj1 (dir_drop (bs_path b))). destruct c as [[] [] [] [] [] [] [] []]; try (now rewrite <- app_assoc). now elim NC. }
  assert (WS : exists s0, w = slash :: s0).
  { unfold w, whole_path. destruct (rf_path r) as [|c p]; [congruence|]. destruct (Ascii.eqb_spec c "/"%char) as [->|NC]; [eauto|].
    rewrite BP. destruct (drop_last_root p0) as (d & D). change (str "/" ++ p0) with (slash :: p0). rewrite D.
    destruct c as [[] [] [] [] [] [] [] []]; try (eexists; reflexivity). }
  assert (WI : forall c, In c w -> In c (rf_path r) \/ In c (bs_path b)).
  { intros c. unfold w, whole_path. destruct (rf_path r) as [|d p]; [congruence|].
    assert (G : In c (drop_last (bs_path b) ++ d :: p) -> In c (d :: p) \/ In c (bs_path b)).
    { rewrite in_app_iff. intros [I1|I1]; [right; now apply drop_last_sub|now left]. }
    destruct d as [[] [] [] [] [] [] [] []]; auto. }
  assert (NW : lacks (str "?#") w).
  { intros c I1. apply WI in I1. destruct I1 as [I1|I1]; [now apply W5|]. apply LB in I1. cbn in *. tauto. }
  destruct WS as (s0 & WS).
  (* the text that is cleaned *)
  assert (X : exists x q, before "?"%char (w ++ tail) = w ++ x /\ tail = x ++ q /\ (x = [] \/ exists f, x = "#"%char :: f) /\ ~ In slash x).
  { assert (NQ : ~ In "?"%char w) by (intro I1; apply NW in I1; apply I1; cbn; tauto). rewrite before_same by exact NQ.
    unfold tail. destruct (rf_query r) as [q|] eqn:Q.
    - exists [], (behind_sign "?"%char (Some q) ++ behind_sign "#"%char (rf_fragment r)). rewrite app_nil_r. cbn. rewrite app_nil_r. auto.
    - destruct (rf_fragment r) as [f|] eqn:F.
      + destruct (skip_before "?"%char f) as (t & E & _). exists ("#"%char :: before "?"%char f), t. cbn. rewrite <- E.
        split; [reflexivity|]. split; [reflexivity|]. split; [eauto|]. intros [E1|I1]; [discriminate E1|]. apply before_sub in I1. now apply (NF eq_refl f eq_refl).
      + exists [], []. cbn. rewrite !app_nil_r. auto. }
  destruct X as (x & q & BQ & TQ & XF & NX).
  destruct (clean_kept s0 x) as (v & CV & V1 & V2 & V3 & V4).
  { rewrite <- WS. exact ND. } { rewrite <- WS. exact NL. } { exact XF. } { exact NX. }
  assert (LOC : redirect_location (bs_path b) url = v ++ tail).
  { unfold redirect_location, redirect_url. rewrite L. cbv zeta. rewrite U1, BQ.
    replace (skipn (List.length (w ++ x)) (w ++ tail)) with q.
    2: { rewrite TQ, app_assoc, skipn_app, skipn_all, Nat.sub_diag. reflexivity. }
    cbv zeta in CV. change (slash :: s0 ++ x) with ((slash :: s0) ++ x) in CV. rewrite <- WS in CV. rewrite CV, <- app_assoc, <- TQ.
    apply ASCII. intros c I1. apply in_app_iff in I1. destruct I1 as [I1|I1].
    - apply V4 in I1. rewrite <- WS in I1. apply WI in I1. rewrite EU', in_app_iff. tauto.
    - left. rewrite EU', in_app_iff. tauto. }
  rewrite LOC. exists (Reference None None v (rf_query r) (rf_fragment r)), r. split; [|split; [split; assumption|]].
  - split; [|reflexivity]. unfold well_formed. cbn [rf_scheme rf_authority rf_path rf_query rf_fragment].
    split; [discriminate|]. split; [discriminate|]. split; [auto|]. split; [|split; [|exact W6]].
    + intros _ _ f t E _. destruct V1 as (v' & V1). rewrite V1 in E. destruct f as [|c f]; [now left|]. injection E as <- _. right. now left.
    + intros c I1. apply V4 in I1. rewrite <- WS in I1. now apply NW.
  - rewrite (target_local b v) by assumption. rewrite (target_whole b r) by assumption. f_equal. fold w. rewrite WS. exact V3.
Qed.

(** ** A text is read in one way *)

Definition parse_ref (s : bytes) : reference :=
  let u := before "#"%char s in
  let h := before "?"%char u in
  let f := before ":"%char h in
  let sch := existsb (Ascii.eqb ":"%char) h && negb (beqb f []) && negb (existsb (Ascii.eqb slash) f) in
  let rest := if sch then behind ":"%char h else h in
  let aut := has_prefix (str "//") rest in
  Reference (if sch then Some f else None)
    (if aut then Some (before slash (skipn 2 rest)) else None)
    (if aut then skipn (2 + List.length (before slash (skipn 2 rest))) rest else rest)
    (if existsb (Ascii.eqb "?"%char) u then Some (behind "?"%char u) else None)
    (if existsb (Ascii.eqb "#"%char) s then Some (behind "#"%char s) else None).

Lemma behind_stop c a t : ~ In c a -> behind c (a ++ c :: t) = t.
Proof.
  induction a as [|x a IH]; intro N; cbn; [now rewrite Ascii.eqb_refl|]. destruct (Ascii.eqb_spec x c) as [->|D]; [exfalso; apply N; now left|].
  apply IH. intro; apply N; now right.
Qed.

Lemma cut_sign c a t : ~ In c a -> before c (a ++ behind_sign c t) = a /\
  (if existsb (Ascii.eqb c) (a ++ behind_sign c t) then Some (behind c (a ++ behind_sign c t)) else None) = t.
Proof.
  intro N. destruct t as [t|]; cbn [behind_sign].
  - split; [now apply before_stop|]. replace (existsb _ _) with true; [now rewrite behind_stop|]. symmetry. apply in_exists, in_app_iff. right. now left.
  - rewrite app_nil_r. split; [now apply before_none|]. replace (existsb _ _) with false; [reflexivity|]. symmetry. now apply in_not_exists.
Qed.

Lemma lacks_not t s c : lacks t s -> In c t -> ~ In c s.
Proof. intros L I1 I2. exact (L c I2 I1). Qed.

Lemma reads_parse s r : reads s r -> parse_ref s = r.
Proof.
  intros [(W1 & W2 & W3 & W4 & W5 & W6) E]. destruct r as [sc au p q f]. cbn [rf_scheme rf_authority rf_path rf_query rf_fragment] in *.
  set (h := match sc with Some s => s ++ str ":" | None => [] end ++ match au with Some a => str "//" ++ a | None => [] end ++ p).
  assert (NH : forall c, In c (str "?#") -> ~ In c h).
  { intros c IC I1. unfold h in I1. rewrite !in_app_iff in I1. destruct I1 as [I1|[I1|I1]].
    - destruct sc as [z|]; [|easy]. destruct (W1 z eq_refl) as [_ L]. apply in_app_iff in I1. destruct I1 as [I1|[<-|[]]].
      + apply L in I1. apply I1. cbn in *. tauto.
      + destruct IC as [IC|[IC|[]]]; discriminate IC.
    - destruct au as [a|]; [|easy]. destruct (W2 a eq_refl) as [L _]. apply in_app_iff in I1. destruct I1 as [[<-|[<-|[]]]|I1].
      + destruct IC as [IC|[IC|[]]]; discriminate IC.
      + destruct IC as [IC|[IC|[]]]; discriminate IC.
      + apply L in I1. apply I1. cbn in *. tauto.
    - apply W5 in I1. now apply I1. }
  assert (ES : s = (h ++ behind_sign "?"%char q) ++ behind_sign "#"%char f).
  { rewrite E. unfold reference_text, h. cbn. rewrite <- !app_assoc. reflexivity. }
  assert (NU : ~ In "#"%char (h ++ behind_sign "?"%char q)).
  { rewrite in_app_iff. intros [I1|I1]; [revert I1; apply NH; cbn; tauto|]. destruct q as [q|]; [|easy]. destruct I1 as [I1|I1]; [discriminate I1|]. now apply (W6 q). }
  unfold parse_ref. cbv zeta. rewrite ES. destruct (cut_sign "#"%char _ f NU) as [-> ->].
  destruct (cut_sign "?"%char h q) as [-> ->]; [apply NH; cbn; tauto|].
  assert (SC : (existsb (Ascii.eqb ":"%char) h && negb (beqb (before ":"%char h) []) && negb (existsb (Ascii.eqb slash) (before ":"%char h))) = match sc with Some _ => true | None => false end
     /\ (forall z, sc = Some z -> before ":"%char h = z)
     /\ (if match sc with Some _ => true | None => false end then behind ":"%char h else h) = match au with Some a => str "//" ++ a | None => [] end ++ p).
  { destruct sc as [z|].
    - destruct (W1 z eq_refl) as [NZ L]. unfold h. change (str ":") with [":"%char]. rewrite <- !app_assoc. cbn [List.app].
      rewrite before_stop, behind_stop by (apply (lacks_not _ _ _ L); cbn; tauto). split; [|split; [congruence|reflexivity]].
      apply andb_true_iff. split; [apply andb_true_iff; split|].
      + apply in_exists, in_app_iff. right. now left.
      + apply negb_true_iff, beqb_ne. exact NZ.
      + apply negb_true_iff, in_not_exists. apply (lacks_not _ _ _ L). cbn. tauto.
    - split; [|split; [discriminate|reflexivity]]. unfold h. cbn [List.app]. apply not_true_is_false. rewrite !andb_true_iff, !negb_true_iff.
      intros [[H1 H2] H3]. apply in_exists in H1. apply in_not_exists in H3. destruct au as [a|].
      + cbn in H3. apply H3. now left.
      + cbn [List.app] in *. apply in_split in H1. destruct H1 as (x & y & H1).
        destruct (before_split ":"%char p) as (t & E1 & N1 & T). destruct T as [->|(t' & ->)].
        * apply N1. rewrite app_nil_r in E1. rewrite <- E1, H1. apply in_app_iff. right. now left.
        * destruct (W4 eq_refl eq_refl (before ":"%char p) t' E1 N1) as [F|F]; [rewrite F in H2; discriminate H2|contradiction]. }
  destruct SC as (-> & S2 & ->).
  assert (AU : (if has_prefix (str "//") (match au with Some a => str "//" ++ a | None => [] end ++ p) then
                  (Some (before slash (skipn 2 (match au with Some a => str "//" ++ a | None => [] end ++ p))),
                   skipn (2 + List.length (before slash (skipn 2 (match au with Some a => str "//" ++ a | None => [] end ++ p)))) (match au with Some a => str "//" ++ a | None => [] end ++ p))
                else (None, match au with Some a => str "//" ++ a | None => [] end ++ p)) = (au, p)).
  { destruct au as [a|].
    - replace (has_prefix (str "//") ((str "//" ++ a) ++ p)) with true.
      2: { symmetry. apply prefix_iff. exists (a ++ p). now rewrite <- app_assoc. }
      destruct (W2 a eq_refl) as [L P]. cbn [str list_ascii_of_string List.app skipn].
      assert (B : before slash (a ++ p) = a).
      { apply before_app; [apply (lacks_not _ _ _ L); cbn; tauto|]. destruct P as [->|(p' & ->)]; [now left|right; exists p'; reflexivity]. }
      rewrite B. cbn [Nat.add skipn]. now rewrite skipn_app, skipn_all, Nat.sub_diag.
    - cbn [List.app]. replace (has_prefix (str "//") p) with false; [reflexivity|]. symmetry. apply not_true_is_false. rewrite prefix_iff. now apply W3. }
  destruct (has_prefix _ _); apply pair_equal_spec in AU; destruct AU as [A1 A2]; (destruct sc as [z|]; [rewrite (S2 z eq_refl)|]); f_equal; assumption.
Qed.

Lemma reads_unique s r r' : reads s r -> reads s r' -> r = r'.
Proof. intros A B. apply reads_parse in A, B. congruence. Qed.

(** ** Where redirects lead elsewhere *)

Lemma not_alike b s t r r' : reads s r -> reads t r' -> target b r <> target b r' -> ~ leads_alike b s t.
Proof. intros A B N (x & y & C & D & E). apply N. rewrite (reads_unique _ _ _ A C), (reads_unique _ _ _ B D). exact E. Qed.

Lemma rooted_reads v q f : starts (str "/") v -> ~ starts (str "//") v -> lacks (str "?#") v -> (forall x, q = Some x -> ~ In "#"%char x) ->
  reads (v ++ behind_sign "?"%char q ++ behind_sign "#"%char f) (Reference None None v q f).
Proof.
  intros V1 V2 V3 Q. split; [|reflexivity]. split; [discriminate|]. split; [discriminate|]. split; [auto|]. split; [|split; [exact V3|exact Q]].
  cbn. intros _ _ g t E _. destruct V1 as (v' & ->). destruct g as [|c g]; [now left|]. injection E as <- _. right. now left.
Qed.

Lemma ends_join names x : Forall entry_name names -> slash :: join [slash] names = x ++ [slash] -> names = [].
Proof.
  intros F E. destruct names as [|p m]; [reflexivity|]. exfalso. destruct (@exists_last _ (p :: m)) as (m' & e & E'); [discriminate|]. rewrite E' in *.
  apply Forall_app in F. destruct F as [_ F]. inversion F as [|? ? (E1 & _ & _ & E4) _]; subst. destruct (@exists_last _ e E1) as (e' & c & ->).
  assert (L : exists y, slash :: join [slash] (m' ++ [e' ++ [c]]) = y ++ [c]).
  { destruct m' as [|q m']; [exists (slash :: e'); reflexivity|]. rewrite join_snoc by discriminate. exists (slash :: join [slash] (q :: m') ++ slash :: e').
    cbn. rewrite <- app_assoc. reflexivity. }
  destruct L as (y & L). rewrite L in E. apply app_inj_tail in E. destruct E as [_ ->]. apply E4, in_app_iff. right. now left.
Qed.

Lemma drop_last_end p : starts (str "/") p -> exists d, drop_last p = d ++ [slash].
Proof.
  intros (p0 & ->). change (str "/" ++ p0) with (slash :: p0). assert (I1 : In slash (slash :: p0)) by now left. revert I1. generalize (slash :: p0). clear p0.
  induction l as [|c l IH]; [easy|]. cbn [drop_last]. destruct (existsb (Ascii.eqb "/"%char) l) eqn:X.
  - apply in_exists in X. intros _. destruct (IH X) as (d & ->). exists (c :: d). reflexivity.
  - apply in_not_exists in X. intros [->|I1]; [exists []; reflexivity|contradiction].
Qed.

Lemma last_slash_iff s : last_slash s = true <-> exists d, s = d ++ [slash].
Proof.
  unfold last_slash. split.
  - destruct (rev s) as [|c r] eqn:R; [discriminate|]. intro E. apply Ascii.eqb_eq in E. subst c. exists (rev r).
    rewrite <- (rev_involutive s), R. reflexivity.
  - intros (d & ->). rewrite rev_app_distr. reflexivity.
Qed.

(** The bytes of a cleaned text are bytes of the text. *)
Lemma names_sub s names c : lead (slash :: s) = Place true 0 names -> In c (join [slash] names) -> c = slash \/ In c s.
Proof.
  intros L I1. apply in_join in I1. destruct I1 as [->|(p & I1 & I2)]; [now left|]. right.
  unfold lead, start in L. replace (Ascii.eqb slash slash) with true in L by reflexivity.
  assert (G : forall l x, In p (pl_names (walk x l)) -> In p l \/ In p (pl_names x)).
  { clear. induction l as [|q l IH]; intros x I1; [now right|]. apply (IH (stepf x q)) in I1. destruct I1 as [I1|I1]; [left; now right|].
    unfold stepf in I1. destruct (beqb q []); [now right|]. destruct (beqb q (str ".")); [now right|]. destruct (beqb q (str "..")).
    - destruct (rev (pl_names x)) as [|n l'] eqn:R; [destruct (pl_root x); [now right|easy]|]. right. cbn in I1. apply in_rev. rewrite R. right. now apply in_rev.
    - cbn in I1. apply in_app_iff in I1. destruct I1 as [I1|[<-|[]]]; [now right|left; now left]. }
  specialize (G (cut s) (Place true 0 [])). rewrite L in G. cbn in G. destruct (G I1) as [J|[]].
  destruct (segs s) as (l & z & E & _ & ->). rewrite E in J. eapply join_in; eauto.
Qed.

(** A cleaned directory, with its slash again. *)
Lemma clean_dir d : starts (str "/") d -> last_slash d = true ->
  exists names, Forall entry_name names /\ (forall c, In c (join [slash] (names ++ [[]])) -> In c d) /\
    (if last_slash d && negb (last_slash (clean d)) then clean d ++ [slash] else clean d) = slash :: join [slash] (names ++ [[]]).
Proof.
  intros (s & ->) LS. change (str "/" ++ s) with (slash :: s) in *. destruct (clean_root s) as (names & F & C & L). exists names. split; [exact F|]. split.
  { intros c I1. apply in_join in I1. destruct I1 as [->|(p & I1 & I2)]; [now left|]. apply in_app_iff in I1. destruct I1 as [I1|[<-|[]]]; [|easy].
    apply (join_in c p) in I1; [|exact I2]. apply (names_sub s names c L) in I1. destruct I1 as [->|I1]; [now left|now right]. }
  rewrite LS, C. destruct names as [|p m]; [reflexivity|].
  replace (last_slash (slash :: join [slash] (p :: m))) with false.
  2: { symmetry. apply not_true_is_false. rewrite last_slash_iff. intros (x & E). apply ends_join in E; [discriminate E|exact F]. }
  rewrite join_snoc by discriminate. reflexivity.
Qed.

Lemma join_root names z : Forall entry_name names -> ~ In slash z -> let v := slash :: join [slash] (names ++ [z]) in
  starts (str "/") v /\ ~ starts (str "//") v /\ remove_dots v = slash :: join [slash] (rev (dot_last (rev names) z)).
Proof.
  intros F NZ v. split; [eexists; reflexivity|]. split.
  - intros (r & E). unfold v in E. injection E as E. destruct names as [|p m].
    + cbn in E. subst z. apply NZ. now left.
    + inversion F as [|? ? (E1 & _ & _ & E4) _]; subst. destruct p as [|c p]; [congruence|]. cbn [List.app] in E.
      destruct (m ++ [z]) eqn:M; [now destruct m|]. cbn [join List.app] in E. injection E as -> _. apply E4. now left.
  - unfold v. rewrite remove_dots_eq.
    + now rewrite dots_names.
    + apply Forall_app. split; [|now constructor]. eapply Forall_impl; [|exact F]. intros p P. apply P.
Qed.

Lemma parse_reads s : reads s (parse_ref s).
Proof.
  unfold parse_ref. cbv zeta.
  assert (CUT : forall c s, exists t, s = before c s ++ behind_sign c t /\ ~ In c (before c s) /\
    (if existsb (Ascii.eqb c) s then Some (behind c s) else None) = t).
  { clear. intros c s. destruct (before_split c s) as (t & E & N & [->|(t' & ->)]).
    - exists None. cbn. split; [exact E|]. split; [exact N|]. rewrite app_nil_r in E. rewrite <- E in N. now rewrite (proj2 (in_not_exists c s) N).
    - exists (Some t'). cbn. split; [exact E|]. split; [exact N|]. rewrite (proj2 (in_exists c s)); [|rewrite E; apply in_app_iff; right; now left].
      f_equal. rewrite E. now apply behind_stop. }
  destruct (CUT "#"%char s) as (f & E1 & N1 & ->). set (u := before "#"%char s) in *. clearbody u. subst s.
  destruct (CUT "?"%char u) as (q & E2 & N2 & ->). set (h := before "?"%char u) in *. clearbody h. subst u.
  assert (NH : ~ In "#"%char h) by (intro I1; apply N1, in_app_iff; now left).
  assert (NQ : forall x, q = Some x -> ~ In "#"%char x).
  { intros x -> I1. apply N1, in_app_iff. right. now right. }
  clear N1 CUT.
  set (sch := existsb (Ascii.eqb ":"%char) h && negb (beqb (before ":"%char h) []) && negb (existsb (Ascii.eqb slash) (before ":"%char h))).
  assert (SC : exists rest, (if sch then behind ":"%char h else h) = rest /\ (forall c, In c rest -> In c h) /\
    h = match (if sch then Some (before ":"%char h) else None) with Some s => s ++ str ":" | None => [] end ++ rest /\
    (forall s, (if sch then Some (before ":"%char h) else None) = Some s -> s <> [] /\ lacks (str ":/?#") s) /\
    ((if sch then Some (before ":"%char h) else None) = None -> forall f t, rest = f ++ str ":" ++ t -> ~ In ":"%char f -> f = [] \/ In "/"%char f)).
  { destruct sch eqn:S; unfold sch in S.
    - rewrite !andb_true_iff, !negb_true_iff in S. destruct S as [[S1 S2] S3]. apply in_exists in S1. apply in_not_exists in S3.
      destruct (before_split ":"%char h) as (t & E & N & [->|(t' & ->)]).
      { exfalso. rewrite app_nil_r in E. rewrite <- E in N. contradiction. }
      exists (behind ":"%char h). assert (B : behind ":"%char h = t') by (rewrite E; now apply behind_stop). rewrite B.
      split; [reflexivity|]. split; [intros c I1; rewrite E; apply in_app_iff; right; now right|].
      split; [rewrite <- app_assoc; exact E|]. split; [|discriminate].
      intros x X. injection X as <-. split; [intro Z; rewrite Z in S2; discriminate S2|].
      intros c I1 [<-|[<-|[<-|[<-|[]]]]]; [contradiction|contradiction| |]; apply before_sub in I1; contradiction.
    - exists h. split; [reflexivity|]. split; [auto|]. split; [reflexivity|]. split; [discriminate|]. intros _ g t E NC.
      assert (B : before ":"%char h = g) by (rewrite E; now apply before_stop). rewrite B in S.
      rewrite (proj2 (in_exists ":"%char h)) in S by (rewrite E; apply in_app_iff; right; now left). cbn [andb] in S.
      apply andb_false_iff in S. rewrite !negb_false_iff in S. destruct S as [S|S]; [left; now apply beqb_eq|right; now apply in_exists in S]. }
  destruct SC as (rest & -> & SUB & EH & S1 & S2). set (sc := if sch then Some (before ":"%char h) else None) in *. clearbody sc.
  assert (NR : lacks (str "?#") rest).
  { intros c I1 [<-|[<-|[]]]; apply SUB in I1; contradiction. }
  destruct (has_prefix (str "//") rest) eqn:P.
  - apply prefix_iff in P. destruct P as (r0 & ->). cbn [str list_ascii_of_string List.app skipn Nat.add].
    destruct (before_split slash r0) as (t & E & N & T).
    assert (SK : skipn (List.length (before slash r0)) r0 = t) by (rewrite E at 2; now rewrite skipn_app, skipn_all, Nat.sub_diag).
    rewrite SK. split.
    + split; [exact S1|]. cbn [rf_scheme rf_authority rf_path rf_query rf_fragment]. split; [|split; [discriminate|split; [discriminate|split; [|exact NQ]]]].
      * intros a A. injection A as <-. split; [|destruct T as [->|(t' & ->)]; [now left|right; exists t'; reflexivity]].
        intros c I1 [<-|I2]; [contradiction|]. apply before_sub in I1. apply (NR c); [right; right; exact I1|exact I2].
      * intros c I1. apply NR. right. right. change (In c r0). rewrite E. apply in_app_iff. right. exact I1.
    + unfold reference_text. cbn [rf_scheme rf_authority rf_path rf_query rf_fragment]. rewrite EH at 1. rewrite E at 1. rewrite <- ?app_assoc. cbn [str list_ascii_of_string List.app]. rewrite <- ?app_assoc. reflexivity.
  - split.
    + split; [exact S1|]. cbn [rf_scheme rf_authority rf_path rf_query rf_fragment]. split; [discriminate|]. split; [intros _ X; apply prefix_iff in X; congruence|].
      split; [intros X _; now apply S2|]. split; [exact NR|exact NQ].
    + unfold reference_text. cbn [rf_scheme rf_authority rf_path rf_query rf_fragment List.app]. rewrite EH at 1. rewrite <- !app_assoc. reflexivity.
Qed.

(** So for texts at hand, where they lead can be computed. *)
Lemma alike_iff b s t : leads_alike b s t <-> target b (parse_ref s) = target b (parse_ref t).
Proof.
  split.
  - intros (r & r' & A & B & E). apply reads_parse in A, B. congruence.
  - intro E. exists (parse_ref s), (parse_ref t). split; [apply parse_reads|]. split; [apply parse_reads|exact E].
Qed.

Lemma ascii_hex b s : visible (bs_path b) -> (forall c, In c s -> In c (bs_path b) \/ (code c < 128)%N) -> hex_escape s = s.
Proof. intros V H. apply hex_escape_ascii. intros c I1. apply H in I1. destruct I1 as [I1|I1]; [apply V in I1; lia|exact I1]. Qed.

Lemma query_elsewhere b q :
  starts (str "/") (bs_path b) -> lacks (str "?#%") (bs_path b) -> visible (bs_path b) -> (forall x, bs_path b <> x ++ str "/") ->
  visible q -> ~ In "#"%char q -> ~ leads_alike b (redirect_location (bs_path b) (str "?" ++ q)) (str "?" ++ q).
Proof.
  intros SP LP VP NE VQ NQ.
  assert (L : local_url ("?"%char :: q) = true).
  { unfold local_url. cbv zeta. cbn [before Ascii.eqb Bool.eqb]. rewrite before_none by exact NQ.
    assert (B : behind "#"%char ("?"%char :: q) = []).
    { cbn. clear - NQ. induction q as [|c q IH]; [reflexivity|]. cbn. destruct (Ascii.eqb_spec c "#"%char) as [->|]; [exfalso; apply NQ; now left|]. apply IH. intro; apply NQ; now right. }
    rewrite B. rewrite (proj2 (control_iff ("?"%char :: q))).
    2: { intros c [<-|I1]; [vm_compute; split; discriminate|]. apply VQ in I1. lia. }
    reflexivity. }
  destruct (drop_last_end _ SP) as (d & DE).
  assert (SD : starts (str "/") (drop_last (bs_path b))).
  { destruct SP as (p0 & ->). destruct (drop_last_root p0) as (e & E). exists e. exact E. }
  destruct (clean_dir (drop_last (bs_path b)) SD) as (names & F & SUB & C); [apply last_slash_iff; eauto|].
  set (v := slash :: join [slash] (names ++ [[]])) in *.
  assert (SV : forall c, In c v -> In c (bs_path b)).
  { intros c [<-|I1]; [destruct SP as (p0 & ->); now left|]. apply drop_last_sub. now apply SUB. }
  assert (LOC : redirect_location (bs_path b) (str "?" ++ q) = v ++ "?"%char :: q).
  { unfold redirect_location, redirect_url. change (str "?" ++ q) with ("?"%char :: q). rewrite L. cbv zeta.
    replace (has_prefix (str "/") ("?"%char :: q)) with false by reflexivity.
    replace (match bs_path b with [] => str "/" | _ => bs_path b end) with (bs_path b) by (destruct SP as (p0 & ->); reflexivity).
    rewrite (proj1 (dir_drop (bs_path b))).
    rewrite before_stop by (intro I1; apply drop_last_sub in I1; apply (LP _ I1); cbn; tauto).
    replace (skipn (List.length (drop_last (bs_path b))) (drop_last (bs_path b) ++ "?"%char :: q)) with ("?"%char :: q) by now rewrite skipn_app, skipn_all, Nat.sub_diag.
    rewrite C. apply (ascii_hex b); [exact VP|]. intros c I1. apply in_app_iff in I1. destruct I1 as [I1|[<-|I1]]; [left; auto|right; vm_compute; reflexivity|].
    right. apply VQ in I1. lia. }
  destruct (join_root names [] F) as (V1 & V2 & V3); [easy|]. fold v in V1, V2, V3.
  rewrite LOC. apply (not_alike b _ _ (Reference None None v (Some q) None) (Reference None None [] (Some q) None)).
  - replace (v ++ "?"%char :: q) with (v ++ behind_sign "?"%char (Some q) ++ behind_sign "#"%char None) by (cbn; now rewrite app_nil_r).
    apply rooted_reads; [exact V1|exact V2| |intros x X; injection X as <-; exact NQ].
    intros c I1 I2. apply SV in I1. apply (LP c I1). cbn in *. tauto.
  - split; [|cbn; unfold reference_text; cbn; now rewrite app_nil_r]. split; [discriminate|]. split; [discriminate|]. split; [intros _ (x & X); discriminate X|].
    split; [intros _ _ f t X; destruct f; discriminate X|]. split; [easy|]. intros x X. injection X as <-. exact NQ.
  - rewrite (target_local b v) by assumption. rewrite V3. cbn [target rf_scheme rf_authority rf_path rf_query]. intro E. injection E as E.
    unfold dot_last in E. cbn [beqb str list_ascii_of_string rev] in E. rewrite rev_involutive in E.
    destruct names as [|p m].
    + apply (NE []). rewrite <- E. reflexivity.
    + change "/"%char with slash in E. rewrite join_snoc in E by discriminate. apply (NE (slash :: join [slash] (p :: m))). rewrite <- E. reflexivity.
Qed.

Lemma drop_last_join names z : ~ In slash z -> drop_last (slash :: join [slash] (names ++ [z])) = slash :: join [slash] (names ++ [[]]).
Proof.
  intro NZ.
  assert (G : forall x, drop_last (x ++ slash :: z) = x ++ [slash]).
  { induction x as [|c x IH].
    - cbn [List.app drop_last]. rewrite (proj2 (in_not_exists "/"%char z) NZ). reflexivity.
    - cbn [List.app drop_last]. rewrite IH. rewrite (proj2 (in_exists "/"%char (x ++ slash :: z))); [reflexivity|]. apply in_app_iff. right. now left. }
  destruct names as [|p m]; [apply (G [])|]. rewrite !join_snoc by discriminate. apply (G (slash :: join [slash] (p :: m))).
Qed.

Lemma dot_elsewhere b names z :
  names <> [] -> Forall entry_name names -> ~ In "/"%char z -> bs_path b = str "/" ++ join (str "/") (names ++ [z]) ->
  lacks (str "?#%") (bs_path b) -> visible (bs_path b) -> ~ leads_alike b (redirect_location (bs_path b) (str ".")) (str ".").
Proof.
  intros NN F NZ BP LP VP. change (bs_path b = slash :: join [slash] (names ++ [z])) in BP.
  assert (FS : Forall (fun p => ~ In slash p) names) by (eapply Forall_impl; [|exact F]; intros p P; apply P).
  assert (SUBN : forall c, In c (slash :: join [slash] names) -> In c (bs_path b)).
  { rewrite BP. intros c [<-|I1]; [now left|]. right. apply in_join in I1. destruct I1 as [->|(p & I1 & I2)].
    - destruct names as [|p m]; [congruence|]. rewrite join_snoc by discriminate. apply in_app_iff. right. now left.
    - eapply join_in; [|exact I2]. apply in_app_iff. now left. }
  assert (LOC : redirect_location (bs_path b) (str ".") = slash :: join [slash] names).
  { unfold redirect_location, redirect_url. replace (local_url (str ".")) with true by reflexivity. cbv zeta.
    replace (has_prefix (str "/") (str ".")) with false by reflexivity.
    replace (match bs_path b with [] => str "/" | _ => bs_path b end) with (bs_path b) by (rewrite BP; reflexivity).
    rewrite (proj1 (dir_drop (bs_path b))). rewrite BP at 1 2 3 4 5 6 || idtac.
    replace (drop_last (bs_path b) ++ str ".") with (slash :: join [slash] (names ++ [str "."])).
    2: { rewrite BP, drop_last_join by exact NZ. change (str ".") with ([] ++ str ".") at 1. rewrite join_end. reflexivity. }
    assert (NQ : ~ In "?"%char (slash :: join [slash] (names ++ [str "."]))).
    { intros [X|I1]; [discriminate X|]. apply in_join in I1. destruct I1 as [X|(p & I1 & I2)]; [discriminate X|]. apply in_app_iff in I1. destruct I1 as [I1|[<-|[]]].
      - assert (J : In "?"%char (bs_path b)) by (apply SUBN; right; eapply join_in; eauto). apply (LP _ J). cbn. tauto.
      - destruct I2 as [X|[]]; discriminate X. }
    rewrite before_none by exact NQ. rewrite skipn_all, app_nil_r.
    replace (last_slash (slash :: join [slash] (names ++ [str "."]))) with false.
    2: { symmetry. destruct names as [|p m]; [congruence|]. rewrite join_snoc by discriminate. unfold last_slash. cbn [rev]. rewrite rev_app_distr. reflexivity. }
    cbn [andb]. rewrite clean_is. unfold lead, start. replace (Ascii.eqb slash slash) with true by reflexivity.
    rewrite cut_join; [|destruct names; discriminate|apply Forall_app; split; [exact FS|constructor; [intros [X|[]]; discriminate X|constructor]]].
    unfold walk. rewrite fold_left_app. fold (walk (Place true 0 []) names). rewrite walk_names by exact F. cbn [fold_left].
    replace (stepf _ (str ".")) with (Place true 0 names) by reflexivity. unfold shown. cbn [pl_root pl_up pl_names repeat List.app].
    apply (ascii_hex b); [exact VP|]. intros c I1. left. now apply SUBN. }
  rewrite LOC. destruct (@exists_last _ names NN) as (m & e & EN). rewrite EN in *. clear names EN NN.
  apply Forall_app in F. destruct F as [F1 F2]. inversion F2 as [|? ? (E1 & E2 & E3 & E4) _]; subst.
  destruct (join_root m e F1 E4) as (V1 & V2 & V3). set (v := slash :: join [slash] (m ++ [e])) in *.
  apply (not_alike b _ _ (Reference None None v None None) (Reference None None (str ".") None None)).
  - replace v with (v ++ behind_sign "?"%char None ++ behind_sign "#"%char None) at 1 by (cbn; now rewrite app_nil_r).
    apply rooted_reads; [exact V1|exact V2| |discriminate]. intros c I1 I2. apply SUBN in I1. apply (LP c I1). cbn in *. tauto.
  - apply (parse_reads (str ".")).
  - rewrite (target_local b v) by assumption. rewrite V3. cbn [target rf_scheme rf_authority rf_path rf_query str list_ascii_of_string].
    rewrite BP, drop_last_join by exact NZ. intro E. apply (f_equal rf_path) in E. cbn [rf_path] in E.
    assert (D : dot_last (rev m) e = e :: rev m). { unfold dot_last. rewrite !beqb_ne by assumption. reflexivity. }
    rewrite D in E. cbn [rev] in E. rewrite rev_involutive in E.
    assert (R : remove_dots ((slash :: join [slash] ((m ++ [e]) ++ [[]])) ++ ["."%char]) = slash :: join [slash] ((m ++ [e]) ++ [[]])).
    { change ((slash :: join [slash] ((m ++ [e]) ++ [[]])) ++ ["."%char]) with (slash :: (join [slash] ((m ++ [e]) ++ [[]]) ++ ["."%char])).
      rewrite <- join_end. cbn [List.app]. rewrite remove_dots_eq.
      - rewrite dots_names by (apply Forall_app; split; assumption). unfold dot_last. cbn [beqb str list_ascii_of_string Ascii.eqb Bool.eqb andb rev]. now rewrite rev_involutive.
      - apply Forall_app. split; [exact FS|]. constructor; [intros [X|[]]; discriminate X|constructor]. }
    change ("."%char :: []) with ["."%char] in E. rewrite R in E.
    rewrite (join_snoc (m ++ [e])) in E by (destruct m; discriminate).
    assert (X : (slash :: join [slash] (m ++ [e])) = (slash :: join [slash] (m ++ [e])) ++ [slash]) by exact E.
    apply (f_equal (@List.length _)) in X. rewrite app_length in X. cbn in X. lia.
Qed.
