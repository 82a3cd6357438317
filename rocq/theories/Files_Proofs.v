(** * Static resources: proofs *)
From Coq Require Import List NArith ZArith Ascii String Bool Lia Arith.
From Verif Require Import GoBase Http_Model Chain_Model Serve_Model Mux_Model Resp_Model Resp_Spec Router_Model Cors_Model App_Model App_Spec App_Proofs Witness_Proofs AppCases_Proofs Files_Model Files_Spec.
Import ListNotations.
Local Open Scope string_scope.
Local Open Scope list_scope.
Local Open Scope nat_scope.

(** ** Walking *)
Definition stepf (x : place) (p : bytes) : place :=
  if beqb p [] then x else if beqb p (str ".") then x
  else if beqb p (str "..") then
    match rev (pl_names x) with
    | _ :: l => Place (pl_root x) (pl_up x) (rev l)
    | [] => if pl_root x then x else Place false (S (pl_up x)) []
    end
  else Place (pl_root x) (pl_up x) (pl_names x ++ [p]).

Lemma beqb_eq a : forall b, beqb a b = true <-> a = b.
Proof.
  induction a as [|x a IH]; intros [|y b]; cbn; split; intro H; try discriminate; auto.
  - apply andb_prop in H. destruct H as [E H]. apply Ascii.eqb_eq in E. apply IH in H. congruence.
  - injection H as -> ->. rewrite Ascii.eqb_refl. apply IH. reflexivity.
Qed.
Lemma beqb_ne a b : a <> b -> beqb a b = false.
Proof. intros H. destruct (beqb a b) eqn:E; [|reflexivity]. apply beqb_eq in E. contradiction. Qed.

Definition sane (x : place) : Prop := Forall entry_name (pl_names x) /\ (pl_root x = true -> pl_up x = 0).

Lemma step_is x p y : sane x -> ~ In slash p -> (step x p y <-> y = stepf x p).
Proof.
  intros [SN SU] NS. unfold stepf. split.
  - intros H. destruct H as [x|x|r u l p E|r u l p| |u]; cbn; try reflexivity.
    + destruct E as [A [B [C D]]]. rewrite !beqb_ne by assumption. reflexivity.
    + rewrite rev_app_distr. cbn. rewrite rev_involutive. reflexivity.
  - intros ->. destruct (beqb p []) eqn:E1; [apply beqb_eq in E1; subst; constructor|].
    destruct (beqb p (str ".")) eqn:E2; [apply beqb_eq in E2; subst; constructor|].
    destruct x as [r u l]; cbn [pl_names pl_root pl_up] in *.
    destruct (beqb p (str "..")) eqn:E3.
    + apply beqb_eq in E3. subst p. destruct (rev l) as [|n l'] eqn:R.
      * assert (l = []) as -> by (rewrite <- (rev_involutive l), R; reflexivity).
        destruct r; [|constructor]. rewrite (SU eq_refl). constructor.
      * assert (l = rev l' ++ [n]) as -> by (rewrite <- (rev_involutive l), R; reflexivity). constructor.
    + constructor. split; [|split; [|split]]; try assumption.
      * intros ->. cbn in E1. discriminate.
      * intros ->. cbn in E2. discriminate.
      * intros ->. cbn in E3. discriminate.
Qed.
Lemma stepf_sane x p : sane x -> ~ In slash p -> sane (stepf x p).
Proof.
  intros [SN SU] NS. unfold stepf.
  destruct (beqb p []) eqn:E1; [split; assumption|]. destruct (beqb p (str ".")) eqn:E2; [split; assumption|].
  destruct (beqb p (str "..")) eqn:E3.
  - destruct (rev (pl_names x)) as [|n l] eqn:R.
    + destruct (pl_root x) eqn:Q; [split; auto|]. split; cbn; [constructor|discriminate].
    + split; cbn; [|exact SU]. assert (pl_names x = rev l ++ [n]) as E by (rewrite <- (rev_involutive (pl_names x)), R; reflexivity).
      rewrite E in SN. apply Forall_app in SN. apply SN.
  - split; cbn; [|exact SU]. apply Forall_app. split; [exact SN|]. constructor; [|constructor].
    split; [|split; [|split]]; try assumption; intros ->; [discriminate E1|discriminate E2|discriminate E3].
Qed.

Definition walk (x : place) (l : list bytes) : place := fold_left stepf l x.
Lemma steps_is l : forall x y, sane x -> Forall (fun p => ~ In slash p) l -> (steps x l y <-> y = walk x l).
Proof.
  induction l as [|p l IH]; intros x y S F; cbn.
  - split; [intros H; inversion H; reflexivity|intros ->; constructor].
  - inversion F as [|? ? NP F']; subst. split.
    + intros H. inversion H as [|? z ? ? ? A B]; subst. apply (step_is x p z S NP) in A. subst z.
      apply (IH _ _ (stepf_sane _ _ S NP) F') in B. exact B.
    + intros ->. econstructor; [apply (step_is x p _ S NP); reflexivity|]. apply (IH _ _ (stepf_sane _ _ S NP) F'). reflexivity.
Qed.
Lemma walk_sane l : forall x, sane x -> Forall (fun p => ~ In slash p) l -> sane (walk x l).
Proof. induction l as [|p l IH]; intros x S F; cbn; [exact S|]. inversion F; subst. apply IH; [apply stepf_sane|]; assumption. Qed.

(** ** Parts *)
Notation cut := (split_on slash).
Lemma cut_app p s : ~ In slash p -> cut (p ++ slash :: s) = p :: cut s.
Proof.
  induction p as [|c p IH]; intros H; cbn.
  - reflexivity.
  - destruct (Ascii.eqb_spec c slash) as [->|N]; [exfalso; apply H; left; reflexivity|].
    rewrite IH; [reflexivity|]. intros I. apply H. right. exact I.
Qed.
Lemma cut_one p : ~ In slash p -> cut p = [p].
Proof.
  induction p as [|c p IH]; intros H; cbn; [reflexivity|].
  destruct (Ascii.eqb_spec c slash) as [->|N]; [exfalso; apply H; left; reflexivity|].
  rewrite IH; [reflexivity|]. intros I. apply H. right. exact I.
Qed.
Lemma next_name_is s : let (n, r) := next_name s in s = n ++ r /\ ~ In slash n /\ ends r = true.
Proof.
  induction s as [|c s IH]; cbn; [auto|]. destruct (Ascii.eqb_spec c slash) as [->|N].
  - split; [reflexivity|]. split; [intros []|]. cbn. reflexivity.
  - destruct (next_name s) as [n r]. destruct IH as [-> [I E]]. split; [reflexivity|]. split; [|exact E].
    intros [->|J]; [apply N; reflexivity|apply I; exact J].
Qed.
Lemma cut_none s : Forall (fun p => ~ In slash p) (cut s).
Proof.
  induction s as [|c s IH]; cbn; [repeat constructor; intros []|]. destruct (Ascii.eqb_spec c slash) as [->|N].
  - constructor; [intros []|exact IH].
  - destruct (cut s) as [|p l]; [repeat constructor; intros [E|[]]; congruence|]. inversion IH; subst.
    constructor; [|assumption]. intros [E|I]; [congruence|contradiction].
Qed.
Lemma parts_is s : forall l, parts s l <-> l = cut s.
Proof.
  intros l. split.
  - intros H. induction H; [rewrite cut_one by assumption; reflexivity|]. rewrite cut_app by assumption. congruence.
  - intros ->. remember (List.length s) as n eqn:E. revert s E. induction n as [n IH] using lt_wf_ind. intros s ->.
    pose proof (next_name_is s) as N. destruct (next_name s) as [p r]. destruct N as [-> [I E]].
    destruct r as [|c r]; [rewrite app_nil_r, cut_one by assumption; constructor; assumption|].
    cbn in E. apply Ascii.eqb_eq in E. subst c. rewrite cut_app by assumption. constructor; [assumption|].
    eapply IH; [|reflexivity]. rewrite app_length. cbn. lia.
Qed.

Definition start (s : bytes) : place * bytes :=
  match s with c :: s' => if Ascii.eqb c slash then (Place true 0 [], s') else (Place false 0 [], s) | [] => (Place false 0 [], []) end.
Definition lead (s : bytes) : place := let (x, s') := start s in walk x (cut s').
Lemma start_sane r : sane (Place r 0 []).
Proof. split; [constructor|reflexivity]. Qed.
Lemma leads_is s x : leads_to s x <-> x = lead s.
Proof.
  unfold leads_to, lead, start. split.
  - intros [(s' & l & -> & P & S)|(N & l & P & S)].
    + cbn. apply parts_is in P. subst l. apply (steps_is _ _ _ (start_sane true) (cut_none s')) in S. exact S.
    + apply parts_is in P. subst l. apply (steps_is _ _ _ (start_sane false) (cut_none s)) in S. subst x.
      destruct s as [|c s']; [reflexivity|]. destruct (Ascii.eqb_spec c slash) as [->|M]; [exfalso; apply N; eauto|reflexivity].
  - intros ->. destruct s as [|c s'].
    + right. split; [intros [s' H]; discriminate|]. eexists. split; [apply parts_is; reflexivity|].
      apply (steps_is _ _ _ (start_sane false) (cut_none [])). reflexivity.
    + destruct (Ascii.eqb_spec c slash) as [->|M].
      * left. exists s', (cut s'). split; [reflexivity|]. split; [apply parts_is; reflexivity|].
        apply (steps_is _ _ _ (start_sane true) (cut_none s')). reflexivity.
      * right. split; [intros [s'' H]; injection H as -> _; apply M; reflexivity|]. eexists. split; [apply parts_is; reflexivity|].
        apply (steps_is _ _ _ (start_sane false) (cut_none (c :: s'))). reflexivity.
Qed.
Lemma lead_sane s : sane (lead s).
Proof. unfold lead, start. destruct s as [|c s']; [|destruct (Ascii.eqb c slash)]; apply walk_sane; try apply start_sane; apply cut_none. Qed.

(** ** Clean *)
(** The text of a place, without the dot for the current directory. *)
Definition shown (x : place) : bytes :=
  (if pl_root x then [slash] else []) ++ join [slash] (repeat (str "..") (pl_up x) ++ pl_names x).
Definition fixed (x : place) : nat := if pl_root x then 1 else List.length (join [slash] (repeat (str "..") (pl_up x))).

Lemma join_snoc l p : l <> [] -> join [slash] (l ++ [p]) = join [slash] l ++ slash :: p.
Proof.
  induction l as [|q l IH]; intros N; [congruence|]. destruct l as [|q' l]; [reflexivity|].
  cbn [List.app join] in *. change ((q' :: l) ++ [p]) with (q' :: l ++ [p]) in IH. cbn [join List.app] in IH |- *.
  rewrite IH by discriminate. rewrite <- !app_assoc. reflexivity.
Qed.
Lemma join_ne l : l <> [] -> Forall (fun p => p <> []) l -> join [slash] l <> [].
Proof. destruct l as [|p [|q l]]; intros N F; [congruence| |]; inversion F; subst; cbn; [assumption|]. destruct p; [congruence|discriminate]. Qed.

Lemma back_name p out d : ~ In slash p -> d < List.length (rev p ++ out) -> d <= List.length out ->
  back (rev p ++ out) d = if Nat.eqb d (List.length out) then out else back out d.
Proof.
  intros N. assert (M : ~ In slash (rev p)) by (intros I; apply N, in_rev, I). clear N. revert M. generalize (rev p). clear p.
  induction l as [|c l IH]; intros M A B; cbn [List.app back].
  - cbn in A. destruct (Nat.eqb_spec d (List.length out)); [lia|reflexivity].
  - destruct (Ascii.eqb_spec c slash) as [->|_]; [exfalso; apply M; left; reflexivity|]. rewrite andb_true_r.
    destruct (Nat.ltb_spec d (List.length (l ++ out))) as [L|G].
    + apply IH; [intros I; apply M; right; exact I|assumption|assumption].
    + rewrite app_length in G. assert (l = []) as -> by (destruct l; [reflexivity|cbn in G; lia]). cbn in G |- *.
      destruct (Nat.eqb_spec d (List.length out)); [reflexivity|lia].
Qed.

Lemma walk_seg x n r : ~ In slash n -> ends r = true -> walk x (cut (n ++ r)) = walk (stepf x n) (cut r).
Proof.
  intros N E. destruct r as [|c r].
  - rewrite app_nil_r, cut_one by assumption. reflexivity.
  - cbn in E. apply Ascii.eqb_eq in E. subst c. rewrite cut_app by assumption. reflexivity.
Qed.

Definition ups (u : nat) : bytes := join [slash] (repeat (str "..") u).
Lemma repeat_snoc (A : Type) (a : A) u : repeat a (S u) = repeat a u ++ [a].
Proof. induction u; [reflexivity|]. cbn in *. rewrite <- IHu. reflexivity. Qed.
Lemma ups_ne u : u <> 0 -> ups u <> [].
Proof. destruct u; [congruence|]. intros _. unfold ups. apply join_ne; [discriminate|]. apply Forall_forall. intros p I. apply repeat_spec in I. subst. discriminate. Qed.
Lemma ups_S u : ups (S u) = (match u with 0 => [] | _ => ups u ++ [slash] end) ++ str "..".
Proof.
  unfold ups. rewrite repeat_snoc. destruct u; [reflexivity|]. rewrite join_snoc by discriminate. rewrite <- app_assoc. reflexivity.
Qed.
Lemma names_ne (l : list bytes) u : Forall entry_name l -> Forall (fun p => p <> []) (repeat (str "..") u ++ l).
Proof.
  intros F. apply Forall_app. split.
  - apply Forall_forall. intros p I. apply repeat_spec in I. subst. discriminate.
  - eapply Forall_impl; [|exact F]. intros p [N _]. exact N.
Qed.

Lemma shown_more x p : sane x -> 
  shown (Place (pl_root x) (pl_up x) (pl_names x ++ [p])) =
  shown x ++ (if negb (Nat.eqb (List.length (shown x)) (if pl_root x then 1 else 0)) then [slash] else []) ++ p.
Proof.
  intros [SN SU]. unfold shown. cbn [pl_root pl_up pl_names]. rewrite app_assoc.
  set (l := repeat (str "..") (pl_up x) ++ pl_names x).
  assert (NE : l <> [] -> join [slash] l <> []) by (intros N; apply join_ne; [exact N|apply names_ne; exact SN]).
  assert (Q : Nat.eqb (List.length ((if pl_root x then [slash] else []) ++ join [slash] l)) (if pl_root x then 1 else 0) = match l with [] => true | _ => false end).
  { destruct l as [|a l']; [destruct (pl_root x); reflexivity|]. specialize (NE ltac:(discriminate)).
    apply Nat.eqb_neq. rewrite app_length. destruct (join [slash] (a :: l')); [congruence|]. destruct (pl_root x); cbn; lia. }
  rewrite Q. destruct l as [|a l'] eqn:L; cbn [negb].
  - cbn [List.app join]. rewrite app_nil_r. reflexivity.
  - rewrite join_snoc by discriminate. rewrite <- app_assoc. reflexivity.
Qed.

Lemma fixed_names r u l l' : fixed (Place r u l) = fixed (Place r u l').
Proof. reflexivity. Qed.

Lemma shown_base x : sane x -> pl_names x = [] -> List.length (shown x) = fixed x.
Proof.
  intros [_ SU] N. unfold shown, fixed. rewrite N, app_nil_r. destruct (pl_root x) eqn:R; [rewrite (SU eq_refl); reflexivity|reflexivity].
Qed.

Lemma shown_back r u l p : sane (Place r u (l ++ [p])) ->
  fixed (Place r u l) < List.length (shown (Place r u (l ++ [p]))) /\
  back (rev (shown (Place r u (l ++ [p])))) (fixed (Place r u l)) = rev (shown (Place r u l)).
Proof.
  intros S. pose proof S as [SN SU]. cbn [pl_names pl_root pl_up] in *. apply Forall_app in SN. destruct SN as [SL SP]. inversion SP as [|? ? EP _]; subst. destruct EP as [PN [_ [_ PS]]].
  assert (S' : sane (Place r u l)) by (split; assumption).
  pose proof (shown_more (Place r u l) p S') as M. cbn [pl_names pl_root pl_up] in M. rewrite M.
  assert (LB : fixed (Place r u l) <= List.length (shown (Place r u l)) /\
    (fixed (Place r u l) = List.length (shown (Place r u l)) -> l = [])).
  { clear M. unfold fixed, shown. cbn [pl_names pl_root pl_up]. destruct r.
    - rewrite (SU eq_refl). cbn [repeat List.app]. cbn [List.length]. split; [lia|]. intros E. destruct l as [|a l']; [reflexivity|].
      exfalso. assert (N : join [slash] (a :: l') <> []) by (apply join_ne; [discriminate|apply (names_ne _ 0); exact SL]).
      destruct (join [slash] (a :: l')); [congruence|]. cbn in E. lia.
    - cbn [List.app]. assert (J : forall m, Forall entry_name m ->
        List.length (join [slash] (repeat (str "..") u)) <= List.length (join [slash] (repeat (str "..") u ++ m)) /\
        (List.length (join [slash] (repeat (str "..") u)) = List.length (join [slash] (repeat (str "..") u ++ m)) -> m = [])).
      { intros m FM. induction m as [|a m IH] using rev_ind; [rewrite app_nil_r; auto|]. apply Forall_app in FM. destruct FM as [FM Fa]. specialize (IH FM).
        inversion Fa as [|? ? [AN _] _]; subst. rewrite app_assoc. destruct (repeat (str "..") u ++ m) as [|b t] eqn:Q.
        - apply app_eq_nil in Q. destruct Q as [Q ->]. rewrite Q. cbn. split; [lia|]. intros E. destruct a; [congruence|cbn in E; lia].
        - rewrite join_snoc by discriminate. rewrite app_length. cbn [List.length]. split; [lia|]. intros E. lia. }
      apply J. exact SL. }
  destruct LB as [LE LQ]. set (f := fixed (Place r u l)) in *. set (sh := shown (Place r u l)) in *.
  assert (LP : 1 <= List.length p) by (destruct p; [congruence|cbn; lia]).
  destruct (negb _) eqn:C.
  - split; [rewrite !app_length; lia|].
    cbn [List.app]. rewrite rev_app_distr. cbn [rev]. rewrite <- app_assoc. cbn [List.app].
    rewrite back_name; [|assumption|rewrite app_length; cbn [List.length]; rewrite !rev_length; lia|cbn [List.length]; rewrite rev_length; lia].
    cbn [List.length]. rewrite rev_length. replace (f =? Datatypes.S (List.length sh)) with false by (symmetry; apply Nat.eqb_neq; lia).
    cbn [back]. replace (Ascii.eqb slash slash) with true by reflexivity. rewrite andb_false_r. reflexivity.
  - apply negb_false_iff, Nat.eqb_eq in C.
    cbn [List.app]. split; [rewrite app_length; lia|]. rewrite rev_app_distr.
    assert (F : f = List.length sh).
    { revert C LE. unfold f, sh, fixed. cbn [pl_root pl_up]. destruct r; intros C LE; [exact (eq_sym C)|]. lia. }
    rewrite back_name; [|assumption|rewrite app_length, !rev_length; lia|rewrite rev_length; lia].
    rewrite rev_length, F, Nat.eqb_refl. reflexivity.
Qed.

Lemma loop_is rooted : forall fuel s x, List.length s <= fuel -> sane x -> pl_root x = rooted ->
  clean_loop fuel rooted s (rev (shown x)) (fixed x) = rev (shown (walk x (cut s))).
Proof.
  induction fuel as [|fuel IH]; intros s x L S R.
  - destruct s; [reflexivity|cbn in L; lia].
  - destruct s as [|c s1]; [reflexivity|]. cbn [List.length] in L. cbn [clean_loop].
    destruct (Ascii.eqb_spec c slash) as [->|NC].
    { rewrite IH by (assumption || lia). reflexivity. }
    destruct (Ascii.eqb c dot && ends s1) eqn:D1.
    { apply andb_prop in D1. destruct D1 as [D1 E1]. apply Ascii.eqb_eq in D1. subst c.
      rewrite IH by (assumption || lia). change (dot :: s1) with ([dot] ++ s1).
      rewrite (walk_seg x [dot] s1); [reflexivity|intros [Q|[]]; discriminate|assumption]. }
    destruct (Ascii.eqb c dot && match s1 with d :: s2 => Ascii.eqb d dot && ends s2 | [] => false end) eqn:D2.
    { apply andb_prop in D2. destruct D2 as [D2 D3]. apply Ascii.eqb_eq in D2. subst c. destruct s1 as [|d s2]; [discriminate|].
      apply andb_prop in D3. destruct D3 as [D3 E2]. apply Ascii.eqb_eq in D3. subst d. cbn [tl]. cbn [List.length] in L.
      change (dot :: dot :: s2) with (str ".." ++ s2). rewrite (walk_seg x (str "..") s2); [|intros [Q|[Q|[]]]; discriminate|assumption].
      rewrite rev_length. destruct x as [r u l]. cbn [pl_root] in R. subst r.
      assert (SB : forall rest, stepf (Place rooted u rest) (str "..") = match rev rest with _ :: t => Place rooted u (rev t) | [] => if rooted then Place rooted u rest else Place false (Datatypes.S u) [] end) by reflexivity.
      rewrite SB. destruct (rev l) as [|p t] eqn:RL.
      - assert (l = []) as -> by (rewrite <- (rev_involutive l), RL; reflexivity).
        rewrite (shown_base _ S eq_refl). rewrite Nat.ltb_irrefl. destruct rooted.
        + rewrite IH by (assumption || lia || reflexivity). reflexivity.
        + assert (SH : forall v, shown (Place false v []) = ups v) by (intros v; unfold shown; cbn [pl_root pl_up pl_names]; rewrite app_nil_r; reflexivity).
          assert (O : dot :: dot :: (if 0 <? fixed (Place false u []) then slash :: rev (shown (Place false u [])) else rev (shown (Place false u []))) =
                      rev (shown (Place false (Datatypes.S u) []))).
          { rewrite <- (shown_base _ S eq_refl). rewrite !SH, ups_S. destruct u as [|u'].
            - reflexivity.
            - assert (NE : ups (Datatypes.S u') <> []) by (apply ups_ne; discriminate). replace (0 <? List.length (ups (Datatypes.S u'))) with true by (symmetry; apply Nat.ltb_lt; destruct (ups (Datatypes.S u')); [congruence|cbn; lia]).
              rewrite !rev_app_distr. reflexivity. }
          rewrite O. rewrite rev_length.
          assert (S' : sane (Place false (Datatypes.S u) [])) by (split; [constructor|discriminate]).
          rewrite (shown_base _ S' eq_refl). rewrite IH by (assumption || lia || reflexivity). reflexivity.
      - assert (l = rev t ++ [p]) as -> by (rewrite <- (rev_involutive l), RL; reflexivity).
        destruct (shown_back rooted u (rev t) p S) as [A B].
        rewrite (fixed_names rooted u (rev t ++ [p]) (rev t)). replace (fixed (Place rooted u (rev t)) <? _) with true by (symmetry; apply Nat.ltb_lt; exact A).
        rewrite B. rewrite IH; [reflexivity|lia| |reflexivity].
        destruct S as [SN SU]. cbn [pl_names pl_root pl_up] in *. apply Forall_app in SN. split; [apply SN|exact SU]. }
    pose proof (next_name_is (c :: s1)) as N. destruct (next_name (c :: s1)) as [n r] eqn:NN. destruct N as [E [NS EN]].
    assert (NE : n <> []).
    { intros ->. cbn [List.app] in E. subst r. cbn in EN. apply Ascii.eqb_eq in EN. contradiction. }
    assert (N1 : n <> str ".").
    { intros ->. cbn in E. injection E as -> ->. change (Ascii.eqb "."%char dot) with true in D1. cbn in D1. congruence. }
    assert (N2 : n <> str "..").
    { intros ->. cbn in E. injection E as -> ->. change (Ascii.eqb "."%char dot) with true in D2. cbn in D2. congruence. }
    rewrite E, (walk_seg x n r NS EN).
    assert (ST : stepf x n = Place (pl_root x) (pl_up x) (pl_names x ++ [n])) by (unfold stepf; rewrite !beqb_ne by assumption; reflexivity).
    assert (LR : List.length r <= fuel).
    { assert (Q : List.length (c :: s1) = List.length (n ++ r)) by (rewrite E; reflexivity). rewrite app_length in Q. cbn in Q. destruct n; [congruence|cbn in Q; lia]. }
    rewrite <- (IH r (stepf x n) LR (stepf_sane x n S NS)) by (rewrite ST; exact R).
    rewrite ST. rewrite (shown_more x n S). rewrite rev_length. subst rooted.
    rewrite !rev_app_distr. destruct (negb _); cbn [rev List.app]; rewrite <- ?app_assoc; reflexivity.
Qed.

(** Cleaning writes down the place where a path leads. *)
Lemma clean_is s : clean s = match shown (lead s) with [] => [dot] | t => t end.
Proof.
  assert (Q : forall t, match rev t with [] => [dot] | _ => rev (rev t) end = match t with [] => [dot] | _ => t end).
  { intros t. rewrite rev_involutive. destruct t as [|a t]; [reflexivity|]. destruct (rev (a :: t)) eqn:Q; [|reflexivity].
    apply (f_equal (@List.length _)) in Q. rewrite rev_length in Q. discriminate. }
  destruct s as [|c s]; [reflexivity|]. unfold clean, lead, start. cbv zeta. destruct (Ascii.eqb_spec c slash) as [->|N].
  - pose proof (loop_is true (List.length (slash :: s)) s (Place true 0 []) ltac:(cbn; lia) (start_sane true) eq_refl) as H.
    change (rev (shown (Place true 0 []))) with [slash] in H. change (fixed (Place true 0 [])) with 1 in H. rewrite H, Q. destruct (shown _); reflexivity.
  - pose proof (loop_is false (List.length (c :: s)) (c :: s) (Place false 0 []) ltac:(lia) (start_sane false) eq_refl) as H.
    change (rev (shown (Place false 0 []))) with (@nil ascii) in H. change (fixed (Place false 0 [])) with 0 in H. rewrite H, Q. destruct (shown _); reflexivity.
Qed.

(** ** Where the file server looks *)
Lemma walk_names l : forall x, Forall entry_name l -> walk x l = Place (pl_root x) (pl_up x) (pl_names x ++ l).
Proof.
  induction l as [|p l IH]; intros x F; [cbn; rewrite app_nil_r; destruct x; reflexivity|]. inversion F as [|? ? [A [B [C D]]] F']; subst.
  change (walk x (p :: l)) with (walk (stepf x p) l).
  rewrite IH by assumption. unfold stepf. rewrite !beqb_ne by assumption. cbn [pl_root pl_up pl_names]. rewrite <- app_assoc. reflexivity.
Qed.
Lemma cut_join l : l <> [] -> Forall (fun p => ~ In slash p) l -> cut (join [slash] l) = l.
Proof.
  induction l as [|p l IH]; intros N F; [congruence|]. inversion F; subst. destruct l as [|q l]; [apply cut_one; assumption|].
  change (join [slash] (p :: q :: l)) with (p ++ slash :: join [slash] (q :: l)). rewrite cut_app by assumption. rewrite IH; [reflexivity|discriminate|assumption].
Qed.
Lemma walk_joined l x : Forall entry_name l -> walk x (cut (join [slash] l)) = Place (pl_root x) (pl_up x) (pl_names x ++ l).
Proof.
  intros F. destruct l as [|p l]; [cbn; rewrite app_nil_r; destruct x; reflexivity|].
  rewrite cut_join; [apply walk_names; assumption|discriminate|]. eapply Forall_impl; [|exact F]. intros q Q. apply Q.
Qed.

(** A cleaned path from the root is its names, with slashes. *)
Lemma clean_root s : exists names, Forall entry_name names /\ clean (slash :: s) = slash :: join [slash] names /\ lead (slash :: s) = Place true 0 names.
Proof.
  pose proof (lead_sane (slash :: s)) as [SN SU]. assert (R : pl_root (lead (slash :: s)) = true).
  { unfold lead, start. cbn. generalize (cut s) (Place true 0 []) (eq_refl : pl_root (Place true 0 []) = true). induction l as [|p l IH]; intros x H; cbn; [exact H|].
    apply IH. unfold stepf. destruct (beqb p []); [exact H|]. destruct (beqb p (str ".")); [exact H|]. destruct (beqb p (str "..")); [|exact H].
    destruct (rev (pl_names x)); [|exact H]. rewrite H. exact H. }
  exists (pl_names (lead (slash :: s))). split; [exact SN|]. rewrite clean_is. unfold shown. rewrite R, (SU R). cbn [repeat List.app].
  split; [reflexivity|]. destruct (lead (slash :: s)) as [r u l]. cbn in *. rewrite R, (SU R). reflexivity.
Qed.

(** Cleaning does not change where a path leads. *)
Lemma lead_clean s : lead (clean s) = lead s.
Proof.
  rewrite clean_is. pose proof (lead_sane s) as [SN SU]. destruct (lead s) as [r u l] eqn:E. cbn [pl_names pl_root pl_up] in *.
  destruct r.
  - rewrite (SU eq_refl) in *. unfold shown. cbn [pl_root pl_up pl_names repeat List.app]. unfold lead, start. cbn.
    rewrite walk_joined by assumption. reflexivity.
  - unfold shown. cbn [pl_root pl_up pl_names List.app]. destruct (repeat (str "..") u ++ l) as [|p t] eqn:Q.
    + apply app_eq_nil in Q. destruct Q as [Q ->]. destruct u; [reflexivity|discriminate].
    + assert (NS : Forall (fun p => ~ In slash p) (p :: t)).
      { rewrite <- Q. apply Forall_app. split; [apply Forall_forall; intros q I; apply repeat_spec in I; subst; intros [K|[K|[]]]; discriminate|].
        eapply Forall_impl; [|exact SN]. intros q QQ. apply QQ. }
      assert (NE : join [slash] (p :: t) <> []) by (apply join_ne; [discriminate|]; rewrite <- Q; apply names_ne; exact SN).
      assert (ST : start (join [slash] (p :: t)) = (Place false 0 [], join [slash] (p :: t))).
      { unfold start. assert (P1 : p <> []) by (pose proof (names_ne l u SN) as PN; rewrite Q in PN; inversion PN; assumption).
        assert (P2 : ~ In slash p) by (inversion NS; assumption).
        destruct p as [|c p]; [congruence|]. assert (c <> slash) as CN by (intros ->; apply P2; left; reflexivity).
        destruct t as [|q t]; cbn; (destruct (Ascii.eqb_spec c slash); [contradiction|reflexivity]). }
      destruct (join [slash] (p :: t)) as [|c0 t0] eqn:J; [congruence|]. unfold lead. rewrite ST. rewrite <- J.
      rewrite cut_join by (discriminate || assumption). rewrite <- Q. unfold walk. rewrite fold_left_app.
      assert (U : forall v w, fold_left stepf (repeat (str "..") v) (Place false w []) = Place false (w + v) []).
      { induction v as [|v IH]; intros w; cbn [repeat fold_left]; [rewrite Nat.add_0_r; reflexivity|].
        change (stepf (Place false w []) (str "..")) with (Place false (S w) []). rewrite IH. f_equal. lia. }
      rewrite U. fold (walk (Place false (0 + u) []) l). rewrite walk_names by assumption. reflexivity.
Qed.

Lemma lead_join dir s : dir <> [] -> lead (dir ++ slash :: s) = walk (lead dir) (cut s).
Proof.
  intros N. unfold lead, start. destruct dir as [|c d]; [congruence|]. cbn [List.app].
  assert (C : forall e, cut (e ++ slash :: s) = cut e ++ cut s).
  { induction e as [|a e IH]; [reflexivity|]. cbn [List.app split_on]. rewrite IH. destruct (Ascii.eqb a slash); [reflexivity|].
    destruct (cut e) eqn:K; [|reflexivity]. exfalso. pose proof (proj2 (parts_is e _) eq_refl) as P. rewrite K in P. inversion P. }
  destruct (Ascii.eqb c slash); [|change (c :: d ++ slash :: s) with ((c :: d) ++ slash :: s)]; rewrite C; unfold walk; rewrite fold_left_app; reflexivity.
Qed.

Lemma dir_path_at dir name names : lead (slash :: name) = Place true 0 names -> Forall entry_name names ->
  at_names dir (dir_path dir name) names /\ lead (dir_path dir name) = Place (pl_root (lead dir)) (pl_up (lead dir)) (pl_names (lead dir) ++ names).
Proof.
  intros L F. set (d := match dir with [] => [dot] | _ => dir end).
  assert (LD : lead d = lead dir) by (unfold d; destruct dir; reflexivity). assert (ND : d <> []) by (unfold d; destruct dir; discriminate).
  assert (P : lead (dir_path dir name) = Place (pl_root (lead dir)) (pl_up (lead dir)) (pl_names (lead dir) ++ names)).
  { unfold dir_path. fold d. unfold join_path. rewrite lead_clean. cbn [List.app]. rewrite lead_join by assumption. rewrite LD.
    destruct (clean_root name) as (names' & F' & C & L'). rewrite L in L'. injection L' as <-. rewrite C.
    cbn [split_on]. change (Ascii.eqb slash slash) with true. cbn [split_on]. change (walk (lead dir) ([] :: cut (join [slash] names))) with (walk (lead dir) (cut (join [slash] names))).
    apply walk_joined. assumption. }
  split; [|exact P]. exists (pl_root (lead dir)), (pl_up (lead dir)), (pl_names (lead dir)). split; apply leads_is; [destruct (lead dir); reflexivity|symmetry; exact P].
Qed.

Lemma dir_path_inside dir name : inside dir (dir_path dir name).
Proof.
  destruct (clean_root name) as (names & F & _ & L). destruct (dir_path_at dir name names L F) as [(r & u & l & A & B) _].
  exists r, u, l, names. auto.
Qed.

(** Whatever is asked for, only paths inside the directory are opened. *)
Lemma opened_inside fs dir rest : Forall (inside dir) (fst (serve_file fs dir rest)).
Proof.
  unfold serve_file. set (u := match rest with c :: _ => if Ascii.eqb c slash then rest else slash :: rest | [] => [slash] end).
  destruct (has_suffix index_page u); [constructor|].
  destruct (fs (dir_path dir (clean u))); [repeat constructor; apply dir_path_inside| |].
  - destruct (last_slash u); repeat constructor; apply dir_path_inside.
  - destruct (negb (last_slash u)); [repeat constructor; apply dir_path_inside|].
    destruct (fs (dir_path dir (trim_slash (clean u) ++ index_page))); repeat constructor; apply dir_path_inside.
Qed.

Lemma path_join l : path_of l = join [slash] l.
Proof. induction l as [|n l IH]; [reflexivity|]. destruct l; [reflexivity|]. cbn [path_of join] in *. rewrite IH. reflexivity. Qed.

Lemma has_suffix_is p s : has_suffix p s = true <-> exists a, s = a ++ p.
Proof.
  unfold has_suffix, has_prefix. rewrite beqb_eq. split.
  - intros H. exists (rev (skipn (List.length (rev p)) (rev s))). rewrite <- (rev_involutive s) at 1. rewrite <- (firstn_skipn (List.length (rev p)) (rev s)), H at 1.
    rewrite rev_app_distr, rev_involutive. reflexivity.
  - intros [a ->]. rewrite rev_app_distr. rewrite firstn_app. rewrite firstn_all, Nat.sub_diag. cbn. apply app_nil_r.
Qed.
Lemma last_slash_is s : last_slash s = true <-> exists a, s = a ++ [slash].
Proof.
  unfold last_slash. destruct (rev s) as [|c t] eqn:R.
  - assert (s = []) as -> by (rewrite <- (rev_involutive s), R; reflexivity). split; [discriminate|]. intros [a H]. destruct a; discriminate.
  - assert (s = rev t ++ [c]) as -> by (rewrite <- (rev_involutive s), R; reflexivity). rewrite Ascii.eqb_eq. split.
    + intros ->. eauto.
    + intros [a H]. apply app_inj_tail in H. apply H.
Qed.

Lemma joined_last names n : slash :: join [slash] (names ++ [n]) = (match names with [] => [] | _ => slash :: join [slash] names end) ++ slash :: n.
Proof. destruct names as [|a l]; [reflexivity|]. rewrite join_snoc by discriminate. reflexivity. Qed.

Lemma tail_unique (a b : bytes) m n : ~ In slash m -> ~ In slash n -> a ++ slash :: m = b ++ slash :: n -> m = n.
Proof.
  intros M N H. apply (f_equal (@rev _)) in H. rewrite !rev_app_distr in H. cbn [rev] in H. rewrite <- !app_assoc in H. cbn [List.app] in H.
  assert (G : forall x y u v, ~ In slash x -> ~ In slash y -> x ++ slash :: u = y ++ slash :: v -> x = y).
  { induction x as [|c x IH]; intros [|d y] u v X Y E; cbn in E; [reflexivity| | |].
    - injection E as <- _. exfalso. apply Y. left. reflexivity.
    - injection E as -> _. exfalso. apply X. left. reflexivity.
    - injection E as -> E. f_equal. eapply IH; [intros I; apply X; right; exact I|intros I; apply Y; right; exact I|exact E]. }
  rewrite <- (rev_involutive m), <- (rev_involutive n). f_equal. eapply G; [| |exact H]; intros I; apply in_rev in I; contradiction.
Qed.

Lemma start_path names n : Forall entry_name (names ++ [n]) -> exists c t, join [slash] (names ++ [n]) = c :: t /\ c <> slash.
Proof.
  intros F. destruct (names ++ [n]) as [|p l] eqn:Q; [destruct names; discriminate|]. inversion F as [|? ? [A [_ [_ B]]] _]; subst.
  destruct p as [|c p]; [congruence|]. exists c. destruct l; cbn; eexists; (split; [reflexivity|]); intros ->; apply B; left; reflexivity.
Qed.

Lemma lead_names names : Forall entry_name names -> lead (slash :: join [slash] names) = Place true 0 names.
Proof. intros F. unfold lead, start. cbn. rewrite walk_joined by assumption. reflexivity. Qed.
Lemma clean_names names : Forall entry_name names -> clean (slash :: join [slash] names) = slash :: join [slash] names /\ lead (slash :: slash :: join [slash] names) = Place true 0 names.
Proof.
  intros F. rewrite clean_is, lead_names by assumption. split; [reflexivity|]. unfold lead, start. cbn. fold (walk (Place true 0 []) (cut (join [slash] names))).
  rewrite walk_joined by assumption. reflexivity.
Qed.

(** A file whose name is not index.html is sent. *)
Lemma file_found fs dir names n : Forall entry_name (names ++ [n]) -> n <> str "index.html" ->
  exists p, at_names dir p (names ++ [n]) /\ forall c, fs p = NFile c -> serve_file fs dir (path_of (names ++ [n])) = ([p], FContent c).
Proof.
  intros F NI. rewrite path_join. destruct (start_path names n F) as (c0 & t & J & C0).
  assert (U : (match join [slash] (names ++ [n]) with c :: _ => if Ascii.eqb c slash then join [slash] (names ++ [n]) else slash :: join [slash] (names ++ [n]) | [] => [slash] end) = slash :: join [slash] (names ++ [n])).
  { rewrite J. destruct (Ascii.eqb_spec c0 slash); [contradiction|reflexivity]. }
  pose proof F as F'. apply Forall_app in F'. destruct F' as [FN F1]. inversion F1 as [|? ? [NN [_ [_ NS]]] _]; subst.
  destruct (clean_names _ F) as [CL LD].
  exists (dir_path dir (slash :: join [slash] (names ++ [n]))). split; [apply dir_path_at; assumption|].
  intros c FS. unfold serve_file. rewrite U, CL.
  replace (has_suffix index_page (slash :: join [slash] (names ++ [n]))) with false.
  - rewrite FS. replace (last_slash (slash :: join [slash] (names ++ [n]))) with false; [reflexivity|]. symmetry. apply not_true_iff_false. intros H.
    apply last_slash_is in H. destruct H as [a H]. rewrite joined_last in H. apply tail_unique in H; [congruence|assumption|intros []].
  - symmetry. apply not_true_iff_false. intros H. apply has_suffix_is in H. destruct H as [a H]. rewrite joined_last in H.
    change (a ++ index_page) with (a ++ slash :: str "index.html") in H. apply tail_unique in H; [congruence|assumption|].
    intros I. cbn in I. repeat (destruct I as [I|I]; [discriminate|]). contradiction.
Qed.

(** A path that ends with index.html is only redirected. *)
Lemma index_redirected fs dir names : Forall entry_name names -> serve_file fs dir (path_of (names ++ [str "index.html"])) = ([], FRedirect (str "./")).
Proof.
  intros F. rewrite path_join.
  assert (E : entry_name (str "index.html")).
  { split; [discriminate|]. split; [discriminate|]. split; [discriminate|]. intros I. cbn in I. repeat (destruct I as [I|I]; [discriminate|]). contradiction. }
  destruct (start_path names (str "index.html")) as (c0 & t & J & C0); [apply Forall_app; auto|].
  unfold serve_file. replace (match join [slash] (names ++ [str "index.html"]) with c :: _ => _ | [] => _ end) with (slash :: join [slash] (names ++ [str "index.html"])).
  - replace (has_suffix index_page _) with true; [reflexivity|]. symmetry. apply has_suffix_is. rewrite joined_last. eexists. reflexivity.
  - rewrite J. destruct (Ascii.eqb_spec c0 slash); [contradiction|reflexivity].
Qed.

(** The path of a directory with a slash shows the names of its entries. *)
Lemma directory_shown fs dir names n : Forall entry_name (names ++ [n]) ->
  exists p p', at_names dir p (names ++ [n]) /\ at_names dir p' (names ++ [n; str "index.html"]) /\
    forall es, fs p = NDir es ->
      (forall st, fs p' = NError st -> serve_file fs dir (path_of (names ++ [n]) ++ str "/") = ([p; p'], FList es)) /\
      (forall c, fs p' = NFile c -> serve_file fs dir (path_of (names ++ [n]) ++ str "/") = ([p; p'], FContent c)).
Proof.
  intros F. rewrite path_join. destruct (start_path names n F) as (c0 & t & J & C0).
  set (u := slash :: join [slash] (names ++ [n])).
  assert (U : (match join [slash] (names ++ [n]) ++ str "/" with c :: _ => if Ascii.eqb c slash then join [slash] (names ++ [n]) ++ str "/" else slash :: join [slash] (names ++ [n]) ++ str "/" | [] => [slash] end) = u ++ [slash]).
  { unfold u. rewrite J. cbn [List.app]. destruct (Ascii.eqb_spec c0 slash); [contradiction|reflexivity]. }
  pose proof F as F'. apply Forall_app in F'. destruct F' as [FN F1]. inversion F1 as [|? ? [NN [_ [_ NS]]] _]; subst.
  assert (E : entry_name (str "index.html")).
  { split; [discriminate|]. split; [discriminate|]. split; [discriminate|]. intros I. cbn in I. repeat (destruct I as [I|I]; [discriminate|]). contradiction. }
  assert (F2 : Forall entry_name ((names ++ [n]) ++ [str "index.html"])) by (apply Forall_app; auto).
  destruct (clean_names _ F) as [CL LD]. destruct (clean_names _ F2) as [CL2 LD2].
  assert (CU : clean (u ++ [slash]) = u).
  { rewrite clean_is. assert (L : lead (u ++ [slash]) = Place true 0 (names ++ [n])).
    { rewrite lead_join by discriminate. unfold u. rewrite lead_names by assumption. reflexivity. }
    rewrite L. reflexivity. }
  exists (dir_path dir u), (dir_path dir (u ++ index_page)).
  split; [apply dir_path_at; assumption|].
  assert (UI : u ++ index_page = slash :: join [slash] ((names ++ [n]) ++ [str "index.html"])).
  { unfold u. rewrite (join_snoc (names ++ [n])); [reflexivity|]. destruct names; discriminate. }
  split.
  - rewrite UI. replace (names ++ [n; str "index.html"]) with ((names ++ [n]) ++ [str "index.html"]) by (rewrite <- app_assoc; reflexivity). apply dir_path_at; assumption.
  - intros es FS. unfold serve_file. rewrite U, CU.
    replace (has_suffix index_page (u ++ [slash])) with false.
    + rewrite FS. replace (last_slash (u ++ [slash])) with true by (symmetry; apply last_slash_is; eauto). cbn [negb].
      replace (trim_slash u) with u; [split; intros ? FE; rewrite FE; reflexivity|]. unfold trim_slash. replace (last_slash u) with false; [reflexivity|]. symmetry. apply not_true_iff_false. intros H.
      apply last_slash_is in H. destruct H as [a H]. unfold u in H. rewrite joined_last in H. apply tail_unique in H; [congruence|assumption|intros []].
    + symmetry. apply not_true_iff_false. intros H. apply has_suffix_is in H. destruct H as [a H].
      change index_page with (str "/index.htm" ++ ["l"%char]) in H. rewrite app_assoc in H. apply app_inj_tail in H. destruct H as [_ H]. discriminate.
Qed.

Lemma plain_html n : plain_name n -> html_text n = n.
Proof.
  unfold html_text. induction 1 as [|c n C F IH]; [reflexivity|]. cbn [flat_map]. rewrite IH.
  replace (html_byte c) with [c]; [reflexivity|].
  unfold html_byte. destruct c as [[] [] [] [] [] [] [] []]; try reflexivity; exfalso; apply C; cbn; auto 6.
Qed.

(** The names of the entries are in the answer. *)
Lemma part_in t (l : list act) bs : In (AWrite bs) l -> part_of t bs -> part_of t (acts_body l).
Proof.
  intros I (a & b & ->). apply in_split in I. destruct I as (l1 & l2 & ->). unfold acts_body. rewrite flat_map_app. cbn [flat_map].
  exists (flat_map (fun a => match a with AWrite bs => bs | _ => [] end) l1 ++ a), (b ++ flat_map (fun a => match a with AWrite bs => bs | _ => [] end) l2).
  rewrite <- !app_assoc. reflexivity.
Qed.
Lemma names_listed content link text fs dir rest q es n d :
  snd (serve_file fs dir rest) = FList es -> In (n, d) es -> plain_name n ->
  part_of n (acts_body (file_server content link text fs dir rest q)).
Proof.
  intros E I P. unfold file_server. rewrite E. apply part_in with (bs := list_line link (n, d)).
  - unfold list_acts. apply in_or_app. right. apply in_or_app. left. apply in_map_iff. exists (n, d). auto.
  - unfold list_line. cbn [fst snd].
    exists (str "<a href=""" ++ link (n ++ if d then [slash] else []) ++ str """>"), (html_text (if d then [slash] else []) ++ str "</a>" ++ [ascii_of_N 10]).
    unfold html_text at 1. rewrite flat_map_app. fold (html_text n). rewrite (plain_html n P). fold (html_text (if d then [slash] else [])). rewrite <- !app_assoc. reflexivity.
Qed.

Lemma directory_told content link text fs dir names n q : Forall entry_name (names ++ [n]) ->
  exists p p', at_names dir p (names ++ [n]) /\ at_names dir p' (names ++ [n; str "index.html"]) /\
    forall es st, fs p = NDir es -> fs p' = NError st -> forall m d, In (m, d) es -> plain_name m ->
      part_of m (acts_body (file_server content link text fs dir (path_of (names ++ [n]) ++ str "/") q)).
Proof.
  intros F. destruct (directory_shown fs dir names n F) as (p & p' & A & B & C). exists p, p'. split; [exact A|]. split; [exact B|].
  intros es st E1 E2 m d I P. destruct (C es E1) as [C1 _]. eapply names_listed; [|exact I|exact P]. rewrite (C1 st E2). reflexivity.
Qed.
Lemma directory_page content link text fs dir names n q : Forall entry_name (names ++ [n]) ->
  exists p p', at_names dir p (names ++ [n]) /\ at_names dir p' (names ++ [n; str "index.html"]) /\
    forall es c, fs p = NDir es -> fs p' = NFile c -> file_server content link text fs dir (path_of (names ++ [n]) ++ str "/") q = content c q.
Proof.
  intros F. destruct (directory_shown fs dir names n F) as (p & p' & A & B & C). exists p, p'. split; [exact A|]. split; [exact B|].
  intros es c E1 E2. destruct (C es E1) as [_ C2]. unfold file_server. rewrite (C2 c E2). reflexivity.
Qed.
Lemma file_sent content link text fs dir names n q : Forall entry_name (names ++ [n]) -> n <> str "index.html" ->
  exists p, at_names dir p (names ++ [n]) /\ forall c, fs p = NFile c -> file_server content link text fs dir (path_of (names ++ [n])) q = content c q.
Proof.
  intros F N. destruct (file_found fs dir names n F N) as (p & A & B). exists p. split; [exact A|]. intros c E. unfold file_server. rewrite (B c E). reflexivity.
Qed.
Lemma index_sent_away content link text fs dir names q : Forall entry_name names ->
  file_server content link text fs dir (path_of (names ++ [str "index.html"])) q = [ASet (str "Location") (str "./"); AStatus 301].
Proof. intros F. unfold file_server. rewrite (index_redirected fs dir names F). reflexivity. Qed.

(** Names are shown as they are. *)
Lemma seen_html n : seen_as (html_text n) n.
Proof.
  unfold html_text. induction n as [|c n IH]; [constructor|]. cbn [flat_map].
  unfold html_byte; destruct c as [[] [] [] [] [] [] [] []]; try exact (sa_amp _ _ IH); try exact (sa_lt _ _ IH); try exact (sa_gt _ _ IH); try exact (sa_quote _ _ IH); try exact (sa_apos _ _ IH);
    (apply sa_plain; [intros I; cbn in I; repeat (destruct I as [I|I]; [discriminate|]); exact I|exact IH]).
Qed.
Lemma directory_escaped content link text fs dir names n q : Forall entry_name (names ++ [n]) ->
  exists p p', at_names dir p (names ++ [n]) /\ at_names dir p' (names ++ [n; str "index.html"]) /\
    forall es st, fs p = NDir es -> fs p' = NError st ->
      exists lines, acts_body (file_server content link text fs dir (path_of (names ++ [n]) ++ str "/") q) = str "<pre>" ++ [ascii_of_N 10] ++ List.concat lines ++ str "</pre>" ++ [ascii_of_N 10] /\
        Forall2 (fun (e : bytes * bool) line => exists shown, seen_as shown (fst e ++ if snd e then str "/" else []) /\
          line = str "<a href=""" ++ link (fst e ++ if snd e then str "/" else []) ++ str """>" ++ shown ++ str "</a>" ++ [ascii_of_N 10]) es lines.
Proof.
  intros F. destruct (directory_shown fs dir names n F) as (p & p' & A & B & C). exists p, p'. split; [exact A|]. split; [exact B|].
  intros es st E1 E2. destruct (C es E1) as [C1 _]. exists (map (list_line link) es). split.
  - unfold file_server. rewrite (C1 st E2). cbn [snd]. unfold list_acts, acts_body. rewrite !flat_map_app. cbn [flat_map].
    replace (flat_map (fun a : act => match a with AWrite bs => bs | _ => [] end) (map (fun e => AWrite (list_line link e)) es)) with (List.concat (map (list_line link) es)).
    + rewrite app_nil_r. rewrite <- !app_assoc. reflexivity.
    + rewrite flat_map_concat_map, map_map. reflexivity.
  - clear. induction es as [|[m d] es IH]; [constructor|]. cbn [map]. constructor; [|exact IH].
    exists (html_text (m ++ if d then str "/" else [])). split; [apply seen_html|]. reflexivity.
Qed.

(** ** Paths that are corrected *)
Lemma next_whole n s : ~ In slash n -> next_name (n ++ slash :: s) = (n, slash :: s).
Proof.
  induction n as [|c n IH]; intros N; [reflexivity|]. cbn [List.app next_name].
  destruct (Ascii.eqb_spec c slash) as [->|_]; [exfalso; apply N; left; reflexivity|]. rewrite IH; [reflexivity|]. intros I. apply N. right. exact I.
Qed.
Lemma base_is a n : n <> [] -> ~ In slash n -> base_name (a ++ slash :: n) = n /\ base_name ((a ++ slash :: n) ++ [slash]) = n.
Proof.
  intros NN NS.
  assert (R : rev (a ++ slash :: n) = rev n ++ slash :: rev a) by (rewrite rev_app_distr; cbn [rev]; rewrite <- app_assoc; reflexivity).
  assert (NR : ~ In slash (rev n)) by (intros I; apply in_rev in I; contradiction).
  assert (G : forall s, s <> [] -> strip_slashes (rev s) = rev n ++ slash :: rev a -> base_name s = n).
  { intros s S E. unfold base_name. rewrite E. destruct s; [congruence|].
    destruct (rev n ++ slash :: rev a) eqn:X; [destruct (rev n); discriminate|]. rewrite <- X, next_whole by exact NR. cbn [fst]. apply rev_involutive. }
  assert (ST : strip_slashes (rev n ++ slash :: rev a) = rev n ++ slash :: rev a).
  { destruct (rev n) as [|c m] eqn:X; [apply (f_equal (@rev _)) in X; rewrite rev_involutive in X; contradiction|]. cbn.
    destruct (Ascii.eqb_spec c slash) as [->|_]; [exfalso; apply NR; left; reflexivity|reflexivity]. }
  split; apply G.
  - destruct a; discriminate.
  - rewrite R. exact ST.
  - destruct a; discriminate.
  - rewrite rev_app_distr. cbn [rev List.app strip_slashes]. rewrite R. exact ST.
Qed.

Lemma path_corrected content link text fs dir names n q : Forall entry_name (names ++ [n]) ->
  exists p, at_names dir p (names ++ [n]) /\
    (n <> str "index.html" -> forall c, fs p = NFile c -> file_server content link text fs dir (path_of (names ++ [n])) q = content c q) /\
    (forall c, fs p = NFile c -> file_server content link text fs dir (path_of (names ++ [n]) ++ str "/") q = [ASet (str "Location") (str "../" ++ n); AStatus 301]) /\
    (n <> str "index.html" -> forall es, fs p = NDir es -> file_server content link text fs dir (path_of (names ++ [n])) q = [ASet (str "Location") (n ++ str "/"); AStatus 301]) /\
    (n <> str "index.html" -> forall st, fs p = NError st -> file_server content link text fs dir (path_of (names ++ [n])) q = [ASet (str "Content-Type") (str "text/plain; charset=utf-8"); ASet (str "X-Content-Type-Options") (str "nosniff"); AStatus st; AWrite (text st ++ [ascii_of_N 10])]) /\
    (forall st, fs p = NError st -> file_server content link text fs dir (path_of (names ++ [n]) ++ str "/") q = [ASet (str "Content-Type") (str "text/plain; charset=utf-8"); ASet (str "X-Content-Type-Options") (str "nosniff"); AStatus st; AWrite (text st ++ [ascii_of_N 10])]).
Proof.
  intros F. rewrite path_join. destruct (start_path names n F) as (c0 & t & J & C0).
  set (u := slash :: join [slash] (names ++ [n])).
  assert (U1 : (match join [slash] (names ++ [n]) with c :: _ => if Ascii.eqb c slash then join [slash] (names ++ [n]) else slash :: join [slash] (names ++ [n]) | [] => [slash] end) = u).
  { unfold u. rewrite J. destruct (Ascii.eqb_spec c0 slash); [contradiction|reflexivity]. }
  assert (U2 : (match join [slash] (names ++ [n]) ++ str "/" with c :: _ => if Ascii.eqb c slash then join [slash] (names ++ [n]) ++ str "/" else slash :: join [slash] (names ++ [n]) ++ str "/" | [] => [slash] end) = u ++ [slash]).
  { unfold u. rewrite J. cbn [List.app]. destruct (Ascii.eqb_spec c0 slash); [contradiction|reflexivity]. }
  pose proof F as F'. apply Forall_app in F'. destruct F' as [FN F1]. inversion F1 as [|? ? [NN [_ [_ NS]]] _]; subst.
  destruct (clean_names _ F) as [CL LD]. fold u in CL.
  assert (CU : clean (u ++ [slash]) = u).
  { rewrite clean_is. assert (L : lead (u ++ [slash]) = Place true 0 (names ++ [n])).
    { rewrite lead_join by discriminate. unfold u. rewrite lead_names by assumption. reflexivity. }
    rewrite L. reflexivity. }
  assert (S2 : has_suffix index_page (u ++ [slash]) = false).
  { apply not_true_iff_false. intros H. apply has_suffix_is in H. destruct H as [a H].
    change index_page with (str "/index.htm" ++ ["l"%char]) in H. rewrite app_assoc in H. apply app_inj_tail in H. destruct H as [_ H]. discriminate. }
  assert (S1 : n <> str "index.html" -> has_suffix index_page u = false).
  { intros NI. apply not_true_iff_false. intros H. apply has_suffix_is in H. destruct H as [a H]. unfold u in H. rewrite joined_last in H.
    change (a ++ index_page) with (a ++ slash :: str "index.html") in H. apply tail_unique in H; [congruence|assumption|].
    intros I. cbn in I. repeat (destruct I as [I|I]; [discriminate|]). contradiction. }
  assert (L1 : last_slash u = false).
  { apply not_true_iff_false. intros H. apply last_slash_is in H. destruct H as [a H]. unfold u in H. rewrite joined_last in H. apply tail_unique in H; [congruence|assumption|intros []]. }
  assert (L2 : last_slash (u ++ [slash]) = true) by (apply last_slash_is; eauto).
  assert (B : base_name u = n /\ base_name (u ++ [slash]) = n) by (unfold u; rewrite joined_last; apply base_is; assumption).
  destruct B as [B1 B2].
  exists (dir_path dir u). split; [apply dir_path_at; assumption|]. unfold file_server, serve_file. rewrite U1, U2, CL, CU, S2, L1, L2, B1, B2.
  split; [intros NI c E; rewrite (S1 NI), E; reflexivity|]. split; [intros c E; rewrite E; reflexivity|]. split; [intros NI es E; rewrite (S1 NI), E; reflexivity|].
  split; [intros NI st E; rewrite (S1 NI), E; reflexivity|]. intros st E. rewrite E. reflexivity.
Qed.

(** ** In programs *)
Lemma serve_file_same fs1 fs2 dir rest : (forall p, inside dir p -> fs1 p = fs2 p) -> serve_file fs1 dir rest = serve_file fs2 dir rest.
Proof.
  intros H. unfold serve_file. destruct (has_suffix _ _); [reflexivity|].
  rewrite (H _ (dir_path_inside dir _)). destruct (fs2 (dir_path dir _)); try reflexivity.
  destruct (negb _); [reflexivity|]. rewrite (H _ (dir_path_inside dir _)). reflexivity.
Qed.

Lemma mux_any : mux_inv [] new_mux.
Proof. pose proof (mux_start (fun _ _ => 0) []) as M. exact M. Qed.

Lemma app_files_inside (W : Type) (user : nat -> handler areq response W) mid content link text fs1 fs2 dir pages k oh oc render location redirect_body
    grow fuel re ci context mapping cs f q buf x w :
  (forall p, inside dir p -> fs1 p = fs2 p) ->
  let a := fst (acalls grow fuel re (fst (new_app fuel re ci context mapping)) cs) in
  app_serve user mid (file_server content link text fs1 dir) pages k oh oc render location redirect_body f re a q buf x w =
  app_serve user mid (file_server content link text fs2 dir) pages k oh oc render location redirect_body f re a q buf x w.
Proof.
  intros H. cbv zeta. destruct (new_inv (entry_starts []) fuel re ci context mapping) as [I0 M0]; [intros p _; split; reflexivity|].
  set (a0 := fst (new_app fuel re ci context mapping)) in *.
  assert (I : app_inv (entry_starts []) (fst (acalls grow fuel re a0 cs))).
  { apply acalls_inv with (xs := []); [intros common own h _; exists common; reflexivity|intros _ d; split; reflexivity|exact I0|rewrite M0; apply mux_any]. }
  destruct I as [_ E]. set (a := fst (acalls grow fuel re a0 cs)) in *. unfold app_serve, serve.
  destruct (dispatch_request f re (ap_router a) (xq_method (rq_x q)) (rq_path q) buf) as [|i rec segs| |]; try reflexivity.
  unfold app_code. destruct (nth_error (ap_entries a) i) as [e|] eqn:N; [|reflexivity].
  rewrite Forall_forall in E. specialize (E e (nth_error_In _ _ N)).
  assert (Q : forall mc w0, entry_handler user mid (file_server content link text fs1 dir) pages e x (AReq q mc) w0 =
                            entry_handler user mid (file_server content link text fs2 dir) pages e x (AReq q mc) w0).
  { intros mc w0. destruct e as [common own t]. destruct t as [h|p|d]; [reflexivity| |].
    - destruct E as [E1 E2]. cbn in E1, E2. subst. unfold entry_handler, registered_handler, wrap_middleware, target_handler, adapted. cbn.
      assert (S : static_acts (file_server content link text fs1 dir) p q = static_acts (file_server content link text fs2 dir) p q).
      { unfold static_acts. destruct (_ && _); [|reflexivity]. unfold file_server. rewrite (serve_file_same fs1 fs2 dir _ H). reflexivity. }
      rewrite S. reflexivity.
    - destruct E as [E1 E2]. cbn in E1, E2. subst. reflexivity. }
  rewrite Q. reflexivity.
Qed.

(** ** Cases *)
Definition shelf (p : bytes) : node :=
  if beqb p (str "resources/assets/index.html") then NFile (str "<h1>Hi</h1>")
  else if beqb p (str "resources/assets/css/a.css") then NFile (str "p{}")
  else if beqb p (str "resources/assets/css") then NDir [(str "a.css", false); (str "drafts", true)]
  else if beqb p (str "resources/secret") then NFile (str "key")
  else NError 404.
Definition nl : bytes := [ascii_of_N 10].
Definition home_dir : bytes := str "./resources/assets".

(** The page of the directory is redirected to a path without a route. *)
Lemma index_lost (W : Type) (user : nat -> handler areq response W) mid content link text pages k oh oc render location redirect_body x w fs dir :
  let get p := received (snd (fst (app_serve user mid (file_server content link text fs dir) pages k oh oc render location redirect_body 60 lit_engine
                    (fst (new_app 60 lit_engine false [] (Some []))) (plain_request GET p) zeros x w))) in
  get (str "/assets/index.html") = (301%Z, [(str "Location", [str "./"])], []) /\ get (str "/assets/") = (404%Z, [], []) /\ get (str "/assets") = (404%Z, [], []).
Proof. vm_compute. repeat split. Qed.

Lemma files_case (W : Type) (user : nat -> handler areq response W) mid pages k oh oc render location redirect_body x w :
  let get p := received (snd (fst (app_serve user mid (file_server (fun c _ => [AWrite c]) (fun n => n) (fun _ => str "error") shelf home_dir) pages k oh oc render location redirect_body 60 lit_engine
                    (fst (new_app 60 lit_engine false [] (Some []))) (plain_request GET p) zeros x w))) in
  get (str "/assets/css/a.css") = (200%Z, [], str "p{}") /\
  fst (fst (get (str "/assets/../secret"))) = 404%Z /\ fst (fst (get (str "/assets/css/../../../secret"))) = 404%Z /\
  get (str "/assets/css/index.html") = (301%Z, [(str "Location", [str "./"])], []) /\
  get (str "/assets/css/") = (200%Z, [(str "Content-Type", [str "text/html; charset=utf-8"])],
    str "<pre>" ++ nl ++ str "<a href=""a.css"">a.css</a>" ++ nl ++ str "<a href=""drafts/"">drafts/</a>" ++ nl ++ str "</pre>" ++ nl) /\
  inside home_dir (str "resources/assets/css/a.css") /\ ~ inside home_dir (str "resources/secret") /\
  clean (str "./a//b/../../../c/.") = str "../c" /\ clean (str "/../a") = str "/a".
Proof.
  cbv zeta. split; [vm_compute; reflexivity|]. split; [vm_compute; reflexivity|]. split; [vm_compute; reflexivity|]. split; [vm_compute; reflexivity|].
  split; [vm_compute; reflexivity|].
  split; [|split].
  - exists false, 0, [str "resources"; str "assets"], [str "css"; str "a.css"]. split; [apply leads_is; reflexivity|]. split; [|apply leads_is; reflexivity].
    repeat constructor; try discriminate; intros I; cbn in I; repeat (destruct I as [I|I]; [discriminate|]); exact I.
  - intros (r & u & l & names & A & _ & B). apply leads_is in A. apply leads_is in B. vm_compute in A, B. injection A as -> -> ->. discriminate.
  - split; vm_compute; reflexivity.
Qed.

Lemma escaped_case : Forall entry_name ([str "css"] ++ [str "drafts"]) /\ seen_as (str "a&amp;b &lt;1&gt;") (str "a&b <1>") /\
  path_of ([str "css"] ++ [str "drafts"]) = str "css/drafts".
Proof.
  split; [|split; [exact (seen_html (str "a&b <1>"))|reflexivity]].
  repeat constructor; try discriminate; intros I; cbn in I; repeat (destruct I as [I|I]; [discriminate|]); exact I.
Qed.

Lemma files_paths_case :
  let fs p := if beqb p (str "resources/assets/css/index.html") then NFile (str "<h1>css</h1>") else shelf p in
  let ask fs name := file_server (fun c _ => [AWrite c]) (fun n => n) (fun _ => str "error") fs home_dir name (plain_request GET (str "/")) in
  Forall entry_name [str "css"; str "a.css"] /\
  ask shelf (str "css/a.css") = [AWrite (str "p{}")] /\
  ask fs (str "css/") = [AWrite (str "<h1>css</h1>")] /\
  ask shelf (str "css/a.css/") = [ASet (str "Location") (str "../a.css"); AStatus 301] /\
  ask shelf (str "css") = [ASet (str "Location") (str "css/"); AStatus 301] /\
  ask shelf (str "css/b.css") = error_acts 404 (str "error").
Proof.
  cbv zeta. split; [|repeat split].
  repeat constructor; try discriminate; intros I; cbn in I; repeat (destruct I as [I|I]; [discriminate|]); exact I.
Qed.
