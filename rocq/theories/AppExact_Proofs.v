(** * Proofs about whole programs: exact patterns, static resources, debug pages *)
From Coq Require Import List NArith ZArith Ascii String Bool Lia Arith.
From Verif Require Import GoBase Http_Model Glob_Model Pattern_Model Url_Model Match_Model Router_Model Auth_Model Chain_Model Serve_Model
  Mux_Model Resp_Model Cors_Model App_Model Chain_Spec Chain_Proofs Mux_Spec Mux_Proofs App_Spec AppRoute_Proofs App_Proofs
  Pattern_Spec Url_Spec Routing_Spec Priority_Spec Choice_Spec Routing_Proofs Covers_Proofs Choice_Proofs Witness_Proofs AppWire_Spec AppWire_Proofs.
Import ListNotations.
Local Open Scope string_scope.
Local Open Scope list_scope.
Local Open Scope nat_scope.

Lemma app_same_len {A : Type} (a b c d : list A) : List.length a = List.length c -> a ++ b = c ++ d -> a = c /\ b = d.
Proof.
  revert c. induction a as [|x a IH]; intros [|y c] L E; try discriminate L.
  - split; [reflexivity|exact E].
  - cbn in L, E. injection E as <- E. destruct (IH c ltac:(lia) E) as [-> ->]. split; reflexivity.
Qed.

(** Two registrations with the same pieces, without constraints, are one. *)
Lemma wired_distinct fuel re ci rs a mth : has_wired fuel re (new_router ci) rs a -> ordinary re ci rs ->
  forall i1 w1 ks1 i2 w2 ks2, leads re ci rs mth i1 w1 ks1 -> leads re ci rs mth i2 w2 ks2 ->
  (forall n x, ~ In (Constrained n x) ks2) -> Forall2 (same_piece ci) ks1 ks2 -> i2 <= i1 \/ i1 = i2.
Proof.
  intros [H _] [_ Or] i1 w1 ks1 i2 w2 ks2 (N1 & M1 & P1) (N2 & M2 & P2) NC F.
  destruct (Nat.le_gt_cases i2 i1) as [L|L]; [left; exact L|exfalso].
  destruct (nth_error_split _ _ N2) as (before & after & E & Lb). subst rs.
  rewrite regs_from_app, handle_all_app in H. cbn [regs_from handle_all Nat.add] in H.
  destruct (handle_all fuel re (new_router ci) (regs_from 0 before)) as [r outs] eqn:Hb. cbn [fst snd] in H.
  destruct (handle fuel re r (wr_method w2) (wr_path w2) (List.length before)) as [r1 e] eqn:H1.
  destruct (handle_all fuel re r1 (regs_from (S (List.length before)) after)) as [r2 es] eqn:H2. cbn [fst snd] in H.
  injection H as _ O. rewrite app_length, repeat_app in O.
  assert (Lo : List.length outs = List.length before).
  { assert (G : forall regs r0 r9 o, handle_all fuel re r0 regs = (r9, o) -> List.length o = List.length regs).
    { induction regs as [|[[m p] h] regs IH]; intros r0 r9 o Q; cbn [handle_all] in Q; [injection Q as _ <-; reflexivity|].
      destruct (handle fuel re r0 m p h) as [r3 e3]. destruct (handle_all fuel re r3 regs) as [r4 o4] eqn:Q4. injection Q as _ <-.
      cbn. rewrite (IH _ _ _ Q4). reflexivity. }
    rewrite (G _ _ _ _ Hb), regs_from_length. reflexivity. }
  assert (Eo : outs = repeat Registered (List.length before) /\ e = Registered).
  { apply app_same_len in O; [|rewrite repeat_length; exact Lo]. destruct O as [O1 O2]. cbn [List.length repeat] in O2. injection O2 as O2 _. split; assumption. }
  destruct Eo as [-> ->]. apply Forall_app in Or. destruct Or as [Or1 Or2]. inversion Or2 as [|? ? [Or3 Or4] _]; subst.
  assert (F0 : Forall (fun rg => countable (re_ok re) ci (reg_text rg) /\ plain (re_ok re) ci (reg_text rg)) (regs_from 0 before)).
  { rewrite Forall_forall in *. intros rg I. apply in_regs_from in I. destruct I as (j & w & N & ->). apply (Or1 w). eapply nth_error_In. exact N. }
  destruct (duplicate_exact _ _ _ _ _ _ _ _ _ _ _ _ _ Hb F0 Or3 Or4 P2 H1 ltac:(discriminate)) as (_ & _ & D).
  assert (X : Registered = Duplicate); [|discriminate X].
  apply D; [exact NC|]. exists (wr_method w1, wr_path w1, i1), ks1. split; [|exact F]. apply routes_are. exists i1, w1. split; [reflexivity|].
  rewrite nth_error_app1 in N1 by assumption. split; [exact N1|]. split; [|exact P1]. unfold same_method in *. congruence.
Qed.

Lemma wired_same fuel re ci rs a mth : has_wired fuel re (new_router ci) rs a -> ordinary re ci rs ->
  forall i1 w1 i2 w2 ls1 ls2, leads re ci rs mth i1 w1 (map Lit ls1) -> leads re ci rs mth i2 w2 (map Lit ls2) ->
  Forall2 (same_text ci) ls1 ls2 -> i1 = i2.
Proof.
  intros H Or i1 w1 i2 w2 ls1 ls2 L1 L2 F.
  assert (NC : forall ls n x, ~ In (Constrained n x) (map Lit ls)).
  { intros ls n x I. apply in_map_iff in I. destruct I as (y & E & _). discriminate E. }
  assert (G : forall l1 l2, Forall2 (same_text ci) l1 l2 -> Forall2 (same_piece ci) (map Lit l1) (map Lit l2)).
  { induction 1; cbn [map]; constructor; auto. }
  assert (F' : Forall2 (same_text ci) ls2 ls1).
  { clear -F. induction F; constructor; auto using same_text_sym. }
  destruct (wired_distinct _ _ _ _ _ _ H Or _ _ _ _ _ _ L1 L2 (NC ls2) (G _ _ F)) as [A|A]; [|exact A].
  destruct (wired_distinct _ _ _ _ _ _ H Or _ _ _ _ _ _ L2 L1 (NC ls1) (G _ _ F')) as [B|B]; [lia|congruence].
Qed.

Lemma reads_lits ci rm ls ts : Forall2 (same_text ci) ls ts -> reads_as ci rm (map Lit ls) ts [].
Proof. induction 1; cbn [map]; constructor; assumption. Qed.

(** A pattern that reads the segments and is not less specific than literals is made of
    literals. *)
Lemma not_beaten ci rm ls : forall ts ks bs, List.length ls = List.length ts -> reads_as ci rm ks ts bs -> ~ more_specific (map Lit ls) ks ->
  exists ls', ks = map Lit ls' /\ Forall2 (same_text ci) ls' ts.
Proof.
  induction ls as [|l ls IH]; intros [|t ts] ks bs L R N; try discriminate L.
  - destruct ks as [|p ks]; [exists []; split; constructor|]. destruct N. constructor.
  - injection L as L. remember (t :: ts) as tt eqn:Et.
    destruct R as [|v ks t1 ts1 bs1 Sm R|n r ks t1 ts1 bs1 A R|n ks t1 ts1 bs1 R|v ks t1 ts1 bs1 A R|ks t1 ts1 bs1 R|t1 ts1|ks run ts1 bs1 A R];
      try (exfalso; apply N; cbn [map]; apply ms_here; cbn; lia); try discriminate Et.
    injection Et as -> ->. destruct (IH ts ks bs1 L R) as (ls' & -> & F).
    + intro M. apply N. cbn [map]. apply ms_later; [reflexivity|exact M].
    + exists (v :: ls'). split; [reflexivity|]. constructor; assumption.
Qed.

Section Exact.
Variable W : Type.
Variable user : nat -> handler areq response W.
Variable mid : nat -> middleware areq response W.
Variable files : bytes -> request -> list act.
Variable pages : debug_page -> request -> list act.
Variable k : compressor.
Variable oh : headers -> headers.
Variable oc : cookies -> cookies.
Variable render : cookie -> bytes.
Variable location : wreq -> bytes -> bytes.
Variable redirect_body : Z -> bytes -> bytes.

(** A request for a pattern of literals is answered by that registration. *)
Lemma exact_wins grow fuel re ci context mapping rs0 cs rs a0 x0 a xs q ts buf i r ls :
  resources context mapping rs0 -> wires [VMux [] []] cs rs ->
  new_app fuel re ci context mapping = (a0, x0) -> smooth x0 -> acalls grow fuel re a0 cs = (a, xs) -> Forall smooth xs ->
  ordinary re ci (rs0 ++ rs) -> (blen (rq_path q) < 65536)%N -> segments_of (rq_path q) ts -> List.length buf = 19 ->
  clear_choice re ci (rs0 ++ rs) (xq_method (rq_x q)) ts ->
  leads re ci (rs0 ++ rs) (xq_method (rq_x q)) i r (map Lit ls) -> Forall2 (same_text ci) ls ts ->
  exists k0, forall f x w evs w' b fin,
    app_serve user mid files pages k oh oc render location redirect_body (k0 + f) re a q buf x w = (evs, w', b, fin) ->
    exists mc evs', sees mc q [] /\ visible evs = EvRun i :: evs' /\
      answered_by user mid files pages (sends k oh oc render location redirect_body q) (wr_entry r) x q mc w evs' w' b fin.
Proof.
  intros R Wi E0 S0 E Sm Or Bl Sg Bu Cl L F.
  destruct (whole_answers W user mid files pages k oh oc render location redirect_body grow fuel re ci context mapping rs0 cs rs a0 x0 a xs q ts buf
    R Wi E0 S0 E Sm Or Bl Sg Bu Cl) as (k0 & K).
  exists k0. intros f x w evs w' b fin Sv. destruct (K f x w evs w' b fin Sv) as [_ K2].
  destruct K2 as (j & r1 & ks & bs & mc & evs' & L1 & Rd & B & Se & V & A).
  { exists i, r, (map Lit ls), []. split; [exact L|]. apply reads_lits. exact F. }
  pose proof (B _ _ _ _ L (reads_lits ci (re_match re) ls ts F)) as NB.
  destruct (not_beaten ci (re_match re) ls ts ks bs (Pattern_Proofs.forall2_len _ _ _ _ _ F) Rd NB) as (ls' & -> & F').
  assert (FF : Forall2 (same_text ci) ls' ls).
  { clear -F F'. revert ls F. induction F' as [|a b l m S F' IH]; intros ls F; inversion F; subst; constructor; auto.
    eapply same_text_trans; [exact S|]. apply same_text_sym. assumption. }
  pose proof (program_wired _ _ _ _ _ _ _ _ _ _ _ _ _ R Wi E0 S0 E Sm) as H.
  assert (j = i) by (eapply (wired_same _ _ _ _ _ _ H Or); eassumption). subst j.
  destruct L as (N & _ & _), L1 as (N1 & _ & _). rewrite N in N1. injection N1 as <-.
  exists mc, evs'. split; [|split; [exact V|exact A]].
  destruct Se as (S1 & S2 & S3). split; [exact S1|]. split; [exact S2|]. intro name. rewrite S3.
  assert (Bs : forall l t c, reads_as ci (re_match re) (map Lit l) t c -> c = []).
  { clear. induction l as [|v l IH]; intros t c Q; inversion Q; subst; [reflexivity|]. eapply IH. eassumption. }
  rewrite (Bs _ _ _ Rd). reflexivity.
Qed.

(** What is sent by an adapted handler of the standard library. *)
Lemma adapted_answer acts send1 x q mc w evs w' b fin e :
  en_common e = [] -> en_own e = [] ->
  (forall h, does user files pages (en_target e) h -> h x (AReq q mc) w = (HReturn (Some (RAdaptor None None acts)) None, w)) ->
  answered_by user mid files pages send1 e x q mc w evs w' b fin ->
  w' = w /\ b = snd (send1 (RAdaptor None None acts)) /\ exists evs', evs = EvWrite (RAdaptor None None acts) :: evs'.
Proof.
  intros C O T (inner & outer & D & N & A). rewrite C, O in N. cbn [map List.app present] in N. inversion N; subst. rewrite (T _ D) in A. cbn [fst snd] in A.
  inversion A as [| | |? b0 E|? e0 b0 E|? b0 E]; subst; (split; [reflexivity|]); (split; [rewrite E; reflexivity|]); eexists; reflexivity.
Qed.

(** A file below the directory is looked up by the rest of the path, unless another
    registration that reads the request is as specific. *)
Lemma static_served grow fuel re context mapping dir cs rs a0 x0 a xs q ws names rest buf :
  resource_dir context mapping dir -> dir = spelled ws ++ str "/" -> Forall (fun t => reads t (Lit t) /\ ~ In "/"%char t) ws ->
  wires [VMux [] []] cs rs ->
  new_app fuel re false context (Some mapping) = (a0, x0) -> smooth x0 -> acalls grow fuel re a0 cs = (a, xs) -> Forall smooth xs ->
  let all := Wired (str "GET") (dir ++ str "**") (Entry [] [] (TStatic dir)) :: rs in
  ordinary re false all -> same_method (xq_method (rq_x q)) (str "GET") ->
  rq_path q = dir ++ rest -> rq_raw q = [] -> (blen (rq_path q) < 65536)%N -> segments_of (rq_path q) (ws ++ names) -> names <> [] ->
  List.length buf = 19 -> clear_choice re false all (xq_method (rq_x q)) (ws ++ names) ->
  (forall i r ks bs, i <> 0 -> leads re false all (xq_method (rq_x q)) i r ks -> reads_as false (re_match re) ks (ws ++ names) bs ->
     more_specific (map Lit ws ++ [Any]) ks) ->
  exists k0, forall f x w evs w' b fin,
    app_serve user mid files pages k oh oc render location redirect_body (k0 + f) re a q buf x w = (evs, w', b, fin) ->
    w' = w /\ b = snd (sends k oh oc render location redirect_body q (RAdaptor None None (files rest q))) /\
    exists evs', visible evs = EvRun 0 :: EvWrite (RAdaptor None None (files rest q)) :: evs'.
Proof.
  intros D Ed Lw Wi E0 S0 E Sm all Or Me Pa Ra Bl Sg Nn Bu Cl Un.
  pose proof (rs_some context mapping dir D) as R.
  destruct (whole_answers W user mid files pages k oh oc render location redirect_body grow fuel re false context (Some mapping) _ cs rs a0 x0 a xs q
    (ws ++ names) buf R Wi E0 S0 E Sm Or Bl Sg Bu Cl) as (k0 & K).
  exists k0. intros f x w evs w' b fin Sv. destruct (K f x w evs w' b fin Sv) as [_ K2].
  change ([Wired (str "GET") (dir ++ str "**") (Entry [] [] (TStatic dir))] ++ rs) with all in K2.
  assert (Own : leads re false all (xq_method (rq_x q)) 0 (Wired (str "GET") (dir ++ str "**") (Entry [] [] (TStatic dir))) (map Lit ws ++ [Any]) /\
    reads_as false (re_match re) (map Lit ws ++ [Any]) (ws ++ names) []).
  { split.
    - split; [reflexivity|]. split; [cbn [wr_method]; unfold same_method in *; congruence|]. exists (ws ++ [str "**"]). cbn [wr_path]. split; [|split; [|split]].
      + split.
        * apply Forall_app. split; [eapply Forall_impl; [|exact Lw]; intros t [_ H]; exact H|]. constructor; [|constructor]. intros [H|[H|[]]]; discriminate H.
        * left. split; [|destruct ws; discriminate]. subst dir. clear. induction ws as [|v ws IH]; [reflexivity|]. cbn [List.app spelled]. rewrite <- !app_assoc. cbn [List.app].
          rewrite <- app_assoc in IH. rewrite IH. reflexivity.
      + apply Forall2_app; [|constructor; [constructor|constructor]]. clear -Lw. induction Lw as [|t l [H _] F IH]; cbn [map]; constructor; assumption.
      + clear. induction ws as [|v ws IH]; cbn [map List.app]; [constructor|]. destruct ws as [|v2 ws]; cbn [map List.app] in *; constructor; try exact IH; intros [H _]; discriminate H.
      + intros n rx I. apply in_app_or in I. destruct I as [I|[I|[]]]; [|discriminate I]. apply in_map_iff in I. destruct I as (y & Q & _). discriminate Q.
    - clear -Nn. induction ws as [|v ws IH]; cbn [map List.app].
      + destruct names; [congruence|]. constructor.
      + constructor; [|exact IH]. apply same_text_refl. }
  destruct K2 as (j & r1 & ks & bs & mc & evs' & L1 & Rd & B & _ & V & A).
  { exists 0, (Wired (str "GET") (dir ++ str "**") (Entry [] [] (TStatic dir))), (map Lit ws ++ [Any]), []. exact Own. }
  destruct (Nat.eq_dec j 0) as [->|NE]; [|destruct (B _ _ _ _ (proj1 Own) (proj2 Own) (Un _ _ _ _ NE L1 Rd))].
  destruct L1 as (N & _ & _). cbn in N. injection N as <-. cbn [wr_entry] in A.
  assert (T : forall h, does user files pages (TStatic dir) h -> h x (AReq q mc) w = (HReturn (Some (RAdaptor None None (files rest q))) None, w)).
  { intros h D'. destruct (D' x (AReq q mc) w) as (acts & Q & F & _). rewrite Q, (F rest Pa Ra). reflexivity. }
  destruct (adapted_answer (files rest q) _ _ _ _ _ _ _ _ _ (Entry [] [] (TStatic dir)) eq_refl eq_refl T A) as (-> & Eb & evs2 & ->).
  split; [reflexivity|]. split; [exact Eb|]. exists evs2. exact V.
Qed.

Lemma value_first vs c vs' g v : value_step vs c vs' g -> nth_error vs 0 = Some v -> vm_prefix v = [] ->
  exists v', nth_error vs' 0 = Some v' /\ vm_prefix v' = [].
Proof.
  intros V N P. destruct V as [ms m x X|ms m x p r X J|before x after ys|ms m x method path r own h X J].
  - exists v. split; [rewrite nth_error_app1; [exact N|]; apply nth_error_Some; congruence|exact P].
  - exists v. split; [rewrite nth_error_app1; [exact N|]; apply nth_error_Some; congruence|exact P].
  - destruct before as [|y before]; cbn in N |- *; injection N as <-; eexists; split; try reflexivity; exact P.
  - exists v. split; assumption.
Qed.

Lemma debug_in vs cs rs p page : wires vs cs rs -> forall v, nth_error vs 0 = Some v -> vm_prefix v = [] -> In (ADebug 0) cs -> In (p, page) endpoints ->
  exists i, nth_error rs i = Some (Wired (str "GET") p (Entry [] [] (TDebug (shown_by page)))).
Proof.
  induction 1 as [vs|vs c vs' rs1 cs rs2 Wi Ws IH]; intros v N P I D; [destruct I|].
  assert (Later : In (ADebug 0) cs -> (exists v', nth_error vs' 0 = Some v' /\ vm_prefix v' = []) ->
    exists i, nth_error (rs1 ++ rs2) i = Some (Wired (str "GET") p (Entry [] [] (TDebug (shown_by page))))).
  { intros I' (v' & N' & P'). destruct (IH v' N' P' I' D) as (i & Q). exists (List.length rs1 + i).
    rewrite nth_error_app2 by lia. replace (List.length rs1 + i - List.length rs1) with i by lia. exact Q. }
  destruct Wi as [vs0 c0 vs1 m V NI|vs0 c0 vs1 V|vs0 c0 vs1 method path common own h V|vs0 m y ws0 Y F].
  - destruct I as [I|I]; [discriminate I|]. apply Later; [exact I|]. exact (value_first _ _ _ _ _ V N P).
  - destruct I as [I|I]; [discriminate I|]. apply Later; [exact I|]. exact (value_first _ _ _ _ _ V N P).
  - destruct I as [I|I]; [discriminate I|]. apply Later; [exact I|]. exact (value_first _ _ _ _ _ V N P).
  - destruct I as [I|I]; [|apply Later; [exact I|exists v; auto]]. injection I as ->. rewrite N in Y. injection Y as <-. rewrite P in F.
    apply In_nth_error in D. destruct D as (i & D).
    assert (G : exists w, nth_error ws0 i = Some w /\ wr_method w = str "GET" /\ joined [] p (wr_path w) /\ wr_entry w = Entry [] [] (TDebug (shown_by page))).
    { clear -F D. revert i D. induction F as [|pd w l ws H F IH]; intros i D; [destruct i; discriminate D|].
      destruct i as [|i]; [|exact (IH i D)]. cbn in D. injection D as ->. exists w. split; [reflexivity|exact H]. }
    destruct G as ([wm wp we] & Nw & Em & J & Ee). cbn [wr_method wr_path wr_entry] in *. subst.
    rewrite (joined_unique _ _ _ _ J (jn_left p)) in Nw. exists i. rewrite nth_error_app1; [exact Nw|]. apply nth_error_Some. congruence.
Qed.

Lemma debug_pieces ok ci p page : In (p, page) endpoints -> exists ls, pieces_of ok ci p (map Lit ls) /\ segments_of p ls.
Proof.
  intro I. cbn [endpoints List.app map In] in I.
  assert (G : forall l last, Forall (fun t => reads t (Lit t) /\ ~ In "/"%char t) l -> ~ too_many [] (l ++ last) -> l <> [] ->
    (last = [] \/ last = [[]]) -> pieces_of ok ci (spelled (l ++ last)) (map Lit l) /\ segments_of (spelled (l ++ last)) (walked [] (l ++ last))).
  { intros l la F T NE La. split.
    - exists l. split; [|split; [|split]].
      + split; [eapply Forall_impl; [|exact F]; intros t [_ H]; exact H|]. destruct La as [->| ->]; [left; rewrite app_nil_r; auto|].
        right. clear. induction l as [|v l IH]; cbn; [reflexivity|]. rewrite IH, app_assoc. reflexivity.
      + clear -F. induction F as [|t l [H _] F IH]; cbn [map]; constructor; assumption.
      + clear. induction l as [|v l IH]; cbn [map]; [constructor|]. destruct l as [|v2 l]; cbn [map] in *; constructor; try exact IH; intros [H _]; discriminate H.
      + intros n rx J. apply in_map_iff in J. destruct J as (y & Q & _). discriminate Q.
    - destruct l as [|t l]; [congruence|]. cbn [List.app]. apply segments_spelled; [|exact T]. change (t :: l ++ la) with ((t :: l) ++ la).
      apply Forall_app. split; [eapply Forall_impl; [|exact F]; intros u [_ H]; exact H|]. destruct La as [->| ->]; repeat constructor. intros []. }
  assert (B : forall l, Forall (fun t => reads t (Lit t) /\ ~ In "/"%char t) l -> ~ too_many [] (l ++ []) -> l <> [] -> walked [] (l ++ []) = l ->
     p = spelled (l ++ []) -> exists ls, pieces_of ok ci p (map Lit ls) /\ segments_of p ls).
  { intros l F T NE Wk ->. destruct (G l [] F T NE (or_introl eq_refl)) as [A1 A2]. exists l. rewrite Wk in A2. auto. }
  repeat (destruct I as [I|I]; [injection I as <- <-|]); try contradiction.
  - exists [str "debug"; str "pprof"]. apply (G [str "debug"; str "pprof"] [[]]); [|few|discriminate|right; reflexivity].
    repeat (constructor; [split; [show_reads|not_in]|]). constructor.
  - apply (B [str "debug"; str "pprof"; str "allocs"]); [repeat (constructor; [split; [show_reads|not_in]|]); constructor|few|discriminate|reflexivity|reflexivity].
  - apply (B [str "debug"; str "pprof"; str "block"]); [repeat (constructor; [split; [show_reads|not_in]|]); constructor|few|discriminate|reflexivity|reflexivity].
  - apply (B [str "debug"; str "pprof"; str "goroutine"]); [repeat (constructor; [split; [show_reads|not_in]|]); constructor|few|discriminate|reflexivity|reflexivity].
  - apply (B [str "debug"; str "pprof"; str "heap"]); [repeat (constructor; [split; [show_reads|not_in]|]); constructor|few|discriminate|reflexivity|reflexivity].
  - apply (B [str "debug"; str "pprof"; str "mutex"]); [repeat (constructor; [split; [show_reads|not_in]|]); constructor|few|discriminate|reflexivity|reflexivity].
  - apply (B [str "debug"; str "pprof"; str "threadcreate"]); [repeat (constructor; [split; [show_reads|not_in]|]); constructor|few|discriminate|reflexivity|reflexivity].
  - apply (B [str "debug"; str "pprof"; str "cmdline"]); [repeat (constructor; [split; [show_reads|not_in]|]); constructor|few|discriminate|reflexivity|reflexivity].
  - apply (B [str "debug"; str "pprof"; str "profile"]); [repeat (constructor; [split; [show_reads|not_in]|]); constructor|few|discriminate|reflexivity|reflexivity].
  - apply (B [str "debug"; str "pprof"; str "symbol"]); [repeat (constructor; [split; [show_reads|not_in]|]); constructor|few|discriminate|reflexivity|reflexivity].
  - apply (B [str "debug"; str "pprof"; str "trace"]); [repeat (constructor; [split; [show_reads|not_in]|]); constructor|few|discriminate|reflexivity|reflexivity].
  - apply (B [str "debug"; str "vars"]); [repeat (constructor; [split; [show_reads|not_in]|]); constructor|few|discriminate|reflexivity|reflexivity].
Qed.

(** The debug pages of a program that enables them on its first mux. *)
Lemma debug_served grow fuel re ci context mapping rs0 cs rs a0 x0 a xs q ts buf p page :
  resources context mapping rs0 -> wires [VMux [] []] cs rs -> In (ADebug 0) cs -> In (p, page) endpoints ->
  new_app fuel re ci context mapping = (a0, x0) -> smooth x0 -> acalls grow fuel re a0 cs = (a, xs) -> Forall smooth xs ->
  ordinary re ci (rs0 ++ rs) -> rq_path q = p -> same_method (xq_method (rq_x q)) (str "GET") -> segments_of p ts -> List.length buf = 19 ->
  clear_choice re ci (rs0 ++ rs) (xq_method (rq_x q)) ts ->
  exists k0 i, forall f x w evs w' b fin,
    app_serve user mid files pages k oh oc render location redirect_body (k0 + f) re a q buf x w = (evs, w', b, fin) ->
    w' = w /\ b = snd (sends k oh oc render location redirect_body q (RAdaptor None None (pages page q))) /\
    exists evs', visible evs = EvRun i :: EvWrite (RAdaptor None None (pages page q)) :: evs'.
Proof.
  intros R Wi I Ip E0 S0 E Sm Or Pa Me Sg Bu Cl.
  destruct (debug_in _ _ _ p page Wi (VMux [] []) eq_refl eq_refl I Ip) as (i & Ni).
  destruct (debug_pieces (re_ok re) ci p page Ip) as (ls & Pl & Sl). pose proof (Url_Proofs.segments_of_unique _ _ _ Sg Sl) as ->.
  assert (L : leads re ci (rs0 ++ rs) (xq_method (rq_x q)) (List.length rs0 + i) (Wired (str "GET") p (Entry [] [] (TDebug (shown_by page)))) (map Lit ls)).
  { split; [rewrite nth_error_app2 by lia; replace (List.length rs0 + i - List.length rs0) with i by lia; exact Ni|].
    split; [cbn [wr_method]; unfold same_method in *; congruence|exact Pl]. }
  assert (Bl : (blen (rq_path q) < 65536)%N).
  { rewrite Pa. clear -Ip. cbn [endpoints List.app map In] in Ip. repeat (destruct Ip as [Ip|Ip]; [injection Ip as <- <-; reflexivity|]). destruct Ip. }
  destruct (exact_wins grow fuel re ci context mapping rs0 cs rs a0 x0 a xs q ls buf _ _ ls R Wi E0 S0 E Sm Or Bl
    ltac:(rewrite Pa; exact Sl) Bu Cl L) as (k0 & K).
  { clear. induction ls; constructor; auto. apply same_text_refl. }
  exists k0, (List.length rs0 + i). intros f x w evs w' b fin Sv. destruct (K f x w evs w' b fin Sv) as (mc & evs' & _ & V & A). cbn [wr_entry] in A.
  assert (T : forall h, does user files pages (TDebug (shown_by page)) h -> h x (AReq q mc) w = (HReturn (Some (RAdaptor None None (pages page q))) None, w)).
  { intros h D'. destruct (D' x (AReq q mc) w) as (acts & Q & F). rewrite Q, (F page); [reflexivity|cbn [aq_request]; rewrite Pa; exact Ip|].
    destruct page as [|n|d]; cbn [shown_by]; [left; split; [reflexivity|left; reflexivity]|left; split; [reflexivity|right; exists n; reflexivity]|].
    right. split; [|reflexivity]. intros ->. clear -Ip. cbn [endpoints List.app map In] in Ip. intuition discriminate. }
  destruct (adapted_answer (pages page q) _ _ _ _ _ _ _ _ _ (Entry [] [] (TDebug (shown_by page))) eq_refl eq_refl T A) as (-> & Eb & evs2 & ->).
  split; [reflexivity|]. split; [exact Eb|]. exists evs2. exact V.
Qed.

End Exact.
