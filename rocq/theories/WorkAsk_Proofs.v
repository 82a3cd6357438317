(** * Proofs for C147: the comparisons that are counted decide *)
From Coq Require Import List NArith Ascii String Bool Lia Arith.
From Verif Require Import GoBase Pattern_Model Url_Model Match_Model Router_Model Work_Model Work_Proofs.
Import ListNotations.
Local Open Scope string_scope.
Local Open Scope list_scope.
Local Open Scope nat_scope.

Section Asked.
Variables re re' : engine.
Variable ci : bool.
Variable path : bytes.
Variable url_len : N.

Definition ask (s : segment) (u : useg) : list (bytes * bytes) :=
  match s_mt s, useg_text path u, s_re s with
  | MTConstraint, Some t, Some r => [(r, t)]
  | _, _, _ => []
  end.
Definition agree (l : list (bytes * bytes)) : Prop := forall r t, In (r, t) l -> re_match re r t = re_match re' r t.
Lemma agree_app a b : agree (a ++ b) -> agree a /\ agree b.
Proof. unfold agree. intros H. split; intros r t I1; apply H; apply in_or_app; [now left|now right]. Qed.
Lemma ask_one s u : List.length (ask s u) <= 1.
Proof. unfold ask. destruct (s_mt s), (useg_text path u), (s_re s); cbn; lia. Qed.
Lemma ask_agree s u : agree (ask s u) -> seg_match re' ci path s u = seg_match re ci path s u.
Proof.
  unfold ask, seg_match, agree. destruct (s_mt s); try reflexivity. destruct (useg_text path u) as [t|]; [|reflexivity]. destruct (s_re s) as [r|]; [|reflexivity].
  intro H. rewrite (H r t); [reflexivity|now left].
Qed.

Fixpoint first_ask (l : list node) (left : N) (u : useg) : list (bytes * bytes) :=
  match l with
  | [] => []
  | n :: l' =>
      if negb (can_match_len n left) then first_ask l' left u
      else ask (n_seg n) u ++ match seg_match re ci path (n_seg n) u with SMt MTUnknown => first_ask l' left u | _ => [] end
  end.
Lemma first_ask_len l left u : List.length (first_ask l left u) <= first_calls re ci path l left u.
Proof.
  induction l as [|n l IH]; cbn [first_ask first_calls]; [apply le_n|]. destruct (negb (can_match_len n left)); [exact IH|].
  rewrite app_length. pose proof (ask_one (n_seg n) u). destruct (seg_match re ci path (n_seg n) u) as [[]|]; cbn [List.length]; lia.
Qed.
Lemma first_ask_agree l left u : forall c, agree (first_ask l left u) -> first_match re' ci path l c left u = first_match re ci path l c left u.
Proof.
  induction l as [|n l IH]; intros c; cbn [first_ask first_match]; [reflexivity|]. destruct (negb (can_match_len n left)); [apply IH|].
  intro H. apply agree_app in H. destruct H as (H1 & H2). rewrite (ask_agree _ _ H1). destruct (seg_match re ci path (n_seg n) u) as [[]|]; try reflexivity.
  now apply IH.
Qed.

Fixpoint some_ask (l : list node) (u : useg) : list (bytes * bytes) :=
  match l with
  | [] => []
  | n :: l' => ask (n_seg n) u ++ match seg_match re ci path (n_seg n) u with SMt MTUnknown => some_ask l' u | _ => [] end
  end.
Lemma some_ask_len l u : List.length (some_ask l u) <= some_calls re ci path l u.
Proof.
  induction l as [|n l IH]; cbn [some_ask some_calls]; [apply le_n|].
  rewrite app_length. pose proof (ask_one (n_seg n) u). destruct (seg_match re ci path (n_seg n) u) as [[]|]; cbn [List.length]; lia.
Qed.
Lemma some_ask_agree l u : agree (some_ask l u) -> some_matches re' ci path l u = some_matches re ci path l u.
Proof.
  induction l as [|n l IH]; cbn [some_ask some_matches]; [reflexivity|].
  intro H. apply agree_app in H. destruct H as (H1 & H2). rewrite (ask_agree _ _ H1). destruct (seg_match re ci path (n_seg n) u) as [[]|]; try reflexivity.
  now apply IH.
Qed.

Fixpoint greedy_ask (k : nat) (l : list node) (i : N) (segs : list useg) : list (bytes * bytes) :=
  match k with
  | O => []
  | S k' =>
      match nth_error segs (N.to_nat i) with
      | None => []
      | Some u => some_ask l u ++ match some_matches re ci path l u with HNo => greedy_ask k' l (u8 (i + 1)) (set_mt segs i MTMulti) | _ => [] end
      end
  end.
Lemma greedy_ask_len k l : forall i segs, List.length (greedy_ask k l i segs) <= greedy_calls re ci path k l i segs.
Proof.
  induction k as [|k IH]; intros i segs; cbn [greedy_ask greedy_calls]; [apply le_n|]. destruct (nth_error segs (N.to_nat i)) as [u|]; [|cbn; lia].
  rewrite app_length. pose proof (some_ask_len l u). destruct (some_matches re ci path l u); cbn [List.length]; [specialize (IH (u8 (i + 1)) (set_mt segs i MTMulti))|..]; lia.
Qed.
Lemma greedy_ask_agree k l : forall i segs, agree (greedy_ask k l i segs) -> greedy re' ci path k l i segs = greedy re ci path k l i segs.
Proof.
  induction k as [|k IH]; intros i segs; cbn [greedy_ask greedy]; [reflexivity|]. destruct (nth_error segs (N.to_nat i)) as [u|]; [|reflexivity].
  intro H. apply agree_app in H. destruct H as (H1 & H2). cbv zeta. rewrite (some_ask_agree _ _ H1). destruct (some_matches re ci path l u); try reflexivity.
  now apply IH.
Qed.

Definition round_ask (st : mstate) : list (bytes * bytes) :=
  let i := ms_idx st in
  if negb (i <? url_len)%N then []
  else
    match nth_error (ms_segs st) (N.to_nat i), nth_error (ms_mts st) (N.to_nat i),
          nth_error (ms_nstack st) (ms_depth st) with
    | Some u, Some mt0, Some (c0, _) =>
        let segs := if mt_eqb mt0 MTUnknown then ms_segs st else set_mt (ms_segs st) i mt0 in
        let children := n_ch (ms_cur st) in
        let seen := skipn (N.to_nat c0) (firstn (N.to_nat (u16 (N.of_nat (List.length children)))) children) in
        first_ask seen (sub8 url_len i) u ++
        match first_match re ci path seen c0 (sub8 url_len i) u with
        | FSome _ child MTMulti =>
            match n_ch child, is_leaf child with
            | [], true => []
            | greedy_children, _ => greedy_ask (N.to_nat (url_len - i)) greedy_children i segs
            end
        | _ => []
        end
    | _, _, _ => []
    end.
Lemma round_ask_len st : List.length (round_ask st) <= round_calls re ci path url_len st.
Proof.
  unfold round_ask, round_calls. cbv zeta. destruct (negb (ms_idx st <? url_len)%N); [cbn; lia|].
  destruct (nth_error (ms_segs st) (N.to_nat (ms_idx st))) as [u|]; [|cbn; lia]. destruct (nth_error (ms_mts st) (N.to_nat (ms_idx st))) as [mt0|]; [|cbn; lia].
  destruct (nth_error (ms_nstack st) (ms_depth st)) as [[c0 z]|]; [|cbn; lia]. rewrite app_length.
  apply Nat.add_le_mono; [apply first_ask_len|].
  destruct (first_match re ci path _ c0 (sub8 url_len (ms_idx st)) u) as [| |c child [| | | | | |]]; try (cbn; lia).
  destruct (n_ch child) as [|x l]; [destruct (is_leaf child); [cbn; lia|]|]; apply greedy_ask_len.
Qed.
Lemma round_ask_agree st : agree (round_ask st) -> round re' ci path url_len st = round re ci path url_len st.
Proof.
  unfold round_ask, round. cbv zeta. destruct (negb (ms_idx st <? url_len)%N); [reflexivity|].
  destruct (nth_error (ms_segs st) (N.to_nat (ms_idx st))) as [u|]; [|reflexivity]. destruct (nth_error (ms_mts st) (N.to_nat (ms_idx st))) as [mt0|]; [|reflexivity].
  destruct (nth_error (ms_nstack st) (ms_depth st)) as [[c0 z]|]; [|reflexivity]. intro H. apply agree_app in H. destruct H as (H1 & H2).
  rewrite (first_ask_agree _ _ _ c0 H1).
  destruct (first_match re ci path _ c0 (sub8 url_len (ms_idx st)) u) as [| |c child [| | | | | |]]; try reflexivity.
  destruct (n_ch child) as [|x l]; [destruct (is_leaf child); [reflexivity|]|]; now rewrite (greedy_ask_agree _ _ _ _ H2).
Qed.

Fixpoint loop_ask (fuel : nat) (st : mstate) : list (bytes * bytes) :=
  match fuel with
  | O => []
  | S f => round_ask st ++ match round re ci path url_len st with inl st' => loop_ask f st' | inr _ => [] end
  end.
Lemma loop_ask_len f : forall st, List.length (loop_ask f st) <= loop_calls re ci path url_len f st.
Proof.
  induction f as [|f IH]; intro st; cbn [loop_ask loop_calls]; [apply le_n|]. rewrite app_length. pose proof (round_ask_len st).
  destruct (round re ci path url_len st) as [st'|r]; [specialize (IH st')|cbn]; lia.
Qed.
Lemma loop_ask_agree f : forall st, agree (loop_ask f st) -> match_loop re' ci path url_len f st = match_loop re ci path url_len f st.
Proof.
  induction f as [|f IH]; intro st; cbn [loop_ask match_loop]; [reflexivity|]. intro H. apply agree_app in H. destruct H as (H1 & H2).
  rewrite (round_ask_agree _ H1). destruct (round re ci path url_len st) as [st'|r]; [now apply IH|reflexivity].
Qed.
End Asked.

Lemma routing_asks f re r mth path buf : exists asked : list (bytes * bytes),
  List.length asked <= request_calls f re r mth path buf /\
  forall re', (forall e t, In (e, t) asked -> re_match re e t = re_match re' e t) ->
    dispatch_request f re' r mth path buf = dispatch_request f re r mth path buf.
Proof.
  unfold request_calls, dispatch_request. destruct (parse_url_path path buf) as [segs|]; [|exists []; cbn; split; [lia|reflexivity]].
  destruct (alookup (to_upper mth) (r_matchers r)) as [m|]; [|exists []; cbn; split; [lia|reflexivity]].
  unfold match_calls, match_path. destruct (Nat.ltb max_path_segments (List.length segs)); [exists []; cbn; split; [lia|reflexivity]|].
  set (st := MS 0 0 (m_trie m) [] (repeat (0%N, 0%N) max_path_segments) (repeat MTUnknown max_path_segments) segs).
  set (n := u8 (N.of_nat (List.length segs))).
  assert (X : exists asked, List.length asked <= loop_calls re (m_ci m) path n f st /\
    forall re', (forall e t, In (e, t) asked -> re_match re e t = re_match re' e t) ->
      match_loop re' (m_ci m) path n f st = match_loop re (m_ci m) path n f st).
  { exists (loop_ask re (m_ci m) path n f st). split; [apply loop_ask_len|]. intros re' H. now apply loop_ask_agree. }
  destruct X as (asked & X1 & X2).
  destruct segs as [|s segs]; [destruct (m_root m) as [p|]; [exists []; cbn; split; [lia|reflexivity]|]|]; exists asked; (split; [exact X1|]); intros re' H; now rewrite (X2 re' H).
Qed.

Definition ask_engine (b : bool) : engine := Engine (fun _ => true) (fun e t => b && beqb e (str "^x$") && beqb t (str "x")).
Definition ask_router : router :=
  fst (handle_all 40 (ask_engine true) (new_router false) [(str "GET", str "/{a:^x$}/b", 7); (str "GET", str "/{a:^y$}/c", 8)]).
Lemma ask_case :
  let buf := repeat useg_zero 19 in
  (exists rec segs, dispatch_request 40 (ask_engine true) ask_router (str "GET") (str "/x/b") buf = Calls 7 rec segs) /\
  dispatch_request 40 (ask_engine false) ask_router (str "GET") (str "/x/b") buf = NotFound /\
  request_calls 40 (ask_engine true) ask_router (str "GET") (str "/x/b") buf = 2.
Proof. vm_compute. split; [eexists; eexists; reflexivity|split; reflexivity]. Qed.
