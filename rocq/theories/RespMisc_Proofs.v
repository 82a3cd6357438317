(** * Proofs about cookies, negotiation, redirects, adaptors, and the cases *)
From Coq Require Import List NArith ZArith Ascii String Bool Lia Arith Permutation.
From Verif Require Import GoBase Http_Model Auth_Model Auth_Proofs Csrf_Spec Csrf_Proofs Chain_Model Serve_Model.
From Verif Require Import Resp_Model Resp_Spec Resp_Proofs RespBody_Proofs Sse_Spec Sse_Proofs.
Import ListNotations.
Local Open Scope string_scope.
Local Open Scope list_scope.
Local Open Scope nat_scope.

Lemma beqb_ne a b : a <> b -> beqb a b = false.
Proof. apply beqb_no. Qed.

(** ** C44: status, headers and cookies *)

Lemma response_sent (k : compressor) (oh : headers -> headers) (oc : cookies -> cookies) (render : cookie -> bytes)
    location redirect_body r q h st (w : rw k) :
  (forall m, Permutation (oh m) m) -> (forall m, Permutation (oc m) m) ->
  fields r = Some h -> right_protocol r q -> meant_status h st -> (200 <= st <= 999)%Z ->
  b_final (rw_base w) = None -> one_spelling (custom_headers h) ->
  exists hs ts, b_final (rw_base (snd (write oh oc render location redirect_body r q w))) = Some (st, hs) /\
    Permutation ts (texts_of render (custom_cookies h)) /\
    sent_as (rw_headers w) hs (custom_headers h) ts (hr_ctype h).
Proof. intros OH OC. apply written_final; assumption. Qed.

Lemma invalid_status (k : compressor) oh oc render location redirect_body r q h st (w : rw k) :
  fields r = Some h -> right_protocol r q -> meant_status h st -> ~ (100 <= st <= 999)%Z ->
  write oh oc render location redirect_body r q w = (Wrote (Some status_error), w).
Proof. intros F P M S. apply meant_code in M. subst st. eapply bad_status_nothing; eauto. Qed.

Lemma response_body (k : compressor) oh oc render location redirect_body r q h st b :
  fields r = Some h -> right_protocol r q -> meant_status h st -> with_body st ->
  b_final b = None -> b_body b = [] ->
  exists b', write oh oc render location redirect_body r q (@Plain k b) = (end_of r, Plain b') /\ b_body b' = body_of r.
Proof. apply written_body. Qed.

Lemma informational_is_200 (k : compressor) oh oc render location redirect_body h q :
  (100 <= hr_status h <= 199)%Z ->
  exists b', write oh oc render location redirect_body (RHeaders h) q (@Plain k base_new) = (Wrote None, Plain b') /\
    fst (fst (received b')) = 200%Z.
Proof.
  intro S. assert (C : hr_code h = hr_status h) by (unfold hr_code; destruct (Z.eqb_spec (hr_status h) 0); lia).
  unfold write. cbn [write_cut hr_cut]. unfold after_headers. rewrite write_headers_ok by lia.
  eexists. split; [reflexivity|]. unfold base_write_header, base_set. cbn. rewrite C.
  replace ((100 <=? hr_status h) && (hr_status h <=? 199))%Z with true by lia. reflexivity.
Qed.

Definition plain_text (h : hresp) := RText h (str "hi").
Definition get_req : wreq := WReq (str "GET") [] 1%N.
Definition just_name (c : cookie) : bytes := ck_name c ++ str "=" ++ ck_rest c.
Definition written_toy oh (oc : cookies -> cookies) r q : base :=
  rw_base (snd (write oh oc just_name (fun _ u => u) (fun _ u => u) r q (@Plain toy base_new))).

(** The two orders in which a map with two keys is visited. *)
Lemma spelling_depends_on_order :
  let h := HResp 200 [] (Some [(str "X-A", str "1"); (str "x-a", str "2")]) None in
  (forall m, Permutation (@rev (bytes * bytes) m) m) /\
  hvalues (snd (fst (received (written_toy (fun m => m) (fun m => m) (plain_text h) get_req)))) (str "X-A") = [str "2"] /\
  hvalues (snd (fst (received (written_toy (@rev _) (fun m => m) (plain_text h) get_req)))) (str "X-A") = [str "1"].
Proof. cbv zeta. split; [intro m; apply Permutation_sym, Permutation_rev|]. vm_compute. auto. Qed.

Definition sid : cookie := Cookie (str "sid") [] [] (str "1").
Lemma set_cookie_header_drops :
  let h := HResp 200 [] (Some [(str "Set-Cookie", str "a=b")]) (Some (new_http_cookie [Some sid])) in
  hvalues (snd (fst (received (written_toy (fun m => m) (fun m => m) (plain_text h) get_req)))) (str "Set-Cookie") = [str "a=b"].
Proof. vm_compute. reflexivity. Qed.

Lemma response_case :
  let h := HResp 0 (str "text/plain") (Some [(str "x-a", str "1"); (str "Content-Type", [])]) (Some (new_http_cookie [Some sid])) in
  fields (plain_text h) = Some h /\ right_protocol (plain_text h) get_req /\ meant_status h 200 /\ with_body 200 /\
  one_spelling (custom_headers h) /\
  received (written_toy (fun m => m) (fun m => m) (plain_text h) get_req) =
    (200%Z, [(str "X-Content-Type-Options", [str "nosniff"]); (str "Content-Type", [str "text/plain"]);
             (str "X-A", [str "1"]); (str "Set-Cookie", [str "sid=1"])], str "hi").
Proof.
  cbv zeta. split; [reflexivity|]. split; [exact I|]. split; [left; auto|]. split; [unfold with_body; lia|]. split.
  - split.
    + cbn. repeat constructor; cbn; intros [H|[]] || intros []; discriminate H.
    + cbn. intros k1 v1 k2 v2 [H1|[H1|[]]] [H2|[H2|[]]]; injection H1 as <- <-; injection H2 as <- <-; intro E;
        try reflexivity; vm_compute in E; discriminate E.
  - vm_compute. reflexivity.
Qed.

(** ** C45: redirects *)

Lemma redirect_ignores (k : compressor) oh oc render location redirect_body h1 h2 u q (w : rw k) :
  hr_status h1 = hr_status h2 ->
  write oh oc render location redirect_body (RRedirect h1 u) q w = write oh oc render location redirect_body (RRedirect h2 u) q w.
Proof. intro E. unfold write. cbn [write_cut]. now rewrite E. Qed.

Lemma redirect_drops :
  let h := HResp 302 [] (Some [(str "X-A", str "1")]) (Some (new_http_cookie [Some sid])) in
  received (written_toy (fun m => m) (fun m => m) (RRedirect h (str "/login")) (WReq (str "POST") [] 1%N)) =
    (302%Z, [(str "Location", [str "/login"])], []).
Proof. vm_compute. reflexivity. Qed.

Lemma redirect_sent (k : compressor) oh oc render location redirect_body h u q (w : rw k) :
  (200 <= hr_status h <= 999)%Z -> b_final (rw_base w) = None ->
  exists w' hs, write oh oc render location redirect_body (RRedirect h u) q w = (Wrote None, w') /\
    b_final (rw_base w') = Some (hr_status h, hs) /\ hvalues hs (str "Location") = [location q u] /\
    (forall n, ~ same_name n (str "Location") -> ~ same_name n ct -> hvalues hs n = hvalues (rw_headers w) n).
Proof.
  intros S N. unfold write. cbn [write_cut]. unfold http_redirect. cbv zeta.
  set (had := match alookup (str "Content-Type") (rw_headers w) with Some _ => true | None => false end). clearbody had.
  set (g := beqb (wq_method q) (str "GET")). clearbody g. set (hd := beqb (wq_method q) (str "HEAD")). clearbody hd.
  set (w2 := if negb had && (g || hd) then _ else _).
  assert (W2 : exists hs, w2 = with_headers k w hs /\ hvalues hs (str "Location") = [location q u] /\
     (forall n, ~ same_name n (str "Location") -> ~ same_name n ct -> hvalues hs n = hvalues (rw_headers w) n)).
  { unfold w2. rewrite !rw_set_with, with_headers_headers, with_headers_twice. destruct (negb had && (g || hd)).
    - eexists. split; [reflexivity|]. split.
      + rewrite !hvalues_set. vm_compute. reflexivity.
      + intros n A B. rewrite !hvalues_set. unfold ct in B. rewrite !beqb_ne; [reflexivity| |]; unfold same_name in *; congruence.
    - eexists. split; [reflexivity|]. split.
      + rewrite !hvalues_set. vm_compute. reflexivity.
      + intros n A B. rewrite !hvalues_set. rewrite !beqb_ne; [reflexivity|]; unfold same_name in *; congruence. }
  destruct W2 as (hs & E & A & B). clearbody w2. subst w2. unfold rw_write_header.
  replace (b_final (rw_base (with_headers k w hs))) with (@None (Z * hmap)) by (unfold with_headers; rewrite base_map; cbn; now rewrite N).
  replace ((hr_status h <? 100) || (999 <? hr_status h))%Z with false by lia.
  set (w3 := rw_map _ _).
  assert (F : b_final (rw_base w3) = Some (hr_status h, hs)).
  { unfold w3, with_headers. rewrite !base_map. unfold base_write_header, base_set. cbn. rewrite N.
    replace ((100 <=? hr_status h) && (hr_status h <=? 199))%Z with false by lia. reflexivity. }
  eexists. exists hs. split; [reflexivity|]. split; [|split; assumption].
  destruct (negb had && g); [apply write_stays|]; exact F.
Qed.

(** ** C46: cookies *)

Lemma add_all ls : forall m, fold_left cookies_add ls m = cookies_add m (flat_map (fun l => l) ls).
Proof.
  assert (A : forall a m b, cookies_add m (a ++ b) = cookies_add (cookies_add m a) b).
  { induction a as [|[c|] a IH]; intros m b; cbn; auto. }
  induction ls as [|l ls IH]; intro m; cbn; [reflexivity|]. now rewrite IH, A.
Qed.

Lemma cookies_snoc l c : forall m,
  cookies_add m (l ++ [c]) = match c with Some c => aset (cookie_id c) c (cookies_add m l) | None => cookies_add m l end.
Proof. induction l as [|[d|] l IH]; intro m; cbn; auto. Qed.

Lemma before_colon a : forall b a' b', ~ In colon a -> ~ In colon a' -> a ++ colon :: b = a' ++ colon :: b' -> a = a' /\ b = b'.
Proof.
  induction a as [|x a IH]; intros b [|y a'] b' N N' E; cbn in *.
  - injection E as ->. auto.
  - injection E as <- E. exfalso. apply N'. auto.
  - injection E as -> E. exfalso. apply N. auto.
  - injection E as <- E. apply IH in E; [|tauto|tauto]. destruct E as [-> ->]. auto.
Qed.

Lemma id_same c c' : no_colon c -> no_colon c' -> (cookie_id c = cookie_id c' <-> same_cookie c c').
Proof.
  intros [A1 A2] [B1 B2]. unfold cookie_id, same_cookie. split.
  - intro E. change (str ":") with [colon] in E. cbn [app] in E.
    apply before_colon in E; [|assumption|assumption]. destruct E as [EN E]. split; [exact EN|].
    apply (f_equal (@rev byte)) in E. rewrite !rev_app_distr in E. cbn [rev] in E. rewrite <- !app_assoc in E. cbn [app] in E.
    apply before_colon in E; [|rewrite <- in_rev; assumption|rewrite <- in_rev; assumption].
    destruct E as [ED EP]. apply (f_equal (@rev byte)) in ED, EP. rewrite !rev_involutive in ED, EP. auto.
  - intros (-> & -> & ->). reflexivity.
Qed.

Lemma aremove_notin {V : Type} key (m : list (bytes * V)) : ~ In key (map fst (aremove key m)).
Proof. intro H. apply in_map_iff in H. destruct H as (x & E & H). apply aremove_in in H. tauto. Qed.

Lemma kept_cookies l : (forall c, In (Some c) l -> no_colon c) ->
  let m := cookies_add [] l in
  NoDup (map fst m) /\ (forall i c, In (i, c) m -> i = cookie_id c) /\ forall c, In c (map snd m) <-> last_added l c.
Proof.
  induction l as [|x l IH] using rev_ind; intro NC; cbv zeta.
  - cbn. split; [constructor|]. split; [easy|]. intro c. split; [easy|]. intros (l1 & l2 & E & _). now destruct l1.
  - rewrite cookies_snoc. destruct IH as (N & K & L); [intros c H; apply NC, in_or_app; auto|].
    destruct x as [x|].
    + split; [|split].
      * unfold aset. cbn. constructor; [apply aremove_notin|apply aremove_nodup, N].
      * unfold aset. cbn. intros i c [H|H]; [congruence|]. apply aremove_in in H. apply K, H.
      * intro c. unfold aset. cbn. split.
        -- intros [<-|H].
           ++ exists l, []. split; [reflexivity|easy].
           ++ apply in_map_iff in H. destruct H as ([i c'] & E & H). cbn in E. subst c'. apply aremove_in in H. destruct H as [H D]. cbn in D.
              pose proof (K i c H) as KI. assert (C : In c (map snd (cookies_add [] l))) by (apply in_map_iff; exists (i, c); auto).
              apply L in C. destruct C as (l1 & l2 & -> & U). exists l1, (l2 ++ [Some x]). split; [now rewrite <- app_assoc|].
              intros c' H'. apply in_app_or in H'. destruct H' as [H'|[H'|[]]]; [now apply U|]. injection H' as ->.
              intro SC. apply D. rewrite KI. apply id_same; [| |exact SC]; apply NC; rewrite !in_app_iff; cbn; auto.
        -- intros (l1 & l2 & E & U). destruct l2 as [|y l2 _] using rev_ind.
           ++ apply app_inj_tail in E. destruct E as [_ E]. left. congruence.
           ++ change (l1 ++ Some c :: l2 ++ [y]) with (l1 ++ (Some c :: l2) ++ [y]) in E. rewrite app_assoc in E.
              apply app_inj_tail in E. destruct E as [-> <-]. right.
              assert (C : In c (map snd (cookies_add [] (l1 ++ Some c :: l2)))).
              { apply L. exists l1, l2. split; [reflexivity|]. intros c' H'. apply U, in_or_app. auto. }
              apply in_map_iff in C. destruct C as ([i c'] & E & C). cbn in E. subst c'. apply in_map_iff. exists (i, c). split; [reflexivity|].
              assert (D : i <> cookie_id x).
              { rewrite (K i c C). intro Q. apply id_same in Q; [| |]; [|apply NC; rewrite !in_app_iff; cbn; auto..].
                apply (U x); [apply in_or_app; cbn; auto|exact Q]. }
              clear - C D. induction (cookies_add [] (l1 ++ Some c :: l2)) as [|[i' c'] m IHm]; [easy|].
              cbn. destruct C as [C|C].
              ** injection C as -> ->. destruct (beqb (cookie_id x) i) eqn:B; [apply beqb_iff in B; congruence|]. now left.
              ** destruct (beqb (cookie_id x) i'); [|right]; auto.
    + split; [exact N|]. split; [exact K|]. intro c. rewrite L. split; intros (l1 & l2 & E & U).
      * subst l. exists l1, (l2 ++ [None]). split; [now rewrite <- app_assoc|].
        intros c' H. apply in_app_or in H. destruct H as [H|[H|[]]]; [now apply U|discriminate H].
      * destruct l2 as [|y l2 _] using rev_ind.
        -- apply app_inj_tail in E. destruct E as [_ E]. discriminate E.
        -- change (l1 ++ Some c :: l2 ++ [y]) with (l1 ++ (Some c :: l2) ++ [y]) in E. rewrite app_assoc in E.
           apply app_inj_tail in E. destruct E as [-> <-]. exists l1, l2. split; [reflexivity|]. intros c' H. apply U, in_or_app. auto.
Qed.

Lemma cookies_last_added ls : (forall c, In (Some c) (flat_map (fun l => l) ls) -> no_colon c) ->
  let m := fold_left cookies_add ls [] in
  NoDup (map snd m) /\ forall c, In c (map snd m) <-> last_added (flat_map (fun l => l) ls) c.
Proof.
  cbv zeta. intro NC. rewrite add_all. destruct (kept_cookies _ NC) as (N & K & L). split; [|exact L].
  clear L NC. induction (cookies_add [] (flat_map (fun l => l) ls)) as [|[i c] m IH]; [constructor|].
  cbn in *. inversion N as [|? ? N1 N2]; subst. constructor; [|apply IH; auto].
  intro H. apply N1. apply in_map_iff in H. destruct H as ([i' c'] & E & H). cbn in E. subst c'.
  rewrite (K i c (or_introl eq_refl)), <- (K i' c (or_intror H)). apply in_map_iff. exists (i', c). auto.
Qed.

Lemma cookie_lost :
  let a := Cookie (str "a") (str "/x:y") [] (str "1") in
  let b := Cookie (str "a") (str "/x") (str "y:") (str "2") in
  ~ same_cookie a b /\ last_added [Some a; Some b] a /\ ~ In a (map snd (new_http_cookie [Some a; Some b])).
Proof.
  cbv zeta. split; [|split].
  - intros (_ & H & _). discriminate H.
  - eexists [], _. split; [reflexivity|]. intros c' [H|[]] S. injection H as <-. destruct S as (_ & S & _). discriminate S.
  - cbn. intros [H|[]]. discriminate H.
Qed.

Lemma cookie_case :
  let a := Cookie (str "a") (str "/x:y") [] (str "1") in
  let b := Cookie (str "a") (str "/x") (str "y") (str "2") in
  let c := Cookie (str "a") (str "/x:y") [] (str "3") in
  (forall x, In (Some x) (flat_map (fun l => l) [[Some a; None]; [Some b; Some c]]) -> no_colon x) /\
  map snd (fold_left cookies_add [[Some a; None]; [Some b; Some c]] []) = [c; b].
Proof.
  cbv zeta. split; [|vm_compute; reflexivity]. cbn. unfold no_colon, colon.
  intros x H. repeat (destruct H as [H|H]; [try discriminate H; injection H as <-; cbn; split; intuition discriminate|]). easy.
Qed.

(** ** C47, C48: event streams *)

Lemma stream_received (k : compressor) oh oc render location redirect_body h evs live q st b :
  wq_major q = 2%N -> meant_status h st -> with_body st -> b_final b = None -> b_body b = [] ->
  (forall e, In e (firstn live evs) -> plain_event e) ->
  exists b', write oh oc render location redirect_body (RSse h (Some evs) live) q (@Plain k b) = (Wrote None, Plain b') /\
    rd_got (read_stream (b_body b')) = expected [] (firstn live evs) /\
    rd_retry (read_stream (b_body b')) = expected_retry None (firstn live evs).
Proof.
  intros P M S N E PE.
  destruct (written_body k oh oc render location redirect_body (RSse h (Some evs) live) q h st b eq_refl P M S N E) as (b' & W & B).
  exists b'. split; [exact W|]. rewrite B. cbn [body_of]. apply stream_read, PE.
Qed.

Lemma newline_splits :
  let e := Event (str "greeting") [] [str "a" ++ [lf; lf] ++ str "data: forged"] 0 in
  rd_got (read_stream (event_string e)) = [Got (str "greeting") (str "a") []; Got (str "message") (str "forged") []].
Proof. vm_compute. reflexivity. Qed.

Lemma no_data_lost :
  let e := Event (str "ping") (str "7") [] 0 in rd_got (read_stream (event_string e)) = [].
Proof. vm_compute. reflexivity. Qed.

Lemma sse_case :
  let evs := [Event (str "greeting") (str "1") [str "a"; str "b"] 0; Event [] [] [str "c"] 500] in
  (forall e, In e (firstn 2 evs) -> plain_event e) /\
  expected [] evs = [Got (str "greeting") (str "a" ++ [lf] ++ str "b") (str "1"); Got (str "message") (str "c") (str "1")] /\
  expected_retry None evs = Some 500%N /\
  b_body (written_toy (fun m => m) (fun m => m) (RSse (HResp 0 (str "text/event-stream") None None) (Some evs) 2) (WReq (str "GET") [] 2)) =
    str "event: greeting" ++ [lf] ++ str "data: a" ++ [lf] ++ str "data: b" ++ [lf] ++ str "id: 1" ++ [lf; lf] ++
    str "data: c" ++ [lf] ++ str "retry: 500" ++ [lf; lf].
Proof.
  cbv zeta. split; [|vm_compute; auto]. cbn. unfold plain_event, on_line, lf, cr, nul.
  intros e [<-|[<-|[]]]; vm_compute; intuition (subst; vm_compute in *; intuition discriminate).
Qed.

Lemma not_special_cc : ~ same_name cache_control sc /\ ~ same_name cache_control ct /\ ~ same_name cache_control xcto.
Proof. unfold same_name. vm_compute. repeat split; discriminate. Qed.

Lemma stream_cacheable (k : compressor) (oh : headers -> headers) (oc : cookies -> cookies) render location redirect_body h evs live q st (w : rw k) :
  (forall m, Permutation (oh m) m) -> (forall m, Permutation (oc m) m) ->
  wq_major q = 2%N -> meant_status h st -> (200 <= st <= 999)%Z -> b_final (rw_base w) = None -> one_spelling (custom_headers h) ->
  ~ given (custom_headers h) cache_control -> hvalues (rw_headers w) cache_control = [] ->
  exists hs, b_final (rw_base (snd (write oh oc render location redirect_body (RSse h evs live) q w))) = Some (st, hs) /\
    hvalues hs cache_control = [].
Proof.
  intros OH OC P M S N OS G E.
  destruct (written_final k oh oc render location redirect_body OH OC (RSse h evs live) q h st w eq_refl P M S N OS) as (hs & ts & F & _ & SA).
  exists hs. split; [exact F|]. destruct not_special_cc as (A & B & C). rewrite (sent_others _ _ _ _ _ SA _ G A B C). exact E.
Qed.

Lemma stream_given_cache (k : compressor) (oh : headers -> headers) (oc : cookies -> cookies) render location redirect_body h evs live q st n v (w : rw k) :
  (forall m, Permutation (oh m) m) -> (forall m, Permutation (oc m) m) ->
  wq_major q = 2%N -> meant_status h st -> (200 <= st <= 999)%Z -> b_final (rw_base w) = None -> one_spelling (custom_headers h) ->
  In (n, v) (custom_headers h) -> same_name n cache_control -> v <> [] ->
  exists hs, b_final (rw_base (snd (write oh oc render location redirect_body (RSse h evs live) q w))) = Some (st, hs) /\
    hvalues hs cache_control = [v].
Proof.
  intros OH OC P M S N OS I1 SN V.
  destruct (written_final k oh oc render location redirect_body OH OC (RSse h evs live) q h st w eq_refl P M S N OS) as (hs & ts & F & _ & SA).
  exists hs. split; [exact F|]. pose proof (sent_custom _ _ _ _ _ SA n v I1 V) as A. unfold hvalues in *. rewrite <- SN. exact A.
Qed.

Lemma cache_case :
  let evs := [Event [] [] [str "x"] 0] in
  let q := WReq (str "GET") [] 2 in
  let given_h := HResp 200 [] (Some [(str "cache-control", str "no-cache")]) None in
  hvalues (snd (fst (received (written_toy (fun m => m) (fun m => m) (RSse (HResp 200 [] None None) (Some evs) 1) q)))) cache_control = [] /\
  hvalues (snd (fst (received (written_toy (fun m => m) (fun m => m) (RSse given_h (Some evs) 1) q)))) cache_control = [str "no-cache"].
Proof. vm_compute. auto. Qed.

(** ** C49: negotiation *)

Lemma all_bytes (P : byte -> bool) :
  forallb P (map ascii_of_N (map N.of_nat (seq 0 256))) = true -> forall c, P c = true.
Proof.
  intros H c. rewrite forallb_forall in H. apply H. apply in_map_iff. exists (N_of_ascii c).
  split; [apply ascii_N_embedding|]. apply in_map_iff. exists (N.to_nat (N_of_ascii c)). split; [apply N2Nat.id|].
  apply in_seq. pose proof (N_ascii_bounded c). lia.
Qed.

Lemma space_lower c : is_space (lower c) = is_space c.
Proof. apply eqb_prop. revert c. apply (all_bytes (fun c => Bool.eqb (is_space (lower c)) (is_space c))). vm_compute. reflexivity. Qed.
Lemma comma_lower c : Ascii.eqb (lower c) ","%char = Ascii.eqb c ","%char.
Proof. apply eqb_prop. revert c. apply (all_bytes (fun c => Bool.eqb (Ascii.eqb (lower c) ","%char) (Ascii.eqb c ","%char))). vm_compute. reflexivity. Qed.

Lemma lower_split v : split_on ","%char (to_lower v) = map to_lower (split_on ","%char v).
Proof.
  induction v as [|c v IH]; [reflexivity|]. change (to_lower (c :: v)) with (lower c :: to_lower v). cbn [split_on].
  rewrite comma_lower, IH. destruct (Ascii.eqb c ","%char); [reflexivity|]. destruct (split_on ","%char v); reflexivity.
Qed.

Lemma lower_left s : trim_left (to_lower s) = to_lower (trim_left s).
Proof.
  induction s as [|c s IH]; [reflexivity|]. change (to_lower (c :: s)) with (lower c :: to_lower s). cbn [trim_left].
  rewrite space_lower. destruct (is_space c); [exact IH|reflexivity].
Qed.
Lemma lower_trim s : trim_space (to_lower s) = to_lower (trim_space s).
Proof. unfold trim_space. rewrite lower_left. unfold to_lower. rewrite <- map_rev. fold (to_lower (rev (trim_left s))). rewrite lower_left. unfold to_lower. now rewrite map_rev. Qed.

Lemma plainly_iff v t : to_lower t = t ->
  (listed_plainly v t <-> exists e, In e (split_on ","%char (to_lower v)) /\ beqb (trim_space e) t = true).
Proof.
  intro L. unfold listed_plainly, equal_fold. rewrite lower_split, L. split.
  - intros (p & I1 & E). exists (to_lower p). split; [now apply in_map|]. now rewrite lower_trim.
  - intros (e & I1 & E). apply in_map_iff in I1. destruct I1 as (p & <- & I1). exists p. split; [exact I1|]. now rewrite <- lower_trim.
Qed.

Lemma negotiation v : ~ listed_plainly v (str "compress") ->
  (compression_algorithm v = Some Gzip <-> listed_plainly v (str "gzip")) /\
  (compression_algorithm v = Some Deflate <-> ~ listed_plainly v (str "gzip") /\ listed_plainly v (str "deflate")) /\
  (compression_algorithm v = None <-> ~ listed_plainly v (str "gzip") /\ ~ listed_plainly v (str "deflate")).
Proof.
  rewrite !plainly_iff by reflexivity. unfold compression_algorithm. cbv zeta.
  set (l := split_on ","%char (to_lower v)). clearbody l. intro NC.
  assert (A : existsb (fun e => beqb (trim_space e) (str "gzip") || beqb (trim_space e) (str "compress")) l = true <->
              exists e, In e l /\ beqb (trim_space e) (str "gzip") = true).
  { rewrite existsb_exists. split; intros (e & I1 & E); exists e; (split; [exact I1|]).
    - apply orb_prop in E. destruct E as [E|E]; [exact E|]. exfalso. apply NC. eauto.
    - now rewrite E. }
  pose proof (existsb_exists (fun e => beqb (trim_space e) (str "deflate")) l) as B.
  set (g := existsb _ l) in A |- *. set (d := existsb _ l) in B |- *. clearbody g d. rewrite <- A. rewrite <- B. clear.
  destruct g, d; intuition discriminate.
Qed.

Lemma compress_means_gzip :
  compression_algorithm (str "compress") = Some Gzip /\ ~ listed (str "compress") (str "gzip").
Proof. split; [reflexivity|]. intros (p & [<-|[]] & E). vm_compute in E. discriminate E. Qed.
Lemma weighted_gzip_ignored :
  let v := str "gzip;q=0.8, deflate;q=0.5, deflate" in
  compression_algorithm v = Some Deflate /\ listed v (str "gzip").
Proof. cbv zeta. split; [reflexivity|]. exists (str "gzip;q=0.8"). split; [now left|reflexivity]. Qed.
Lemma weighted_only_ignored :
  let v := str "deflate;q=1.0" in compression_algorithm v = None /\ listed v (str "deflate").
Proof. cbv zeta. split; [reflexivity|]. exists (str "deflate;q=1.0"). split; [now left|reflexivity]. Qed.

Lemma in_split_no c p : forall v d, In p (split_on c v) -> ~ In d v -> ~ In d p.
Proof.
  intro v. revert p. induction v as [|x v IH]; intros p d I1 N.
  - destruct I1 as [<-|[]]. easy.
  - cbn in I1. destruct (Ascii.eqb x c).
    + destruct I1 as [<-|I1]; [easy|]. eapply IH; [exact I1|]. cbn in N. tauto.
    + destruct (split_on c v) as [|y ys] eqn:E.
      * destruct I1 as [<-|[]]. cbn in *. tauto.
      * destruct I1 as [<-|I1].
        -- cbn. intros [->|H]; [apply N; now left|]. revert H. apply (IH y d); [now left|]. cbn in N. tauto.
        -- eapply IH; [right; exact I1|]. cbn in N. tauto.
Qed.
Lemma up_to_all c s : ~ In c s -> up_to c s = s.
Proof.
  induction s as [|x s IH]; intro N; [reflexivity|]. cbn. destruct (Ascii.eqb_spec x c) as [->|D]; [exfalso; apply N; now left|].
  rewrite IH; [reflexivity|]. cbn in N. tauto.
Qed.
Lemma listed_no_weights v t : ~ In ";"%char v -> (listed v t <-> listed_plainly v t).
Proof.
  intro N. unfold listed, listed_plainly. split; intros (p & I1 & E); exists p; (split; [exact I1|]);
    rewrite up_to_all in *; auto; eapply in_split_no; eauto.
Qed.

(** Without weights the rule is exact. *)
Lemma negotiation_no_weights v : ~ In ";"%char v -> ~ listed v (str "compress") ->
  (compression_algorithm v = Some Gzip <-> listed v (str "gzip")) /\
  (compression_algorithm v = Some Deflate <-> ~ listed v (str "gzip") /\ listed v (str "deflate")) /\
  (compression_algorithm v = None <-> ~ listed v (str "gzip") /\ ~ listed v (str "deflate")).
Proof. intro N. rewrite !(listed_no_weights v) by exact N. apply negotiation. Qed.

Lemma plainly_listed v a : listed_plainly v (alg_name a) -> listed v (alg_name a).
Proof.
  intros (p & I1 & E). exists p. split; [exact I1|]. destruct (in_dec ascii_dec ";"%char p) as [J|J].
  2: { now rewrite up_to_all. }
  exfalso. unfold equal_fold in E. apply beqb_iff in E.
  assert (K : In ";"%char (trim_space p)).
  { assert (T : forall s, In ";"%char s -> In ";"%char (trim_left s)).
    { induction s as [|x s IH]; [easy|]. cbn. destruct (is_space x) eqn:S; [|easy]. intros [->|H]; [discriminate S|auto]. }
    unfold trim_space. rewrite <- in_rev. apply T. rewrite <- in_rev. apply T, J. }
  apply (in_map lower) in K. fold (to_lower (trim_space p)) in K. rewrite E in K. destruct a; vm_compute in K; intuition discriminate.
Qed.

Lemma used_is_listed v a : ~ listed_plainly v (str "compress") -> compression_algorithm v = Some a -> listed v (alg_name a).
Proof.
  intros N E. apply plainly_listed. destruct (negotiation v N) as (A & B & _). destruct a; [now apply A|now apply B].
Qed.

Lemma negotiation_case :
  let v := str " GZip , deflate" in
  ~ In ";"%char v /\ ~ listed_plainly v (str "compress") /\ ~ listed v (str "compress") /\ compression_algorithm v = Some Gzip /\
  compression_algorithm (str "br;q=1, Deflate") = Some Deflate /\ compression_algorithm (str "br, identity") = None.
Proof.
  cbv zeta. repeat split; try reflexivity.
  - cbn. intuition discriminate.
  - intros (p & H & E). cbn in H. destruct H as [<-|[<-|[]]]; vm_compute in E; discriminate E.
  - intros (p & H & E). cbn in H. destruct H as [<-|[<-|[]]]; vm_compute in E; discriminate E.
Qed.

(** The label that is sent. *)
Lemma label_sent (k : compressor) (oh : headers -> headers) (oc : cookies -> cookies) render location redirect_body a level r q h st b :
  (forall m, Permutation (oh m) m) -> (forall m, Permutation (oc m) m) ->
  compression_algorithm (hget (wq_headers q) (str "Accept-Encoding")) = Some a ->
  fields r = Some h -> right_protocol r q -> meant_status h st -> (200 <= st <= 999)%Z -> b_final b = None ->
  one_spelling (custom_headers h) -> ~ given (custom_headers h) ce ->
  exists hs ts, b_final (rw_base (snd (write oh oc render location redirect_body (RCompress level r) q (@Plain k b)))) = Some (st, hs) /\
    hvalues hs ce = [alg_name a] /\ Permutation ts (texts_of render (custom_cookies h)) /\
    sent_as (hset (b_header b) ce (alg_name a)) hs (aremove (str "Accept-Encoding") (custom_headers h)) ts (hr_ctype h).
Proof.
  intros OH OC C F P M S N OS G.
  destruct (compressed_final k oh oc render location redirect_body OH OC a level r q h st b C F P M S N OS) as (hs & ts & FI & PT & SA).
  exists hs, ts. split; [exact FI|]. split; [|split; [exact PT|exact SA]].
  rewrite (sent_others _ _ _ _ _ SA ce).
  - rewrite hvalues_set. rewrite beqb_same. reflexivity.
  - intros (k' & v & I1 & I2). apply aremove_in in I1. apply G. exists k', v. tauto.
  - unfold same_name. vm_compute. discriminate.
  - unfold same_name. vm_compute. discriminate.
  - unfold same_name. vm_compute. discriminate.
Qed.

(** ** C54: headers on any response *)

Lemma header_set r key v : has_headers r ->
  exists r' m m', set_header r key v = Some r' /\ get_headers r = Some m /\ get_headers r' = Some m' /\ kept_kind r' = kept_kind r /\
    alookup key m' = Some v /\ forall k', k' <> key -> alookup k' m' = alookup k' m.
Proof.
  assert (L : forall (m : headers), alookup key (headers_set m key v) = Some v /\
             forall k', k' <> key -> alookup k' (headers_set m key v) = alookup k' m).
  { intro m. unfold headers_set. split; [rewrite lookup_set, beqb_same; reflexivity|].
    intros k' D. rewrite lookup_set, beqb_ne by congruence. reflexivity. }
  unfold has_headers. induction r as [h|h p|h p|h p|h p|h p|h p n|h p| |hs cs a|l r IH|l]; cbn [core set_header get_headers kept_kind hr_set hr_headers hr_status hr_ctype hr_cookies];
    try (intros _; eexists; eexists; eexists; split; [reflexivity|]; split; [reflexivity|]; split; [reflexivity|]; split; [reflexivity|]; apply L);
    try (intros []).
  intro H. destruct (IH H) as (r' & m & m' & A & B & C & D & E). exists (RCompress l r'), m, m'. rewrite A. cbn. rewrite D. auto.
Qed.

Lemma header_set_crash r key v : set_header r key v = None <-> ~ has_headers r.
Proof.
  split.
  - intros E H. destruct (header_set r key v H) as (r' & m & m' & A & _). congruence.
  - unfold has_headers. induction r as [h|h p|h p|h p|h p|h p|h p n|h p| |hs cs a|l r IH|l]; cbn; try tauto.
    intro H. now rewrite (IH H).
Qed.

Lemma cookie_add_crash r c : add_cookie r c = None <-> ~ has_headers r.
Proof.
  unfold has_headers. induction r as [h|h p|h p|h p|h p|h p|h p n|h p| |hs cs a|l r IH|l]; cbn; split; try tauto; try discriminate.
  - intro E. apply IH. destruct (add_cookie r c); [discriminate E|reflexivity].
  - intro H. apply IH in H. now rewrite H.
Qed.

Lemma cookie_add r c : has_headers r ->
  exists r', add_cookie r c = Some r' /\ but_cookies r' = but_cookies r /\
    alookup (ck_name c ++ str ":" ++ ck_path c ++ str ":" ++ ck_domain c) (cookie_list r') = Some c /\
    forall i, i <> ck_name c ++ str ":" ++ ck_path c ++ str ":" ++ ck_domain c -> alookup i (cookie_list r') = alookup i (cookie_list r).
Proof.
  assert (L : forall (m : cookies), alookup (cookie_id c) (cookies_add m [Some c]) = Some c /\
             forall i, i <> cookie_id c -> alookup i (cookies_add m [Some c]) = alookup i m).
  { intro m. cbn [cookies_add]. split; [rewrite lookup_set, beqb_same; reflexivity|].
    intros i D. rewrite lookup_set, beqb_ne by congruence. reflexivity. }
  unfold has_headers, cookie_list.
  induction r as [h|h p|h p|h p|h p|h p|h p n|h p| |hs cs a|l r IH|l]; cbn [core add_cookie but_cookies];
    try (intros _; eexists; split; [reflexivity|]; split; [reflexivity|]; apply L);
    try (intros []).
  intro H. destruct (IH H) as (r' & A & B & C). exists (RCompress l r'). rewrite A. cbn [option_map but_cookies core]. rewrite B. auto.
Qed.

Lemma cookie_add_case :
  let r := RCompress 5 (RText (HResp 200 [] None (Some [(str "a:/:", Cookie (str "a") (str "/") [] (str "1")); (str "b:/:", Cookie (str "b") (str "/") [] (str "2"))])) (str "x")) in
  has_headers r /\
  option_map cookie_list (add_cookie r (Cookie (str "a") (str "/") [] (str "3"))) =
  Some [(str "a:/:", Cookie (str "a") (str "/") [] (str "3")); (str "b:/:", Cookie (str "b") (str "/") [] (str "2"))].
Proof. cbn. split; [exact I|reflexivity]. Qed.

(** A handler that returns nil, behind the compression middleware. *)
Lemma nil_becomes_crash {Req World : Type} (h : handler Req response World) c q w w' level key v :
  (-1 <= level <= 9)%Z -> h c q w = (HReturn None None, w') ->
  exists r, compress_response level h c q w = (HReturn (Some r) None, w') /\ set_header r key v = None.
Proof.
  intros L E. unfold compress_response. rewrite E. replace ((level <? -1) || (9 <? level))%Z with false by lia.
  eexists. split; [reflexivity|reflexivity].
Qed.

Lemma header_set_case : has_headers (RCompress 5 (RText (HResp 200 [] None None) (str "x"))) /\ ~ has_headers (RHijack (fun _ => true)) /\ ~ has_headers (RCompress 5 (RHijack (fun _ => true))).
Proof. cbn. tauto. Qed.

(** ** C55: messages *)

Lemma error_capitalised c m : (code c < 128)%N -> capitalised (c :: m) (error_to_string (Some (c :: m))).
Proof.
  intro A. unfold error_to_string. destruct (N.ltb_spec (code c) 128) as [_|]; [|lia]. cbn [app].
  unfold capitalised. cbn [List.length tl firstn]. split; [reflexivity|]. split; [reflexivity|]. split.
  - unfold equal_fold. change (to_lower (c :: m)) with (lower c :: to_lower m). change (to_lower (upper c :: m)) with (lower (upper c) :: to_lower m).
    assert (L : lower (upper c) = lower c).
    { apply Ascii.eqb_eq. revert c A. intros c _. revert c. apply (all_bytes (fun c => Ascii.eqb (lower (upper c)) (lower c))). vm_compute. reflexivity. }
    rewrite L. apply beqb_same.
  - intros d [<-|[]].
    assert (L : negb ((97 <=? code (upper c)) && (code (upper c) <=? 122))%N = true).
    { clear. revert c. apply (all_bytes (fun c => negb ((97 <=? code (upper c)) && (code (upper c) <=? 122))%N)). vm_compute. reflexivity. }
    destruct (N.leb_spec 97 (code (upper c))); destruct (N.leb_spec (code (upper c)) 122); cbn in L; try discriminate; lia.
Qed.

Lemma error_broken c m : (128 <= code c)%N ->
  error_to_string (Some (c :: m)) = [ascii_of_N 239; ascii_of_N 191; ascii_of_N 189] ++ m /\
  ~ capitalised (c :: m) (error_to_string (Some (c :: m))).
Proof.
  intro A. unfold error_to_string. destruct (N.ltb_spec (code c) 128) as [|_]; [lia|]. split; [reflexivity|].
  intros (L & _). cbn [app List.length] in L. lia.
Qed.

Lemma error_empty : error_to_string None = [] /\ error_to_string (Some []) = [].
Proof. auto. Qed.

Lemma error_case :
  error_to_string (Some (str "not found")) = str "Not found" /\
  error_to_string (Some (ascii_of_N 195 :: ascii_of_N 169 :: str "chec")) =
    ascii_of_N 239 :: ascii_of_N 191 :: ascii_of_N 189 :: ascii_of_N 169 :: str "chec".
Proof. vm_compute. auto. Qed.

(** ** C64: compression *)

Lemma compression_transparent (k : compressor) dec (oh : headers -> headers) (oc : cookies -> cookies) render location redirect_body level r q h st b :
  decodes k dec -> (forall m, Permutation (oh m) m) -> (forall m, Permutation (oc m) m) ->
  fields r = Some h -> right_protocol r q -> meant_status h st -> with_body st ->
  one_spelling (custom_headers h) -> ~ given (custom_headers h) ce ->
  b_final b = None -> b_body b = [] -> hvalues (b_header b) ce = [] ->
  exists b' hs, write oh oc render location redirect_body (RCompress level r) q (@Plain k b) = (end_of r, Plain b') /\
    b_final b' = Some (st, hs) /\ client_body dec hs (b_body b') = Some (body_of r).
Proof. intros D OH OC. apply compressed_read; assumption. Qed.

Lemma toy_run ops : forall a l s0, zrun toy s0 ops = (s0 ++ zinput ops, []) /\ znew toy a l = [].
Proof.
  intros a l. induction ops as [|[bs|] ops IH]; intro s0; (split; [|reflexivity]).
  - cbn. now rewrite app_nil_r.
  - cbn [zrun zinput]. change (zwrite toy s0 bs) with (s0 ++ bs, @nil byte). cbn beta iota. destruct (IH (s0 ++ bs)) as [-> _]. now rewrite app_assoc.
  - cbn [zrun zinput]. change (zflush toy s0) with (s0, @nil byte). cbn beta iota. destruct (IH s0) as [-> _]. reflexivity.
Qed.

Lemma toy_decodes : decodes toy toy_dec.
Proof.
  intros a level ops. destruct (toy_run ops a level (znew toy a level)) as [E Z]. rewrite E, Z. cbn [app].
  change (zclose toy (zinput ops)) with ("?"%char :: zinput ops ++ unary (zinput ops)). unfold toy_dec.
  set (s := zinput ops). assert (U : forall s, List.length (unary s) = List.length s).
  { clear. induction s as [|c s IH]; cbn; auto. }
  rewrite app_length, U. replace (List.length s + List.length s) with (2 * List.length s) by lia.
  rewrite Nat.div2_double. rewrite firstn_app. replace (List.length s - List.length s) with 0 by lia. cbn. rewrite app_nil_r. apply firstn_all.
Qed.

Definition gzip_req : wreq := WReq (str "GET") [(str "Accept-Encoding", [str "gzip"])] 1%N.
Definition reads (r : response) (q : wreq) : option bytes :=
  let '(_, h, body) := received (written_toy (fun m => m) (fun m => m) r q) in client_body toy_dec h body.

Lemma compressed_twice :
  let r := plain_text (HResp 200 [] None None) in
  decodes toy toy_dec /\ reads (RCompress 5 (RCompress 5 r)) gzip_req <> Some (str "hi") /\ reads (RCompress 5 r) gzip_req = Some (str "hi").
Proof. cbv zeta. split; [exact toy_decodes|]. split; [vm_compute; discriminate|vm_compute; reflexivity]. Qed.

Lemma own_encoding_header :
  let r := plain_text (HResp 200 [] (Some [(str "Content-Encoding", str "identity")]) None) in
  hvalues (snd (fst (received (written_toy (fun m => m) (fun m => m) (RCompress 5 r) gzip_req)))) ce = [str "identity"] /\
  snd (received (written_toy (fun m => m) (fun m => m) (RCompress 5 r) gzip_req)) = str "?hi!!".
Proof. vm_compute. auto. Qed.

Lemma stale_length :
  let r := plain_text (HResp 200 [] (Some [(str "Content-Length", str "2")]) None) in
  let b := written_toy (fun m => m) (fun m => m) (RCompress 5 r) gzip_req in
  hvalues (snd (fst (received b))) (str "Content-Length") = [str "2"] /\ List.length (snd (received b)) = 5.
Proof. vm_compute. auto. Qed.

Lemma length_kept (k : compressor) (oh : headers -> headers) (oc : cookies -> cookies) render location redirect_body a level r q h st v b :
  (forall m, Permutation (oh m) m) -> (forall m, Permutation (oc m) m) ->
  compression_algorithm (hget (wq_headers q) (str "Accept-Encoding")) = Some a ->
  fields r = Some h -> right_protocol r q -> meant_status h st -> (200 <= st <= 999)%Z -> b_final b = None ->
  one_spelling (custom_headers h) -> In (str "Content-Length", v) (custom_headers h) -> v <> [] ->
  exists hs, b_final (rw_base (snd (write oh oc render location redirect_body (RCompress level r) q (@Plain k b)))) = Some (st, hs) /\
    hvalues hs (str "Content-Length") = [v].
Proof.
  intros OH OC C F P M S N OS I1 V.
  destruct (compressed_final k oh oc render location redirect_body OH OC a level r q h st b C F P M S N OS) as (hs & ts & FI & PT & SA).
  exists hs. split; [exact FI|]. apply (sent_custom _ _ _ _ _ SA); [|exact V].
  unfold cut_headers. clear - I1. induction (custom_headers h) as [|[i x] m IH]; [easy|]. cbn [aremove]. destruct I1 as [E|I1].
  - injection E as -> ->. change (beqb (str "Accept-Encoding") (str "Content-Length")) with false. now left.
  - destruct (beqb (str "Accept-Encoding") i); [|right]; auto.
Qed.

(** ** C65, C66: flushing and hijacking *)

Lemma stream_at_once (k : compressor) l b st h :
  b_final b = Some (st, h) -> body_allowed st = true -> b_visible b = List.length (b_body b) ->
  exists b', write_events l (@Plain k b) = Plain b' /\ b_body b' = b_body b ++ flat_map event_string l /\
    b_visible b' = List.length (b_body b').
Proof. intros F A V. apply events_visible; [|exact V]. exists st, h. auto. Qed.

Lemma stream_held_back (k : compressor) l s failed (w : rw k) : exists s' failed' w',
  write_events l (Comp s failed w) = Comp s' failed' w' /\ b_visible (rw_base w') = b_visible (rw_base w).
Proof. apply events_hidden. Qed.

Lemma held_back_case :
  let b := Base_ [] [] (Some (200%Z, [])) [] 0 false in
  let eager := Compressor unit (fun _ _ => tt) (fun s bs => (s, bs)) (fun s => (s, [])) (fun _ => []) in
  let e := Event [] [] [str "x"] 0 in
  b_visible (rw_base (write_events [e] (@Plain eager b))) = 9 /\
  b_visible (rw_base (write_events [e] (@Comp eager tt false (Plain b)))) = 0 /\
  b_body (rw_base (write_events [e] (@Comp eager tt false (Plain b)))) = event_string e.
Proof. vm_compute. auto. Qed.

Lemma hijack_plain (k : compressor) oh oc render location redirect_body callback q b : wq_major q <> 2%N ->
  exists b', write oh oc render location redirect_body (RHijack callback) q (@Plain k b) = (if callback true then Wrote None else WPanic, Plain b') /\
    b_hijacked b' = true /\ received b' = received b.
Proof.
  intro M. unfold write. cbn [write_cut]. replace (wq_major q =? 2)%N with false by (symmetry; apply N.eqb_neq, M).
  eexists. split; [reflexivity|]. split; reflexivity.
Qed.

Lemma hijack_http2 (k : compressor) oh oc render location redirect_body callback q (w : rw k) : wq_major q = 2%N ->
  write oh oc render location redirect_body (RHijack callback) q w = (if callback false then Wrote None else WPanic, w).
Proof. intro M. unfold write. cbn [write_cut]. rewrite M. destruct w; reflexivity. Qed.

Lemma base_write_hijack b bs : b_hijacked (fst (base_write b bs)) = b_hijacked b.
Proof.
  unfold base_write, base_write_header. destruct b as [hd inf [[st h]|] bo vi hj]; cbn; destruct bs; cbn; try reflexivity.
  destruct (body_allowed st); reflexivity.
Qed.

Definition taken_over {k : compressor} (w : rw k) : bool := b_hijacked (rw_base w).

Lemma rw_write_hijack (k : compressor) : forall (w : rw k) bs, taken_over (fst (rw_write w bs)) = taken_over w.
Proof.
  induction w as [b|s [|] w IH]; intro bs; cbn [rw_write].
  - unfold taken_over. pose proof (base_write_hijack b bs) as A. destruct (base_write b bs) as [b' ok]. exact A.
  - reflexivity.
  - destruct (zwrite k s bs) as [s' [|x o]]; [reflexivity|]. specialize (IH (x :: o)). destruct (rw_write w (x :: o)) as [w2 ok]. exact IH.
Qed.

Lemma rw_close_hijack (k : compressor) (w : rw k) : taken_over (rw_close w) = taken_over w.
Proof.
  destruct w as [b|s [|] w]; [reflexivity|reflexivity|]. cbn [rw_close]. destruct (zclose k s) as [|x o]; [reflexivity|].
  rewrite rw_write_hijack. reflexivity.
Qed.

Lemma rw_set_hijack (k : compressor) key v : forall w : rw k, taken_over (rw_set w key v) = taken_over w.
Proof. unfold rw_set. induction w as [b|s e w IH]; [reflexivity|]. exact IH. Qed.

Lemma hijack_told_cut (k : compressor) oh oc render location redirect_body callback q : forall r cut (w : rw k),
  core r = RHijack callback -> taken_over w = false ->
  exists given, fst (write_cut oh oc render location redirect_body cut r q w) = (if callback given then Wrote None else WPanic) /\
    taken_over (snd (write_cut oh oc render location redirect_body cut r q w)) = given.
Proof.
  induction r; intros cut w C N; cbn [core] in C; try discriminate C.
  - injection C as ->. cbn [write_cut]. destruct w as [b|s e w].
    + destruct (wq_major q =? 2)%N; [exists false|exists true]; auto.
    + exists false. auto.
  - cbn [write_cut]. destruct (compression_algorithm (hget (wq_headers q) (str "Accept-Encoding"))) as [a|]; [|apply IHr; assumption].
    assert (G : get_headers r = Some []).
    { clear -C. induction r; cbn [core] in C; try discriminate C; [reflexivity|]. cbn [get_headers]. auto. }
    rewrite G. cbv zeta.
    match goal with |- context [write_cut _ _ _ _ _ true r q ?x] => set (w1 := x) end.
    destruct (IHr true w1 C) as (given & A & B).
    { unfold w1, taken_over. cbn [rw_base]. fold (taken_over (rw_set w (str "Content-Encoding") (alg_name a))). rewrite rw_set_hijack. exact N. }
    exists given. destruct (write_cut oh oc render location redirect_body true r q w1) as [o w2]. cbn [fst snd] in *.
    rewrite rw_close_hijack. auto.
Qed.

Lemma hijack_told (k : compressor) oh oc render location redirect_body callback r q b :
  core r = RHijack callback -> b_hijacked b = false ->
  exists given, fst (write oh oc render location redirect_body r q (@Plain k b)) = (if callback given then Wrote None else WPanic) /\
    b_hijacked (rw_base (snd (write oh oc render location redirect_body r q (@Plain k b)))) = given.
Proof. intros C N. apply hijack_told_cut; assumption. Qed.

Lemma hijack_lost (k : compressor) oh oc render location redirect_body level a callback q b :
  compression_algorithm (hget (wq_headers q) (str "Accept-Encoding")) = Some a -> b_hijacked b = false ->
  exists b', write oh oc render location redirect_body (RCompress level (RHijack callback)) q (@Plain k b) =
    (if callback false then Wrote None else WPanic, Plain b') /\ b_hijacked b' = false.
Proof.
  intros C N. unfold write. cbn [write_cut]. rewrite C. cbn [get_headers]. cbv zeta. cbn [rw_close].
  unfold rw_set. cbn [rw_map].
  destruct (zclose k (znew k a level)) as [|x o].
  - eexists. split; [reflexivity|]. exact N.
  - cbn [rw_write]. set (b1 := base_set b _). pose proof (base_write_hijack b1 (x :: o)) as A.
    destruct (base_write b1 (x :: o)) as [b2 ok]. exists b2. split; [reflexivity|]. cbn in A. rewrite A. exact N.
Qed.

Lemma hijack_case : compression_algorithm (hget (wq_headers gzip_req) (str "Accept-Encoding")) = Some Gzip /\ wq_major gzip_req <> 2%N /\
  core (RCompress 5 (RCompress 1 (RHijack (fun given => given)))) = RHijack (fun given => given) /\
  fst (write (fun m => m) (fun m => m) (fun _ => []) (fun _ u => u) (fun _ _ => []) (RCompress 5 (RHijack (fun given => given))) gzip_req (@Plain toy base_new)) = WPanic.
Proof. split; [reflexivity|]. split; [discriminate|]. split; reflexivity. Qed.

(** ** C68: adapted handlers *)

Section Adapted.
Variable k : compressor.
Variable n : bytes.
Variable vs : list bytes.

Definition shows (w : rw k) : Prop :=
  match b_final (rw_base w) with
  | Some (_, h) => hvalues h n = vs
  | None => hvalues (rw_headers w) n = vs
  end.

Lemma shows_base_header b st (w : rw k) : rw_base w = b -> shows w -> shows (rw_map (fun b => base_write_header b st) w).
Proof.
  unfold shows, rw_headers. intros <- H. rewrite base_map. unfold base_write_header.
  destruct (b_final (rw_base w)) as [[s h]|] eqn:F; [now rewrite F|].
  destruct ((100 <=? st) && (st <=? 199))%Z; cbn; exact H.
Qed.

Definition shows_b (b : base) : Prop :=
  match b_final b with Some (_, h) => hvalues h n = vs | None => hvalues (b_header b) n = vs end.

Lemma base_write_shows b bs : shows_b b -> shows_b (fst (base_write b bs)).
Proof.
  unfold shows_b, base_write, base_write_header. destruct b as [hd inf [[s h]|] bo vi hj]; cbn; destruct bs; cbn; auto.
  destruct (body_allowed s); auto.
Qed.

Lemma write_shows (w : rw k) : forall bs, shows w -> shows (fst (rw_write w bs)).
Proof.
  induction w as [b|s e w IH]; intros bs H; cbn.
  - pose proof (base_write_shows b bs H) as A. destruct (base_write b bs). exact A.
  - destruct e; [exact H|]. destruct (zwrite k s bs) as [s' out]. destruct out as [|c out]; [exact H|].
    specialize (IH (c :: out) H). destruct (rw_write w (c :: out)). exact IH.
Qed.

Lemma flush_shows (w : rw k) : shows w -> shows (rw_flush w).
Proof.
  intro H. destruct w as [b|s e w]; cbn.
  - unfold shows in *. cbn in *. unfold base_write_header. destruct (b_final b) as [[s h]|] eqn:F; cbn; [rewrite F|]; exact H.
  - destruct e; [exact H|]. destruct (zflush k s) as [s' out]. destruct out as [|c out]; [exact H|].
    pose proof (write_shows w (c :: out) H) as A. destruct (rw_write w (c :: out)). exact A.
Qed.

Lemma headers_shows f (w : rw k) : (forall h, hvalues (f h) n = hvalues h n) ->
  shows w -> shows (rw_map (fun b => base_set b (f (b_header b))) w).
Proof.
  unfold shows, rw_headers. intros E H. rewrite base_map. cbn. destruct (b_final (rw_base w)) as [[s h]|]; [exact H|]. now rewrite E.
Qed.

Lemma acts_show l : forall (w : rw k), Forall (leaves n) l -> shows w ->
  exists w', run_acts l w = (true, w') /\ shows w'.
Proof.
  induction l as [|a l IH]; intros w L H; [exists w; auto|]. inversion L as [|? ? La Ll]; subst.
  destruct a as [key v|key v|key|st|bs| |]; cbn [run_acts]; cbn in La; [| | | | | |destruct La].
  - apply IH; [exact Ll|]. apply (headers_shows (fun h => hset h key v)); [|exact H]. intro h. rewrite hvalues_set.
    rewrite beqb_ne; [reflexivity|exact La].
  - apply IH; [exact Ll|]. apply (headers_shows (fun h => hadd h key v)); [|exact H]. intro h. rewrite hvalues_add.
    rewrite beqb_ne; [reflexivity|exact La].
  - apply IH; [exact Ll|]. apply (headers_shows (fun h => hdel h key)); [|exact H]. intro h. unfold hvalues, hdel.
    rewrite lookup_remove. rewrite beqb_ne; [reflexivity|]. intro Q. apply La. now symmetry.
  - unfold rw_write_header. replace ((st <? 100) || (999 <? st))%Z with false by lia.
    destruct (b_final (rw_base w)) as [p|]; [now apply IH|].
    apply IH; [exact Ll|]. now apply (shows_base_header (rw_base w)).
  - apply IH; [exact Ll|]. now apply write_shows.
  - apply IH; [exact Ll|]. now apply flush_shows.
Qed.

End Adapted.

Lemma adapted_header (k : compressor) (oh : headers -> headers) (oc : cookies -> cookies) render location redirect_body hs cs acts q n v (w : rw k) :
  (forall m, Permutation (oh m) m) -> one_spelling hs -> In (n, v) hs -> Forall (leaves n) acts -> b_final (rw_base w) = None ->
  exists w', write oh oc render location redirect_body (RAdaptor (Some hs) cs acts) q w = (Wrote None, w') /\
    hvalues (snd (fst (received (rw_base w')))) n = [v].
Proof.
  intros OH OS I1 L N. unfold write. cbn [write_cut]. rewrite put_cookies_eq, put_headers_eq.
  rewrite with_headers_headers, with_headers_twice. set (h1 := add_texts _ _). set (w1 := with_headers k w _).
  assert (SH : shows k n [v] w1).
  { unfold shows, w1, rw_headers, with_headers. rewrite base_map. cbn. rewrite N.
    assert (OS' : one_spelling (oh hs)) by (eapply spelling_perm; [apply Permutation_sym, OH|exact OS]).
    eapply (pairs_given _ _ n v); [exact OS'| |reflexivity]. eapply Permutation_in; [apply Permutation_sym, OH|exact I1]. }
  destruct (acts_show k n [v] acts w1 L SH) as (w' & E & H). rewrite E. exists w'. split; [reflexivity|].
  unfold shows, rw_headers in H. unfold received. destruct (b_final (rw_base w')) as [[s h]|]; exact H.
Qed.

Lemma adapted_cookies (k : compressor) (oh : headers -> headers) (oc : cookies -> cookies) render location redirect_body hs cs acts q (w : rw k) :
  (forall m, Permutation (oh m) m) -> (forall m, Permutation (oc m) m) -> ~ given hs (str "Set-Cookie") -> Forall (leaves (str "Set-Cookie")) acts -> b_final (rw_base w) = None ->
  exists w' ts, write oh oc render location redirect_body (RAdaptor (Some hs) (Some cs) acts) q w = (Wrote None, w') /\
    Permutation ts (texts_of render (map snd cs)) /\
    hvalues (snd (fst (received (rw_base w')))) (str "Set-Cookie") = hvalues (rw_headers w) (str "Set-Cookie") ++ ts.
Proof.
  intros OH OC NG L N. unfold write. cbn [write_cut]. rewrite put_cookies_eq, put_headers_eq.
  rewrite with_headers_headers, with_headers_twice. set (ts := texts_of render (map snd (oc cs))). set (w1 := with_headers k w _).
  assert (SH : shows k sc (hvalues (rw_headers w) sc ++ ts) w1).
  { unfold shows, w1, rw_headers, with_headers. rewrite base_map. cbn. rewrite N.
    rewrite pairs_other; [|intros (k' & v & I1 & SN); apply NG; exists k', v; split; [|exact SN]; eapply Permutation_in; [apply OH|exact I1]].
    rewrite texts_values. rewrite beqb_same. reflexivity. }
  destruct (acts_show k sc _ acts w1 L SH) as (w' & E & H). rewrite E. exists w', ts. split; [reflexivity|]. split.
  - unfold ts. apply texts_perm, Permutation_map, OC.
  - unfold shows, rw_headers in H. unfold received. destruct (b_final (rw_base w')) as [[s h]|]; exact H.
Qed.

Lemma adapted_cookie_lost (k : compressor) (oh : headers -> headers) (oc : cookies -> cookies) render location redirect_body cs acts q v (w : rw k) :
  (forall m, Permutation (oh m) m) -> Forall (leaves (str "Set-Cookie")) acts -> b_final (rw_base w) = None ->
  exists w', write oh oc render location redirect_body (RAdaptor (Some [(str "Set-Cookie", v)]) cs acts) q w = (Wrote None, w') /\
    hvalues (snd (fst (received (rw_base w')))) (str "Set-Cookie") = [v].
Proof.
  intros OH L N. apply adapted_header; try assumption.
  - split; [cbn; repeat constructor; intros []|]. intros k1 v1 k2 v2 [E1|[]] [E2|[]] _. congruence.
  - left. reflexivity.
Qed.

Lemma adapted_cookies_case :
  let acts := [ASet (str "X-B") (str "2"); AStatus 201; AWrite (str "made")] in
  let cs := new_http_cookie [Some sid] in
  ~ given [(str "X-A", str "1")] (str "Set-Cookie") /\ Forall (leaves (str "Set-Cookie")) acts /\
  received (written_toy (fun m => m) (fun m => m) (RAdaptor (Some [(str "X-A", str "1")]) (Some cs) acts) get_req) =
    (201%Z, [(str "X-B", [str "2"]); (str "X-A", [str "1"]); (str "Set-Cookie", [str "sid=1"])], str "made") /\
  hvalues (snd (fst (received (written_toy (fun m => m) (fun m => m) (RAdaptor (Some [(str "Set-Cookie", str "a=b")]) (Some cs) acts) get_req)))) (str "Set-Cookie") = [str "a=b"].
Proof.
  cbv zeta. split; [|split].
  - intros (k' & v & [E|[]] & S). injection E as <- <-. vm_compute in S. discriminate S.
  - repeat constructor; cbn; try lia. unfold same_name. vm_compute. discriminate.
  - split; vm_compute; reflexivity.
Qed.

Lemma adapted_case :
  let acts := [ASet (str "X-B") (str "2"); AStatus 201; AWrite (str "made")] in
  let hs := [(str "x-a", str "1")] in
  one_spelling hs /\ Forall (leaves (str "x-a")) acts /\
  received (written_toy (fun m => m) (fun m => m) (RAdaptor (Some hs) None acts) get_req) =
    (201%Z, [(str "X-B", [str "2"]); (str "X-A", [str "1"])], str "made").
Proof.
  cbv zeta. split; [|split].
  - split; [cbn; repeat constructor; intros []|]. cbn. intros k1 v1 k2 v2 [H1|[]] [H2|[]]; congruence.
  - repeat constructor; cbn; try lia. unfold same_name. vm_compute. discriminate.
  - vm_compute. reflexivity.
Qed.

Lemma stale_length_case :
  let h := HResp 0 [] (Some [(str "X-A", str "1"); (str "Content-Length", str "2")]) None in
  compression_algorithm (hget (wq_headers gzip_req) (str "Accept-Encoding")) = Some Gzip /\
  fields (plain_text h) = Some h /\ right_protocol (plain_text h) gzip_req /\ meant_status h 200 /\ one_spelling (custom_headers h) /\
  In (str "Content-Length", str "2") (custom_headers h) /\
  let b := written_toy (fun m => m) (fun m => m) (RCompress 5 (plain_text h)) gzip_req in
  hvalues (snd (fst (received b))) (str "Content-Length") = [str "2"] /\ List.length (snd (received b)) = 5.
Proof.
  cbv zeta. split; [vm_compute; reflexivity|]. split; [reflexivity|]. split; [exact I|]. split; [left; split; reflexivity|].
  split; [|split; [right; left; reflexivity|vm_compute; auto]]. split.
  - repeat constructor; cbn; intro H; repeat (destruct H as [H|H]; [discriminate H|]); exact H.
  - intros k1 v1 k2 v2 [H1|[H1|[]]] [H2|[H2|[]]]; injection H1 as <- <-; injection H2 as <- <-; intro S; try reflexivity; vm_compute in S; discriminate S.
Qed.
