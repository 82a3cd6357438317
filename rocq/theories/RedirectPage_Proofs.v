(** * Redirects: the page of any URL, compressed or not *)
From Coq Require Import List NArith ZArith Ascii String Bool Lia Arith.
From Verif Require Import Csrf_Proofs Routes_Proofs GoBase Http_Model Chain_Model Serve_Model Resp_Model App_Model Cors_Model Cors_Spec Cors_Proofs CorsMisc_Proofs Origin_Spec Origin_Proofs.
From Verif Require Import Resp_Spec Resp_Proofs RespBody_Proofs RespMisc_Proofs Files_Model Files_Spec Files_Proofs Redirect_Model Redirect_Spec Redirect_Proofs RedirectSite_Proofs.
Import ListNotations.
Local Open Scope string_scope.
Local Open Scope list_scope.
Local Open Scope nat_scope.

Lemma digit_at n : (n < 16)%N -> nth_error (str "0123456789abcdef") (N.to_nat n) = Some (hex_digit n).
Proof.
  intro L. assert (H : In n [0;1;2;3;4;5;6;7;8;9;10;11;12;13;14;15]%N) by (cbn; lia). clear L. cbn in H.
  repeat (destruct H as [<-|H]; [vm_compute; reflexivity|]). destruct H.
Qed.

Lemma escape_form s : percent_form s (hex_escape s).
Proof.
  induction s as [|c s IH]; [constructor|]. rewrite hex_cons. unfold hex_byte. destruct (N.leb_spec 128 (code c)) as [L|L].
  - assert (B : (code c < 256)%N) by (unfold code; apply N_ascii_bounded). cbn [List.app]. apply pf_digits; [exact L|apply digit_at|apply digit_at|exact IH].
    + apply N.div_lt_upper_bound; lia.
    + apply N.mod_lt. lia.
  - cbn [List.app]. now constructor.
Qed.

Section Page.
Variable k : compressor.

(** The writer after the status of a redirect. *)
Definition started (st : Z) (hs : hmap) (b : base) : base :=
  Base_ hs (b_info b) (Some (st, hs)) (b_body b) (b_visible b) (b_hijacked b).

Definition page_type : bytes := str "text/html; charset=utf-8".

Lemma redirect_run oh oc render location redirect_body cut h u q (w : rw k) :
  (200 <= hr_status h <= 999)%Z -> b_final (rw_base w) = None ->
  let had := match alookup ct (rw_headers w) with Some _ => true | None => false end in
  let get := beqb (wq_method q) (str "GET") in
  exists hs, write_cut oh oc render location redirect_body cut (RRedirect h u) q w =
      (Wrote None, let w3 := rw_map (started (hr_status h) hs) w in
                   if negb had && get then fst (rw_write w3 (redirect_body (hr_status h) u)) else w3) /\
    hvalues hs (str "Location") = [location q u] /\
    (had = false -> get = true -> hvalues hs ct = [page_type]) /\
    (forall n, ~ same_name n (str "Location") -> ~ same_name n ct -> hvalues hs n = hvalues (rw_headers w) n).
Proof.
  intros S N. cbn [write_cut]. unfold http_redirect. cbv zeta. fold ct.
  set (had := match alookup ct (rw_headers w) with Some _ => true | None => false end). clearbody had.
  set (g := beqb (wq_method q) (str "GET")). clearbody g. set (hd := beqb (wq_method q) (str "HEAD")). clearbody hd.
  set (w2 := if negb had && (g || hd) then _ else _).
  assert (W2 : exists hs, w2 = with_headers k w hs /\ hvalues hs (str "Location") = [location q u] /\
     (had = false -> g = true -> hvalues hs ct = [page_type]) /\
     (forall n, ~ same_name n (str "Location") -> ~ same_name n ct -> hvalues hs n = hvalues (rw_headers w) n)).
  { unfold w2. rewrite !rw_set_with, with_headers_headers, with_headers_twice. destruct (negb had && (g || hd)) eqn:B.
    - eexists. split; [reflexivity|]. split; [|split].
      + rewrite !hvalues_set. vm_compute. reflexivity.
      + intros _ _. rewrite hvalues_set, beqb_same. reflexivity.
      + intros n A C. rewrite !hvalues_set. unfold ct in C |- *. rewrite !beqb_ne; [reflexivity| |]; unfold same_name in *; congruence.
    - eexists. split; [reflexivity|]. split; [|split].
      + rewrite !hvalues_set. vm_compute. reflexivity.
      + intros -> ->. discriminate B.
      + intros n A C. rewrite !hvalues_set. rewrite !beqb_ne; [reflexivity|]; unfold same_name in *; congruence. }
  destruct W2 as (hs & E & A & T & B). clearbody w2. subst w2. unfold rw_write_header.
  replace (b_final (rw_base (with_headers k w hs))) with (@None (Z * hmap)) by (unfold with_headers; rewrite base_map; cbn; now rewrite N).
  replace ((hr_status h <? 100) || (999 <? hr_status h))%Z with false by lia.
  assert (W3 : rw_map (fun b => base_write_header b (hr_status h)) (with_headers k w hs) = rw_map (started (hr_status h) hs) w).
  { unfold with_headers. clear - S N. induction w as [b|s e w IH]; cbn [rw_map rw_base] in *; [|f_equal; now apply IH].
    f_equal. unfold base_write_header, base_set. cbn. rewrite N. replace ((100 <=? hr_status h) && (hr_status h <=? 199))%Z with false by lia. reflexivity. }
  rewrite W3. exists hs. split; [reflexivity|]. auto.
Qed.

(** One write of a compressed page, and its end. *)
Lemma page_taken st hs b bs : body_allowed st = true -> b_body b = [] ->
  exists b', rw_write (@Plain k (started st hs b)) bs = (Plain b', true) /\ b_final b' = Some (st, hs) /\ b_body b' = bs.
Proof.
  intros A E. cbn [rw_write]. unfold base_write, base_write_header. cbn [started b_final]. destruct bs as [|c bs].
  - eexists. split; [reflexivity|]. auto.
  - cbn [started b_final]. rewrite A. eexists. split; [reflexivity|]. cbn. rewrite E. auto.
Qed.

Lemma more_taken st hs b bs : body_allowed st = true -> b_final b = Some (st, hs) ->
  exists b', rw_write (@Plain k b) bs = (Plain b', true) /\ b_final b' = Some (st, hs) /\ b_body b' = b_body b ++ bs.
Proof.
  intros A E. cbn [rw_write]. unfold base_write, base_write_header. rewrite E. destruct bs as [|c bs].
  - rewrite app_nil_r. eexists. split; [reflexivity|]. auto.
  - rewrite E, A. eexists. split; [reflexivity|]. cbn. auto.
Qed.

Lemma close_taken st hs b z : body_allowed st = true -> b_final b = Some (st, hs) ->
  exists b', rw_close (Comp z false (@Plain k b)) = Plain b' /\ b_final b' = Some (st, hs) /\ b_body b' = b_body b ++ zclose k z.
Proof.
  intros A E. cbn [rw_close]. destruct (zclose k z) as [|c out].
  - exists b. rewrite app_nil_r. auto.
  - destruct (more_taken st hs b (c :: out) A E) as (b' & W & F & B). exists b'. rewrite W. auto.
Qed.

Lemma page_closed st hs b z bs : body_allowed st = true -> b_final b = Some (st, hs) -> b_body b = [] ->
  exists b', rw_close (fst (rw_write (Comp z false (@Plain k b)) bs)) = Plain b' /\ b_final b' = Some (st, hs) /\
    let (s, out) := zrun k z [ZWrite bs] in b_body b' = out ++ zclose k s.
Proof.
  intros A E N. cbn [rw_write zrun]. destruct (zwrite k z bs) as [z' out]. rewrite app_nil_r. destruct out as [|c out].
  - cbn [fst]. destruct (close_taken st hs b z' A E) as (b' & C & F & B). exists b'. rewrite N in B. auto.
  - destruct (more_taken st hs b (c :: out) A E) as (b1 & W & F & B). cbn [rw_write] in W. destruct (base_write b (c :: out)) as [b1' ok] eqn:BW.
    injection W as -> ->. cbn [fst negb]. destruct (close_taken st hs b1 z' A F) as (b' & C & F' & B'). exists b'. split; [exact C|]. split; [exact F'|].
    rewrite B', B, N. reflexivity.
Qed.

Lemma status_closed st hs b z : body_allowed st = false -> b_final b = Some (st, hs) -> b_body b = [] ->
  exists b', rw_close (Comp z false (@Plain k b)) = Plain b' /\ b_final b' = Some (st, hs) /\ b_body b' = [].
Proof.
  intros A E N. cbn [rw_close]. destruct (zclose k z) as [|c out]; [exists b; auto|]. cbn [rw_write]. unfold base_write, base_write_header. rewrite E, E, A. exists b. auto.
Qed.

Lemma status_kept st hs b bs : body_allowed st = false -> b_final b = Some (st, hs) -> fst (rw_write (@Plain k b) bs) = Plain b.
Proof.
  intros A E. cbn [rw_write]. unfold base_write, base_write_header. rewrite E. destruct bs; [reflexivity|]. rewrite E, A. reflexivity.
Qed.

Lemma status_page st hs b z bs : body_allowed st = false -> b_final b = Some (st, hs) -> b_body b = [] ->
  exists b', rw_close (fst (rw_write (Comp z false (@Plain k b)) bs)) = Plain b' /\ b_final b' = Some (st, hs) /\ b_body b' = [].
Proof.
  intros A E N. cbn [rw_write]. destruct (zwrite k z bs) as [z' out]. destruct out as [|c out]; [cbn [fst]; now apply status_closed|].
  pose proof (status_kept st hs b (c :: out) A E) as W. cbn [rw_write] in W. destruct (base_write b (c :: out)) as [b1 ok]. cbn [fst] in *. injection W as ->.
  destruct ok; [now apply status_closed|]. cbn [negb rw_close]. exists b. auto.
Qed.

Lemma page_read dec a hs body level ops : decodes k dec -> hvalues hs ce = [alg_name a] ->
  (let (s, out) := zrun k (znew k a level) ops in body = out ++ zclose k s) -> client_body dec hs body = Some (zinput ops).
Proof.
  intros D V B. specialize (D a level ops). destruct (zrun k (znew k a level) ops) as [s out]. unfold client_body. rewrite V, B, <- D. destruct a; reflexivity.
Qed.

Lemma set_type b v : alookup ct (hset (b_header b) ce v) = alookup ct (b_header b).
Proof. unfold hset. rewrite alookup_aset. reflexivity. Qed.

(** A redirect alone or compressed, with its page or without it. *)
Lemma redirect_cases dec oh oc render location redirect_body h u r q b :
  decodes k dec -> (200 <= hr_status h <= 999)%Z -> b_final b = None -> b_body b = [] -> hvalues (b_header b) ce = [] ->
  (r = RRedirect h u \/ exists level, r = RCompress level (RRedirect h u)) ->
  let had := match alookup ct (b_header b) with Some _ => true | None => false end in
  let get := beqb (wq_method q) (str "GET") in
  exists b' hs, write oh oc render location redirect_body r q (@Plain k b) = (Wrote None, Plain b') /\
    b_final b' = Some (hr_status h, hs) /\ hvalues hs (str "Location") = [location q u] /\
    (had = false -> get = true -> hvalues hs ct = [page_type]) /\
    (body_allowed (hr_status h) = true -> client_body dec hs (b_body b') = Some (if negb had && get then redirect_body (hr_status h) u else [])) /\
    (body_allowed (hr_status h) = false -> b_body b' = []).
Proof.
  intros D S NF NB NC R had get.
  assert (P : forall r', write oh oc render location redirect_body r' q (@Plain k b) = write_cut oh oc render location redirect_body false (RRedirect h u) q (@Plain k b) ->
    exists b' hs, write oh oc render location redirect_body r' q (@Plain k b) = (Wrote None, Plain b') /\
    b_final b' = Some (hr_status h, hs) /\ hvalues hs (str "Location") = [location q u] /\
    (had = false -> get = true -> hvalues hs ct = [page_type]) /\
    (body_allowed (hr_status h) = true -> client_body dec hs (b_body b') = Some (if negb had && get then redirect_body (hr_status h) u else [])) /\
    (body_allowed (hr_status h) = false -> b_body b' = [])).
  { intros r' ->. destruct (redirect_run oh oc render location redirect_body false h u q (@Plain k b) S NF) as (hs & W & L & T & O).
    change (rw_headers (@Plain k b)) with (b_header b) in *. fold had get in W, T. cbv zeta in W. cbn [rw_map] in W. rewrite W.
    assert (C : hvalues hs ce = []) by (rewrite O; [exact NC| |]; unfold same_name; vm_compute; discriminate).
    destruct (negb had && get).
    - destruct (body_allowed (hr_status h)) eqn:A.
      + destruct (page_taken (hr_status h) hs b (redirect_body (hr_status h) u) A NB) as (b' & E & F & B). rewrite E. cbn [fst].
        exists b', hs. split; [reflexivity|]. split; [exact F|]. split; [exact L|]. split; [exact T|]. split; [|discriminate]. intros _. unfold client_body. now rewrite C, B.
      + rewrite (status_kept (hr_status h) hs (started (hr_status h) hs b) _ A eq_refl). eexists. exists hs. split; [reflexivity|]. split; [reflexivity|]. split; [exact L|]. split; [exact T|]. split; [discriminate|]. intros _. exact NB.
    - eexists. exists hs. split; [reflexivity|]. split; [reflexivity|]. split; [exact L|]. split; [exact T|]. cbn [started b_body]. rewrite NB. split; [|reflexivity]. intros _. unfold client_body. now rewrite C. }
  destruct R as [->|(level & ->)]; [apply P; reflexivity|].
  destruct (compression_algorithm (hget (wq_headers q) (str "Accept-Encoding"))) as [a|] eqn:C.
  2: { apply P. unfold write. cbn [write_cut]. now rewrite C. }
  clear P. unfold write. remember (RRedirect h u) as r0 eqn:R0. cbn [write_cut]. rewrite C.
  replace (get_headers r0) with (get_headers (RRedirect h u)) by now rewrite R0.
  cbn [get_headers]. fold ce. cbv zeta.
  set (w1 := Comp (znew k a level) false (rw_set (Plain b) ce (alg_name a))). rewrite R0.
  destruct (redirect_run oh oc render location redirect_body true h u q w1 S) as (hs & W & L & T & O); [exact NF|].
  assert (RH : rw_headers w1 = hset (b_header b) ce (alg_name a)) by reflexivity. rewrite RH in *. rewrite set_type in W, T. fold had get in W, T. cbv zeta in W.
  rewrite W. clear W. unfold w1. cbn [rw_set rw_map].
  assert (V : hvalues hs ce = [alg_name a]).
  { rewrite O; [rewrite hvalues_set, beqb_same; reflexivity| |]; unfold same_name; vm_compute; discriminate. }
  set (b3 := started _ _ _). assert (F3 : b_final b3 = Some (hr_status h, hs)) by reflexivity. assert (B3 : b_body b3 = []) by exact NB. clearbody b3.
  destruct (body_allowed (hr_status h)) eqn:A.
  - destruct (negb had && get).
    + destruct (page_closed (hr_status h) hs b3 (znew k a level) (redirect_body (hr_status h) u) A F3 B3) as (b' & E & F & B). rewrite E. exists b', hs.
      split; [reflexivity|]. split; [exact F|]. split; [exact L|]. split; [exact T|]. split; [|discriminate]. intros _.
      rewrite (page_read dec a hs _ level _ D V B). cbn. now rewrite app_nil_r.
    + destruct (close_taken (hr_status h) hs b3 (znew k a level) A F3) as (b' & E & F & B). rewrite E. exists b', hs.
      split; [reflexivity|]. split; [exact F|]. split; [exact L|]. split; [exact T|]. split; [|discriminate]. intros _.
      rewrite (page_read dec a hs (b_body b') level [] D V); [reflexivity|]. cbn. now rewrite B, B3.
  - destruct (negb had && get).
    + destruct (status_page (hr_status h) hs b3 (znew k a level) (redirect_body (hr_status h) u) A F3 B3) as (b' & E & F & B). rewrite E. exists b', hs.
      repeat (split; [first [reflexivity|assumption]|]). split; [discriminate|]. intros _. exact B.
    + destruct (status_closed (hr_status h) hs b3 (znew k a level) A F3 B3) as (b' & E & F & B). rewrite E. exists b', hs.
      repeat (split; [first [reflexivity|assumption]|]). split; [discriminate|]. intros _. exact B.
Qed.

Lemma page_any dec oh oc render reason p h u r q b :
  decodes k dec -> with_body (hr_status h) -> b_final b = None -> b_body b = [] -> hvalues (b_header b) ce = [] ->
  wq_method q = str "GET" -> alookup ct (b_header b) = None ->
  (r = RRedirect h u \/ exists level, r = RCompress level (RRedirect h u)) ->
  exists b' hs l d t, write oh oc render (fun _ => redirect_location p) (redirect_page reason p) r q (@Plain k b) = (Wrote None, Plain b') /\
    b_final b' = Some (hr_status h, hs) /\ hvalues hs (str "Location") = [l] /\ hvalues hs ct = [str "text/html; charset=utf-8"] /\
    percent_form d l /\ seen_as t d /\
    client_body dec hs (b_body b') = Some (str "<a href=""" ++ t ++ str """>" ++ reason (hr_status h) ++ str "</a>." ++ [ascii_of_N 10; ascii_of_N 10]).
Proof.
  intros D (S & N1 & N2) NF NB NC G CT R.
  destruct (redirect_cases dec oh oc render (fun _ => redirect_location p) (redirect_page reason p) h u r q b D S NF NB NC R) as (b' & hs & W & F & L & T & B & _).
  destruct (page_seen reason p (hr_status h) u) as (t & A & E).
  assert (GB : beqb (wq_method q) (str "GET") = true) by (rewrite G; reflexivity). rewrite CT in *. rewrite GB in *. cbn [negb andb] in B.
  exists b', hs, (redirect_location p u), (redirect_url p u), t. split; [exact W|]. split; [exact F|]. split; [exact L|]. split; [now apply T|].
  split; [apply escape_form|]. split; [exact A|]. rewrite <- E. apply B. unfold body_allowed. lia.
Qed.

Lemma page_none dec oh oc render reason p h u r q b :
  decodes k dec -> (200 <= hr_status h <= 999)%Z -> b_final b = None -> b_body b = [] -> hvalues (b_header b) ce = [] ->
  (wq_method q <> str "GET" \/ alookup ct (b_header b) <> None \/ without_body (hr_status h)) ->
  (r = RRedirect h u \/ exists level, r = RCompress level (RRedirect h u)) ->
  exists b' hs, write oh oc render (fun _ => redirect_location p) (redirect_page reason p) r q (@Plain k b) = (Wrote None, Plain b') /\
    b_final b' = Some (hr_status h, hs) /\
    (with_body (hr_status h) -> client_body dec hs (b_body b') = Some []) /\ (without_body (hr_status h) -> b_body b' = []).
Proof.
  intros D S NF NB NC H R.
  destruct (redirect_cases dec oh oc render (fun _ => redirect_location p) (redirect_page reason p) h u r q b D S NF NB NC R) as (b' & hs & W & F & L & T & B & Z).
  exists b', hs. split; [exact W|]. split; [exact F|]. split.
  - intros (_ & N1 & N2). rewrite B by (unfold body_allowed; lia). f_equal.
    replace (_ && _) with false; [reflexivity|]. symmetry. apply andb_false_iff.
    destruct H as [H|[H|H]]; [right; now apply beqb_ne|left; destruct (alookup ct (b_header b)); [reflexivity|congruence]|unfold without_body in H; lia].
  - intro N. apply Z. unfold body_allowed, without_body in *. lia.
Qed.
End Page.

Lemma bytes_case :
  let r := RCompress 5 (RRedirect (HResp 302 [] None None) (ascii_of_N 195 :: ascii_of_N 169 :: str "t&""")) in
  let go q := match write (fun h => h) (fun c => c) (fun _ => []) (fun _ => redirect_location (str "/a/b")) (redirect_page (fun _ => str "Found") (str "/a/b")) r q (@Plain toy base_new) with
              | (Wrote None, Plain b) => let '(_, hs, body) := received b in (hvalues hs (str "Location"), hvalues hs ce, client_body toy_dec hs body)
              | _ => ([], [], None) end in
  decodes toy toy_dec /\
  go (WReq (str "GET") [(str "Accept-Encoding", [str "gzip"])] 1) =
    ([str "/a/%c3%a9t&"""], [str "gzip"],
     Some (str "<a href=""/a/" ++ ascii_of_N 195 :: ascii_of_N 169 :: str "t&amp;&#34;"">Found</a>." ++ [ascii_of_N 10; ascii_of_N 10])) /\
  go (WReq (str "POST") [(str "Accept-Encoding", [str "gzip"])] 1) = ([str "/a/%c3%a9t&"""], [str "gzip"], Some []).
Proof. cbv zeta. split; [exact toy_decodes|]. split; vm_compute; reflexivity. Qed.
