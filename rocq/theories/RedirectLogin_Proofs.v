(** * Redirects with a scheme, and those of logins *)
From Coq Require Import List NArith ZArith Ascii String Bool Lia Arith.
From Verif Require Import GoBase OAuth_Model Http_Model Chain_Model Serve_Model Resp_Model App_Model Cors_Model.
From Verif Require Import Files_Model Files_Spec Redirect_Model Redirect_Spec Redirect_Proofs RedirectSite_Proofs.
Import ListNotations.
Local Open Scope string_scope.
Local Open Scope list_scope.
Local Open Scope nat_scope.

Lemma absolute_kept p u r : ascii_text u -> reads u r -> rf_scheme r <> None -> redirect_location p u = u.
Proof.
  intros A [WF E] N. destruct (rf_scheme r) as [s|] eqn:S; [|congruence]. destruct WF as (W1 & _). destruct (W1 s S) as [NE L].
  unfold redirect_location, redirect_url. replace (local_url u) with false; [now apply hex_escape_ascii|]. symmetry.
  rewrite E. unfold reference_text. rewrite S, <- app_assoc. now apply scheme_not_local.
Qed.

Lemma escape_ascii c x : In x (escape_byte c) -> (code x < 128)%N.
Proof.
  assert (H : forallb (fun x => (code x <? 128)%N) (escape_byte c) = true).
  { revert c. apply (RespMisc_Proofs.all_bytes (fun c => forallb (fun x => (code x <? 128)%N) (escape_byte c))). vm_compute. reflexivity. }
  rewrite forallb_forall in H. intro I1. apply N.ltb_lt. now apply H.
Qed.

Lemma query_ascii s : ascii_text (query_escape s).
Proof. intros x I1. apply in_flat_map in I1. destruct I1 as (c & _ & I1). now apply escape_ascii in I1. Qed.

Lemma join_ascii l : (forall s, In s l -> ascii_text s) -> ascii_text (join (str "&") l).
Proof.
  induction l as [|s l IH]; intros H c I1; [easy|]. cbn [join] in I1. destruct l as [|t l]; [apply (H s); [now left|exact I1]|].
  apply in_app_iff in I1. destruct I1 as [I1|I1]; [apply (H s); [now left|exact I1]|]. apply in_app_iff in I1. destruct I1 as [[<-|[]]|I1]; [vm_compute; reflexivity|].
  refine (IH _ c I1). intros; apply H; now right.
Qed.

Lemma values_ascii m : ascii_text (encode_values m).
Proof.
  apply join_ascii. intros s I1. apply in_map_iff in I1. destruct I1 as ((a & b) & <- & _). intros c I1. unfold encode_pair in I1.
  apply in_app_iff in I1. destruct I1 as [I1|I1]; [now apply query_ascii in I1|]. apply in_app_iff in I1. destruct I1 as [[<-|[]]|I1]; [vm_compute; reflexivity|now apply query_ascii in I1].
Qed.

Lemma endpoint_kept p s e m : s <> [] -> lacks (str ":/?#") s -> ascii_text (s ++ str ":" ++ e) ->
  redirect_location p ((s ++ str ":" ++ e) ++ str "?" ++ encode_values m) = (s ++ str ":" ++ e) ++ str "?" ++ encode_values m.
Proof.
  intros NE L A. set (u := (s ++ str ":" ++ e) ++ str "?" ++ encode_values m).
  assert (AU : ascii_text u).
  { intros c I1. apply in_app_iff in I1. destruct I1 as [I1|I1]; [now apply A|]. apply in_app_iff in I1. destruct I1 as [[<-|[]]|I1]; [vm_compute; reflexivity|now apply values_ascii in I1]. }
  unfold redirect_location, Redirect_Model.redirect_url. replace (local_url u) with false; [now apply hex_escape_ascii|]. symmetry.
  unfold u. rewrite <- !app_assoc. now apply scheme_not_local.
Qed.

Section Login.
Variable k : compressor.

Lemma sent_absolute oh oc render reason p h u r q (w : rw k) :
  (200 <= hr_status h <= 999)%Z -> b_final (rw_base w) = None -> ascii_text u -> reads u r -> rf_scheme r <> None ->
  exists w' hs, write oh oc render (fun _ => redirect_location p) (redirect_page reason p) (RRedirect h u) q w = (Wrote None, w') /\
    b_final (rw_base w') = Some (hr_status h, hs) /\ hvalues hs (str "Location") = [u].
Proof.
  intros S N A R SC. destruct (sent_location k oh oc render reason p h u q w S N) as (w' & hs & B & C & D).
  exists w', hs. rewrite (absolute_kept p u r A R SC) in D. auto.
Qed.

Lemma sent_login oh oc render reason p h u q (w : rw k) :
  (200 <= hr_status h <= 999)%Z -> b_final (rw_base w) = None ->
  (exists g redirect state user, u = github_initiate_url g redirect state user) \/ (exists g redirect state user, u = google_initiate_url g redirect state user) ->
  exists w' hs, write oh oc render (fun _ => redirect_location p) (redirect_page reason p) (RRedirect h u) q w = (Wrote None, w') /\
    b_final (rw_base w') = Some (hr_status h, hs) /\ hvalues hs (str "Location") = [u].
Proof.
  intros S N H. destruct (sent_location k oh oc render reason p h u q w S N) as (w' & hs & B & C & D). exists w', hs. split; [exact B|]. split; [exact C|]. rewrite D. f_equal.
  destruct H as [(g & redirect & state & user & ->)|(g & redirect & state & user & ->)].
  - apply (endpoint_kept p (str "https") (str "//github.com/login/oauth/authorize") (github_values g redirect state user)); [discriminate|text_in|text_in].
  - apply (endpoint_kept p (str "https") (str "//accounts.google.com/o/oauth2/v2/auth") (google_values g redirect state user)); [discriminate|text_in|text_in].
Qed.
End Login.

Lemma login_case :
  redirect_location (str "/app/login") (github_initiate_url (GitHub (str "id") (str "secret") [] true [str "repo"]) (str "https://a.b/c d") (str "x&y") true) =
  str "https://github.com/login/oauth/authorize?allow_signup=true&client_id=id&redirect_uri=https%3A%2F%2Fa.b%2Fc+d&scope=repo+user&state=x%26y".
Proof. vm_compute. reflexivity. Qed.
