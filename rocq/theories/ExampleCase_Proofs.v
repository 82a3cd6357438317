(** * Requests to the example program *)
From Coq Require Import List NArith ZArith Ascii String Bool Lia Arith.
From Verif Require Import GoBase Http_Model Glob_Model Pattern_Model Url_Model Match_Model Router_Model Auth_Model Chain_Model Serve_Model
  Mux_Model Resp_Model Json_Model JsonErr_Model Cors_Model App_Model Example_Model Chain_Spec Mux_Spec App_Spec
  Url_Spec Routing_Spec AppWire_Spec Auth_Spec JsonErr_Spec Example_Spec Witness_Proofs.
Import ListNotations.
Local Open Scope string_scope.
Local Open Scope list_scope.
Local Open Scope nat_scope.

(** One template, which reports an error after its first piece for other names, no image, and a start of
    the OAuth flow that panics. *)
Definition sample : parts nat := Parts nat
  (fun _ _ w => (HPanic (Some 7), S w)) (fun _ _ w => (HPanic None, w)) (fun _ _ w => (HReturn None (Some EAccessDenied), w))
  (fun n => if list_eq_dec ascii_dec n (str "index.html") then ([str "<p>"; str "</p>"], None) else ([str "<p>"], Some (EOther n)))
  (fun w => (inr (EOther (str "open ./resources/assets/image.png: no such file or directory")), w))
  (fun _ _ _ => str "stack") (fun v => str "parsing " ++ v).

Definition get (o : outside) (path : string) := outcome (example_serve o sample 60 60 (plain_request GET (str path)) zeros (Ctx None None None) 3).

(** JSON written with single quotes. *)
Definition json (s : string) : bytes := flat_map (fun c => if ascii_dec c "'" then [ascii_of_N 34] else [c]) (str s).

Ltac is_asked h t := split; [reflexivity|split; [reflexivity|split; [apply (segments_spelled h t); [repeat (constructor; [not_in|]); constructor|few]|reflexivity]]].

Ltac run := match goal with o : outside |- _ => destruct o as [grow re files pages k oh oc render loc bd] end; vm_compute; reflexivity.

Lemma example_served_case (o : outside) :
  segments_of (str "/oauth/authorize/github") [str "oauth"; str "authorize"; str "github"] /\
  segments_of (str "/nowhere") [str "nowhere"] /\
  page [str "oauth"; str "authorize"; str "github"] (behind [] 2) [(str "providerName", str "github")] /\ (forall e bs, ~ page [str "nowhere"] e bs) /\
  get o "/nowhere" = ([EvStatus 404], 3, (404%Z, [], []), SDone) /\
  snd (fst (get o "/")) = (200%Z, typed "text/html; charset=utf-8", str "<p></p>").
Proof.
  split; [apply (segments_spelled (str "oauth") [str "authorize"; str "github"]); [repeat (constructor; [not_in|]); constructor|few]|].
  split; [apply (segments_spelled (str "nowhere") []); [repeat (constructor; [not_in|]); constructor|few]|].
  split; [constructor|]. split; [intros e bs H; inversion H|]. split; run.
Qed.

(** Twenty segments. *)
Definition long_path : string := "/a/a/a/a/a/a/a/a/a/a/a/a/a/a/a/a/a/a/a/a".
Lemma example_overlong_case (o : outside) : overlong (str long_path) /\ get o long_path = get o "/" /\
  snd (fst (get o long_path)) = (200%Z, typed "text/html; charset=utf-8", str "<p></p>").
Proof.
  split; [|split; run]. apply (overlong_spelled (str "a") (repeat (str "a") 19)).
  - repeat (constructor; [not_in|]). constructor.
  - cbn. lia.
Qed.

Lemma example_json_case (o : outside) :
  asked (plain_request GET (str "/json/bob/7")) [str "json"; str "bob"; str "7"] zeros /\
  exists evs, get o "/json/bob/7" = (evs, 3, (200%Z, typed "application/json", json "{'id':'7','user':'bob'}"), SDone).
Proof. split; [is_asked (str "json") [str "bob"; str "7"]|]. eexists. run. Qed.

Lemma example_text_case (o : outside) :
  asked (plain_request GET (str "/text/html")) [str "text"; str "html"] zeros /\
  asked (plain_request GET (str "/text/any")) [str "text"; str "any"] zeros /\
  (exists evs, get o "/text/any" = (evs, 3, (200%Z, typed "text/plain; charset=utf-8", str "Text plain response"), SDone)) /\
  (exists evs, get o "/text/html" = (evs, 3, (200%Z, typed "text/html; charset=utf-8", html_text), SDone)).
Proof.
  split; [is_asked (str "text") [str "html"]|]. split; [is_asked (str "text") [str "any"]|].
  split; eexists; run.
Qed.

Lemma example_permission_case (o : outside) :
  asked (plain_request GET (str "/security/authorize/12")) [str "security"; str "authorize"; str "12"] zeros /\
  names_access (str "12") 12 /\ names_access (str "7") 7 /\ other_scope (str "b:8") /\ (forall n, ~ names_access (str "x") n) /\ ~ other_scope (str "x") /\
  snd (fst (get o "/security/authorize/12")) = (200%Z, typed "application/json", json "{'authorized':'true'}") /\
  snd (fst (get o "/security/authorize/7")) = (401%Z, typed "application/json", json "{'error':'unauthorized request'}") /\
  snd (fst (get o "/security/authorize/b:8")) = (401%Z, typed "application/json", json "{'error':'unauthorized request'}") /\
  snd (fst (get o "/security/authorize/x")) = (500%Z, typed "application/json", json "{'error':'parsing x'}").
Proof.
  assert (D : forall c d, N_of_ascii c = (48 + d)%N -> (d < 10)%N -> digit_of c d) by (intros; split; assumption).
  split; [is_asked (str "security") [str "authorize"; str "12"]|].
  split; [split; [|reflexivity]; apply (nm_more [ "1"%char ] 1 "2"%char 2); [apply nm_one|]; apply D; reflexivity|].
  split; [split; [|reflexivity]; apply (nm_one "7"%char 7); apply D; reflexivity|].
  split; [exists (str "b"), (str "8"), 8%N; split; [reflexivity|]; split; [|reflexivity]; apply (nm_one "8"%char 8); apply D; reflexivity|].
  split. { intros n [H _]. inversion H as [c d G E|ds m c d H' G E]; subst.
    - destruct G as [G1 G2]. change (N_of_ascii "x") with 120%N in G2. lia.
    - destruct ds as [|a ds]; [inversion H'; destruct ds; discriminate|]. injection E as _ E. destruct ds; discriminate E. }
  split. { intros (y & ds & n & E & _). destruct y as [|a y]; [discriminate E|]. injection E as _ E. destruct y; discriminate E. }
  split; [run|]. split; [run|]. split; run.
Qed.

Lemma example_fails_case (o : outside) :
  asked (plain_request GET (str "/download")) [str "download"] zeros /\ page [str "download"] (behind [] 8) [] /\
  page [str "oauth"; str "initiate"] (behind [] 1) [] /\
  snd (fst (get o "/download")) = (500%Z, typed "application/json", json "{'error':'open ./resources/assets/image.png: no such file or directory'}") /\
  snd (fst (get o "/oauth/initiate")) = (500%Z, [], []) /\ snd (get o "/oauth/authorize/x") = SCrash /\
  snd (fst (get o "/sse")) = (403%Z, typed "application/json", json "{'error':'access denied'}").
Proof.
  split; [is_asked (str "download") (@nil bytes)|]. split; [constructor|]. split; [constructor|].
  split; [run|]. split; [run|]. split; run.
Qed.

Lemma example_template_case (o : outside) :
  asked (plain_request GET (str "/tmpl/none")) [str "tmpl"; str "none"] zeros /\
  pt_template sample (str "none" ++ str ".html") = ([str "<p>"], Some (EOther (str "none.html"))) /\
  snd (fst (get o "/tmpl/none")) = (200%Z, typed "text/html; charset=utf-8", str "<p>").
Proof. split; [is_asked (str "tmpl") [str "none"]|]. split; [reflexivity|run]. Qed.
Lemma example_template_good_case (o : outside) :
  asked (plain_request GET (str "/tmpl/index")) [str "tmpl"; str "index"] zeros /\
  pt_template sample (str "index" ++ str ".html") = ([str "<p>"; str "</p>"], None) /\
  snd (fst (get o "/tmpl/index")) = (200%Z, typed "text/html; charset=utf-8", str "<p></p>").
Proof. split; [is_asked (str "tmpl") [str "index"]|]. split; [reflexivity|run]. Qed.

(** The same program with an image of two pieces; the world counts the open files. *)
Definition with_image (e : option err) : parts nat := Parts nat (pt_initiate sample) (pt_return sample) (pt_stream sample) (pt_template sample)
  (fun w => (inl ([str "\x89PNG"; str "data"], e), S w)) (pt_stack sample) (pt_failure sample).
Lemma example_download_case (o : outside) :
  asked (plain_request GET (str "/download")) [str "download"] zeros /\
  pt_image (with_image None) 3 = (inl ([str "\x89PNG"; str "data"], None), 4) /\
  snd (fst (outcome (example_serve o (with_image None) 60 60 (plain_request GET (str "/download")) zeros (Ctx None None None) 3))) =
    (200%Z, typed "image/png", str "\x89PNGdata") /\
  snd (fst (outcome (example_serve o (with_image (Some (EOther (str "disk")))) 60 60 (plain_request GET (str "/download")) zeros (Ctx None None None) 3))) =
    (200%Z, typed "image/png", str "\x89PNGdata") /\
  snd (fst (fst (outcome (example_serve o (with_image None) 60 60 (plain_request GET (str "/download")) zeros (Ctx None None None) 3)))) = 4.
Proof.
  split; [is_asked (str "download") (@nil bytes)|]. split; [reflexivity|]. split; [run|]. split; run.
Qed.
Lemma example_index_case (o : outside) :
  asked (plain_request GET (str "/")) [] zeros /\ pt_template sample (str "index.html") = ([str "<p>"; str "</p>"], None) /\
  snd (fst (get o "/")) = (200%Z, typed "text/html; charset=utf-8", str "<p></p>").
Proof. split; [split; [reflexivity|split; [reflexivity|split; [|reflexivity]]]|split; [reflexivity|run]]. apply (segments_spelled [] []); [repeat (constructor; [not_in|]); constructor|few]. Qed.

Lemma example_unopened_case : forall (o : outside),
  asked (plain_request GET (str "/download")) [str "download"] zeros /\
  pt_image sample 3 = (inr (EOther (str "open ./resources/assets/image.png: no such file or directory")), 3) /\
  snd (fst (get o "/download")) = (500%Z, typed "application/json", json "{'error':'open ./resources/assets/image.png: no such file or directory'}").
Proof.
  intro o. split; [is_asked (str "download") (@nil bytes)|]. split; [reflexivity|]. run.
Qed.
