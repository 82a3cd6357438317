(** * Proofs about users as JSON *)
From Coq Require Import List NArith ZArith Ascii String Bool Lia Permutation.
From Verif Require Import GoBase Http_Model Auth_Model Chain_Model Serve_Model Resp_Model Json_Model Json_Spec JsonUtf8_Proofs JsonErr_Model JsonErr_Spec JsonErr_Proofs.
From Verif Require Import Resp_Spec JsonUser_Spec.
Import ListNotations.
Local Open Scope string_scope.
Local Open Scope list_scope.
Local Open Scope N_scope.

Lemma ascii_text (s : bytes) cs : forallb (fun c => code c <? 128) s = true -> text_of s cs -> cs = map code s.
Proof.
  intros A T. assert (F : Forall (fun b => code b < 128) s) by (apply Forall_forall; intros x I; apply (proj1 (forallb_forall _ _) A) in I; apply N.ltb_lt; exact I).
  pose proof (text_app_ascii s [] [] F to_end) as X. rewrite !app_nil_r in X. eapply text_of_fun; eassumption.
Qed.

Lemma stands_slice {A : Type} (R : A -> value -> Prop) f l w : (forall x w', stands_for (f x) w' -> R x w') -> stands_for (slice_of f l) w -> listed R l w.
Proof.
  intros H S. unfold slice_of, listed in *. destruct l as [|a l]; [inversion S; reflexivity|].
  inversion S as [| | | |l0 vs F| |]; subst. exists vs. split; [reflexivity|]. clear S. change (f a :: map f l) with (map f (a :: l)) in F. revert vs F. generalize (a :: l) as m. induction m as [|x m IH]; intros vs F; inversion F; subst; constructor; auto.
Qed.

Ltac member :=
  match goal with
  | H : Forall2 _ (_ :: _) _ |- _ => inversion H as [|? [? ?] ? ? [? ?] ?]; clear H; subst; cbn [fst snd] in *
  | H : Forall2 _ [] _ |- _ => inversion H; clear H; subst
  | H : text_of (_ :: _) _ |- _ => apply ascii_text in H; [|reflexivity]; subst
  | H : stands_for (GStr _) _ |- _ => inversion H; clear H; subst
  | H : stands_for (GInt _) _ |- _ => inversion H; clear H; subst
  | H : stands_for GNil _ |- _ => inversion H; clear H; subst
  end.

Lemma permission_shown p w : stands_for (permission_value p) w -> shows_permission p w.
Proof. intros S. inversion S as [| | | | | |m vs F]; subst. repeat member. eexists. split; [eassumption|reflexivity]. Qed.
Lemma role_shown r w : stands_for (role_value r) w -> shows_role r w.
Proof.
  intros S. inversion S as [| | | | | |m vs F]; subst. repeat member.
  repeat match goal with H : stands_for (slice_of _ _) _ |- _ => apply (stands_slice _ _ _ _ permission_shown) in H end.
  eexists _, _, _, _. repeat (split; [eassumption|]). reflexivity.
Qed.
Lemma group_shown g w : stands_for (group_value g) w -> shows_group g w.
Proof.
  intros S. inversion S as [| | | | | |m vs F]; subst. repeat member.
  repeat match goal with H : stands_for (slice_of _ _) _ |- _ => apply (stands_slice _ _ _ _ role_shown) in H end.
  eexists _, _. repeat (split; [eassumption|]). reflexivity.
Qed.
Lemma user_shown u w : stands_for (user_value u) w -> shows_user u w.
Proof.
  intros S. inversion S as [| | | | | |m vs F]; subst. repeat member.
  repeat match goal with H : stands_for (slice_of _ _) _ |- _ => apply (stands_slice _ _ _ _ group_shown) in H end.
  eexists _, _, _, _. repeat (split; [eassumption|]). reflexivity.
Qed.

(** What is shown is the user. *)
Lemma readable_same s t cs : readable s -> readable t -> text_of s cs -> text_of t cs -> s = t.
Proof.
  intros [a A] [b B] S T. pose proof (well_text _ _ _ A S) as <-. pose proof (well_text _ _ _ B T) as <-. destruct A as [_ ->]. destruct B as [_ ->]. reflexivity.
Qed.
Lemma listed_same {A : Type} (R : A -> value -> Prop) (P : A -> Prop) l m w :
  (forall x y w', P x -> P y -> R x w' -> R y w' -> x = y) -> Forall P l -> Forall P m -> listed R l w -> listed R m w -> l = m.
Proof.
  intros H Pl Pm L M. unfold listed in *.
  assert (G : forall ws l m, Forall P l -> Forall P m -> Forall2 R l ws -> Forall2 R m ws -> l = m).
  { clear - H. induction ws as [|v ws IH]; intros l m Pl Pm L M; inversion L; subst; inversion M; subst; [reflexivity|].
    inversion Pl; subst. inversion Pm; subst. f_equal; [eapply H; eassumption|]. apply IH; assumption. }
  destruct l as [|a l], m as [|b m].
  - reflexivity.
  - destruct M as (ws & -> & _). discriminate.
  - destruct L as (ws & -> & _). discriminate.
  - destruct L as (ws & -> & L). destruct M as (ws' & E & M). injection E as <-. eapply G; eassumption.
Qed.
Lemma permission_same p q w : readable (pm_scope p) -> readable (pm_scope q) -> shows_permission p w -> shows_permission q w -> p = q.
Proof.
  intros P Q (s & S & ->) (t & T & E). injection E as <- E. destruct p as [a x], q as [b y]. cbn in *. f_equal; [eapply readable_same; eassumption|lia].
Qed.
Lemma role_same p q w : readable_role p -> readable_role q -> shows_role p w -> shows_role q w -> p = q.
Proof.
  intros (P1 & P2 & P3 & P4) (Q1 & Q2 & Q3 & Q4) (n & d & wa & wd & N & D & A & B & ->) (n' & d' & wa' & wd' & N' & D' & A' & B' & E).
  injection E as <- <- <- <-. destruct p, q. cbn in *. f_equal; [eapply readable_same; eassumption|eapply readable_same; eassumption| |].
  - eapply (listed_same shows_permission (fun p => readable (pm_scope p))); [intros ? ? ?; apply permission_same|exact P3|exact Q3|exact A|exact A'].
  - eapply (listed_same shows_permission (fun p => readable (pm_scope p))); [intros ? ? ?; apply permission_same|exact P4|exact Q4|exact B|exact B'].
Qed.
Lemma user_same u v w : readable_user u -> readable_user v -> shows_user u w -> shows_user v w -> u = v.
Proof.
  intros (P1 & P2 & P3 & P4) (Q1 & Q2 & Q3 & Q4) (i & n & p & wg & I & N & P & G & ->) (i' & n' & p' & wg' & I' & N' & P' & G' & E).
  injection E as <- <- <- <-. destruct u, v. cbn in *. f_equal; try (eapply readable_same; eassumption).
  eapply (listed_same shows_group); [|exact P4|exact Q4|exact G|exact G'].
  intros g h w (R1 & R2) (R3 & R4) (a & wr & A & B & ->) (a' & wr' & A' & B' & E). injection E as <- <-. destruct g, h. cbn in *.
  f_equal; [eapply readable_same; eassumption|]. eapply (listed_same shows_role); [intros ? ? ?; apply role_same|exact R2|exact R4|exact B|exact B'].
Qed.

Section Sent.
Variable k : compressor.
Variable oh : headers -> headers.
Variable oc : cookies -> cookies.
Variable render : cookie -> bytes.
Variable location : wreq -> bytes -> bytes.
Variable redirect_body : Z -> bytes -> bytes.
Hypothesis ohP : forall m, Permutation (oh m) m.
Hypothesis ocP : forall m, Permutation (oc m) m.

Lemma user_sent u q :
  exists b hh body w, write oh oc render location redirect_body (json_response 200 (Some (pr_value (user_principal u))) None None) q (@Plain k base_new) = (Wrote None, Plain b) /\
    received b = (200%Z, hh, body) /\ shows_user u w /\ (forall w', json_text body w' <-> w' = w) /\
    (readable_user u -> forall v, readable_user v -> shows_user v w -> v = u).
Proof.
  destruct (payload_sent k oh oc render location redirect_body ohP ocP 200%Z 200%Z (Some (user_value u)) None None q base_new) as (b & hh & body & W & R & (w & S & J) & _);
    [right; split; [discriminate|reflexivity]|unfold with_body; lia|apply no_headers_spelling|reflexivity|reflexivity|].
  pose proof (user_shown _ _ S) as U. exists b, hh, body, w. split; [exact W|]. split; [exact R|]. split; [exact U|]. split; [exact J|].
  intros Ru v Rv V. eapply user_same; eassumption.
Qed.
End Sent.

(** ** Two users with one text *)
Definition scope_byte : bytes := str "orders/" ++ [ascii_of_N 255].
Definition scope_other : bytes := str "orders/" ++ [ascii_of_N 254].
Definition clerk (scope : bytes) : user := User (str "7") (str "Ann") (str "shop") [Group (str "staff") [Role (str "clerk") (str "sells") [Perm scope 2] []]].
Lemma one_text : marshal (user_value (clerk scope_byte)) = marshal (user_value (clerk scope_other)) /\
  pr_has (user_principal (clerk scope_byte)) (Perm scope_byte 2) = true /\ pr_has (user_principal (clerk scope_other)) (Perm scope_byte 2) = false.
Proof. vm_compute. repeat split. Qed.

Lemma ascii_readable s : forallb (fun c => code c <? 128) s = true -> readable s.
Proof.
  intros A. exists (map code s). induction s as [|c s IH]; [split; [constructor|reflexivity]|]. cbn [forallb] in A. apply andb_true_iff in A. destruct A as [A1 A2].
  destruct (IH A2) as [F E]. apply N.ltb_lt in A1. split.
  - constructor; [|exact F]. unfold scalar. lia.
  - cbn [map List.concat]. rewrite <- E. unfold utf8. rewrite (proj2 (N.ltb_lt _ _) A1). unfold code. rewrite ascii_N_embedding. reflexivity.
Qed.
Definition ann : user := User (str "7") (str "Ann") (str "shop")
  [Group (str "staff") [Role (str "clerk") (str "sells") [Perm (str "orders/*") 3] [Perm (str "orders/old") 2]]; Group (str "all") []].
Lemma ann_case : readable_user ann /\
  marshal (pr_value (user_principal ann)) =
    str "{""Id"":""7"",""Name"":""Ann"",""IdentityPlatform"":""shop"",""Groups"":[{""Name"":""staff"",""Roles"":[{""Name"":""clerk"",""Description"":""sells"",""AllowedPermissions"":[{""Scope"":""orders/*"",""Access"":3}],""DeniedPermissions"":[{""Scope"":""orders/old"",""Access"":2}]}]},{""Name"":""all"",""Roles"":null}],""Attachment"":null}".
Proof.
  split; [|vm_compute; reflexivity]. unfold readable_user, readable_role, ann. cbn. repeat split; repeat constructor; cbn; try (apply ascii_readable; reflexivity); repeat constructor; cbn; apply ascii_readable; reflexivity.
Qed.
