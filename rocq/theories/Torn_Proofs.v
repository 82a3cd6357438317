(** * Proofs about requests that build a security header at the same time. *)
From Coq Require Import List NArith ZArith Ascii String Bool Lia Arith.
From Verif Require Import GoBase CacheRace_Model CacheRace_Proofs Torn_Model.
Import ListNotations.
Local Open Scope string_scope.
Local Open Scope list_scope.
Local Open Scope nat_scope.

(** With the address first. *)
Definition good_field (text : bytes) (f : word2) : Prop :=
  (w_data f = Some text \/ w_data f = None) /\ (w_len f = 0 \/ w_len f = List.length text /\ w_data f = Some text).
Definition good_pc (text : bytes) (f : word2) (pc : tpc) : Prop :=
  match pc with
  | TCheck | TFirst => True
  | TSecond => w_data f = Some text
  | TData => w_data f = Some text /\ w_len f = List.length text
  | TLen d => d = Some text /\ w_len f = List.length text
  | TDone s => s = Word2 (Some text) (List.length text)
  end.

(** Nothing good is undone. *)
Definition grows_to (text : bytes) (f f' : word2) : Prop :=
  (w_data f = Some text -> w_data f' = Some text) /\ (w_len f = List.length text -> w_len f' = List.length text).

Lemma good_kept text f f' pc : grows_to text f f' -> good_pc text f pc -> good_pc text f' pc.
Proof. intros [A B]. destruct pc; cbn; intuition. Qed.

Lemma good_step text f pc : good_field text f -> good_pc text f pc ->
  let (f', pc') := torn_step false text f pc in good_field text f' /\ good_pc text f' pc' /\ grows_to text f f'.
Proof.
  intros [D L] P. destruct pc; cbn [torn_step].
  - split; [split; assumption|]. split; [|split; auto].
    destruct (w_len f =? 0) eqn:Z; [exact I|]. apply Nat.eqb_neq in Z. cbn. tauto.
  - split; [split; [left; reflexivity|]|split; [reflexivity|split; [reflexivity|auto]]].
    cbn. tauto.
  - cbn in P. split; [split; [left; exact P|right; split; [reflexivity|exact P]]|].
    split; [split; [exact P|reflexivity]|]. split; [intros _; exact P|reflexivity].
  - cbn in P. split; [split; assumption|]. split; [exact P|split; auto].
  - cbn in P. destruct P as [-> E]. split; [split; assumption|]. split; [|split; auto]. cbn. rewrite E. reflexivity.
  - split; [split; assumption|]. split; [exact P|split; auto].
Qed.

Lemma good_run text : forall schedule f ts, good_field text f -> (forall i pc, nth_error ts i = Some pc -> good_pc text f pc) ->
  let (f', ts') := torn_run false text f ts schedule in forall i pc, nth_error ts' i = Some pc -> good_pc text f' pc.
Proof.
  induction schedule as [|i schedule IH]; intros f ts F P; cbn [torn_run]; [exact P|].
  destruct (nth_error ts i) as [pc|] eqn:E; [|apply IH; assumption].
  pose proof (good_step text f pc F (P i pc E)) as S. destruct (torn_step false text f pc) as [f' pc'].
  destruct S as [F' [P' G]]. apply IH; [exact F'|]. intros j pc2 H.
  destruct (Nat.eq_dec j i) as [->|N].
  - rewrite (set_same _ _ _ _ E) in H. injection H as <-. exact P'.
  - rewrite (set_other _ _ _ _ _ E N) in H. exact (good_kept _ _ _ _ G (P j pc2 H)).
Qed.

(** Whoever is done has the configured text. *)
Lemma address_first (text : bytes) (n : nat) (schedule : list nat) (i : nat) (s : word2) :
  nth_error (snd (torn_run false text empty_field (repeat TCheck n) schedule)) i = Some (TDone s) -> reads_as s = Some text.
Proof.
  intros H. pose proof (good_run text schedule empty_field (repeat TCheck n)) as G.
  destruct (torn_run false text empty_field (repeat TCheck n) schedule) as [f ts]. cbn in H.
  assert (E : good_pc text f (TDone s)).
  { apply (G ltac:(split; right + left; reflexivity)
      ltac:(intros j pc Hj; apply nth_error_In in Hj; apply repeat_spec in Hj; subst; exact I) i _ H). }
  cbn in E. subst s. unfold reads_as. cbn. destruct text as [|b t]; [reflexivity|]. cbn [List.length].
  rewrite Nat.leb_refl. f_equal. exact (firstn_all (b :: t)).
Qed.

(** With the length first, two requests are enough. *)
Lemma length_first (text : bytes) : text <> [] ->
  exists schedule s, nth_error (snd (torn_run true text empty_field [TCheck; TCheck] schedule)) 1 = Some (TDone s) /\ reads_as s = None.
Proof.
  intros N. exists [0; 0; 1; 1; 1]. destruct text as [|b t]; [contradiction|].
  eexists. split; [reflexivity|]. reflexivity.
Qed.

(** A request on its own. *)
Lemma one_alone (len_first : bool) (text : bytes) (f : word2) : f = empty_field \/ f = Word2 (Some text) (List.length text) ->
  exists s, fst (torn_run len_first text f [TCheck] [0; 0; 0; 0; 0]) = Word2 (Some text) (List.length text) /\
    nth_error (snd (torn_run len_first text f [TCheck] [0; 0; 0; 0; 0])) 0 = Some (TDone s) /\ reads_as s = Some text.
Proof.
  assert (R : forall t, reads_as (Word2 (Some t) (List.length t)) = Some t).
  { intros [|b t]; [reflexivity|]. unfold reads_as. cbn [w_len w_data List.length]. rewrite Nat.leb_refl. f_equal. exact (firstn_all (b :: t)). }
  intros [-> | ->].
  - destruct len_first; (eexists; split; [reflexivity|]; split; [reflexivity|]; apply R).
  - destruct text as [|b t], len_first; (eexists; split; [reflexivity|]; split; [reflexivity|]; apply (R _)).
Qed.

Lemma torn_case : snd (torn_run false (str "DENY") empty_field [TCheck; TCheck; TCheck] [0; 0; 1; 1; 1; 2; 2; 2; 2; 0; 0; 0; 1; 1; 2; 2; 2]) =
  repeat (TDone (Word2 (Some (str "DENY")) 4)) 3 /\
  snd (torn_run true (str "DENY") empty_field [TCheck; TCheck] [0; 0; 1; 1; 1; 0; 0; 0]) =
  [TDone (Word2 (Some (str "DENY")) 4); TDone (Word2 None 4)].
Proof. split; reflexivity. Qed.
