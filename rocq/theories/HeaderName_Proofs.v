(** * Header names that are no tokens *)
From Coq Require Import List NArith Ascii String Bool.
From Verif Require Import GoBase Http_Model Pattern_Proofs Files_Proofs Routes_Proofs.
Import ListNotations.
Local Open Scope string_scope.
Local Open Scope list_scope.

Lemma space_kept k : In " "%char k -> canonical k = k.
Proof.
  intros I. unfold canonical. replace (forallb token_byte k) with false; [reflexivity|]. symmetry. apply not_true_iff_false.
  intros F. rewrite forallb_forall in F. specialize (F _ I). vm_compute in F. discriminate F.
Qed.

Lemma odd_names h k1 k2 v : In " "%char k1 -> In " "%char k2 ->
  hget (hset h k1 v) k1 = v /\ (k1 <> k2 -> hget (hset h k1 v) k2 = hget h k2).
Proof.
  intros I1 I2. unfold hget, hset, hvalues. rewrite (space_kept _ I1), (space_kept _ I2), !alookup_aset, beqb_refl. split; [reflexivity|].
  intros N. destruct (beqb k2 k1) eqn:E; [apply beqb_eq in E; congruence|reflexivity].
Qed.

Lemma odd_case : let h := hset (hset [] (str "my name") (str "a")) (str "My Name") (str "b") in
  hget h (str "my name") = str "a" /\ hget h (str "My Name") = str "b" /\ hget (hset h (str "my-name") (str "c")) (str "MY-NAME") = str "c".
Proof. vm_compute. repeat split. Qed.
