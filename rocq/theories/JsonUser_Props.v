(** * Property C133: users as JSON *)
From Coq Require Import List NArith ZArith Ascii String Bool Permutation.
From Verif Require Import GoBase Http_Model Auth_Model Chain_Model Serve_Model Resp_Model Json_Model Json_Spec JsonErr_Model Resp_Spec JsonUser_Spec JsonUser_Proofs.
Import ListNotations.
Local Open Scope string_scope.
Local Open Scope list_scope.
Local Open Scope N_scope.

(** C133 is false: two users with different permissions have the same JSON text. *)
Theorem C133_user_refuted : exists u v p,
  marshal (pr_value (user_principal u)) = marshal (pr_value (user_principal v)) /\ pr_has (user_principal u) p = true /\ pr_has (user_principal v) p = false.
Proof. exact (ex_intro _ _ (ex_intro _ _ (ex_intro _ _ one_text))). Qed.
Print Assumptions C133_user_refuted.

(** C133, what holds: the JSON of a user shows all its texts, groups, roles and
    permissions; if the texts are UTF-8, it is the JSON of no other such user.
    Missing: texts that are no UTF-8, attachments, and lists that are empty but not nil. *)
Theorem C133_user_partial : forall (k : compressor) (oh : headers -> headers) (oc : cookies -> cookies) (render : cookie -> bytes)
    (location : wreq -> bytes -> bytes) (redirect_body : Z -> bytes -> bytes),
  (forall m, Permutation (oh m) m) -> (forall m, Permutation (oc m) m) -> forall u q,
  exists b hh body w, write oh oc render location redirect_body (json_response 200 (Some (pr_value (user_principal u))) None None) q (@Plain k base_new) = (Wrote None, Plain b) /\
    received b = (200%Z, hh, body) /\ shows_user u w /\ (forall w', json_text body w' <-> w' = w) /\
    (readable_user u -> forall v, readable_user v -> shows_user v w -> v = u).
Proof. exact (@user_sent). Qed.
Print Assumptions C133_user_partial.

Example C133_case : readable_user ann /\
  marshal (pr_value (user_principal ann)) =
    str "{""Id"":""7"",""Name"":""Ann"",""IdentityPlatform"":""shop"",""Groups"":[{""Name"":""staff"",""Roles"":[{""Name"":""clerk"",""Description"":""sells"",""AllowedPermissions"":[{""Scope"":""orders/*"",""Access"":3}],""DeniedPermissions"":[{""Scope"":""orders/old"",""Access"":2}]}]},{""Name"":""all"",""Roles"":null}],""Attachment"":null}".
Proof. exact ann_case. Qed.
