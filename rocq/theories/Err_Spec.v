(** * What is claimed about errors as Go values *)
From Coq Require Import List NArith Ascii String Bool.
From Verif Require Import GoBase Err_Model.
Import ListNotations.
Local Open Scope string_scope.
Local Open Scope N_scope.

(** The error is one with a documented status. *)
Inductive direct : goerr -> N -> Prop :=
| dr_bad : forall i, direct (GoBad i) 400
| dr_missing : forall i, direct (GoMissing i) 404
| dr_unauthorized : forall t, direct (GoNew 1 t) 401
| dr_credentials : forall t, direct (GoNew 2 t) 403
| dr_denied : forall t, direct (GoNew 0 t) 403.

(** The error is one, points to one or wraps one, as [errors.Is] and [errors.As] look for it. *)
Inductive means : goerr -> N -> Prop :=
| mn_direct : forall e n, direct e n -> means e n
| mn_bad_ref : forall i, means (GoBadRef (Some i)) 400
| mn_missing_ref : forall i, means (GoMissingRef (Some i)) 404
| mn_wraps : forall t e n, means e n -> means (GoOther t (Some e)) n.

(** The message of an error; an error around nil, or a nil pointer, has none. *)
Inductive has_text : goerr -> bytes -> Prop :=
| ht_new : forall p t, has_text (GoNew p t) t
| ht_other : forall t i, has_text (GoOther t i) t
| ht_bad : forall e t, has_text e t -> has_text (GoBad (Some e)) t
| ht_missing : forall e t, has_text e t -> has_text (GoMissing (Some e)) t
| ht_bad_ref : forall e t, has_text e t -> has_text (GoBadRef (Some (Some e))) t
| ht_missing_ref : forall e t, has_text e t -> has_text (GoMissingRef (Some (Some e))) t.
Definition silent (e : goerr) : Prop := forall t, ~ has_text e t.

(** The status of an answer: the documented one of the error itself, or 500. *)
Definition answer_status (e : goerr) (n : N) : Prop := direct e n \/ (forall n', ~ direct e n') /\ n = 500.

(** What the variables and functions of the package promise: a status, and a message. *)
Inductive offered : goerr -> N -> bytes -> Prop :=
| of_denied : offered go_access_denied 403 (str "access denied")
| of_unauthorized : offered go_unauthorized 401 (str "unauthorized request")
| of_credentials : offered go_wrong_credentials 403 (str "wrong credentials")
| of_bad : forall e t, has_text e t -> offered (new_bad_request (Some e)) 400 t
| of_missing : forall e t, has_text e t -> offered (new_object_not_found (Some e)) 404 t
| of_bad_message : forall p t, offered (new_bad_request_msg p t) 400 t
| of_missing_message : forall p t, offered (new_object_not_found_msg p t) 404 t.
