(** * What is claimed about users as JSON *)
From Coq Require Import List NArith ZArith Ascii String Bool.
From Verif Require Import GoBase Auth_Model Json_Spec.
Import ListNotations.
Local Open Scope string_scope.
Local Open Scope list_scope.
Local Open Scope N_scope.

(** The characters of a name in ASCII. *)
Definition chars (s : string) : list N := map code (str s).

(** A list is null or an array. *)
Definition listed {A : Type} (R : A -> value -> Prop) (l : list A) (w : value) : Prop :=
  match l with [] => w = VNull | _ => exists ws, w = VArr ws /\ Forall2 R l ws end.

Definition shows_permission (p : permission) (w : value) : Prop :=
  exists s, text_of (pm_scope p) s /\ w = VObj [(chars "Scope", VStr s); (chars "Access", VNum (Z.of_N (pm_access p)))].
Definition shows_role (r : role) (w : value) : Prop :=
  exists n d wa wd, text_of (rl_name r) n /\ text_of (rl_description r) d /\
    listed shows_permission (rl_allowed r) wa /\ listed shows_permission (rl_denied r) wd /\
    w = VObj [(chars "Name", VStr n); (chars "Description", VStr d); (chars "AllowedPermissions", wa); (chars "DeniedPermissions", wd)].
Definition shows_group (g : group) (w : value) : Prop :=
  exists n wr, text_of (gr_name g) n /\ listed shows_role (gr_roles g) wr /\ w = VObj [(chars "Name", VStr n); (chars "Roles", wr)].
Definition shows_user (u : user) (w : value) : Prop :=
  exists i n p wg, text_of (us_id u) i /\ text_of (us_name u) n /\ text_of (us_platform u) p /\ listed shows_group (us_groups u) wg /\
    w = VObj [(chars "Id", VStr i); (chars "Name", VStr n); (chars "IdentityPlatform", VStr p); (chars "Groups", wg); (chars "Attachment", VNull)].

(** All texts are UTF-8. *)
Definition readable (s : bytes) : Prop := exists cs, well_encoded s cs.
Definition readable_role (r : role) : Prop :=
  readable (rl_name r) /\ readable (rl_description r) /\
  Forall (fun p => readable (pm_scope p)) (rl_allowed r) /\ Forall (fun p => readable (pm_scope p)) (rl_denied r).
Definition readable_user (u : user) : Prop :=
  readable (us_id u) /\ readable (us_name u) /\ readable (us_platform u) /\
  Forall (fun g => readable (gr_name g) /\ Forall readable_role (gr_roles g)) (us_groups u).
