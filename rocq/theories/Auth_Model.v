(** * Model of permissions, roles, groups and users (auth/auth.go). *)
From Coq Require Import List NArith ZArith Ascii String Bool.
From Verif Require Import GoBase.
Import ListNotations.
Local Open Scope string_scope.
Local Open Scope list_scope.
Local Open Scope N_scope.

(** [Access] (auth.go 23-36) is a uint32 bit mask; [accessUnknown] is 1 << 9. *)
Definition access_unknown : N := 512.

(** The loop of [AccessAll] (auth.go 38-44), at most [fuel] rounds. *)
Fixpoint access_all_loop (fuel : nat) (i all : N) : N :=
  match fuel with
  | O => all
  | S f => if i <? access_unknown then access_all_loop f (N.shiftl i 1) (N.lor all i) else all
  end.
Definition access_all : N := access_all_loop 20 1 0.

(** [ScopeSeparator] (auth.go 46): a variable in Go, modelled with its initial
    value. *)
Definition scope_separator : byte := "/"%char.

(** [Permission] (auth.go 70-73). *)
Record permission := Perm { pm_scope : bytes; pm_access : N }.

(** [AllPermissions] (auth.go 75-80). *)
Definition all_permissions : permission := Perm (str "*") access_all.

(** [NewPermission] (auth.go 82-93): [None] is an error.  The loop reads runes; a
    slash byte is always a rune of its own, so counting bytes is exact. *)
Fixpoint too_many_levels (s : bytes) (count : nat) : bool :=
  match s with
  | [] => false
  | c :: s' =>
      let count' := if Ascii.eqb c scope_separator then S count else count in
      if Nat.ltb 2 count' then true else too_many_levels s' count'
  end.
Definition new_permission (scope : bytes) (access : N) : option permission :=
  if too_many_levels scope 0 then None else Some (Perm scope access).

(** The loop of [Implies] (auth.go 109-121): [s] is the level compared last, [ps]
    are the levels of the permission that are still to be used. *)
Fixpoint implies_loop (s : bytes) (ps ips : list bytes) : bool :=
  match ips with
  | [] => true
  | si :: ips' =>
      let '(s', ps') := match ps with [] => (s, []) | x :: l => (x, l) end in
      if negb (beqb s' (str "*")) && negb (beqb s' si) then false
      else implies_loop s' ps' ips'
  end.

(** [Permission.Implies] (auth.go 97-123). *)
Definition implies (p q : permission) : bool :=
  let ps := split_on scope_separator (pm_scope p) in
  let ips := split_on scope_separator (pm_scope q) in
  if Nat.ltb (List.length ips) (List.length ps) then false
  else if negb (N.land (pm_access p) (pm_access q) =? pm_access q) then false
  else implies_loop [] ps ips.

(** [Permission.String] (auth.go 125-127); int has 64 bits. *)
Definition perm_string (p : permission) : bytes := pm_scope p ++ str ":" ++ itoa (pm_access p).

(** [Role] (auth.go 131-136). *)
Record role := Role { rl_name : bytes; rl_description : bytes; rl_allowed : list permission; rl_denied : list permission }.

(** [Role.HasPermission] (auth.go 139-151). *)
Fixpoint any_implies (l : list permission) (q : permission) : bool :=
  match l with
  | [] => false
  | p :: l' => if implies p q then true else any_implies l' q
  end.
Definition role_has (r : role) (q : permission) : bool :=
  if any_implies (rl_denied r) q then false else any_implies (rl_allowed r) q.

(** [Group] (auth.go 154-157). *)
Record group := Group { gr_name : bytes; gr_roles : list role }.

(** [Group.HasRole] (auth.go 160-167). *)
Fixpoint roles_named (l : list role) (name : bytes) : bool :=
  match l with
  | [] => false
  | r :: l' => if beqb name (rl_name r) then true else roles_named l' name
  end.
Definition group_has_role (g : group) (name : bytes) : bool := roles_named (gr_roles g) name.

(** [Group.HasPermission] (auth.go 170-177). *)
Fixpoint roles_permit (l : list role) (q : permission) : bool :=
  match l with
  | [] => false
  | r :: l' => if role_has r q then true else roles_permit l' q
  end.
Definition group_has (g : group) (q : permission) : bool := roles_permit (gr_roles g) q.

(** [User] (auth.go 180-191); nothing is attached. *)
Record user := User { us_id : bytes; us_name : bytes; us_platform : bytes; us_groups : list group }.

(** [User.HasRole] (auth.go 197-204). *)
Fixpoint groups_named (l : list group) (name : bytes) : bool :=
  match l with
  | [] => false
  | g :: l' => if group_has_role g name then true else groups_named l' name
  end.
Definition user_has_role (u : user) (name : bytes) : bool := groups_named (us_groups u) name.

(** [User.HasPermission] (auth.go 206-213). *)
Fixpoint groups_permit (l : list group) (q : permission) : bool :=
  match l with
  | [] => false
  | g :: l' => if group_has g q then true else groups_permit l' q
  end.
Definition user_has (u : user) (q : permission) : bool := groups_permit (us_groups u) q.

(** The loop of [ParsePermission] (auth.go 221-227): the position of the last
    colon, searched from the end; [rest] is the text before position [i],
    reversed. *)
Fixpoint last_colon (rest : bytes) (i : nat) : option nat :=
  match rest with
  | [] => None
  | c :: rest' => if Ascii.eqb c ":"%char then Some (i - 1)%nat else last_colon rest' (i - 1)
  end.

(** [strconv.ParseUint(s, 10, 32)] (auth.go 233): digits only, below 2^32.  The
    two kinds of errors are not told apart. *)
Definition is_digit (c : byte) : bool := (48 <=? code c) && (code c <=? 57).
Fixpoint parse_digits (s : bytes) (n : N) : option N :=
  match s with
  | [] => Some n
  | c :: s' =>
      if is_digit c then
        let n' := n * 10 + (code c - 48) in
        if 4294967295 <? n' then None else parse_digits s' n'
      else None
  end.
Definition parse_uint32 (s : bytes) : option N :=
  match s with [] => None | _ => parse_digits s 0 end.

(** [ParsePermission] (auth.go 220-239): [None] is an error. *)
Definition parse_permission (s : bytes) : option permission :=
  match last_colon (rev s) (List.length s) with
  | None => None
  | Some i =>
      if Nat.eqb i (List.length s - 1) then None
      else match parse_uint32 (skipn (S i) s) with
           | None => None
           | Some a => new_permission (firstn i s) a
           end
  end.
