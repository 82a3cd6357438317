(** * What is claimed about cookies: what a browser makes of them (RFC 6265, 5.2 and 5.4) *)
From Coq Require Import List NArith ZArith Ascii String Bool.
From Verif Require Import GoBase Resp_Model Cookie_Model.
Import ListNotations.
Local Open Scope string_scope.
Local Open Scope list_scope.

(** Texts without blanks around them. *)
Definition blank_sign (c : byte) : bool := Ascii.eqb c " "%char || (code c =? 9)%N.
Fixpoint skip_blanks (s : bytes) : bytes := match s with c :: s' => if blank_sign c then skip_blanks s' else s | [] => [] end.
Definition bare (s : bytes) : bytes := rev (skip_blanks (rev (skip_blanks s))).

(** A name and a value, separated by the first equals sign. *)
Fixpoint at_equals (s : bytes) : bytes * option bytes :=
  match s with
  | [] => ([], None)
  | c :: s' => if Ascii.eqb c "="%char then ([], Some s') else let (n, v) := at_equals s' in (c :: n, v)
  end.
Definition attribute (s : bytes) : bytes * option bytes := let (n, v) := at_equals s in (bare n, option_map bare v).

(** A browser reads a header Set-Cookie: name, value and attributes between semicolons; it
    ignores a text without equals sign in its first part and one with an empty name. *)
Definition browser_reads (s : bytes) : option (bytes * bytes * list (bytes * option bytes)) :=
  match map attribute (split_on ";"%char s) with
  | (n, Some v) :: l => match n with [] => None | _ => Some (n, v, l) end
  | _ => None
  end.

(** It sends the names and values back in one header Cookie. *)
Definition sends_back (l : list (bytes * bytes)) : bytes := join (str "; ") (map (fun nv => fst nv ++ str "=" ++ snd nv) l).

(** Names that are tokens (RFC 7230, 3.2.6), bytes that a value and a path may have. *)
Definition token_name (n : bytes) : Prop :=
  n <> [] /\ forall c, In c n ->
    (48 <= code c <= 57)%N \/ (65 <= code c <= 90)%N \/ (97 <= code c <= 122)%N \/ In c (str "!#$%&'*+-.^_`|~").
Definition value_sign (c : byte) : Prop := (32 <= code c <= 126)%N /\ ~ In c (str """;") /\ code c <> 92%N.
Definition path_sign (c : byte) : Prop := (32 <= code c <= 126)%N /\ c <> ";"%char.
(** [t] is [s] without the other bytes. *)
Inductive only (P : byte -> Prop) : bytes -> bytes -> Prop :=
| on_end : only P [] []
| on_keep : forall c s t, P c -> only P s t -> only P (c :: s) (c :: t)
| on_drop : forall c s t, ~ P c -> only P s t -> only P (c :: s) t.

(** The names of hosts that are sent: parts of up to 63 letters, digits and inner hyphens,
    with at least one letter, perhaps with a dot before them and one behind; or an address
    of four numbers. *)
Definition letter_sign (c : byte) : Prop := (65 <= code c <= 90)%N \/ (97 <= code c <= 122)%N.
Definition digit_sign (c : byte) : Prop := (48 <= code c <= 57)%N.
Definition host_label (s : bytes) : Prop :=
  s <> [] /\ (List.length s <= 63)%nat /\ (forall c, In c s -> letter_sign c \/ digit_sign c \/ c = "-"%char) /\
  (forall t, s <> str "-" ++ t) /\ (forall t, s <> t ++ str "-").
Definition host_text (s : bytes) : Prop :=
  exists ls e, s = join (str ".") ls ++ e /\ ls <> [] /\ Forall host_label ls /\ (e = [] \/ e = str ".") /\ exists c, In c s /\ letter_sign c.
Fixpoint decimal_value (n : N) (s : bytes) : N := match s with c :: s' => decimal_value (10 * n + (code c - 48)) s' | [] => n end.
Definition address_number (s : bytes) : Prop :=
  s <> [] /\ (forall c, In c s -> digit_sign c) /\ (decimal_value 0 s <= 255)%N /\ (s = str "0" \/ forall t, s <> str "0" ++ t).
Definition address_text (s : bytes) : Prop :=
  exists a b c d, s = a ++ str "." ++ b ++ str "." ++ c ++ str "." ++ d /\ address_number a /\ address_number b /\ address_number c /\ address_number d.
(** [t] is the domain that is sent for [s]. *)
Definition domain_of (s t : bytes) : Prop :=
  ((s = t /\ forall u, s <> str "." ++ u) \/ s = str "." ++ t) /\ (List.length s <= 255)%nat /\ host_text t \/ s = t /\ address_text s.

(** [s] is the date [t] (RFC 7231, 7.1.1.1). *)
Definition day_names : list bytes := [str "Sun"; str "Mon"; str "Tue"; str "Wed"; str "Thu"; str "Fri"; str "Sat"].
Definition month_names : list bytes :=
  [str "Jan"; str "Feb"; str "Mar"; str "Apr"; str "May"; str "Jun"; str "Jul"; str "Aug"; str "Sep"; str "Oct"; str "Nov"; str "Dec"].
Definition real_date (t : date) : Prop :=
  (dt_weekday t < 7)%nat /\ (dt_month t < 12)%nat /\ (dt_day t <= 31)%N /\ (dt_hour t < 24)%N /\ (dt_minute t < 60)%N /\ (dt_second t < 60)%N.
Definition two_signs (s : bytes) (n : N) : Prop :=
  List.length s = 2%nat /\ (forall c, In c s -> digit_sign c) /\ decimal_value 0 s = n.
Definition names_date (t : date) (s : bytes) : Prop :=
  exists w dd mon yy hh mi ss,
    s = w ++ str ", " ++ dd ++ str " " ++ mon ++ str " " ++ yy ++ str " " ++ hh ++ str ":" ++ mi ++ str ":" ++ ss ++ str " GMT" /\
    nth_error day_names (dt_weekday t) = Some w /\ nth_error month_names (dt_month t) = Some mon /\
    (forall c, In c yy -> digit_sign c) /\ decimal_value 0 yy = dt_year t /\
    two_signs dd (dt_day t) /\ two_signs hh (dt_hour t) /\ two_signs mi (dt_minute t) /\ two_signs ss (dt_second t).

(** The attributes say what the fields of a cookie ask for. *)
Definition site_name (s : same_site) : option bytes :=
  match s with SSNone => Some (str "None") | SSLax => Some (str "Lax") | SSStrict => Some (str "Strict") | _ => None end.
Record asked_for (path domain : bytes) (d : details) (l : list (bytes * option bytes)) : Prop := {
  af_once : NoDup (map fst l);
  af_names : forall n v, In (n, v) l -> In n [str "Path"; str "Domain"; str "Expires"; str "Max-Age"; str "HttpOnly"; str "Secure"; str "SameSite"];
  af_http_only : (exists v, In (str "HttpOnly", v) l) <-> cd_http_only d = true;
  af_secure : (exists v, In (str "Secure", v) l) <-> cd_secure d = true;
  af_site : forall v, In (str "SameSite", v) l <-> v <> None /\ v = site_name (cd_same_site d);
  af_path : forall v, In (str "Path", v) l <-> path <> [] /\ exists p, only path_sign path p /\ v = Some (bare p);
  af_domain : forall v, In (str "Domain", v) l <-> exists h, domain_of domain h /\ v = Some h;
  af_age : (exists v, In (str "Max-Age", v) l) <-> cd_max_age d <> 0%Z;
  af_age_value : forall v, In (str "Max-Age", v) l ->
    exists s, v = Some s /\ s <> [] /\ (forall c, In c s -> digit_sign c) /\
      ((0 < cd_max_age d)%Z /\ Z.of_N (decimal_value 0 s) = cd_max_age d \/ (cd_max_age d < 0)%Z /\ s = str "0");
  af_expires : (exists v, In (str "Expires", v) l) <-> exists t, cd_expires d = Some t /\ (1601 <= dt_year t)%N;
  af_expires_value : forall v t, In (str "Expires", v) l -> cd_expires d = Some t -> real_date t ->
    exists s, v = Some s /\ names_date t s
}.

(** What a browser reads in a line [t] of Set-Cookie that is there for the cookie [c]: its
    name, its value without the bytes that a value must not have, perhaps in quotes, and the
    attributes its fields ask for. *)
Definition reads_as (detail : bytes -> details) (c : cookie) (t : bytes) : Prop :=
  exists v w l, browser_reads t = Some (ck_name c, v, l) /\
    only value_sign (cd_value (detail (ck_rest c))) w /\ (v = w \/ v = str """" ++ w ++ str """") /\
    asked_for (ck_path c) (ck_domain c) (detail (ck_rest c)) l.
