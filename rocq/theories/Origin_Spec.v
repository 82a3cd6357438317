(** * The texts that the CORS middleware takes for an origin *)
From Coq Require Import List NArith Ascii String.
From Verif Require Import GoBase Cors_Model Cors_Spec.
Import ListNotations.
Local Open Scope string_scope.
Local Open Scope list_scope.

(** A scheme: a letter, then letters, digits and the signs [+-.]. *)
Definition scheme_byte (c : byte) : Prop := letter c \/ (48 <= code c <= 57)%N \/ c = "+"%char \/ c = "-"%char \/ c = "."%char.
Definition uri_scheme (s : bytes) : Prop := exists c s', s = c :: s' /\ letter c /\ forall x, In x s' -> scheme_byte x.

(** Printable bytes with exceptions.  A host may have all bytes of UTF-8 beyond ASCII, a user none. *)
Definition host_sign (c : byte) : Prop :=
  (32 < code c)%N /\ code c <> 127%N /\ ~ In c (str "#%/?@\^`{|}").
Definition user_sign (c : byte) : Prop :=
  (32 < code c < 127)%N /\ code c <> 34%N /\ ~ In c (str "#/<>?[\]^`{|}").

(** The host: in square brackets or without a colon, then perhaps a colon and digits. *)
Definition port_part (p : bytes) : Prop := p = [] \/ exists d, p = str ":" ++ d /\ all_digits d.
Definition host_form (h : bytes) : Prop :=
  (forall c, In c h -> host_sign c) /\
  ((exists i p, h = str "[" ++ i ++ str "]" ++ p /\ port_part p) \/
   (exists n p, h = n ++ p /\ (forall n', n <> str "[" ++ n') /\ port_part p /\ (In ":"%char n -> p <> []))).

(** A user before the last at sign, and the host. *)
Definition authority_form (a : bytes) : Prop :=
  (~ In "@"%char a /\ host_form a) \/
  (exists u h, a = u ++ str "@" ++ h /\ (forall c, In c u -> user_sign c) /\ host_form h).

(** The authority goes up to the first slash or question mark. *)
Definition ends_there (a t : bytes) : Prop :=
  ~ In "/"%char a /\ ~ In "?"%char a /\ (t = [] \/ exists t', t = str "/" ++ t' \/ t = str "?" ++ t').

(** What counts as an origin: null, a text that begins with file://, or a scheme with a
    colon and anything without control bytes behind it; only if that begins with two
    slashes, it has to go on with an authority. *)
Definition accepted_origin (o : bytes) : Prop :=
  ~ In "%"%char o /\
  (o = str "null" \/ (exists r, o = str "file://" ++ r) \/
   exists s rest, o = s ++ str ":" ++ rest /\ uri_scheme s /\ (forall c, In c o -> (32 <= code c)%N /\ code c <> 127%N) /\
     forall a t, rest = str "//" ++ a ++ t -> ends_there a t -> authority_form a).

(** A text that names a media type: it is not blank up to its first semicolon. *)
Definition blank (s : bytes) : Prop := forall c, In c s -> code c = 32%N \/ (9 <= code c <= 13)%N.
Definition names_type (v : bytes) : Prop :=
  forall s t, v = s ++ t -> (t = [] \/ exists t', t = str ";" ++ t') -> ~ blank s.

(** A POST request names its media type, a preflight asks for a method. *)
Definition full_request (q : xreq) : Prop :=
  (xq_method q = str "POST" -> exists v, carries q (str "Content-Type") v /\ names_type v) /\
  (is_preflight q -> ~ carries q (str "Access-Control-Request-Method") []).
