(** * What is claimed about redirects: where a browser goes (RFC 3986) *)
From Coq Require Import List NArith Ascii String Bool.
From Verif Require Import GoBase Files_Spec.
Import ListNotations.
Local Open Scope string_scope.
Local Open Scope list_scope.

(** A reference to a resource and its text (RFC 3986, 4.1 and 5.3). *)
Record reference := Reference {
  rf_scheme : option bytes;
  rf_authority : option bytes;
  rf_path : bytes;
  rf_query : option bytes;
  rf_fragment : option bytes
}.
Definition behind_sign (c : byte) (t : option bytes) : bytes := match t with Some s => c :: s | None => [] end.
Definition reference_text (r : reference) : bytes :=
  match rf_scheme r with Some s => s ++ str ":" | None => [] end ++
  match rf_authority r with Some a => str "//" ++ a | None => [] end ++
  rf_path r ++ behind_sign "?"%char (rf_query r) ++ behind_sign "#"%char (rf_fragment r).
Definition lacks (t s : bytes) : Prop := forall c, In c s -> ~ In c t.
Definition starts (p s : bytes) : Prop := exists r, s = p ++ r.

(** The parts are those that a reader of the text finds. *)
Definition well_formed (r : reference) : Prop :=
  (forall s, rf_scheme r = Some s -> s <> [] /\ lacks (str ":/?#") s) /\
  (forall a, rf_authority r = Some a -> lacks (str "/?#") a /\ (rf_path r = [] \/ starts (str "/") (rf_path r))) /\
  (rf_authority r = None -> ~ starts (str "//") (rf_path r)) /\
  (rf_scheme r = None -> rf_authority r = None -> 
     forall f t, rf_path r = f ++ str ":" ++ t -> ~ In ":"%char f -> f = [] \/ In "/"%char f) /\
  lacks (str "?#") (rf_path r) /\
  (forall q, rf_query r = Some q -> ~ In "#"%char q).
Definition reads (s : bytes) (r : reference) : Prop := well_formed r /\ s = reference_text r.

(** 5.2.4: dot segments are removed from a path that begins with a slash. *)
Definition dot_step (st : list bytes) (s : bytes) : list bytes :=
  if beqb s (str ".") then st else if beqb s (str "..") then tl st else s :: st.
Definition dot_last (st : list bytes) (s : bytes) : list bytes :=
  if beqb s (str ".") then [] :: st else if beqb s (str "..") then [] :: tl st else s :: st.
Definition remove_dots (p : bytes) : bytes :=
  match p with
  | "/"%char :: s =>
      let l := split_on "/"%char s in
      str "/" ++ join (str "/") (rev (dot_last (fold_left dot_step (removelast l) []) (last l [])))
  | _ => p
  end.

(** 5.2.3: the path with its last segment replaced. *)
Fixpoint drop_last (p : bytes) : bytes :=
  match p with
  | [] => []
  | c :: p' =>
      if existsb (Ascii.eqb "/"%char) p' then c :: drop_last p'
      else if Ascii.eqb c "/"%char then [c] else []
  end.

(** The URL of the page that the browser has asked for. *)
Record location_base := Base { bs_scheme : bytes; bs_authority : bytes; bs_path : bytes; bs_query : option bytes }.

(** 5.2.2: where a reference leads from there. *)
Definition target (b : location_base) (r : reference) : reference :=
  match rf_scheme r with
  | Some s => Reference (Some s) (rf_authority r) (remove_dots (rf_path r)) (rf_query r) (rf_fragment r)
  | None =>
      match rf_authority r with
      | Some a => Reference (Some (bs_scheme b)) (Some a) (remove_dots (rf_path r)) (rf_query r) (rf_fragment r)
      | None =>
          match rf_path r with
          | [] => Reference (Some (bs_scheme b)) (Some (bs_authority b)) (bs_path b)
                    (match rf_query r with Some q => Some q | None => bs_query b end) (rf_fragment r)
          | "/"%char :: _ => Reference (Some (bs_scheme b)) (Some (bs_authority b)) (remove_dots (rf_path r)) (rf_query r) (rf_fragment r)
          | _ => Reference (Some (bs_scheme b)) (Some (bs_authority b)) (remove_dots (drop_last (bs_path b) ++ rf_path r)) (rf_query r) (rf_fragment r)
          end
      end
  end.

(** Two texts lead to the same place. *)
Definition leads_alike (b : location_base) (s t : bytes) : Prop :=
  exists r r', reads s r /\ reads t r' /\ target b r = target b r'.

(** Printable ASCII without space. *)
Definition visible (s : bytes) : Prop := forall c, In c s -> (32 < code c < 127)%N.

(** The path that a reference without scheme and authority names. *)
Definition whole_path (b : location_base) (r : reference) : bytes :=
  match rf_path r with "/"%char :: _ => rf_path r | _ => drop_last (bs_path b) ++ rf_path r end.

(** The references for which it is claimed: with a scheme or a host, or a path without
    double slashes and without dots at its end, and a fragment without slash. *)
Definition kept_reference (b : location_base) (r : reference) : Prop :=
  rf_scheme r <> None \/
  (exists a, rf_authority r = Some a /\ a <> [] /\ forall u, a <> u ++ str "@") \/
  (rf_authority r = None /\ rf_path r <> [] /\
   (forall x y, whole_path b r <> x ++ str "//" ++ y) /\
   (forall x, whole_path b r <> x ++ str "/." /\ whole_path b r <> x ++ str "/..") /\
   (rf_query r = None -> forall f, rf_fragment r = Some f -> ~ In "/"%char f)).

(** Every percent sign begins an escape: two hexadecimal digits are behind it. *)
Definition hex_sign (c : byte) : Prop := In c (str "0123456789abcdefABCDEF").
Inductive escapes_well : bytes -> Prop :=
| ew_end : escapes_well []
| ew_byte : forall c s, c <> "%"%char -> escapes_well s -> escapes_well (c :: s)
| ew_escape : forall x y s, hex_sign x -> hex_sign y -> escapes_well s -> escapes_well ("%"%char :: x :: y :: s).

(** A reference to a path that can be read as a URL. *)
Definition well_written (r : reference) : Prop :=
  ~ starts (str ":") (rf_path r) /\ escapes_well (rf_path r) /\ (forall f, rf_fragment r = Some f -> escapes_well f) /\
  (forall c, In c (rf_path r) \/ (exists q, rf_query r = Some q /\ In c q) -> (32 <= code c)%N /\ code c <> 127%N).

(** What the user of a URL may be written with. *)
Definition user_sign (c : byte) : Prop :=
  (65 <= code c <= 90)%N \/ (97 <= code c <= 122)%N \/ (48 <= code c <= 57)%N \/ In c (str "-._:~!$&'()*+,;=").

(** ** Staying on the site *)

(** Browsers read a URL without its tabs and line breaks, and a backslash in it like a slash.
    A text leaves the site if it then begins with two slashes, or with a scheme. *)
Definition plain_sign (c : byte) : bool := negb ((code c =? 9) || (code c =? 10) || (code c =? 13))%N.
Definition slash_like (c : byte) : Prop := c = "/"%char \/ code c = 92%N.
Definition leaves_site (s : bytes) : Prop :=
  (exists c d t, filter plain_sign s = c :: d :: t /\ slash_like c /\ slash_like d) \/
  (exists f t, filter plain_sign s = f ++ str ":" ++ t /\ f <> [] /\ forall c, In c f -> ~ slash_like c /\ ~ In c (str ":?#")).

(** A reference to a path, without scheme and host. *)
Definition names_path (s : bytes) : Prop := exists r, reads s r /\ rf_scheme r = None /\ rf_authority r = None.

(** No control characters, no backslash. *)
Definition clear_text (s : bytes) : Prop := forall c, In c s -> (32 <= code c)%N /\ code c <> 92%N.

(** The name of one step of a path, written as it is. *)
Definition plain_step (n : bytes) : Prop := entry_name n /\ visible n /\ lacks (str ":?#%") n.

Definition ascii_text (s : bytes) : Prop := forall c, In c s -> (code c < 128)%N.

(** A text as it stands in a header: bytes outside of ASCII are written as a percent sign
    and two hexadecimal digits. *)
Inductive percent_form : bytes -> bytes -> Prop :=
| pf_end : percent_form [] []
| pf_same : forall c s t, (code c < 128)%N -> percent_form s t -> percent_form (c :: s) (c :: t)
| pf_digits : forall c d e s t, (128 <= code c)%N ->
    nth_error (str "0123456789abcdef") (N.to_nat (code c / 16)) = Some d ->
    nth_error (str "0123456789abcdef") (N.to_nat (code c mod 16)) = Some e ->
    percent_form s t -> percent_form (c :: s) ("%"%char :: d :: e :: t).
