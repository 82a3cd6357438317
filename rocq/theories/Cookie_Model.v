(** * Model of the texts of cookies: [http.Cookie.String], which [http.SetCookie] sends
    (response/headers.go 54-58, response/adaptor.go 35-39), and what [http.Request.Cookies]
    makes of the header Cookie (standard library, Go 1.19).  The fields that only the text
    depends on are those of [details]; the fields of Set-Cookie that are not sent
    (RawExpires, Raw, Unparsed) are left out, and so are the warnings that are logged. *)
From Coq Require Import List NArith ZArith Ascii String Bool Arith.
From Verif Require Import GoBase Http_Model Resp_Model.
Import ListNotations.
Local Open Scope string_scope.
Local Open Scope list_scope.
Local Open Scope nat_scope.

Inductive same_site := SSUnset | SSDefault | SSLax | SSStrict | SSNone.

(** A time in UTC, as [Time.AppendFormat] sees it; which day of the week it is, is given. *)
Record date := Date { dt_weekday : nat; dt_day : N; dt_month : nat; dt_year : N; dt_hour : N; dt_minute : N; dt_second : N }.

Record details := Details {
  cd_value : bytes;
  cd_expires : option date;
  cd_max_age : Z;
  cd_http_only : bool;
  cd_secure : bool;
  cd_same_site : same_site
}.

(** [isCookieNameValid]. *)
Definition cookie_name_valid (n : bytes) : bool := negb (beqb n []) && forallb token_byte n.

(** [validCookieValueByte], [validCookiePathByte]. *)
Definition cookie_value_byte (c : byte) : bool :=
  ((32 <=? code c) && (code c <? 127) && negb (code c =? 34) && negb (code c =? 59) && negb (code c =? 92))%N.
Definition cookie_path_byte (c : byte) : bool := ((32 <=? code c) && (code c <? 127) && negb (code c =? 59))%N.

(** [sanitizeCookieValue]; [sanitizeOrWarn] drops the other bytes. *)
Definition sanitize_value (v : bytes) : bytes :=
  let v1 := filter cookie_value_byte v in
  if existsb (fun c => Ascii.eqb c " "%char || Ascii.eqb c ","%char) v1 then str """" ++ v1 ++ str """" else v1.

(** [isCookieDomainName] behind the first dot: the last byte, whether there was a letter, the
    length of the part. *)
Definition is_letter (c : byte) : bool := is_upper_ascii c || is_lower_ascii c.
Definition is_digit (c : byte) : bool := ((48 <=? code c) && (code c <=? 57))%N.
Fixpoint domain_loop (s : bytes) (last : byte) (ok : bool) (partlen : nat) : bool :=
  match s with
  | [] => if Ascii.eqb last "-"%char || (63 <? partlen) then false else ok
  | c :: s' =>
      if is_letter c then domain_loop s' c true (S partlen)
      else if is_digit c then domain_loop s' c ok (S partlen)
      else if Ascii.eqb c "-"%char then
        if Ascii.eqb last "."%char then false else domain_loop s' c ok (S partlen)
      else if Ascii.eqb c "."%char then
        if Ascii.eqb last "."%char || Ascii.eqb last "-"%char then false
        else if (63 <? partlen) || (partlen =? 0) then false
        else domain_loop s' c ok 0
      else false
  end.
Definition without_dot (s : bytes) : bytes := match s with c :: s' => if Ascii.eqb c "."%char then s' else s | [] => [] end.
Definition is_domain_name (s : bytes) : bool :=
  match s with
  | [] => false
  | _ => if (255 <? List.length s) then false else domain_loop (without_dot s) "."%char false 0
  end.

(** [net.ParseIP] of a text without colon: four numbers up to 255 without leading zeros. *)
Fixpoint number_from (n : N) (s : bytes) : option N :=
  match s with
  | [] => Some n
  | c :: s' => if is_digit c then number_from (10 * n + (code c - 48))%N s' else None
  end.
Definition ip_part (s : bytes) : bool :=
  match s with
  | [] => false
  | c :: s' => match number_from 0 s with
               | Some n => (n <=? 255)%N && (beqb s' [] || negb (Ascii.eqb c "0"%char))
               | None => false
               end
  end.
Definition is_ip4 (s : bytes) : bool := (List.length (split_on "."%char s) =? 4) && forallb ip_part (split_on "."%char s).

(** [validCookieDomain]. *)
Definition domain_valid (s : bytes) : bool := is_domain_name s || is_ip4 s.

(** [TimeFormat]. *)
Definition two_digits (n : N) : bytes := [digit (n / 10 mod 10); digit (n mod 10)]%N.
Definition weekdays : list bytes := [str "Sun"; str "Mon"; str "Tue"; str "Wed"; str "Thu"; str "Fri"; str "Sat"].
Definition months : list bytes :=
  [str "Jan"; str "Feb"; str "Mar"; str "Apr"; str "May"; str "Jun"; str "Jul"; str "Aug"; str "Sep"; str "Oct"; str "Nov"; str "Dec"].
Definition date_text (d : date) : bytes :=
  nth (dt_weekday d mod 7) weekdays [] ++ str ", " ++ two_digits (dt_day d) ++ str " " ++ nth (dt_month d mod 12) months [] ++ str " " ++
  itoa (dt_year d) ++ str " " ++ two_digits (dt_hour d) ++ str ":" ++ two_digits (dt_minute d) ++ str ":" ++ two_digits (dt_second d) ++ str " GMT".

(** [Cookie.String]; the empty text for a name that is not valid. *)
Definition cookie_string (name path domain : bytes) (d : details) : bytes :=
  if negb (cookie_name_valid name) then []
  else
    name ++ str "=" ++ sanitize_value (cd_value d) ++
    (match path with [] => [] | _ => str "; Path=" ++ filter cookie_path_byte path end) ++
    (if domain_valid domain then str "; Domain=" ++ without_dot domain else []) ++
    (match cd_expires d with Some t => if (1601 <=? dt_year t)%N then str "; Expires=" ++ date_text t else [] | None => [] end) ++
    (if (0 <? cd_max_age d)%Z then str "; Max-Age=" ++ itoa_z (cd_max_age d) else if (cd_max_age d <? 0)%Z then str "; Max-Age=0" else []) ++
    (if cd_http_only d then str "; HttpOnly" else []) ++
    (if cd_secure d then str "; Secure" else []) ++
    (match cd_same_site d with
     | SSUnset | SSDefault => []
     | SSNone => str "; SameSite=None"
     | SSLax => str "; SameSite=Lax"
     | SSStrict => str "; SameSite=Strict"
     end).

(** The text of a cookie of a response; [detail] tells what its other fields are. *)
Definition cookie_text (detail : bytes -> details) (c : cookie) : bytes :=
  cookie_string (ck_name c) (ck_path c) (ck_domain c) (detail (ck_rest c)).

(** ** [readCookies] *)

(** [textproto.TrimString]. *)
Definition is_blank (c : byte) : bool := ((code c =? 32) || (code c =? 9))%N.
Fixpoint trim_blank_left (s : bytes) : bytes := match s with c :: s' => if is_blank c then trim_blank_left s' else s | [] => [] end.
Definition trim_blank (s : bytes) : bytes := rev (trim_blank_left (rev (trim_blank_left s))).

(** [strings.Cut] at the equals sign. *)
Fixpoint cut_equals (s : bytes) : bytes * bytes :=
  match s with
  | [] => ([], [])
  | c :: s' => if Ascii.eqb c "="%char then ([], s') else let (a, b) := cut_equals s' in (c :: a, b)
  end.

(** [parseCookieValue] with quotes allowed. *)
Definition unquoted (s : bytes) : bytes :=
  match s with
  | c :: s' =>
      match rev s' with
      | d :: r => if Ascii.eqb c """"%char && Ascii.eqb d """"%char then rev r else s
      | [] => s
      end
  | [] => []
  end.
Definition parse_cookie_value (s : bytes) : option bytes := let v := unquoted s in if forallb cookie_value_byte v then Some v else None.

Definition read_part (p : bytes) : list (bytes * bytes) :=
  match trim_blank p with
  | [] => []
  | t =>
      let (name, val) := cut_equals t in
      if cookie_name_valid name
      then match parse_cookie_value val with Some v => [(name, v)] | None => [] end
      else []
  end.
(** The parts of the lines of the header Cookie, in order. *)
Definition read_cookies (lines : list bytes) : list (bytes * bytes) :=
  flat_map (fun line => flat_map read_part (split_on ";"%char (trim_blank line))) lines.
