(** * Model of what a redirect sends (response/redirect.go 14-17 with [http.Redirect] and
    [url.Parse] of the standard library, Go 1.19). *)
From Coq Require Import List NArith ZArith Ascii String Bool Arith.
From Verif Require Import GoBase Http_Model Resp_Model App_Model Cors_Model Files_Model.
Import ListNotations.
Local Open Scope string_scope.
Local Open Scope list_scope.
Local Open Scope nat_scope.

(** [strings.Cut]: the text behind the first [c], if there is one. *)
Fixpoint behind (c : byte) (s : bytes) : bytes :=
  match s with
  | [] => []
  | x :: s' => if Ascii.eqb x c then s' else behind c s'
  end.

(** [ishex] and [unescape] of a path, a fragment, a user: every percent sign is followed by
    two hexadecimal digits. *)
Definition is_hex (c : byte) : bool :=
  let n := code c in (((48 <=? n) && (n <=? 57)) || ((97 <=? n) && (n <=? 102)) || ((65 <=? n) && (n <=? 70)))%N.
Fixpoint esc_ok (s : bytes) : bool :=
  match s with
  | [] => true
  | c :: s1 =>
      if Ascii.eqb c "%"%char then
        match s1 with x :: y :: s2 => is_hex x && is_hex y && esc_ok s1 | _ => false end
      else esc_ok s1
  end.

(** [parseAuthority] succeeds with an empty host: there is no text, or a valid user and an
    at sign.  The text of a host is empty if and only if the host is. *)
Definition no_host (a : bytes) : bool :=
  match from_last "@"%char a with
  | None => beqb a []
  | Some p => beqb p (str "@") && (let u := removelast a in forallb user_byte u && esc_ok u)
  end.

(** [url.Parse] succeeds with an empty scheme and an empty host.  [parse] (which is not
    called for a request here) gets the text before the number sign; a question mark and
    what is behind it is cut off before the rest is looked at.  Where the answer is no, it
    does not matter whether there was an error. *)
Definition local_url (url : bytes) : bool :=
  let u := before "#"%char url in
  esc_ok (behind "#"%char url) &&
  negb (existsb (fun c => ((code c <? 32) || (code c =? 127))%N) u) &&
  (beqb u (str "*") ||
   match get_scheme [] u u with
   | Some ([], rest0) =>
       let rest := before "?"%char rest0 in
       if negb (has_prefix (str "/") rest) then
         negb (existsb (Ascii.eqb ":"%char) (before "/"%char rest)) && esc_ok rest
       else if has_prefix (str "//") rest && negb (has_prefix (str "///") rest) then
         let a := before "/"%char (skipn 2 rest) in
         no_host a && esc_ok (skipn (2 + List.length a) rest)
       else esc_ok rest
   | _ => false
   end).

(** [path.Split]: the directory, with its slash. *)
Fixpoint dir_of (p : bytes) : bytes :=
  match p with
  | [] => []
  | c :: p' =>
      match dir_of p' with
      | [] => if Ascii.eqb c slash then [c] else []
      | d => c :: d
      end
  end.

(** [http.Redirect], the part that makes the URL; [p] is the path of the request, without
    escapes. *)
Definition redirect_url (p url : bytes) : bytes :=
  if local_url url then
    let oldpath := match p with [] => str "/" | _ => p end in
    let u1 := if has_prefix (str "/") url then url else dir_of oldpath ++ url in
    let u2 := before "?"%char u1 in
    let query := skipn (List.length u2) u1 in
    let u3 := clean u2 in
    let u4 := if last_slash u2 && negb (last_slash u3) then u3 ++ [slash] else u3 in
    u4 ++ query
  else url.

(** [hexEscapeNonASCII]. *)
Definition hex_digit (n : N) : byte := ascii_of_N (if (n <? 10)%N then 48 + n else 87 + n)%N.
Definition hex_byte (c : byte) : bytes :=
  if (128 <=? code c)%N then ["%"%char; hex_digit (code c / 16)%N; hex_digit (code c mod 16)%N] else [c].
Definition hex_escape (s : bytes) : bytes := flat_map hex_byte s.

(** The header Location. *)
Definition redirect_location (p url : bytes) : bytes := hex_escape (redirect_url p url).

(** The page, with the text of the status. *)
Definition redirect_page (reason : Z -> bytes) (p : bytes) (st : Z) (url : bytes) : bytes :=
  str "<a href=""" ++ html_text (redirect_url p url) ++ str """>" ++ reason st ++ str "</a>." ++ [ascii_of_N 10; ascii_of_N 10].
