(** * Model of the file server behind the static resources (gofre.go 124-132;
    [http.FileServer], [http.Dir], [path.Clean] and [filepath.Join] of Go 1.19 on a system
    whose separator is a slash). *)
From Coq Require Import List NArith ZArith Ascii String Bool Arith.
From Verif Require Import GoBase Http_Model Resp_Model App_Model.
Import ListNotations.
Local Open Scope string_scope.
Local Open Scope list_scope.
Local Open Scope nat_scope.

Definition slash : byte := "/"%char.
Definition dot : byte := "."%char.

(** ** [path.Clean], also [filepath.Clean] *)

(** The bytes up to the next slash. *)
Fixpoint next_name (s : bytes) : bytes * bytes :=
  match s with
  | [] => ([], [])
  | c :: s' => if Ascii.eqb c slash then ([], s) else let (n, r) := next_name s' in (c :: n, r)
  end.

(** The loop that goes back to the last slash; the buffer is kept in reverse. *)
Fixpoint back (out : bytes) (dotdot : nat) : bytes :=
  match out with
  | [] => []
  | c :: out' => if (dotdot <? List.length out') && negb (Ascii.eqb c slash) then back out' dotdot else out'
  end.

(** At the end of the text or at a slash. *)
Definition ends (s : bytes) : bool := match s with [] => true | c :: _ => Ascii.eqb c slash end.

(** The loop; every turn takes at least one byte. *)
Fixpoint clean_loop (fuel : nat) (rooted : bool) (s out : bytes) (dotdot : nat) : bytes :=
  match fuel with
  | 0 => out
  | S fuel =>
      match s with
      | [] => out
      | c :: s1 =>
          if Ascii.eqb c slash then clean_loop fuel rooted s1 out dotdot
          else if Ascii.eqb c dot && ends s1 then clean_loop fuel rooted s1 out dotdot
          else if Ascii.eqb c dot && match s1 with d :: s2 => Ascii.eqb d dot && ends s2 | [] => false end then
            let s2 := tl s1 in
            if dotdot <? List.length out then clean_loop fuel rooted s2 (back out dotdot) dotdot
            else if rooted then clean_loop fuel rooted s2 out dotdot
            else let out' := dot :: dot :: (if 0 <? List.length out then slash :: out else out) in
                 clean_loop fuel rooted s2 out' (List.length out')
          else
            let (n, r) := next_name s in
            let out1 := if negb (Nat.eqb (List.length out) (if rooted then 1 else 0)) then slash :: out else out in
            clean_loop fuel rooted r (rev n ++ out1) dotdot
      end
  end.

Definition clean (s : bytes) : bytes :=
  match s with
  | [] => [dot]
  | c :: s' =>
      let out := if Ascii.eqb c slash then clean_loop (List.length s) true s' [slash] 1 else clean_loop (List.length s) false s [] 0 in
      match out with [] => [dot] | _ => rev out end
  end.

(** [filepath.Join] of two texts that are not empty. *)
Definition join_path (a b : bytes) : bytes := clean (a ++ [slash] ++ b).

(** [path.Base]. *)
Fixpoint strip_slashes (r : bytes) : bytes := match r with c :: r' => if Ascii.eqb c slash then strip_slashes r' else r | [] => [] end.
Definition base_name (s : bytes) : bytes :=
  match s with
  | [] => [dot]
  | _ => match strip_slashes (rev s) with [] => [slash] | r => rev (fst (next_name r)) end
  end.

(** ** [http.Dir] and [http.FileServer] *)

(** What [os.Open] gives for a name: an error with its status ([toHTTPError]), a file with
    its content, or a directory with the sorted names of its entries and whether they are
    directories.  [Stat] and reading succeed. *)
Inductive node := NError (st : Z) | NFile (content : bytes) | NDir (entries : list (bytes * bool)).

(** [Dir.Open]: the name given to [os.Open]. *)
Definition dir_path (dir name : bytes) : bytes :=
  join_path (match dir with [] => [dot] | _ => dir end) (clean (slash :: name)).

(** How a request ends: with a redirect, an error, the content of a file or the list of a
    directory. *)
Inductive file_end := FRedirect (target : bytes) | FError (st : Z) | FContent (content : bytes) | FList (entries : list (bytes * bool)).

Definition index_page : bytes := str "/index.html".
Definition has_suffix (p s : bytes) : bool := has_prefix (rev p) (rev s).
Definition last_slash (s : bytes) : bool := match rev s with c :: _ => Ascii.eqb c slash | [] => false end.
Definition trim_slash (s : bytes) : bytes := if last_slash s then removelast s else s.

(** [fileHandler.ServeHTTP] and [serveFile] for the path behind the prefix: the names given
    to [os.Open], and the end.  Conditional requests and ranges are left to the handling of
    contents. *)
Definition serve_file (fs : bytes -> node) (dir rest : bytes) : list bytes * file_end :=
  let upath := match rest with c :: _ => if Ascii.eqb c slash then rest else slash :: rest | [] => [slash] end in
  let name := clean upath in
  if has_suffix index_page upath then ([], FRedirect (str "./"))
  else
    let p := dir_path dir name in
    match fs p with
    | NError st => ([p], FError st)
    | NFile content =>
        if last_slash upath then ([p], FRedirect (str "../" ++ base_name upath)) else ([p], FContent content)
    | NDir entries =>
        if negb (last_slash upath) then ([p], FRedirect (base_name upath ++ [slash]))
        else
          let p' := dir_path dir (trim_slash name ++ index_page) in
          match fs p' with
          | NFile content => ([p; p'], FContent content)
          | NDir entries' => ([p; p'], FList entries')
          | NError _ => ([p; p'], FList entries)
          end
    end.

(** [htmlReplacer]. *)
Definition html_byte (c : byte) : bytes :=
  match c with
  | "&"%char => str "&amp;" | "<"%char => str "&lt;" | ">"%char => str "&gt;"
  | """"%char => str "&#34;" | "'"%char => str "&#39;"
  | _ => [c]
  end.
Definition html_text (s : bytes) : bytes := flat_map html_byte s.

Section Answer.
(** What is done for the content of a file (type, length, ranges, conditional requests),
    and the text of a link to a name ([url.URL.String]). *)
Variable content_acts : bytes -> request -> list act.
Variable link : bytes -> bytes.

(** [http.Error]. *)
Definition error_acts (st : Z) (text : bytes) : list act :=
  [ASet (str "Content-Type") (str "text/plain; charset=utf-8"); ASet (str "X-Content-Type-Options") (str "nosniff");
   AStatus st; AWrite (text ++ [ascii_of_N 10])].

(** [dirList], for a request without If-Modified-Since; the header Last-Modified is left out. *)
Definition list_line (e : bytes * bool) : bytes :=
  let name := fst e ++ (if snd e then [slash] else []) in
  str "<a href=""" ++ link name ++ str """>" ++ html_text name ++ str "</a>" ++ [ascii_of_N 10].
Definition list_acts (entries : list (bytes * bool)) : list act :=
  [ASet (str "Content-Type") (str "text/html; charset=utf-8"); AWrite (str "<pre>" ++ [ascii_of_N 10])] ++
  map (fun e => AWrite (list_line e)) entries ++ [AWrite (str "</pre>" ++ [ascii_of_N 10])].

(** The file server as the handler behind the prefix; [localRedirect] for a request
    without a query.  The text of an error is left to its status. *)
Variable error_text : Z -> bytes.
Definition file_server (fs : bytes -> node) (dir rest : bytes) (q : request) : list act :=
  match snd (serve_file fs dir rest) with
  | FRedirect t => [ASet (str "Location") t; AStatus 301]
  | FError st => error_acts st (error_text st)
  | FContent c => content_acts c q
  | FList es => list_acts es
  end.
End Answer.
