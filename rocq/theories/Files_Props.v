(** * C124, C125, C126: static resources and files *)
From Coq Require Import List NArith ZArith Ascii String Bool.
From Verif Require Import GoBase Http_Model Glob_Model Pattern_Model Url_Model Match_Model Router_Model Auth_Model Chain_Model Serve_Model
  Mux_Model Resp_Model Resp_Spec Cors_Model App_Model Chain_Spec Mux_Spec App_Spec Pattern_Spec Url_Spec Routing_Spec Priority_Spec Choice_Spec
  Witness_Proofs AppWire_Spec Files_Model Files_Spec Files_Proofs FilesApp_Proofs.
Import ListNotations.
Local Open Scope string_scope.
Local Open Scope list_scope.
Local Open Scope nat_scope.

(** C124: the file server opens only paths inside the directory of the assets. *)
Theorem C124_opened : forall fs dir rest, Forall (inside dir) (fst (serve_file fs dir rest)).
Proof. exact opened_inside. Qed.
Print Assumptions C124_opened.

(** C124: in any program, the answer to any request is the same whatever lies outside the
    directory. *)
Theorem C124_programs : forall (W : Type) (user : nat -> handler areq response W) mid content link text fs1 fs2 dir pages k oh oc render location redirect_body
    grow fuel re ci context mapping cs f q buf x w,
  (forall p, inside dir p -> fs1 p = fs2 p) ->
  let a := fst (acalls grow fuel re (fst (new_app fuel re ci context mapping)) cs) in
  app_serve user mid (file_server content link text fs1 dir) pages k oh oc render location redirect_body f re a q buf x w =
  app_serve user mid (file_server content link text fs2 dir) pages k oh oc render location redirect_body f re a q buf x w.
Proof. exact (@app_files_inside). Qed.
Print Assumptions C124_programs.

Example C124_case : forall (W : Type) (user : nat -> handler areq response W) mid pages k oh oc render location redirect_body x w,
  let get p := received (snd (fst (app_serve user mid (file_server (fun c _ => [AWrite c]) (fun n => n) (fun _ => str "error") shelf home_dir) pages k oh oc render location redirect_body 60 lit_engine
                    (fst (new_app 60 lit_engine false [] (Some []))) (plain_request GET p) zeros x w))) in
  get (str "/assets/css/a.css") = (200%Z, [], str "p{}") /\
  fst (fst (get (str "/assets/../secret"))) = 404%Z /\ fst (fst (get (str "/assets/css/../../../secret"))) = 404%Z /\
  get (str "/assets/css/index.html") = (301%Z, [(str "Location", [str "./"])], []) /\
  get (str "/assets/css/") = (200%Z, [(str "Content-Type", [str "text/html; charset=utf-8"])],
    str "<pre>" ++ nl ++ str "<a href=""a.css"">a.css</a>" ++ nl ++ str "<a href=""drafts/"">drafts/</a>" ++ nl ++ str "</pre>" ++ nl) /\
  inside home_dir (str "resources/assets/css/a.css") /\ ~ inside home_dir (str "resources/secret") /\
  clean (str "./a//b/../../../c/.") = str "../c" /\ clean (str "/../a") = str "/a".
Proof. exact (@files_case). Qed.

(** C125 is false: the file index.html of the directory itself cannot be fetched, whatever
    the files are.  Its path is answered with a redirect to the directory, which has no
    route. *)
Theorem C125_index_refuted : forall (W : Type) (user : nat -> handler areq response W) mid content link text pages k oh oc render location redirect_body x w fs dir,
  let get p := received (snd (fst (app_serve user mid (file_server content link text fs dir) pages k oh oc render location redirect_body 60 lit_engine
                    (fst (new_app 60 lit_engine false [] (Some []))) (plain_request GET p) zeros x w))) in
  get (str "/assets/index.html") = (301%Z, [(str "Location", [str "./"])], []) /\ get (str "/assets/") = (404%Z, [], []) /\ get (str "/assets") = (404%Z, [], []).
Proof. exact (@index_lost). Qed.
Print Assumptions C125_index_refuted.

(** C125, what holds: a file with another name is sent when the file server is asked for
    its path; when it is, C81 says. *)
Theorem C125_sent_partial : forall content link text fs dir names n q,
  Forall entry_name (names ++ [n]) -> n <> str "index.html" ->
  exists p, at_names dir p (names ++ [n]) /\
    forall c, fs p = NFile c -> file_server content link text fs dir (path_of (names ++ [n])) q = content c q.
Proof. exact file_sent. Qed.
Print Assumptions C125_sent_partial.

(** C125, what holds: index.html of a directory below is sent for the path of that
    directory; its own path is a redirect. *)
Theorem C125_page_partial : forall content link text fs dir names n q,
  Forall entry_name (names ++ [n]) ->
  exists p p', at_names dir p (names ++ [n]) /\ at_names dir p' (names ++ [n; str "index.html"]) /\
    forall es c, fs p = NDir es -> fs p' = NFile c -> file_server content link text fs dir (path_of (names ++ [n]) ++ str "/") q = content c q.
Proof. exact directory_page. Qed.
Print Assumptions C125_page_partial.

(** C125, what holds: a path with a slash for a file and one without for a directory are
    answered with a redirect to the other, and a file that cannot be opened with the
    status of the error. *)
Theorem C125_paths_partial : forall content link text fs dir names n q,
  Forall entry_name (names ++ [n]) ->
  exists p, at_names dir p (names ++ [n]) /\
    (n <> str "index.html" -> forall c, fs p = NFile c -> file_server content link text fs dir (path_of (names ++ [n])) q = content c q) /\
    (forall c, fs p = NFile c -> file_server content link text fs dir (path_of (names ++ [n]) ++ str "/") q = [ASet (str "Location") (str "../" ++ n); AStatus 301]) /\
    (n <> str "index.html" -> forall es, fs p = NDir es -> file_server content link text fs dir (path_of (names ++ [n])) q = [ASet (str "Location") (n ++ str "/"); AStatus 301]) /\
    (n <> str "index.html" -> forall st, fs p = NError st -> file_server content link text fs dir (path_of (names ++ [n])) q = [ASet (str "Content-Type") (str "text/plain; charset=utf-8"); ASet (str "X-Content-Type-Options") (str "nosniff"); AStatus st; AWrite (text st ++ [ascii_of_N 10])]) /\
    (forall st, fs p = NError st -> file_server content link text fs dir (path_of (names ++ [n]) ++ str "/") q = [ASet (str "Content-Type") (str "text/plain; charset=utf-8"); ASet (str "X-Content-Type-Options") (str "nosniff"); AStatus st; AWrite (text st ++ [ascii_of_N 10])]).
Proof. exact path_corrected. Qed.
Print Assumptions C125_paths_partial.

(** Case: the files of [C124_case], and an index.html in a directory below. *)
Example C125_case :
  let fs p := if beqb p (str "resources/assets/css/index.html") then NFile (str "<h1>css</h1>") else shelf p in
  let ask fs name := file_server (fun c _ => [AWrite c]) (fun n => n) (fun _ => str "error") fs home_dir name (plain_request GET (str "/")) in
  Forall entry_name [str "css"; str "a.css"] /\
  ask shelf (str "css/a.css") = [AWrite (str "p{}")] /\
  ask fs (str "css/") = [AWrite (str "<h1>css</h1>")] /\
  ask shelf (str "css/a.css/") = [ASet (str "Location") (str "../a.css"); AStatus 301] /\
  ask shelf (str "css") = [ASet (str "Location") (str "css/"); AStatus 301] /\
  ask shelf (str "css/b.css") = error_acts 404 (str "error").
Proof. exact (@files_paths_case). Qed.

(** C125, what holds in a program as in C81: the client that asks for a path gets the file, a
    redirect to the directory, or the status of the error with its text. *)
Theorem C125_served_partial : forall (W : Type) (user : nat -> handler areq response W) (mid : nat -> middleware areq response W) content link text fs home
    (pages : debug_page -> request -> list act)
    (k : compressor) (oh : headers -> headers) (oc : cookies -> cookies) (render : cookie -> bytes) (location : wreq -> bytes -> bytes) (redirect_body : Z -> bytes -> bytes)
    grow fuel re context mapping dir cs rs a0 x0 a xs q ws names n buf,
  resource_dir context mapping dir -> dir = spelled ws ++ str "/" -> Forall (fun t => reads t (Lit t) /\ ~ In "/"%char t) ws ->
  wires [VMux [] []] cs rs ->
  new_app fuel re false context (Some mapping) = (a0, x0) -> smooth x0 -> acalls grow fuel re a0 cs = (a, xs) -> Forall smooth xs ->
  let all := Wired (str "GET") (dir ++ str "**") (Entry [] [] (TStatic dir)) :: rs in
  ordinary re false all -> same_method (xq_method (rq_x q)) (str "GET") ->
  Forall entry_name (names ++ [n]) -> n <> str "index.html" ->
  rq_path q = dir ++ path_of (names ++ [n]) -> rq_raw q = [] -> (blen (rq_path q) < 65536)%N -> segments_of (rq_path q) (ws ++ names ++ [n]) ->
  List.length buf = 19 -> clear_choice re false all (xq_method (rq_x q)) (ws ++ names ++ [n]) ->
  (forall i r ks bs, i <> 0 -> leads re false all (xq_method (rq_x q)) i r ks -> reads_as false (re_match re) ks (ws ++ names ++ [n]) bs ->
     more_specific (map Lit ws ++ [Any]) ks) ->
  exists p k0, at_names home p (names ++ [n]) /\ forall f x w evs w' b fin,
    app_serve user mid (file_server content link text fs home) pages k oh oc render location redirect_body (k0 + f) re a q buf x w = (evs, w', b, fin) ->
    w' = w /\
    (forall c, fs p = NFile c -> b = snd (sends k oh oc render location redirect_body q (RAdaptor None None (content c q)))) /\
    (forall es, fs p = NDir es -> received b = (301%Z, [(str "Location", [n ++ str "/"])], [])) /\
    (forall st, In st [403; 404; 500]%Z -> fs p = NError st ->
       received b = (st, [(str "X-Content-Type-Options", [str "nosniff"]); (str "Content-Type", [str "text/plain; charset=utf-8"])], text st ++ [ascii_of_N 10])).
Proof. exact files_served. Qed.
Print Assumptions C125_served_partial.

(** Case: the program of [C81_case] with the files of [C124_case]. *)
Example C125_case_served : forall k oc render location redirect_body,
  shelf_get k oc render location redirect_body (str "/assets/css/a.css") = (200%Z, [], str "p{}") /\
  shelf_get k oc render location redirect_body (str "/assets/css") = (301%Z, [(str "Location", [str "css/"])], []) /\
  shelf_get k oc render location redirect_body (str "/assets/css/b.css") =
    (404%Z, [(str "X-Content-Type-Options", [str "nosniff"]); (str "Content-Type", [str "text/plain; charset=utf-8"])], str "error" ++ [ascii_of_N 10]) /\
  Forall entry_name ([str "css"] ++ [str "a.css"]) /\ str "/assets/css/a.css" = str "/assets/" ++ path_of ([str "css"] ++ [str "a.css"]).
Proof. exact shelf_case. Qed.

(** C126 is false: the path of every directory below the one of the assets is answered with
    the names of its entries, unless there is an index.html. *)
Theorem C126_names_refuted : forall content link text fs dir names n q,
  Forall entry_name (names ++ [n]) ->
  exists p p', at_names dir p (names ++ [n]) /\ at_names dir p' (names ++ [n; str "index.html"]) /\
    forall es st, fs p = NDir es -> fs p' = NError st -> forall m d, In (m, d) es -> plain_name m ->
      part_of m (acts_body (file_server content link text fs dir (path_of (names ++ [n]) ++ str "/") q)).
Proof. exact directory_told. Qed.
Print Assumptions C126_names_refuted.

(** C126: the names are all that is told, and whatever they are, they are seen as they are
    and add no markup. *)
Theorem C126_escaped : forall content link text fs dir names n q,
  Forall entry_name (names ++ [n]) ->
  exists p p', at_names dir p (names ++ [n]) /\ at_names dir p' (names ++ [n; str "index.html"]) /\
    forall es st, fs p = NDir es -> fs p' = NError st ->
      exists lines, acts_body (file_server content link text fs dir (path_of (names ++ [n]) ++ str "/") q) = str "<pre>" ++ [ascii_of_N 10] ++ List.concat lines ++ str "</pre>" ++ [ascii_of_N 10] /\
        Forall2 (fun (e : bytes * bool) line => exists shown, seen_as shown (fst e ++ if snd e then str "/" else []) /\
          line = str "<a href=""" ++ link (fst e ++ if snd e then str "/" else []) ++ str """>" ++ shown ++ str "</a>" ++ [ascii_of_N 10]) es lines.
Proof. exact directory_escaped. Qed.
Print Assumptions C126_escaped.

Example C126_escaped_case : Forall entry_name ([str "css"] ++ [str "drafts"]) /\ seen_as (str "a&amp;b &lt;1&gt;") (str "a&b <1>") /\
  path_of ([str "css"] ++ [str "drafts"]) = str "css/drafts".
Proof. exact escaped_case. Qed.
