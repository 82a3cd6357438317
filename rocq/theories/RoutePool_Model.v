(** * Model of requests served at the same time (router/router.go 13-18 and 64-104,
    router/path/matching_context.go 29-89)

    Each request is a thread; the segment buffers are objects of [Pool_Model], read and
    written one segment at a time.  A segment counts as one memory cell.  The router
    itself is not changed while requests are served. *)
From Coq Require Import List NArith ZArith Ascii String Bool Arith.
From Verif Require Import GoBase Glob_Model Pattern_Model Url_Model Match_Model Router_Model Pool_Model.
Import ListNotations.
Local Open Scope string_scope.
Local Open Scope list_scope.
Local Open Scope nat_scope.

(** The method and the path of a request. *)
Record request := Req { q_method : bytes; q_path : bytes }.

(** What an observer sees: a handler, or a goroutine that it started, has called
    [PathVar] ([c] is 0 for the matching context of the handler, else the number of a
    clone; [None] is a panic); the request is over. *)
Inductive event :=
| Saw (q : request) (h c : nat) (name : bytes) (v : option bytes)
| Over (q : request).

Definition thread : Type := prog (list useg) (option useg) event.

(** [urlPathSegmentsPool.New] (router.go 13-18); there is one pool, number 0. *)
Definition new_buffer (n : nat) : list useg := repeat useg_zero max_path_segments.

(** ** Sequential code on one buffer, cut into reads and writes *)
Inductive proc (A : Type) :=
| Done (a : A)
| Panics
| Rd (i : nat) (k : useg -> proc A)
| Wr (i : nat) (u : useg) (k : proc A).
Arguments Done {A}. Arguments Panics {A}. Arguments Rd {A}. Arguments Wr {A}.

(** Running it alone: the result ([None] is a panic) and the buffer afterwards. *)
Fixpoint run {A : Type} (p : proc A) (b : list useg) : option A * list useg :=
  match p with
  | Done a => (Some a, b)
  | Panics => (None, b)
  | Rd i k => match nth_error b i with Some u => run (k u) b | None => (None, b) end
  | Wr i u k => match update b i u with Some b' => run k b' | None => (None, b) end
  end.

(** Running it as part of a thread, on the buffer at [l]. *)
Fixpoint on {A : Type} (l : nat) (p : proc A) (k : option A -> thread) : thread :=
  match p with
  | Done a => k (Some a)
  | Panics => k None
  | Rd i c => Look l (fun b => nth_error b i) (fun v => match v with Some u => on l (c u) k | None => k None end)
  | Wr i u c => Change l (fun b => update b i u) (fun ok => if ok then on l c k else k None)
  end.

Fixpoint bind {A B : Type} (p : proc A) (f : A -> proc B) : proc B :=
  match p with
  | Done a => f a
  | Panics => Panics
  | Rd i k => Rd i (fun u => bind (k u) f)
  | Wr i u k => Wr i u (bind k f)
  end.

(** ** Routing as such code *)

(** The closure [addSegment] (matching_context.go 101-122); [None]: too many. *)
Definition add_proc (path : bytes) (idx : nat) (start : Z) (endi : N) : proc (option nat) :=
  match slice path (Z.to_N start) endi with
  | None => Panics
  | Some seg =>
      if Nat.eqb (List.length seg) 0 then Done (Some idx)
      else if beqb seg (str "..") then Done (Some (idx - 1))
      else if Nat.leb max_path_segments idx then Done None
      else Wr idx (USeg (u16 (Z.to_N start)) (u16 endi) MTUnknown) (Done (Some (S idx)))
  end.

(** The loop over the positions (matching_context.go 124-135). *)
Fixpoint url_proc (path rest : bytes) (pos : N) (idx : nat) (start : Z) : proc (option (nat * Z)) :=
  match rest with
  | [] => Done (Some (idx, start))
  | c :: rest' =>
      if Ascii.eqb c slash then
        bind (if (start =? -1)%Z then Done (Some idx) else add_proc path idx start pos)
          (fun r => match r with
                    | Some idx' => url_proc path rest' (pos + 1)%N idx' (Z.of_N (pos + 1))
                    | None => Done None
                    end)
      else url_proc path rest' (pos + 1)%N idx start
  end.

(** [ParseURLPath] (matching_context.go 91-147): the length of [mc.PathSegments]. *)
Definition parse_proc (path : bytes) : proc nat :=
  if beqb path [] || beqb path (str "/") then Done 0
  else
    bind (url_proc path path 0 0 (-1)) (fun r =>
      match r with
      | None => Done 0
      | Some (idx, start) =>
          bind (if negb (start =? -1)%Z && (start <? Z.of_N (blen path))%Z
                then add_proc path idx start (blen path) else Done (Some idx))
            (fun r => match r with None => Done 0 | Some idx' => Done idx' end)
      end).

(** Reading [n] segments from number [i] on, and writing some. *)
Fixpoint read_proc (n i : nat) : proc (list useg) :=
  match n with
  | O => Done []
  | S n' => Rd i (fun u => bind (read_proc n' (S i)) (fun us => Done (u :: us)))
  end.
Fixpoint write_proc (us : list useg) (i : nat) : proc unit :=
  match us with
  | [] => Done tt
  | u :: us' => Wr i u (write_proc us' (S i))
  end.

(** [ServeHTTP] (router.go 78-91) up to the call of the handler.  [Matcher.Match] reads
    the segments, and writes them, more often than this. *)
Definition route_proc (fuel : nat) (re : engine) (r : router) (q : request) : proc dispatch :=
  bind (parse_proc (q_path q)) (fun n =>
    bind (read_proc n 0) (fun segs =>
      match alookup (to_upper (q_method q)) (r_matchers r) with
      | None => Done NotFound
      | Some m =>
          match match_path fuel re m (q_path q) segs with
          | NoMatch => Done NotFound
          | MatchPanic => Panics
          | MatchFuel => Done ServeRuns
          | Matched p rec segs' =>
              bind (write_proc segs' 0) (fun _ =>
                match p_att p with Some h => Done (Calls h rec segs') | None => Panics end)
          end
      end)).

(** ** Matching contexts in threads *)

(** [MatchingContext] (matching_context.go 29-33): the segments are the first
    [pc_len] ones of an object. *)
Record pctx := PCtx { pc_loc : nat; pc_len : nat; pc_pattern : option pattern; pc_path : bytes }.

(** [MatchingContext.PathVar] (matching_context.go 53-89); the loop of lines 78-87,
    [n] segments are left. *)
Fixpoint var_loop (l : nat) (path : bytes) (n i idx : nat) (k : option bytes -> thread) : thread :=
  match n with
  | O => k (Some [])
  | S n' =>
      Look l (fun b => nth_error b i) (fun v =>
        match v with
        | None => k None
        | Some u =>
            if is_capture (u_mt u)
            then match idx with O => k (useg_text path u) | S j => var_loop l path n' (S i) j k end
            else var_loop l path n' (S i) idx k
        end)
  end.
Definition var_thread (pc : pctx) (name : bytes) (k : option bytes -> thread) : thread :=
  match pc_pattern pc with
  | None => k (Some [])
  | Some p =>
      if (p_caps p =? 0)%N then k (Some [])
      else match find_capture name (p_segs p) 0 with
           | None => k (Some [])
           | Some idx => var_loop (pc_loc pc) (pc_path pc) (pc_len pc) 0 idx k
           end
  end.

(** [MatchingContext.Clone] (matching_context.go 35-51): segments [i] to [i+n-1] are
    copied from [l] to [l']. *)
Fixpoint clone_loop (l l' n i : nat) (k : bool -> thread) : thread :=
  match n with
  | O => k true
  | S n' =>
      Look l (fun b => nth_error b i) (fun v =>
        match v with
        | None => k false
        | Some u => Change l' (fun b => update b i u) (fun ok => if ok then clone_loop l l' n' (S i) k else k false)
        end)
  end.
Definition clone_thread (pc : pctx) (k : option pctx -> thread) : thread :=
  New (repeat useg_zero (pc_len pc)) (fun l' =>
    clone_loop (pc_loc pc) l' (pc_len pc) 0 (fun ok =>
      if ok then k (Some (PCtx l' (pc_len pc) (pc_pattern pc) (pc_path pc))) else k None)).

(** ** Handlers

    A handler, with the [Write] of its response, as it uses matching contexts: number 0
    is its own, the clones follow.  A goroutine gets all contexts there are. *)
Inductive hproc :=
| HDone
| HVar (c : nat) (name : bytes) (k : bytes -> hproc)
| HClone (c : nat) (k : hproc)
| HAsk (k : nat -> hproc)
| HGo (g k : hproc).

Fixpoint hthread (q : request) (h : nat) (fin : thread) (tab : list pctx) (p : hproc) : thread :=
  match p with
  | HDone => fin
  | HVar c name k =>
      match nth_error tab c with
      | None => fin
      | Some pc => var_thread pc name (fun v =>
          Emit (Saw q h c name v) (match v with Some b => hthread q h fin tab (k b) | None => fin end))
      end
  | HClone c k =>
      match nth_error tab c with
      | None => fin
      | Some pc => clone_thread pc (fun r => match r with Some pc' => hthread q h fin (tab ++ [pc']) k | None => fin end)
      end
  | HAsk k => Ask (fun x => hthread q h fin tab (k x))
  | HGo g k => Go (hthread q h Stop tab g) (hthread q h fin tab k)
  end.

(** The deferred function (router.go 70-77): [n] segments from number [i] on are reset. *)
Fixpoint reset_loop (l n i : nat) (k : thread) : thread :=
  match n with
  | O => k
  | S n' => Change l (fun b => update b i useg_zero) (fun ok => if ok then reset_loop l n' (S i) k else k)
  end.
Definition finish (q : request) (l : nat) : thread :=
  reset_loop l max_path_segments 0 (Put 0 l (Emit (Over q) Stop)).

(** [Router.ServeHTTP] (router.go 66-104) with routing and handlers given as such code.
    The error log and the answer are left out. *)
Definition serve_thread (route : request -> proc dispatch) (code : request -> nat -> hproc) (q : request) : thread :=
  Get 0 (fun l =>
    on l (route q) (fun d =>
      match d with
      | Some (Calls h rec segs) => hthread q h (finish q l) [PCtx l (List.length segs) rec (q_path q)] (code q h)
      | Some ServeRuns => Stop
      | _ => finish q l
      end)).
