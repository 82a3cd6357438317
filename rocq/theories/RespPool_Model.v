(** * Model of recycled header and cookie maps (response/response.go 18-91,
    response/headers.go 24-79)

    Threads make, fill and write responses.  Maps are objects of [Pool_Model]; reading
    a whole map in a range loop, and clearing it, counts as one access. *)
From Coq Require Import List NArith ZArith Ascii String Bool Arith.
From Verif Require Import GoBase Resp_Model Pool_Model.
Import ListNotations.
Local Open Scope list_scope.
Local Open Scope nat_scope.

(** [HttpHeaders.Set] (response.go 27-29) and [HttpCookies.Add] with one cookie that is
    not nil (58-66): each sets one entry of a map. *)
Inductive item := HeaderValue (v : bytes) | CookieValue (c : cookie).
Inductive mop := SetHeader (key v : bytes) | AddCookie (c : cookie).
Definition op_key (o : mop) : bytes := match o with SetHeader key _ => key | AddCookie c => cookie_id c end.
Definition op_item (o : mop) : item := match o with SetHeader _ v => HeaderValue v | AddCookie c => CookieValue c end.
Definition content := list (bytes * item).
Definition apply_op (m : content) (o : mop) : content := aset (op_key o) (op_item o) m.
Definition apply_ops (m : content) (l : list mop) : content := fold_left apply_op l m.

(** [httpHeadersPool] (response.go 18-22) is pool 0, [httpCookiesPool] (49-53) is pool 1;
    new maps are empty. *)
Definition new_map (n : nat) : content := [].

(** What a client gets: the entries of the header map and of the cookie map of a
    response ([None]: none), next to them the calls that the program has made on the two
    maps, in order ([None]: the map is nil). *)
Inductive sent := Sent (hcalls : option (list mop)) (h : option content) (ccalls : option (list mop)) (c : option content).

Definition rthreads : Type := prog content content sent.

(** A program with responses.  Map variables and responses are numbered in the order in
    which they are made. *)
Inductive rproc :=
| RDone
| RMap (pool : nat) (k : rproc)                       (* NewHttpHeaders, NewEmptyHttpCookie *)
| RLiteral (l : list mop) (k : rproc)                 (* a map that is not from a pool *)
| RSetMap (i : nat) (o : mop) (k : rproc)             (* Set or Add on a map variable *)
| RNew (h c : option nat) (k : rproc)                 (* a response with these maps *)
| RSet (r : nat) (o : mop) (k : rproc)                (* resp.Headers().Set, resp.Cookies().Add *)
| RWrite (r : nat) (sends : bool) (k : rproc)         (* resp.Write; false: bad status or a panic *)
| RAsk (k : nat -> rproc).

(** A map variable: the object and the calls made so far. *)
Record mvar := MVar { mv_loc : nat; mv_ops : list mop }.

Definition field (o : mop) (r : option nat * option nat) : option nat :=
  match o with SetHeader _ _ => fst r | AddCookie _ => snd r end.
Definition with_field (o : mop) (r : option nat * option nat) (i : nat) : option nat * option nat :=
  match o with SetHeader _ _ => (Some i, snd r) | AddCookie _ => (fst r, Some i) end.
Definition pool_of (o : mop) : nat := match o with SetHeader _ _ => 0 | AddCookie _ => 1 end.

(** The calls on a map of a response. *)
Definition calls_on (maps : list mvar) (f : option nat) : option (list mop) :=
  match f with None => None | Some i => option_map mv_ops (nth_error maps i) end.

(** The range loops (headers.go 54-67): a map is read if it is not nil. *)
Definition read_map (maps : list mvar) (f : option nat) (k : option content -> rthreads) : rthreads :=
  match f with
  | None => k None
  | Some i => match nth_error maps i with
              | None => k None
              | Some v => Look (mv_loc v) (fun m => m) (fun m => k (Some m))
              end
  end.

(** [Release] (response.go 39-42, 76-79). *)
Definition release (maps : list mvar) (f : option nat) (pool : nat) (k : rthreads) : rthreads :=
  match f with
  | None => k
  | Some i => match nth_error maps i with
              | None => k
              | Some v => Change (mv_loc v) (fun _ => Some []) (fun _ => Put pool (mv_loc v) k)
              end
  end.

Fixpoint rthread (maps : list mvar) (rs : list (option nat * option nat)) (p : rproc) : rthreads :=
  match p with
  | RDone => Stop
  | RMap pool k => Get pool (fun l => rthread (maps ++ [MVar l []]) rs k)
  | RLiteral ops k => New (apply_ops [] ops) (fun l => rthread (maps ++ [MVar l ops]) rs k)
  | RSetMap i o k =>
      match nth_error maps i with
      | None => Stop
      | Some v => Change (mv_loc v) (fun m => Some (apply_op m o))
                    (fun _ => rthread (set_nth maps i (MVar (mv_loc v) (mv_ops v ++ [o]))) rs k)
      end
  | RNew h c k => rthread maps (rs ++ [(h, c)]) k
  | RSet r o k =>
      match nth_error rs r with
      | None => Stop
      | Some x =>
          match field o x with
          | Some i =>
              match nth_error maps i with
              | None => Stop
              | Some v => Change (mv_loc v) (fun m => Some (apply_op m o))
                            (fun _ => rthread (set_nth maps i (MVar (mv_loc v) (mv_ops v ++ [o]))) rs k)
              end
          | None =>
              Get (pool_of o) (fun l => Change l (fun m => Some (apply_op m o))
                (fun _ => rthread (maps ++ [MVar l [o]]) (set_nth rs r (with_field o x (List.length maps))) k))
          end
      end
  | RWrite r sends k =>
      match nth_error rs r with
      | None => Stop
      | Some x =>
          read_map maps (snd x) (fun c => read_map maps (fst x) (fun h =>
            let rest := release maps (fst x) 0 (release maps (snd x) 1 (rthread maps rs k)) in
            if sends then Emit (Sent (calls_on maps (fst x)) h (calls_on maps (snd x)) c) rest else rest))
      end
  | RAsk k => Ask (fun x => rthread maps rs (k x))
  end.
