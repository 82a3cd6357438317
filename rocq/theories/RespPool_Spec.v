(** * What is claimed about recycled header and cookie maps *)
From Coq Require Import List NArith Bool Arith.
From Verif Require Import GoBase Resp_Model Pool_Model RespPool_Model.
Import ListNotations.
Local Open Scope list_scope.
Local Open Scope nat_scope.

(** The entry of a key after some calls, for a map that nobody else uses: the last
    call with that key counts. *)
Inductive entry_after : list mop -> bytes -> option item -> Prop :=
| EA_none : forall key, entry_after [] key None
| EA_header : forall l key v, entry_after (l ++ [SetHeader key v]) key (Some (HeaderValue v))
| EA_cookie : forall l c key, key = cookie_id c -> entry_after (l ++ [AddCookie c]) key (Some (CookieValue c))
| EA_other : forall l o key x, entry_after l key x -> op_key o <> key -> entry_after (l ++ [o]) key x.

(** A map shows exactly the entries of its own calls, each once. *)
Definition shows_calls (l : list mop) (m : content) : Prop :=
  NoDup (map fst m) /\ forall key x, entry_after l key x -> alookup key m = x.

(** The rule: a map is not used any more after a response that has it was written.  So
    it is given to only one response, and the response is written once and not used
    afterwards.  [n] maps have been made, [gone] are those released. *)
Definition usable (n : nat) (gone : list nat) (f : option nat) : Prop :=
  match f with None => True | Some i => i < n /\ ~ In i gone end.
Definition released (f : option nat) : list nat := match f with None => [] | Some i => [i] end.
(** Headers and cookies are kept apart. *)
Definition owned (o : mop) (x : option nat * option nat) : option nat :=
  match o, x with SetHeader _ _, (h, _) => h | AddCookie _, (_, c) => c end.
Definition owning (o : mop) (x : option nat * option nat) (i : nat) : option nat * option nat :=
  match o, x with SetHeader _ _, (_, c) => (Some i, c) | AddCookie _, (h, _) => (h, Some i) end.
Fixpoint polite (n : nat) (rs : list (option nat * option nat)) (gone : list nat) (p : rproc) : Prop :=
  match p with
  | RDone => True
  | RMap _ k | RLiteral _ k => polite (S n) rs gone k
  | RSetMap i o k => usable n gone (Some i) /\ polite n rs gone k
  | RNew h c k => polite n (rs ++ [(h, c)]) gone k
  | RSet r o k =>
      forall x, nth_error rs r = Some x ->
        match owned o x with
        | Some i => usable n gone (Some i) /\ polite n rs gone k
        | None => polite (S n) (set_nth rs r (owning o x n)) gone k
        end
  | RWrite r _ k =>
      forall x, nth_error rs r = Some x ->
        usable n gone (fst x) /\ usable n (released (fst x) ++ gone) (snd x) /\
        polite n rs (released (snd x) ++ released (fst x) ++ gone) k
  | RAsk k => forall x, polite n rs gone (k x)
  end.

(** Any number of such programs, started at any time. *)
Definition programs_only (ls : list (label content content sent)) : Prop :=
  forall p, In (Begin p) ls -> exists rp, p = rthread [] [] rp /\ polite 0 [] [] rp.

(** A client gets the entries of the own calls of the map, nothing if it is nil. *)
Definition own_entries (calls : option (list mop)) (m : option content) : Prop :=
  match calls, m with
  | None, None => True
  | Some l, Some m => shows_calls l m
  | _, _ => False
  end.
