(** * What is claimed about responses *)
From Coq Require Import List NArith ZArith Ascii String Bool Permutation.
From Verif Require Import GoBase Http_Model Chain_Model Serve_Model Resp_Model.
Import ListNotations.
Local Open Scope string_scope.
Local Open Scope list_scope.

(** Two spellings of one header name: net/http keeps headers under canonical names. *)
Definition same_name (a b : bytes) : Prop := canonical a = canonical b.

(** The standard fields of a response: the responses that carry them and write them
    themselves. *)
Definition fields (r : response) : option hresp :=
  match r with
  | RHeaders h | RText h _ | RJson h _ | RRaw h _ | RStream h _ | RTemplate h _ | RSse h _ _ => Some h
  | RRedirect _ _ | RHijack _ | RAdaptor _ _ _ | RCompress _ _ | RCompressNil _ => None
  end.
Definition custom_headers (h : hresp) : headers := match hr_headers h with Some m => m | None => [] end.
Definition custom_cookies (h : hresp) : list cookie := match hr_cookies h with Some m => map snd m | None => [] end.

(** The status that is meant. *)
Definition meant_status (h : hresp) (st : Z) : Prop :=
  (hr_status h = 0%Z /\ st = 200%Z) \/ (hr_status h <> 0%Z /\ st = hr_status h).

(** An event stream is only written for HTTP/2. *)
Definition right_protocol (r : response) (q : wreq) : Prop :=
  match r with RSse _ _ _ => wq_major q = 2%N | _ => True end.

(** No header is given under two spellings. *)
Definition one_spelling (hs : headers) : Prop :=
  NoDup (map fst hs) /\ forall k1 v1 k2 v2, In (k1, v1) hs -> In (k2, v2) hs -> same_name k1 k2 -> k1 = k2.

(** [h] is what is sent, given the headers [h0] that were already there, the custom
    headers, the texts of the cookies in the order in which they are sent and the
    default content type. *)
Definition ct : bytes := str "Content-Type".
Definition xcto : bytes := str "X-Content-Type-Options".
Definition sc : bytes := str "Set-Cookie".
Definition first_value (h : hmap) (k : bytes) : bytes := match hvalues h k with v :: _ => v | [] => [] end.
Definition given (hs : headers) (k : bytes) : Prop := exists k' v, In (k', v) hs /\ same_name k' k.

Record sent_as (h0 h : hmap) (hs : headers) (cookie_texts : list bytes) (ctype : bytes) : Prop := {
  sent_custom : forall k v, In (k, v) hs -> v <> [] -> hvalues h k = [v];
  sent_custom_empty : forall k, In (k, []) hs -> ~ same_name k ct -> ~ same_name k xcto -> hvalues h k = [[]];
  sent_cookies : ~ given hs sc -> hvalues h sc = hvalues h0 sc ++ cookie_texts;
  sent_type_kept : ~ given hs ct -> first_value h0 ct <> [] -> hvalues h ct = hvalues h0 ct;
  sent_type_default : (forall k v, In (k, v) hs -> same_name k ct -> v = []) ->
    (~ given hs ct -> first_value h0 ct = []) -> ctype <> [] -> hvalues h ct = [ctype];
  sent_type_none : ~ given hs ct -> first_value h0 ct = [] -> ctype = [] -> hvalues h ct = hvalues h0 ct;
  sent_sniff_kept : ~ given hs xcto -> first_value h0 xcto <> [] -> hvalues h xcto = hvalues h0 xcto;
  sent_sniff_default : (forall k v, In (k, v) hs -> same_name k xcto -> v = []) ->
    (~ given hs xcto -> first_value h0 xcto = []) -> hvalues h xcto = [str "nosniff"];
  sent_others : forall k, ~ given hs k -> ~ same_name k sc -> ~ same_name k ct -> ~ same_name k xcto ->
    hvalues h k = hvalues h0 k
}.

(** The texts of the cookies that are sent: the ones whose text is not empty. *)
Definition texts_of (render : cookie -> bytes) (cs : list cookie) : list bytes :=
  filter (fun t => match t with [] => false | _ => true end) (map render cs).

(** ** Bodies *)

(** The bytes a response has for the client, and how writing them ends: with an error or
    not, or with the panic of the function, reader, template or event generator of the program. *)
Definition body_of (r : response) : bytes :=
  match r with
  | RText _ p => p
  | RJson _ None => str "{}"
  | RJson _ (Some (Some b)) => b
  | RRaw _ (Some (l, _)) | RStream _ (Some (l, _)) | RTemplate _ (l, _) => flat_map (fun x => x) l
  | RSse _ (Some evs) live => flat_map event_string (firstn live evs)
  | _ => []
  end.
Definition end_of (r : response) : wout :=
  match r with
  | RJson _ (Some None) => Wrote (Some marshal_error)
  | RRaw _ (Some (_, o)) | RStream _ (Some (_, o)) | RTemplate _ (_, o) => o
  | RSse _ None _ => WPanic
  | _ => Wrote None
  end.

(** Statuses with and without a body. *)
Definition without_body (st : Z) : Prop := st = 204%Z \/ st = 304%Z.
Definition with_body (st : Z) : Prop := (200 <= st <= 999)%Z /\ st <> 204%Z /\ st <> 304%Z.

(** What the compressors of the standard library promise: whatever is written and
    whenever it is flushed, decoding everything up to the end gives what was written. *)
Inductive zop := ZWrite (bs : bytes) | ZFlush.
Fixpoint zrun (k : compressor) (s : zstate k) (ops : list zop) : zstate k * bytes :=
  match ops with
  | [] => (s, [])
  | ZWrite bs :: ops' => let (s1, o1) := zwrite k s bs in let (s2, o2) := zrun k s1 ops' in (s2, o1 ++ o2)
  | ZFlush :: ops' => let (s1, o1) := zflush k s in let (s2, o2) := zrun k s1 ops' in (s2, o1 ++ o2)
  end.
Fixpoint zinput (ops : list zop) : bytes :=
  match ops with
  | [] => []
  | ZWrite bs :: ops' => bs ++ zinput ops'
  | ZFlush :: ops' => zinput ops'
  end.
Definition decodes (k : compressor) (dec : alg -> bytes -> bytes) : Prop :=
  forall a level ops, let (s, out) := zrun k (znew k a level) ops in dec a (out ++ zclose k s) = zinput ops.

(** What a client makes of a body: it undoes the coding named in Content-Encoding. *)
Definition ce : bytes := str "Content-Encoding".
Definition client_body (dec : alg -> bytes -> bytes) (h : hmap) (body : bytes) : option bytes :=
  match hvalues h ce with
  | [] => Some body
  | [v] =>
      if beqb v (str "gzip") then Some (dec Gzip body)
      else if beqb v (str "deflate") then Some (dec Deflate body)
      else None
  | _ => None
  end.

(** A compressor that keeps its promise, for cases: it keeps its input to the end
    and then writes it after a mark, followed by its length in unary. *)
Definition mark : byte := "!"%char.
Fixpoint unary (s : bytes) : bytes := match s with [] => [] | _ :: s' => mark :: unary s' end.
Definition toy : compressor :=
  Compressor bytes (fun _ _ => []) (fun s bs => (s ++ bs, [])) (fun s => (s, [])) (fun s => "?"%char :: s ++ unary s).
Definition toy_dec (a : alg) (b : bytes) : bytes :=
  match b with _ :: b' => firstn (Nat.div2 (List.length b')) b' | [] => [] end.

(** ** Content negotiation *)

(** The text up to the first [c]. *)
Fixpoint up_to (c : byte) (s : bytes) : bytes :=
  match s with
  | [] => []
  | x :: s' => if Ascii.eqb x c then [] else x :: up_to c s'
  end.

(** The coding [t] is in the list [v], without regard to letter case and white space; a
    coding may be followed by parameters, for example a weight. *)
Definition listed (v t : bytes) : Prop :=
  exists p, In p (split_on ","%char v) /\ equal_fold (trim_space (up_to ";"%char p)) t = true.

(** [t] is in the list and has no parameters. *)
Definition listed_plainly (v t : bytes) : Prop :=
  exists p, In p (split_on ","%char v) /\ equal_fold (trim_space p) t = true.

(** ** Cookies *)

Definition same_cookie (a b : cookie) : Prop :=
  ck_name a = ck_name b /\ ck_path a = ck_path b /\ ck_domain a = ck_domain b.
(** [c] is the last cookie of its name, path and domain. *)
Definition last_added (l : list (option cookie)) (c : cookie) : Prop :=
  exists l1 l2, l = l1 ++ Some c :: l2 /\ forall c', In (Some c') l2 -> ~ same_cookie c c'.

(** Names and domains without a colon. *)
Definition colon : byte := ":"%char.
Definition no_colon (c : cookie) : Prop := ~ In colon (ck_name c) /\ ~ In colon (ck_domain c).

(** ** Headers of any response *)

(** The response at the bottom of compressed ones. *)
Fixpoint core (r : response) : response :=
  match r with RCompress _ r' => core r' | _ => r end.
Definition has_headers (r : response) : Prop :=
  match core r with RHijack _ | RCompressNil _ => False | _ => True end.

(** Everything of a response but its headers. *)
Fixpoint kept_kind (r : response) : response :=
  match r with
  | RHeaders h => RHeaders (HResp (hr_status h) (hr_ctype h) None (hr_cookies h))
  | RText h p => RText (HResp (hr_status h) (hr_ctype h) None (hr_cookies h)) p
  | RJson h p => RJson (HResp (hr_status h) (hr_ctype h) None (hr_cookies h)) p
  | RRaw h p => RRaw (HResp (hr_status h) (hr_ctype h) None (hr_cookies h)) p
  | RStream h p => RStream (HResp (hr_status h) (hr_ctype h) None (hr_cookies h)) p
  | RTemplate h p => RTemplate (HResp (hr_status h) (hr_ctype h) None (hr_cookies h)) p
  | RSse h p n => RSse (HResp (hr_status h) (hr_ctype h) None (hr_cookies h)) p n
  | RRedirect h p => RRedirect (HResp (hr_status h) (hr_ctype h) None (hr_cookies h)) p
  | RHijack ok => RHijack ok
  | RAdaptor hs cs a => RAdaptor None cs a
  | RCompress l r' => RCompress l (kept_kind r')
  | RCompressNil l => RCompressNil l
  end.

(** Everything of a response but its cookies, and the cookies. *)
Definition hr_plain (h : hresp) : hresp := HResp (hr_status h) (hr_ctype h) (hr_headers h) None.
Fixpoint but_cookies (r : response) : response :=
  match r with
  | RHeaders h => RHeaders (hr_plain h)
  | RText h p => RText (hr_plain h) p
  | RJson h p => RJson (hr_plain h) p
  | RRaw h p => RRaw (hr_plain h) p
  | RStream h p => RStream (hr_plain h) p
  | RTemplate h p => RTemplate (hr_plain h) p
  | RSse h p n => RSse (hr_plain h) p n
  | RRedirect h p => RRedirect (hr_plain h) p
  | RHijack ok => RHijack ok
  | RAdaptor hs _ a => RAdaptor hs None a
  | RCompress l r' => RCompress l (but_cookies r')
  | RCompressNil l => RCompressNil l
  end.
Definition cookie_list (r : response) : cookies :=
  match match core r with
        | RHeaders h | RText h _ | RJson h _ | RRaw h _ | RStream h _ | RTemplate h _ | RSse h _ _ | RRedirect h _ => hr_cookies h
        | RAdaptor _ cs _ => cs
        | _ => None
        end with
  | Some m => m
  | None => []
  end.

Definition cache_control : bytes := str "Cache-Control".

(** ** Adapted handlers *)

(** The handler leaves the header [n] alone. *)
Definition leaves (n : bytes) (a : act) : Prop :=
  match a with
  | ASet key _ | AAdd key _ | ADel key => ~ same_name key n
  | AStatus st => (100 <= st <= 999)%Z
  | AWrite _ | AFlush => True
  | APanic => False
  end.

(** The status that the handler sends: its first final one, unless it writes or flushes
    before.  The body that it writes. *)
Fixpoint acts_status (l : list act) : Z :=
  match l with
  | [] | AWrite _ :: _ | AFlush :: _ => 200
  | AStatus st :: l' => if ((100 <=? st) && (st <=? 199))%Z then acts_status l' else st
  | _ :: l' => acts_status l'
  end.
Definition acts_body (l : list act) : bytes := flat_map (fun a => match a with AWrite bs => bs | _ => [] end) l.
(** The handler panics, or it sends a status that is none. *)
Definition acts_fault (l : list act) : Prop := In APanic l \/ ~ (100 <= acts_status l <= 999)%Z.

(** ** Messages *)

(** [m'] is [m] with at most the case of its first letter changed, which is not a small
    letter any more. *)
Definition capitalised (m m' : bytes) : Prop :=
  List.length m' = List.length m /\ tl m' = tl m /\ equal_fold m m' = true /\
  forall c, In c (firstn 1 m') -> ~ (97 <= code c <= 122)%N.
