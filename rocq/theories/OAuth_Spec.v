(** * What the OAuth endpoints and providers should do. *)
From Coq Require Import List NArith ZArith Ascii String Bool Arith.
From Verif Require Import GoBase Http_Model Cache_Model Auth_Model Mux_Model Csrf_Model Csrf_Spec Chain_Model OAuth_Model.
Import ListNotations.
Local Open Scope string_scope.
Local Open Scope list_scope.
Local Open Scope nat_scope.

(** The first provider with the name. *)
Definition named {World : Type} (ps : list (provider World)) (name : bytes) (p : provider World) : Prop :=
  exists ps1 ps2, ps = ps1 ++ p :: ps2 /\ pv_name p = name /\ forall x, In x ps1 -> pv_name x <> name.

(** The first value of a query parameter; empty if there is none. *)
Definition query_value (q : oreq) (k v : bytes) : Prop :=
  (exists vs, alookup k (oq_params q) = Some (v :: vs)) \/
  v = [] /\ (alookup k (oq_params q) = None \/ alookup k (oq_params q) = Some []).

(** A request that starts a flow: it goes to the first endpoint and there is a
    provider for it. *)
Definition starts_flow {World : Type} (cfg : oconfig World) (q : oreq) : Prop :=
  oq_initiate q = true /\
  ((exists p, oc_providers cfg = [p]) \/
   List.length (oc_providers cfg) <> 1 /\ exists name p, query_value q (str "provider") name /\ name <> [] /\
     named (oc_providers cfg) name p).

(** The state that a flow starts with. *)
Definition state_of (q : oreq) : bytes := generate_unique_id 12 (oq_random q).

(** The latest flow with this state was started less than the expiration time ago. *)
Definition state_live {World : Type} (cfg : oconfig World) (qs : list oreq) (now : Z) (s : bytes) : Prop :=
  exists before q after, qs = before ++ q :: after /\ starts_flow cfg q /\ state_of q = s /\
    (now < oq_now q + oc_expiration cfg)%Z /\
    forall x, In x after -> starts_flow cfg x -> state_of x <> s.

(** The callback is in order: the provider is configured and reported no error, and
    the state is live if a cache is configured. *)
Definition in_order {World : Type} (cfg : oconfig World) (qs : list oreq) (q : oreq) (p : provider World) : Prop :=
  named (oc_providers cfg) (oq_provider_var q) p /\
  query_value q (str "error") [] /\
  (oc_cache cfg = true -> exists s, query_value q (str "state") s /\ state_live cfg qs (oq_now q) s).

(** What the handler of the application is to see: the token the provider gave for the
    code and, if requested, the user the provider named; with the world after the
    fetches. *)
Definition completes {World : Type} (cfg : oconfig World) (prefix base : bytes) (c : ctx) (q : oreq) (p : provider World)
  (w : World) (c' : ctx) (w' : World) : Prop :=
  exists code tok w1, query_value q (str "code") code /\
    pv_token p c (oc_website cfg ++ resolve_path prefix base ++ str "/" ++ pv_name p) code w = (FOk tok, w1) /\
    ((oc_fetch_user cfg = false /\ c' = Ctx (cx_principal c) (cx_nonce c) (Some tok) /\ w' = w1) \/
     (oc_fetch_user cfg = true /\ exists u, pv_user p (Ctx (cx_principal c) (cx_nonce c) (Some tok)) tok w1 = (FOk u, w') /\
        c' = Ctx (Some (user_principal u)) (cx_nonce c) (Some tok))).

(** ** Query strings *)

(** Decoding of a query string as a provider does it: pairs between ampersands, key
    and value at the first equals sign, plus signs and escapes. *)
Fixpoint unescape (s : bytes) : option bytes :=
  match s with
  | [] => Some []
  | c :: s' =>
      if Ascii.eqb c "%"%char then
        match s' with
        | x :: y :: s'' =>
            match hex_value x, hex_value y, unescape s'' with
            | Some a, Some b, Some r => Some (ascii_of_N (16 * a + b) :: r)
            | _, _, _ => None
            end
        | _ => None
        end
      else if Ascii.eqb c "+"%char then option_map (cons " "%char) (unescape s')
      else option_map (cons c) (unescape s')
  end.
Fixpoint cut_at (c : byte) (s : bytes) : bytes * bytes :=
  match s with
  | [] => ([], [])
  | x :: s' => if Ascii.eqb x c then ([], s') else let (a, b) := cut_at c s' in (x :: a, b)
  end.
Definition decode_pair (s : bytes) : option (bytes * bytes) :=
  let (k, v) := cut_at "="%char s in
  match unescape k, unescape v with Some k', Some v' => Some (k', v') | _, _ => None end.

(** The query of a URL has the value under the key: the first pair with this key. *)
Definition url_query_has (url k v : bytes) : Prop :=
  exists before after, let pieces := split_on "&"%char (snd (cut_at "?"%char url)) in
    map decode_pair pieces = map Some before ++ Some (k, v) :: after /\ ~ In k (map fst before).

(** A word is among the words of a text. *)
Definition has_word (s w : bytes) : Prop := In w (split_on " "%char s).
