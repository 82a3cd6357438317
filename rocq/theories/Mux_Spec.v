(** * What prefixes and common middlewares are supposed to mean. *)
From Coq Require Import List Ascii String NArith Arith.
From Verif Require Import GoBase Mux_Model.
Import ListNotations.
Local Open Scope list_scope.

(** [joined a b r]: [r] is [a] and [b] with exactly one slash at the joint.  An empty
    part is no part. *)
Inductive joined : bytes -> bytes -> bytes -> Prop :=
| jn_left : forall b, joined [] b b
| jn_right : forall a, joined a [] a
| jn_none : forall a b, a <> [] -> b <> [] -> last a "a"%char <> "/"%char -> hd "a"%char b <> "/"%char ->
    joined a b (a ++ "/"%char :: b)
| jn_end : forall a b, b <> [] -> hd "a"%char b <> "/"%char -> joined (a ++ ["/"%char]) b (a ++ "/"%char :: b)
| jn_start : forall a b, a <> [] -> last a "a"%char <> "/"%char -> joined a ("/"%char :: b) (a ++ "/"%char :: b)
| jn_both : forall a b, joined (a ++ ["/"%char]) ("/"%char :: b) (a ++ "/"%char :: b).

(** [prefixed ps r]: [r] is the concatenation of the prefixes. *)
Inductive prefixed : list bytes -> bytes -> Prop :=
| pf_none : prefixed [] []
| pf_more : forall ps a p r, prefixed ps a -> joined a p r -> prefixed (ps ++ [p]) r.

(** ** Middlewares as values

    A mux is a prefix and a list of middlewares; a new mux gets a copy of the list
    of its parent, adding to one mux changes that mux only. *)
Record vmux := VMux { vm_prefix : bytes; vm_common : list mref }.

(** [value_step ms c ms' g]: the call [c] leads from the muxes [ms] to [ms'] and
    gives [g]. *)
Inductive value_step : list vmux -> mcall -> list vmux -> mgives -> Prop :=
| vs_clone : forall ms m x, nth_error ms m = Some x ->
    value_step ms (CClone m) (ms ++ [x]) (GMux (List.length ms))
| vs_route : forall ms m x p r, nth_error ms m = Some x -> joined (vm_prefix x) p r ->
    value_step ms (CRoute m p) (ms ++ [VMux r (vm_common x)]) (GMux (List.length ms))
| vs_common : forall before x after xs,
    value_step (before ++ x :: after) (CCommon (List.length before) xs)
      (before ++ VMux (vm_prefix x) (vm_common x ++ xs) :: after) GNothing
| vs_handle : forall ms m x method path r own h, nth_error ms m = Some x -> joined (vm_prefix x) path r ->
    value_step ms (CHandle m method path own h) ms (GReg method r (vm_common x) own h).

Inductive value_run : list vmux -> list mcall -> list vmux -> list mgives -> Prop :=
| vr_end : forall ms, value_run ms [] ms []
| vr_more : forall ms c ms1 g cs ms2 gs, value_step ms c ms1 g -> value_run ms1 cs ms2 gs ->
    value_run ms (c :: cs) ms2 (g :: gs).

(** The calls after which a mux is no longer a new one (C26): a prefix that is
    empty or the one the mux already has. *)
Definition idle_prefix (ms : list vmux) (c : mcall) : Prop :=
  match c with
  | CRoute m p => p = [] \/ exists x, nth_error ms m = Some x /\ vm_prefix x = p
  | _ => False
  end.

(** No call of the history asks for such a prefix. *)
Definition never_idle (cs : list mcall) : Prop :=
  forall before c after ms gs, cs = before ++ c :: after -> value_run [VMux [] []] before ms gs -> ~ idle_prefix ms c.

(** The muxes among [known] and those made from them, directly or not, by the calls
    [cs]; the next mux that is made has number [n]. *)
Fixpoint heirs (n : nat) (known : list nat) (cs : list mcall) : list nat :=
  match cs with
  | [] => known
  | (CClone k | CRoute k _) :: cs' => heirs (S n) (if in_dec Nat.eq_dec k known then n :: known else known) cs'
  | _ :: cs' => heirs n known cs'
  end.

(** A program that asks for one prefix after the other, each time on the mux that it
    got last. *)
Fixpoint nest (grow : nat -> nat -> nat) (st : mstate) (m : nat) (ps : list bytes) : option (mstate * nat) :=
  match ps with
  | [] => Some (st, m)
  | p :: ps' =>
      match mcall_step grow st (CRoute m p) with
      | (st1, GMux m1) => nest grow st1 m1 ps'
      | _ => None
      end
  end.
