(** * Property C146: path variables while a request is handled *)
From Coq Require Import List NArith Ascii String Bool.
From Verif Require Import GoBase Glob_Model Pattern_Model Url_Model Match_Model Router_Model Pattern_Spec Url_Spec Routing_Spec Loose_Spec Witness_Proofs
  VarTime_Model VarTime_Spec VarTime_Proofs.
Import ListNotations.
Local Open Scope string_scope.
Local Open Scope list_scope.
Local Open Scope nat_scope.

(** C146 is false: whoever changes the path in the URL of the request, through a copy of the
    context or below a clone, makes [PathVar] panic for all others. *)
Theorem C146_path_refuted : forall p path segs rest name v,
  path_var p path segs name = Some v -> v <> [] ->
  let m := routed p path segs rest in
  snd (do_deed (do_deeds m [Pass 0; SetPath 1 []]) (Ask 0 name)) = Some None /\
  snd (do_deed (do_deeds m [CloneOf 0; SetPath 0 []]) (Ask 1 name)) = Some None.
Proof. exact path_shared. Qed.
Print Assumptions C146_path_refuted.

(** Resetting the segments of a copy empties the variables of the original. *)
Theorem C146_reset_refuted : forall p path segs rest name v,
  path_var p path segs name = Some v -> v <> [] ->
  snd (do_deed (do_deeds (routed p path segs rest) (Pass 0 :: map (ResetAt 1) (seq 0 (List.length segs)))) (Ask 0 name)) = Some (Some []).
Proof. exact segments_shared. Qed.
Print Assumptions C146_reset_refuted.

(** C146, what holds: a context whose request, segments and bounds nobody has touched gives
    the values of the segments that the pattern reads at the variables, whatever else is done
    with copies, clones and other requests.
    Missing: requests whose URL is changed and segments that are written by others. *)
Theorem C146_kept_partial : forall fuel re ci regs r outs f mth path ts buf h rec segs,
  handle_all fuel re (new_router ci) regs = (r, outs) ->
  Forall (fun rg => countable (re_ok re) ci (reg_text rg)) regs ->
  (blen path < 65536)%N -> segments_of path ts -> List.length buf = 19 ->
  dispatch_request f re r mth path buf = Calls h rec segs ->
  exists mth' text ks bs, In ((mth', text, h), Registered) (combine regs outs) /\ same_method mth' mth /\
    pieces_of (re_ok re) ci text ks /\ reads_as ci (meets (re_match re)) ks ts bs /\
    forall rest l i name, untouched l i ->
      snd (do_deed (do_deeds (routed rec path segs rest) l) (Ask i name)) = Some (Some (match value_of name bs with Some v => v | None => [] end)).
Proof. exact kept_routed. Qed.
Print Assumptions C146_kept_partial.

Example C146_case : exists rec segs rest,
  dispatch_request 100 lit_engine shop_router (str "get") shop_path zeros = Calls 1 rec segs /\ rest <> [] /\
  let m := routed rec shop_path segs rest in
  untouched two_hands 0 /\ untouched two_hands 1 /\ ~ untouched two_hands 2 /\ untouched two_hands 3 /\ untouched two_hands 4 /\
  map (fun i => snd (do_deed (do_deeds m two_hands) (Ask i (str "id")))) [0; 1; 2; 3; 4] =
    [Some (Some (str "42")); Some (Some (str "42")); Some (Some []); Some (Some (str "42")); Some (Some (str "42"))] /\
  snd (do_deed (do_deeds m [Pass 0; SetPath 1 (str "/orders/a7b")]) (Ask 0 (str "id"))) = Some (Some (str "a7")).
Proof. exact time_case. Qed.

(** Giving [PathSegments] other bounds, also beyond its length as Go allows, leaves the
    variables of the segments between them, counted from the first of these. *)
Theorem C146_cut_partial : forall p path segs rest a b c d name,
  a <= b -> b <= List.length (segs ++ rest) -> c <= d -> a + d <= List.length (segs ++ rest) ->
  snd (do_deed (do_deeds (routed p path segs rest) [Cut 0 a b; Cut 0 c d]) (Ask 0 name)) =
    Some (path_var p path (firstn (d - c) (skipn (a + c) (segs ++ rest))) name).
Proof. exact cut_twice. Qed.
Print Assumptions C146_cut_partial.

Example C146_cut_case : exists rec segs rest,
  dispatch_request 100 lit_engine shop_router (str "get") shop_path zeros = Calls 1 rec segs /\ rest <> [] /\ List.length segs = 4 /\
  let m := routed rec shop_path segs rest in
  snd (do_deed (do_deeds m [Cut 0 1 2; Cut 0 0 1]) (Ask 0 (str "id"))) = Some (Some (str "42")) /\
  snd (do_deed (do_deeds m [Cut 0 0 1; Cut 0 0 1]) (Ask 0 (str "id"))) = Some (Some []) /\
  snd (do_deed (do_deeds m [Cut 0 0 1; Cut 0 0 2]) (Ask 0 (str "id"))) = Some (Some (str "42")).
Proof. exact cut_case. Qed.
