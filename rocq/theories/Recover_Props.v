(** * Property C127: panics while a response is written *)
From Coq Require Import List NArith ZArith Ascii String Bool Arith.
From Verif Require Import GoBase Http_Model Pattern_Model Url_Model Router_Model Chain_Model Serve_Model
  Mux_Model Resp_Model Cors_Model App_Model Chain_Spec Resp_Spec App_Spec Recover_Spec Witness_Proofs CorsCases_Proofs Recover_Proofs.
Import ListNotations.
Local Open Scope string_scope.
Local Open Scope list_scope.
Local Open Scope nat_scope.

(** C127 is false: with [ErrResponse] around [PanicRecover], a panic of a handler itself
    is answered by the response for errors, but a panic of any faulty adapted handler
    or of any template ends the request: nothing is logged, no status is sent. *)
Theorem C127_recover_refuted : forall files pages k oh oc render location redirect_body grow acts h st pieces x w,
  acts_fault acts -> meant_status h st -> with_body st ->
  let a := fst (acalls grow 60 lit_engine (fst (new_app 60 lit_engine false [] None)) careful_calls) in
  let get p := app_serve (failing acts h pieces) careful files pages k oh oc render location redirect_body 60 lit_engine a (plain_request GET p) zeros x w in
  outcome (get (str "/now")) = ([EvRun 0; EvWrite (RText (HResp 500 [] None None) (str "sorry"))], S w,
    (500%Z, [(str "X-Content-Type-Options", [str "nosniff"])], str "sorry"), SDone) /\
  (exists b, outcome (get (str "/adapted")) = ([EvRun 1; EvWrite (RAdaptor None None acts)], S w, b, SCrash)) /\
  (exists b, outcome (get (str "/page")) = ([EvRun 2; EvWrite (RTemplate h (pieces, WPanic))], S w, b, SCrash)).
Proof. exact (@careful_crash). Qed.
Print Assumptions C127_recover_refuted.

(** In every program and whatever its middlewares: once a response that breaks is
    written, the request ends by a panic, and neither an error is logged nor a status sent. *)
Theorem C127_crash : forall (W : Type) (user : nat -> handler areq response W) mid files pages k oh oc render location redirect_body
    grow fuel re ci context mapping xs cs f q buf x w r,
  breaks (WReq (xq_method (rq_x q)) (xq_headers (rq_x q)) (rq_major q)) r ->
  let '(evs, w', b, fin) := app_serve user mid files pages k oh oc render location redirect_body f re
      (fst (acalls grow fuel re (fst (new_app fuel re ci context mapping)) (AMux (CCommon 0 xs) :: cs))) q buf x w in
  In (EvWrite r) evs -> fin = SCrash /\ exists i, visible evs = [EvRun i; EvWrite r].
Proof. exact (@written_crash). Qed.
Print Assumptions C127_crash.

(** C127, what holds: with [PanicRecover] as outermost common middleware, whatever the
    handler and its other middlewares do by panicking with a value ends as an error that is
    logged and answered by 500; a crash is left to routing, to panics with nil, to results
    that are nil, and to the writing of the response.
    Missing: panics while the response is written. *)
Theorem C127_recover_partial : forall (W : Type) (user : nat -> handler areq response W) mid files pages k oh oc render location redirect_body
    grow fuel re ci context j xs cs f q buf x w,
  no_debug cs -> mid j = panic_recover ->
  let '(evs, w', b, fin) := app_serve user mid files pages k oh oc render location redirect_body f re
      (fst (acalls grow fuel re (fst (new_app fuel re ci context None)) (AMux (CCommon 0 (Some j :: xs)) :: cs))) q buf x w in
  (visible evs = [EvStatus 404] /\ w' = w /\ received b = (404%Z, [], []) /\ fin = SDone) \/
  (visible evs = [] /\ w' = w /\ fin <> SDone) \/
  (exists i h ms inner mc, nested (user h) ms inner /\ (forall m, In m ms -> exists n, m = mid n) /\
     mc_method mc = xq_method (rq_x q) /\ mc_path mc = rq_path q /\ w' = snd (inner x (AReq q mc) w) /\
     match fst (inner x (AReq q mc) w) with
     | HPanic (Some v) => exists e, visible evs = [EvRun i; EvLog (Uncaught e); EvStatus 500] /\ received b = (500%Z, [], []) /\ fin = SDone
     | HReturn _ (Some e) => visible evs = [EvRun i; EvLog (Uncaught e); EvStatus 500] /\ received b = (500%Z, [], []) /\ fin = SDone
     | HReturn (Some r) None => b = snd (sends k oh oc render location redirect_body q r) /\
         match fst (sends k oh oc render location redirect_body q r) with
         | Wrote None => visible evs = [EvRun i; EvWrite r] /\ fin = SDone
         | Wrote (Some e) => visible evs = [EvRun i; EvWrite r; EvLog (WriteFailed e)] /\ fin = SDone
         | WPanic => visible evs = [EvRun i; EvWrite r] /\ fin = SCrash
         end
     | HReturn None None | HPanic None => visible evs = [EvRun i] /\ fin = SCrash
     end).
Proof. exact (@recovering). Qed.
Print Assumptions C127_recover_partial.

Example C127_breaks_case :
  let q := WReq GET [(str "Accept-Encoding", [str "gzip"])] 1%N in
  breaks q (RCompress 5 (RCompress 1 (RRaw (HResp 200 [] None None) (Some ([str "part"], WPanic))))) /\
  breaks q (RAdaptor None None [AWrite (str "part"); APanic]) /\ breaks q (RRedirect (HResp 0 [] None None) (str "/a")) /\
  breaks (WReq GET [] 2%N) (RSse (HResp 200 [] None None) None 3) /\ breaks q (RCompress 5 (RHijack (fun _ => false))) /\
  ~ breaks q (RCompress 5 (RText (HResp 200 [] None None) (str "all"))).
Proof. exact breaks_case. Qed.

Example C127_recover_case : no_debug (tl careful_calls) /\ careful 1 = panic_recover /\
  exists acts, acts_fault acts /\ fst (failing acts (HResp 200 [] None None) [] 0 nobody (AReq (plain_request GET (str "/now")) (MCtx GET (str "/now") None [])) 0) = HPanic (Some 7).
Proof. exact recovering_case. Qed.
