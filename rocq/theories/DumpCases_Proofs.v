(** * Cases for JSON bodies and [RequestDumper] *)
From Coq Require Import List NArith ZArith Ascii String Bool Lia Arith Permutation.
From Verif Require Import GoBase Http_Model Auth_Model Chain_Model Serve_Model Resp_Model Resp_Spec RespMisc_Proofs.
From Verif Require Import Json_Model Json_Spec JsonErr_Model JsonErr_Spec JsonErr_Proofs Dump_Model Dump_Spec Dump_Proofs.
Import ListNotations.
Local Open Scope string_scope.
Local Open Scope list_scope.
Local Open Scope N_scope.

Definition bare : ctx := Ctx None None None.

(** A payload with all kinds of values. *)
Definition order : gval :=
  GMap [(str "total", GInt (-120)); (str "open", GBool true); (str "note", GNil);
        (str "items", GSlice [GStr (str "<tea>"); GStr [ascii_of_N 195; ascii_of_N 169; ascii_of_N 255; ascii_of_N 10]])].
Lemma order_case :
  received (written_toy (fun m => m) (fun m => m) (json_response 201 (Some order) None None) get_req) =
    (201%Z, [(str "X-Content-Type-Options", [str "nosniff"]); (str "Content-Type", [str "application/json"])],
     str "{""items"":[""\u003ctea\u003e"",""" ++ [ascii_of_N 195; ascii_of_N 169] ++ str "\ufffd\n""],""note"":null,""open"":true,""total"":-120}") /\
  meant_status (HResp 201 (str "application/json") None None) 201 /\ with_body 201.
Proof. split; [vm_compute; reflexivity|]. split; [right; split; [discriminate|reflexivity]|]. repeat split; discriminate. Qed.

(** A handler that does not find what it looks for. *)
Definition looks : handler unit response nat :=
  fun _ _ n => (HReturn None (Some (EObjectNotFound (str "no user ""x"""))), S n).
Lemma looks_case :
  looks bare tt 0%nat = (HReturn None (Some (EObjectNotFound (str "no user ""x"""))), 1%nat) /\
  exists r, err_json_response looks bare tt 0%nat = (HReturn (Some r) None, 1%nat) /\
    received (written_toy (fun m => m) (fun m => m) r get_req) =
      (404%Z, [(str "X-Content-Type-Options", [str "nosniff"]); (str "Content-Type", [str "application/json"])],
       str "{""error"":""no user \""x\""""}").
Proof. split; [reflexivity|]. eexists. split; [reflexivity|]. vm_compute. reflexivity. Qed.
Lemma looks_response_case :
  received (written_toy (fun m => m) (fun m => m) (json_error_response 404 (Some (str "no user")) (Some [(str "x-a", str "1")]) None) get_req) =
      (404%Z, [(str "X-Content-Type-Options", [str "nosniff"]); (str "Content-Type", [str "application/json"]); (str "X-A", [str "1"])],
       str "{""error"":""No user""}") /\
  meant_status (HResp 404 (str "application/json") (Some [(str "x-a", str "1")]) None) 404 /\ with_body 404 /\
  one_spelling (some_headers (Some [(str "x-a", str "1")])).
Proof.
  split; [vm_compute; reflexivity|]. split; [right; split; [discriminate|reflexivity]|]. split; [repeat split; discriminate|].
  split; [repeat constructor; intros []|]. intros k1 v1 k2 v2 [E1|[]] [E2|[]] _. congruence.
Qed.

(** A handler that panics, in a file of the program. *)
Definition bursts : handler unit response nat := fun _ _ n => (HPanic (Some 7%nat), n).
Definition its_stack : ctx -> unit -> nat -> bytes := fun _ _ _ => str "main.go:12".
Lemma bursts_case :
  wrap_middleware bursts [] bare tt 0%nat = (HPanic (Some 7%nat), 0%nat) /\
  well_encoded (its_stack bare tt 0%nat) (map code (str "main.go:12")) /\
  exists r, registered_handler [Some err_json_response; Some (panic_recover_text its_stack)] [] bursts bare tt 0%nat = (HReturn (Some r) None, 0%nat) /\
    received (written_toy (fun m => m) (fun m => m) r get_req) =
      (500%Z, [(str "X-Content-Type-Options", [str "nosniff"]); (str "Content-Type", [str "application/json"])],
       str "{""error"":""recover from panic, stack: [main.go:12]""}").
Proof.
  split; [reflexivity|]. split; [apply plain_well; reflexivity|]. eexists. split; [reflexivity|]. vm_compute. reflexivity.
Qed.

(** A world with the header and the form of the request, a clock and a log. *)
Record scene := Scene { sn_header : option hmap; sn_form : option hmap; sn_clock : Z; sn_log : list bytes }.
Definition note (t : bytes) (w : scene) : scene := Scene (sn_header w) (sn_form w) (sn_clock w) (sn_log w ++ [t]).
Definition id_order (m : cookies) : cookies := m.
Definition name_only (c : cookie) : bytes := ck_name c ++ str "=1".
Definition visit : dreq :=
  DReq (str "GET") (str "HTTP/1.1") (str "/a?b=1") (str "/a?b=1") (str "1.2.3.4:5") None 0 (str "h") false [str "sid=1"].
Definition at_start : scene := Scene (Some [(str "X-Token", [str "t"])]) None 1000 [].
Definition greets : handler dreq response scene := fun _ _ w =>
  (HReturn (Some (RText (HResp 0 (str "text/plain") None (Some (new_http_cookie [Some (Cookie (str "c") [] [] [])]))) (str "hi"))) None,
   Scene (sn_header w) (sn_form w) (sn_clock w + 7) (sn_log w)).
Definition dumping : middleware dreq response scene :=
  request_dumper (fun d => d) sn_header sn_form sn_clock note id_order name_only.
Lemma greets_case :
  (exists r w', greets bare visit at_start = (HReturn (Some r) None, w') /\
     shown r 200 (Some []) [Cookie (str "c") [] [] []] /\ sn_header w' = sn_header at_start /\ sn_form w' = sn_form at_start) /\
  sn_log (snd (dumping greets bare visit at_start)) =
    [str "{""endTimeMs"":1007,""request"":{""contentLength"":0,""cookies"":[""sid=1""],""formFields"":null,""header"":{""X-Token"":[""t""]},""host"":""h"",""isSecure"":false,""method"":""GET"",""protocolVersion"":""HTTP/1.1"",""remoteAddress"":""1.2.3.4:5"",""requestURI"":""/a?b=1"",""transferEncoding"":null,""url"":""/a?b=1""},""response"":{""cookies"":[""c=1""],""header"":{},""statusCode"":200},""startTimeMs"":1000}"].
Proof.
  split; [|vm_compute; reflexivity]. eexists. eexists. split; [reflexivity|]. split; [|split; reflexivity].
  apply (sh_fields _ (HResp 0 (str "text/plain") None (Some (new_http_cookie [Some (Cookie (str "c") [] [] [])])))); [reflexivity|].
  left. split; reflexivity.
Qed.

(** A handler that takes the token out of the header. *)
Definition takes : handler dreq response scene := fun _ _ w =>
  (HReturn (Some (RHeaders (HResp 204 [] None None))) None, Scene (Some []) (sn_form w) (sn_clock w) (sn_log w)).
Lemma takes_case :
  (exists r w', takes bare visit at_start = (HReturn (Some r) None, w') /\ shown r 204 (Some []) [] /\
     sn_header at_start = Some [(str "X-Token", [str "t"])] /\ sn_header w' = Some []) /\
  sn_log (snd (dumping takes bare visit at_start)) =
    [str "{""endTimeMs"":1000,""request"":{""contentLength"":0,""cookies"":[""sid=1""],""formFields"":null,""header"":{},""host"":""h"",""isSecure"":false,""method"":""GET"",""protocolVersion"":""HTTP/1.1"",""remoteAddress"":""1.2.3.4:5"",""requestURI"":""/a?b=1"",""transferEncoding"":null,""url"":""/a?b=1""},""response"":{""header"":{},""statusCode"":204},""startTimeMs"":1000}"].
Proof.
  split; [|vm_compute; reflexivity]. eexists. eexists. split; [reflexivity|]. split; [|split; reflexivity].
  apply (sh_fields _ (HResp 204 [] None None)); [reflexivity|]. right. split; [discriminate|reflexivity].
Qed.

(** A handler that fails. *)
Definition fails : handler dreq response scene := fun _ _ w => (HReturn None (Some EAccessDenied), w).
Lemma fails_case : fails bare visit at_start = (HReturn None (Some EAccessDenied), at_start) /\
  sn_log (snd (dumping fails bare visit at_start)) = [].
Proof. split; reflexivity. Qed.

(** A request with a line break and quotes in it. *)
Definition odd : dreq :=
  DReq (str "GET") (str "HTTP/1.1") (str "/") (str "/") (str "1.2.3.4:5") (Some [str "chunked"]) (-1)
    (str "h" ++ [ascii_of_N 10] ++ str """<") true [].
Definition tells : handler dreq response scene := fun _ _ w => (HReturn (Some (RHijack (fun _ => true))) None, w).
Lemma odd_case :
  sn_log (snd (dumping tells bare odd (Scene None (Some []) 5 []))) =
    [str "{""endTimeMs"":5,""request"":{""contentLength"":-1,""formFields"":{},""header"":null,""host"":""h\n\""\u003c"",""isSecure"":true,""method"":""GET"",""protocolVersion"":""HTTP/1.1"",""remoteAddress"":""1.2.3.4:5"",""requestURI"":""/"",""transferEncoding"":[""chunked""],""url"":""/""},""response"":{""header"":null,""statusCode"":0},""startTimeMs"":5}"].
Proof. vm_compute. reflexivity. Qed.
Lemma greets_written :
  exists r' w1, dumping greets bare visit at_start = (HReturn (Some r') None, w1) /\
    received (written_toy (fun m => m) (fun m => m) r' get_req) =
      (200%Z, [(str "X-Content-Type-Options", [str "nosniff"]); (str "Content-Type", [str "text/plain"]);
               (str "Set-Cookie", [str "c="])], str "hi").
Proof. eexists. eexists. split; [reflexivity|]. vm_compute. reflexivity. Qed.
