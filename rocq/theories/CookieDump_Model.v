(** * Model of the cookies of the request in [RequestDumper] (middleware/dump.go 34-41). *)
From Coq Require Import List NArith ZArith Ascii String Bool.
From Verif Require Import GoBase Cookie_Model.
Import ListNotations.
Local Open Scope string_scope.
Local Open Scope list_scope.

(** The cookies that [Request.Cookies] makes have a name and a value only. *)
Definition only_value (v : bytes) : details := Details v None 0 false false SSUnset.

(** The texts that are logged (lines 34-38) for the lines of the header Cookie. *)
Definition dumped_cookies (lines : list bytes) : list bytes :=
  map (fun nv => cookie_string (fst nv) [] [] (only_value (snd nv))) (read_cookies lines).
