(** * Compression levels *)
From Coq Require Import List NArith ZArith Ascii String Bool Lia.
From Verif Require Import GoBase Http_Model Auth_Model Chain_Model Serve_Model Resp_Model.
Import ListNotations.
Local Open Scope string_scope.
Local Open Scope list_scope.
Local Open Scope nat_scope.

Lemma level_out level : ~ (-1 <= level <= 9)%Z -> ((level <? -1) || (9 <? level))%Z = true.
Proof. intros H. destruct (Z.ltb_spec level (-1)); [reflexivity|]. destruct (Z.ltb_spec 9 level); [reflexivity|]. lia. Qed.
Lemma level_in level : (-1 <= level <= 9)%Z -> ((level <? -1) || (9 <? level))%Z = false.
Proof. intros H. destruct (Z.ltb_spec level (-1)); [lia|]. destruct (Z.ltb_spec 9 level); [lia|reflexivity]. Qed.

Lemma level_refused (Req World : Type) level (h : handler Req response World) c q w w' r :
  ~ (-1 <= level <= 9)%Z -> h c q w = (HReturn r None, w') ->
  let e := EOther (str "compression level not supported") in
  compress_response level h c q w = (HReturn None (Some e), w') /\
  forall supplier, err_response supplier (compress_response level h) c q w = (HReturn (supplier 500%N e) None, w').
Proof.
  intros L H e. assert (E : compress_response level h c q w = (HReturn None (Some e), w')).
  { unfold compress_response. rewrite H, (level_out _ L). reflexivity. }
  split; [exact E|]. intros supplier. unfold err_response. rewrite E. reflexivity.
Qed.

Lemma level_taken (Req World : Type) level (h : handler Req response World) c q w w' r :
  (-1 <= level <= 9)%Z -> h c q w = (HReturn (Some r) None, w') ->
  exists r', compress_response level h c q w = (HReturn (Some r') None, w') /\ status_code r' = status_code r /\ get_headers r' = get_headers r /\
    forall (k : compressor) oh oc render location redirect_body q' (o : rw k), hget (wq_headers q') (str "Accept-Encoding") = [] ->
      write oh oc render location redirect_body r' q' o = write oh oc render location redirect_body r q' o.
Proof.
  intros L H. exists (RCompress level r). unfold compress_response. rewrite H, (level_in _ L).
  split; [reflexivity|]. split; [reflexivity|]. split; [reflexivity|]. intros k oh oc render location rb q' o A.
  unfold write. cbn [write_cut]. rewrite A. reflexivity.
Qed.

Lemma level_errors (Req World : Type) level (h : handler Req response World) c q w w' :
  (forall r e, h c q w = (HReturn r (Some e), w') -> compress_response level h c q w = (HReturn None (Some e), w')) /\
  (forall v, h c q w = (HPanic v, w') -> compress_response level h c q w = (HPanic v, w')).
Proof. unfold compress_response. split; [intros r e -> | intros v ->]; reflexivity. Qed.

(** A handler that counts its calls and answers with a text. *)
Definition level_handler : handler unit response nat :=
  fun _ _ n => (HReturn (Some (RText (HResp 200 (str "text/plain") None None) (str "hello"))) None, S n).
Lemma level_case : forall c,
  (exists r, level_handler c tt 4 = (HReturn (Some r) None, 5) /\ compress_response 9 level_handler c tt 4 = (HReturn (Some (RCompress 9 r)) None, 5)) /\
  compress_response 10 level_handler c tt 4 = (HReturn None (Some (EOther (str "compression level not supported"))), 5) /\
  compress_response (-2) level_handler c tt 4 = (HReturn None (Some (EOther (str "compression level not supported"))), 5).
Proof. intros c. split; [eexists; split; reflexivity|]. split; reflexivity. Qed.
