(** * Reading what the compressors write at level 0 *)
From Coq Require Import List NArith ZArith Ascii String Bool Lia Arith Permutation.
From Verif Require Import GoBase Http_Model Auth_Model Chain_Model Serve_Model Resp_Model Resp_Spec Zip_Model Zip_Spec Resp_Proofs RespBody_Proofs RespMisc_Proofs.
Import ListNotations.
Local Open Scope N_scope.

(** ** Blocks *)

Lemma code_of n : n < 256 -> code (ascii_of_N n) = n.
Proof. apply N_ascii_embedding. Qed.
Lemma blen_app a b : blen (a ++ b) = blen a + blen b.
Proof. unfold blen. rewrite app_length. lia. Qed.

Lemma inflate_header f last n r : n < 65536 ->
  inflate (S f) (stored_header last n ++ r) =
  if n <=? blen r then
    if last then Some (firstn (N.to_nat n) r, skipn (N.to_nat n) r)
    else match inflate f (skipn (N.to_nat n) r) with Some (d, t) => Some (firstn (N.to_nat n) r ++ d, t) | None => None end
  else None.
Proof.
  intros H. unfold stored_header. cbn [map app inflate].
  assert (M : n mod 256 < 256) by (apply N.mod_lt; discriminate). assert (D : n / 256 < 256) by (apply N.div_lt_upper_bound; lia).
  rewrite (code_of (if last then 1 else 0)) by (destruct last; reflexivity).
  assert (G : forall m, 255 - m < 256) by (intros m; lia).
  rewrite (code_of (255 - n mod 256) (G _)), (code_of (255 - n / 256) (G _)), (code_of (n mod 256) M), (code_of (n / 256) D).
  replace (255 - n mod 256 + n mod 256) with 255 by lia. replace (255 - n / 256 + n / 256) with 255 by lia.
  replace (n mod 256 + 256 * (n / 256)) with n by (pose proof (N.div_mod n 256); lia).
  destruct last; cbn [N.eqb Pos.eqb]; [change (1 mod 8 <? 2) with true; change (1 mod 2 =? 1) with true|change (0 mod 8 <? 2) with true; change (0 mod 2 =? 1) with false];
    cbn [andb]; change (255 =? 255) with true; cbn [andb]; destruct (n <=? blen r); reflexivity.
Qed.

(** Blocks one after the other, none of them the last, and their data. *)
Inductive blocks : bytes -> bytes -> Prop :=
| no_blocks : blocks [] []
| one_more data o d : blen data < 65536 -> blocks o d -> blocks (stored_block data ++ o) (data ++ d).

Lemma blocks_app o1 d1 o2 d2 : blocks o1 d1 -> blocks o2 d2 -> blocks (o1 ++ o2) (d1 ++ d2).
Proof. intros B1 B2. induction B1 as [|data o d L B IH]; [exact B2|]. rewrite <- !app_assoc. constructor; assumption. Qed.
Lemma block_alone data : blen data < 65536 -> blocks (stored_block data) data.
Proof. intros L. pose proof (one_more data [] [] L no_blocks) as B. rewrite !app_nil_r in B. exact B. Qed.

Lemma inflate_block f data r : blen data < 65536 ->
  inflate (S f) (stored_block data ++ r) = match inflate f r with Some (d, t) => Some (data ++ d, t) | None => None end.
Proof.
  intros L. unfold stored_block. rewrite <- app_assoc, inflate_header by exact L. rewrite blen_app.
  destruct (N.leb_spec (blen data) (blen data + blen r)); [|lia]. unfold blen. rewrite Nat2N.id.
  rewrite firstn_app, skipn_app, Nat.sub_diag, firstn_all, skipn_all, firstn_O, app_nil_r. reflexivity.
Qed.
Lemma inflate_more : forall f s r, inflate f s = Some r -> forall f', (f <= f')%nat -> inflate f' s = Some r.
Proof.
  induction f as [|f IH]; intros s r H f' L; [discriminate|]. destruct f' as [|f']; [lia|]. cbn [inflate] in *.
  destruct s as [|h [|l [|m [|l' [|m' s]]]]]; try discriminate.
  destruct (_ && _); [|discriminate]. destruct (code h mod 2 =? 1); [exact H|].
  destruct (inflate f _) as [[d t]|] eqn:E; [|discriminate]. rewrite (IH _ _ E f') by lia. exact H.
Qed.
Lemma blocks_inflate o d : blocks o d -> forall f s d' t, inflate f s = Some (d', t) -> inflate (List.length o + f) (o ++ s) = Some (d ++ d', t).
Proof.
  intros B. induction B as [|data o d L B IH]; intros f s d' t H; [exact H|].
  rewrite <- app_assoc. apply inflate_more with (f := S (List.length o + f)).
  - rewrite inflate_block by exact L. rewrite (IH f s d' t H), <- app_assoc. reflexivity.
  - rewrite app_length. unfold stored_block. rewrite app_length. cbn [stored_header map List.length]. lia.
Qed.
Lemma inflate_end f t : inflate (S f) (stored_header true 0 ++ t) = Some ([], t).
Proof. rewrite inflate_header by lia. destruct (N.leb_spec 0 (blen t)); [reflexivity|lia]. Qed.
Lemma blocks_inflated o d t : blocks o d -> inflated (o ++ stored_header true 0 ++ t) = Some (d, t).
Proof.
  intros B. unfold inflated. apply inflate_more with (f := (List.length o + 1)%nat).
  - rewrite (blocks_inflate o d B 1 (stored_header true 0 ++ t) [] t (inflate_end 0 t)), app_nil_r. reflexivity.
  - rewrite !app_length. cbn [stored_header map List.length]. lia.
Qed.

(** ** The machine of flate *)

Lemma flate_write_blocks : forall bs w w' o, flate_write w bs = (w', o) -> blen w < 65536 -> blen w' < 65536 /\ exists d, blocks o d /\ d ++ w' = w ++ bs.
Proof.
  induction bs as [|c bs IH]; intros w w' o H L; cbn [flate_write] in H.
  - injection H as <- <-. split; [exact L|]. exists []. split; [constructor|]. rewrite app_nil_r. reflexivity.
  - destruct (N.eqb_spec (blen w) 65535) as [E|E].
    + destruct (flate_write [c] bs) as [w1 o1] eqn:F. injection H as <- <-. destruct (IH [c] w1 o1 F ltac:(reflexivity)) as [L' (d & B & Q)].
      split; [exact L'|]. exists (w ++ d). split; [constructor; assumption|]. rewrite <- app_assoc, Q. reflexivity.
    + destruct (IH _ _ _ H) as [L' (d & B & Q)]; [rewrite blen_app; change (blen [c]) with 1; lia|].
      split; [exact L'|]. exists d. split; [exact B|]. rewrite Q, <- app_assoc. reflexivity.
Qed.
Lemma sync_blocks w : blen w < 65536 -> blocks (flate_sync w) w.
Proof. intros L. destruct w as [|c w]; [constructor|]. apply block_alone. exact L. Qed.
Lemma flush_blocks w : blen w < 65536 -> blocks (flate_flush w) w.
Proof.
  intros L. unfold flate_flush. rewrite <- (app_nil_r w) at 2. apply blocks_app; [apply sync_blocks; exact L|].
  change (stored_header false 0) with (stored_block []). apply block_alone. reflexivity.
Qed.

Definition flate_at (w out input : bytes) : Prop := blen w < 65536 /\ exists d, blocks out d /\ d ++ w = input.
Lemma flate_run : forall ops w out0 input0, flate_at w out0 input0 ->
  exists w' out, zrun storing (ZFlate w) ops = (ZFlate w', out) /\ flate_at w' (out0 ++ out) (input0 ++ zinput ops).
Proof.
  induction ops as [|[bs|] ops IH]; intros w out0 input0 (L & d & B & Q).
  - exists w, []. split; [reflexivity|]. cbn [zinput]. rewrite !app_nil_r. split; [exact L|]. exists d. auto.
  - cbn [zrun zinput]. change (zwrite storing (ZFlate w) bs) with (let (w', o) := flate_write w bs in (ZFlate w', o)).
    destruct (flate_write w bs) as [w1 o1] eqn:F. destruct (flate_write_blocks _ _ _ _ F L) as [L1 (d1 & B1 & Q1)].
    destruct (IH w1 (out0 ++ o1) (input0 ++ bs)) as (w' & out & R & A).
    { split; [exact L1|]. exists (d ++ d1). split; [apply blocks_app; assumption|]. rewrite <- app_assoc, Q1, app_assoc, Q. reflexivity. }
    change (zstate storing) with zwriter in R. rewrite R. exists w', (o1 ++ out). split; [reflexivity|]. rewrite !app_assoc in *. exact A.
  - cbn [zrun zinput]. change (zflush storing (ZFlate w)) with (ZFlate [], flate_flush w).
    destruct (IH [] (out0 ++ flate_flush w) input0) as (w' & out & R & A).
    { split; [reflexivity|]. exists (d ++ w). split; [apply blocks_app; [exact B|apply flush_blocks; exact L]|]. rewrite app_nil_r. exact Q. }
    rewrite R. exists w', (flate_flush w ++ out). split; [reflexivity|]. rewrite app_assoc. exact A.
Qed.
Lemma flate_all w out input : flate_at w out input -> exists o, blocks o input /\ out ++ flate_close w = o ++ stored_header true 0.
Proof.
  intros (L & d & B & Q). exists (out ++ flate_sync w). split; [rewrite <- Q; apply blocks_app; [exact B|apply sync_blocks; exact L]|].
  unfold flate_close. rewrite app_assoc. reflexivity.
Qed.

(** ** The checksum *)

Lemma shift_linear x y : crc_shift (N.lxor x y) = N.lxor (crc_shift x) (crc_shift y).
Proof.
  unfold crc_shift. assert (O : N.odd (N.lxor x y) = xorb (N.odd x) (N.odd y)) by (rewrite <- !N.bit0_odd; apply N.lxor_spec).
  assert (D : N.div2 (N.lxor x y) = N.lxor (N.div2 x) (N.div2 y)) by (rewrite !N.div2_spec; apply N.shiftr_lxor).
  rewrite O, D. set (p := 3988292384). destruct (N.odd x), (N.odd y); cbn [xorb].
  - rewrite (N.lxor_assoc (N.div2 x) p), (N.lxor_comm p), (N.lxor_assoc (N.div2 y)), N.lxor_nilpotent, N.lxor_0_r. reflexivity.
  - rewrite !N.lxor_assoc. f_equal. apply N.lxor_comm.
  - apply N.lxor_assoc.
  - reflexivity.
Qed.
Lemma iter_linear n x y : Nat.iter n crc_shift (N.lxor x y) = N.lxor (Nat.iter n crc_shift x) (Nat.iter n crc_shift y).
Proof. induction n as [|n IH]; [reflexivity|]. cbn [Nat.iter nat_rect]. change (nat_rect (fun _ => N) ?a (fun _ => crc_shift) n) with (Nat.iter n crc_shift a). rewrite IH. apply shift_linear. Qed.
Lemma shift_even h : crc_shift (2 * h) = h.
Proof. unfold crc_shift. rewrite N.odd_mul. cbn [N.odd andb]. rewrite N.div2_div, N.mul_comm, N.div_mul by discriminate. reflexivity. Qed.
Lemma iter_byte h : Nat.iter 8 crc_shift (h * 256) = h.
Proof.
  replace (h * 256) with (2 * (2 * (2 * (2 * (2 * (2 * (2 * (2 * h)))))))) by lia.
  cbn [Nat.iter nat_rect]. rewrite !shift_even. reflexivity.
Qed.
Lemma split_byte c : c = N.lxor (c mod 256) (c / 256 * 256).
Proof.
  change 256 with (2 ^ 8). rewrite <- N.shiftr_div_pow2, <- N.shiftl_mul_pow2. apply N.bits_inj. intros i. rewrite N.lxor_spec.
  destruct (N.lt_ge_cases i 8) as [L|L].
  - rewrite N.mod_pow2_bits_low, N.shiftl_spec_low by exact L. rewrite xorb_false_r. reflexivity.
  - rewrite N.mod_pow2_bits_high, N.shiftl_spec_high', N.shiftr_spec' by exact L. replace (i - 8 + 8) with i by lia. rewrite xorb_false_l. reflexivity.
Qed.
Lemma crc_byte_iter c b : crc_byte c b = Nat.iter 8 crc_shift (N.lxor c (code b)).
Proof.
  assert (E : N.lxor c (code b) = N.lxor (N.lxor (c mod 256) (code b)) (c / 256 * 256)).
  { rewrite N.lxor_assoc, (N.lxor_comm (code b)), <- N.lxor_assoc, <- split_byte. reflexivity. }
  rewrite E, iter_linear, iter_byte. reflexivity.
Qed.
Lemma shift_bit r m : crc_shift (N.lxor r m) = N.lxor (crc_bit r (N.odd m)) (m / 2).
Proof.
  unfold crc_shift, crc_bit. assert (O : N.odd (N.lxor r m) = xorb (N.odd r) (N.odd m)) by (rewrite <- !N.bit0_odd; apply N.lxor_spec).
  assert (D : N.div2 (N.lxor r m) = N.lxor (r / 2) (m / 2)) by (rewrite N.div2_spec, N.shiftr_lxor, <- !N.div2_spec, !N.div2_div; reflexivity).
  rewrite O, D. destruct (xorb _ _); [|reflexivity]. rewrite !N.lxor_assoc. f_equal. apply N.lxor_comm.
Qed.
Lemma crc_byte_bits c b : crc_byte c b = fold_left crc_bit (bits_of b) c.
Proof.
  rewrite crc_byte_iter. unfold bits_of. cbn [map seq fold_left].
  assert (T : forall i, N.testbit (code b) (N.of_nat i) = N.odd (code b / 2 ^ N.of_nat i)) by (intros i; rewrite N.testbit_odd, N.shiftr_div_pow2; reflexivity).
  rewrite !T. cbn [Nat.iter nat_rect].
  assert (H : forall i, code b / 2 ^ N.of_nat i / 2 = code b / 2 ^ N.of_nat (S i)).
  { intros i. rewrite N.div_div by (try apply N.pow_nonzero; discriminate). f_equal. rewrite Nat2N.inj_succ, N.pow_succ_r'. lia. }
  replace (code b) with (code b / 2 ^ N.of_nat 0) at 1 by (cbn; apply N.div_1_r).
  do 8 (rewrite shift_bit, H).
  replace (code b / 2 ^ N.of_nat 8) with 0; [apply N.lxor_0_r|]. symmetry. apply N.div_small. unfold code. pose proof (N_ascii_bounded b). cbn. lia.
Qed.
Lemma crc_fold : forall s c, fold_left crc_byte s c = fold_left crc_bit (flat_map bits_of s) c.
Proof. induction s as [|b s IH]; intros c; [reflexivity|]. cbn [fold_left flat_map]. rewrite fold_left_app, <- crc_byte_bits. apply IH. Qed.
Lemma crc_is s : crc_update 0 s = crc32 s.
Proof. unfold crc_update, crc32. rewrite crc_fold. reflexivity. Qed.
Lemma crc_more c p q : crc_update (crc_update c p) q = crc_update c (p ++ q).
Proof. unfold crc_update. rewrite (N.lxor_assoc _ 4294967295), N.lxor_nilpotent, N.lxor_0_r, fold_left_app. reflexivity. Qed.

Lemma lxor_small a b : a < 2 ^ 32 -> b < 2 ^ 32 -> N.lxor a b < 2 ^ 32.
Proof.
  intros A B. assert (E : N.lxor a b = N.lxor a b mod 2 ^ 32); [|rewrite E; apply N.mod_lt; discriminate].
  rewrite <- N.land_ones. apply N.bits_inj. intros i. rewrite N.land_spec, !N.lxor_spec.
  destruct (N.lt_ge_cases i 32) as [L|L]; [rewrite N.ones_spec_low by exact L; rewrite andb_true_r; reflexivity|].
  rewrite <- (N.mod_small a (2 ^ 32)), <- (N.mod_small b (2 ^ 32)) by assumption. rewrite !N.mod_pow2_bits_high by exact L. reflexivity.
Qed.
Lemma crc_small s : crc32 s < 2 ^ 32.
Proof.
  unfold crc32. apply lxor_small; [|reflexivity]. assert (G : forall l c, c < 2 ^ 32 -> fold_left crc_bit l c < 2 ^ 32); [|apply G; reflexivity].
  induction l as [|x l IH]; intros c L; [exact L|]. cbn [fold_left]. apply IH. unfold crc_bit.
  assert (H : c / 2 < 2 ^ 32) by (apply N.div_lt_upper_bound; lia). destruct (xorb _ _); [apply lxor_small; [exact H|reflexivity]|exact H].
Qed.

Lemma le32_number n : n < 2 ^ 32 -> number_le (le32 n) = n.
Proof.
  intros L. unfold le32. cbn [map number_le]. rewrite !code_of by (apply N.mod_lt; discriminate). change (2 ^ 32) with 4294967296 in L.
  pose proof (N.div_mod n 256 ltac:(discriminate)). pose proof (N.div_mod (n / 256) 256 ltac:(discriminate)). pose proof (N.div_mod (n / 65536) 256 ltac:(discriminate)).
  assert (E1 : n / 256 / 256 = n / 65536) by (rewrite N.div_div by discriminate; reflexivity).
  assert (E2 : n / 65536 / 256 = n / 16777216) by (rewrite N.div_div by discriminate; reflexivity).
  rewrite (N.mod_small (n / 16777216)) by (apply N.div_lt_upper_bound; lia). rewrite E1 in *. rewrite E2 in *. lia.
Qed.

(** ** The machine of gzip *)

Definition gzip_at (g : gzip) (out input : bytes) : Prop :=
  gz_digest g = crc_update 0 input /\ gz_size g = blen input mod 2 ^ 32 /\
  if gz_started g then exists o, out = gzip_header ++ o /\ flate_at (gz_window g) o input
  else out = [] /\ gz_window g = [] /\ input = [].

Lemma gzip_write_at g out input p g' o : gzip_at g out input -> gzip_write g p = (g', o) -> gz_started g' = true /\ gzip_at g' (out ++ o) (input ++ p).
Proof.
  intros (D & S & A) W. unfold gzip_write in W. destruct (flate_write (gz_window g) p) as [w o1] eqn:F.
  injection W as <- <-. split; [reflexivity|]. unfold gzip_at. cbn [gz_digest gz_size gz_started gz_window].
  split; [rewrite D; apply crc_more|]. split.
  { rewrite S, blen_app. change 4294967296 with (2 ^ 32). rewrite N.add_mod_idemp_l by discriminate. reflexivity. }
  destruct (gz_started g).
  - destruct A as (o0 & -> & L & d & B & Q). destruct (flate_write_blocks _ _ _ _ F L) as [L1 (d1 & B1 & Q1)].
    exists (o0 ++ o1). split; [rewrite app_assoc; reflexivity|]. split; [exact L1|]. exists (d ++ d1). split; [apply blocks_app; assumption|].
    rewrite <- app_assoc, Q1, app_assoc, Q. reflexivity.
  - destruct A as (-> & E & ->). rewrite E in F. destruct (flate_write_blocks _ _ _ _ F ltac:(reflexivity)) as [L1 (d1 & B1 & Q1)].
    exists o1. split; [reflexivity|]. split; [exact L1|]. exists d1. split; [exact B1|exact Q1].
Qed.
Lemma gzip_begin g out input : gzip_at g out input -> exists g1 o, (if gz_started g then (g, []) else gzip_write g []) = (g1, o) /\ gz_started g1 = true /\ gzip_at g1 (out ++ o) input.
Proof.
  intros A. destruct (gz_started g) eqn:E; [exists g, []; rewrite app_nil_r; auto|].
  destruct (gzip_write g []) as [g1 o] eqn:W. exists g1, o. destruct (gzip_write_at g out input [] g1 o A W) as [S A1]. rewrite app_nil_r in A1. auto.
Qed.
Lemma gzip_flush_at g out input g' o : gzip_at g out input -> gzip_flush g = (g', o) -> gzip_at g' (out ++ o) input.
Proof.
  intros A W. unfold gzip_flush in W. destruct (gzip_begin g out input A) as (g1 & o1 & E & S & (D & Z & A1)). rewrite E in W. injection W as <- <-.
  unfold gzip_at. cbn [gz_digest gz_size gz_started gz_window]. split; [exact D|]. split; [exact Z|]. rewrite S in A1. destruct A1 as (o2 & E2 & L & d & B & Q).
  exists (o2 ++ flate_flush (gz_window g1)). split; [rewrite app_assoc, E2, <- app_assoc; reflexivity|]. split; [reflexivity|].
  exists (d ++ gz_window g1). split; [apply blocks_app; [exact B|apply flush_blocks; exact L]|]. rewrite app_nil_r. exact Q.
Qed.
Lemma gzip_run : forall ops g out0 input0, gzip_at g out0 input0 ->
  exists g' out, zrun storing (ZGzip g) ops = (ZGzip g', out) /\ gzip_at g' (out0 ++ out) (input0 ++ zinput ops).
Proof.
  induction ops as [|[bs|] ops IH]; intros g out0 input0 A.
  - exists g, []. split; [reflexivity|]. cbn [zinput]. rewrite !app_nil_r. exact A.
  - cbn [zrun zinput]. change (zwrite storing (ZGzip g) bs) with (let (g', o) := gzip_write g bs in (ZGzip g', o)).
    destruct (gzip_write g bs) as [g1 o1] eqn:F. destruct (gzip_write_at _ _ _ _ _ _ A F) as [_ A1].
    destruct (IH g1 _ _ A1) as (g' & out & R & A'). rewrite R. exists g', (o1 ++ out). split; [reflexivity|]. rewrite !app_assoc in *. exact A'.
  - cbn [zrun zinput]. change (zflush storing (ZGzip g)) with (let (g', o) := gzip_flush g in (ZGzip g', o)).
    destruct (gzip_flush g) as [g1 o1] eqn:F. pose proof (gzip_flush_at _ _ _ _ _ A F) as A1.
    destruct (IH g1 _ _ A1) as (g' & out & R & A'). rewrite R. exists g', (o1 ++ out). split; [reflexivity|]. rewrite app_assoc. exact A'.
Qed.
Lemma gzip_read g out input : gzip_at g out input -> gunzip (out ++ gzip_close g) = Some input.
Proof.
  intros A. unfold gzip_close. destruct (gzip_begin g out input A) as (g1 & o1 & E & S & (D & Z & A1)). rewrite E. rewrite S in A1. destruct A1 as (o2 & E2 & F).
  destruct (flate_all _ _ _ F) as (o & B & Q).
  replace (out ++ o1 ++ flate_close (gz_window g1) ++ le32 (gz_digest g1) ++ le32 (gz_size g1))
    with (gzip_header ++ o ++ stored_header true 0 ++ le32 (gz_digest g1) ++ le32 (gz_size g1)).
  2:{ rewrite (app_assoc o), <- Q, (app_assoc out), E2, <- !app_assoc. reflexivity. }
  unfold gunzip, gzip_header. cbn [map app]. rewrite !code_of by lia. cbn [N.eqb Pos.eqb andb].
  rewrite (blocks_inflated o input _ B). rewrite app_length. change (List.length (le32 (gz_digest g1))) with 4%nat. change (List.length (le32 (gz_size g1))) with 4%nat.
  change (4 + 4 =? 8)%nat with true. cbn [andb].
  change (firstn 4 (le32 (gz_digest g1) ++ le32 (gz_size g1))) with (le32 (gz_digest g1)). change (skipn 4 (le32 (gz_digest g1) ++ le32 (gz_size g1))) with (le32 (gz_size g1)).
  rewrite !le32_number.
  - rewrite D, Z, crc_is, !N.eqb_refl. reflexivity.
  - rewrite Z. apply N.mod_lt. discriminate.
  - rewrite D, crc_is. apply crc_small.
Qed.

(** ** Both, and what clients read *)

Lemma storing_read a level ops : let (s, out) := zrun storing (znew storing a level) ops in
  match a with Gzip => gunzip (out ++ zclose storing s) = Some (zinput ops) | Deflate => bare_body (out ++ zclose storing s) = Some (zinput ops) end.
Proof.
  destruct a.
  - change (znew storing Gzip level) with (ZGzip (GZip false 0 0 [])).
    destruct (gzip_run ops (GZip false 0 0 []) [] []) as (g' & out & R & A); [repeat split; reflexivity|]. rewrite R. apply gzip_read. exact A.
  - change (znew storing Deflate level) with (ZFlate []).
    destruct (flate_run ops [] [] []) as (w' & out & R & A); [split; [reflexivity|]; exists []; split; [constructor|reflexivity]|]. rewrite R.
    destruct (flate_all _ _ _ A) as (o & B & Q). cbn [app] in Q. change (zclose storing (ZFlate w')) with (flate_close w'). rewrite Q. unfold bare_body.
    rewrite <- (app_nil_r (stored_header true 0)), (blocks_inflated o _ [] B). reflexivity.
Qed.

Lemma storing_blocks : writes_blocks storing.
Proof.
  intros level ops. change (znew storing Deflate level) with (ZFlate []).
  destruct (flate_run ops [] [] []) as (w' & out & R & A); [split; [reflexivity|]; exists []; split; [constructor|reflexivity]|]. rewrite R.
  destruct (flate_all _ _ _ A) as (o & B & Q). cbn [app] in Q. change (zclose storing (ZFlate w')) with (flate_close w'). rewrite Q.
  destruct B as [|data o d L B].
  - exists (ascii_of_N 1). eexists. split; [reflexivity|]. discriminate.
  - exists (ascii_of_N 0). eexists. split; [unfold stored_block, stored_header; cbn [map app]; reflexivity|]. reflexivity.
Qed.

Lemma block_no_zlib s : begins_with_block s -> ~ zlib_start s.
Proof.
  intros (c & r & -> & H) (cmf & flg & r' & E & M & _). injection E as -> _.
  assert (Z8 : code cmf mod 8 = 0).
  { pose proof (N.div_mod (code cmf) 16 ltac:(discriminate)) as D. rewrite M in D. rewrite D. replace (16 * (code cmf / 16) + 8) with ((2 * (code cmf / 16) + 1) * 8) by lia.
    apply N.mod_mul. discriminate. }
  rewrite (H Z8) in M. discriminate.
Qed.
Lemma unzlib_start s d : unzlib s = Some d -> zlib_start s.
Proof.
  unfold unzlib. destruct s as [|cmf [|flg r]]; try discriminate. destruct (N.eqb_spec (code cmf mod 16) 8) as [A|]; [|discriminate].
  destruct (N.eqb_spec ((code cmf * 256 + code flg) mod 31) 0) as [B|]; [|discriminate]. intros _. exists cmf, flg, r. auto.
Qed.

Lemma storing_answers (oh : headers -> headers) (oc : cookies -> cookies) render location redirect_body r q h st b :
  (forall m, Permutation (oh m) m) -> (forall m, Permutation (oc m) m) ->
  fields r = Some h -> right_protocol r q -> meant_status h st -> with_body st ->
  one_spelling (custom_headers h) -> ~ given (custom_headers h) ce ->
  b_final b = None -> b_body b = [] -> hvalues (b_header b) ce = [] ->
  exists b' hs, write oh oc render location redirect_body (RCompress 0 r) q (@Plain storing b) = (end_of r, Plain b') /\
    b_final b' = Some (st, hs) /\
    (http_body hs (b_body b') = Some (body_of r) \/ hvalues hs ce = [str "deflate"] /\ bare_body (b_body b') = Some (body_of r)).
Proof.
  intros OH OC F P M S OS G N E HC.
  destruct (compressed_labelled storing oh oc render location redirect_body OH OC 0 r q h st b F P M S OS G N E HC) as (b' & hs & W & FI & B).
  exists b', hs. split; [exact W|]. split; [exact FI|]. destruct B as [[V B]|(a & ops & V & I & B)].
  - left. unfold http_body. rewrite V, B. reflexivity.
  - pose proof (storing_read a 0 ops) as R. destruct (zrun storing (znew storing a 0) ops) as [s out]. rewrite <- B, I in R. destruct a.
    + left. unfold http_body. rewrite V. exact R.
    + right. split; [exact V|exact R].
Qed.

Lemma deflate_unread (k : compressor) (oh : headers -> headers) (oc : cookies -> cookies) render location redirect_body level r q h st b b' hs e :
  writes_blocks k -> (forall m, Permutation (oh m) m) -> (forall m, Permutation (oc m) m) ->
  fields r = Some h -> right_protocol r q -> meant_status h st -> with_body st ->
  one_spelling (custom_headers h) -> ~ given (custom_headers h) ce ->
  b_final b = None -> b_body b = [] -> hvalues (b_header b) ce = [] ->
  write oh oc render location redirect_body (RCompress level r) q (@Plain k b) = (e, Plain b') -> b_final b' = Some (st, hs) -> hvalues hs ce = [str "deflate"] ->
  ~ zlib_start (b_body b') /\ http_body hs (b_body b') = None.
Proof.
  intros K OH OC F P M S OS G N E HC W FI V.
  destruct (compressed_labelled k oh oc render location redirect_body OH OC level r q h st b F P M S OS G N E HC) as (b2 & hs2 & W2 & FI2 & B).
  rewrite W in W2. injection W2 as _ <-. rewrite FI in FI2. injection FI2 as <-.
  destruct B as [[V' _]|(a & ops & V' & I & B)]; [rewrite V in V'; discriminate V'|].
  assert (a = Deflate) as -> by (destruct a; [rewrite V in V'; discriminate V'|reflexivity]).
  specialize (K level ops). destruct (zrun k (znew k Deflate level) ops) as [s out]. rewrite <- B in K. pose proof (block_no_zlib _ K) as Z.
  split; [exact Z|]. unfold http_body. rewrite V. change (beqb (str "deflate") (str "gzip")) with false. change (beqb (str "deflate") (str "deflate")) with true. cbn [app].
  destruct (unzlib (b_body b')) as [d|] eqn:U; [|reflexivity]. exfalso. apply Z. exact (unzlib_start _ _ U).
Qed.

(** ** Cases *)

Definition asks (coding : bytes) : wreq := WReq (str "GET") [(str "Accept-Encoding", [coding])] 1%N.
Definition stored_answer (coding : bytes) : base :=
  rw_base (snd (write (fun m => m) (fun m => m) just_name (fun _ u => u) (fun _ u => u) (RCompress 0 (plain_text (HResp 200 [] None None))) (asks coding) (@Plain storing base_new))).

Lemma zip_case :
  let r := plain_text (HResp 200 [] None None) in let h := HResp 200 [] None None in
  fields r = Some h /\ right_protocol r (asks (str "deflate")) /\ meant_status h 200 /\ with_body 200 /\ one_spelling (custom_headers h) /\ ~ given (custom_headers h) ce /\
  map code (b_body (stored_answer (str "gzip"))) =
    [31; 139; 8; 0; 0; 0; 0; 0; 0; 255; 0; 2; 0; 253; 255; 104; 105; 1; 0; 0; 255; 255; 172; 42; 147; 216; 2; 0; 0; 0] /\
  http_body (snd (fst (received (stored_answer (str "gzip"))))) (b_body (stored_answer (str "gzip"))) = Some (str "hi") /\
  map code (b_body (stored_answer (str "deflate"))) = [0; 2; 0; 253; 255; 104; 105; 1; 0; 0; 255; 255] /\
  hvalues (snd (fst (received (stored_answer (str "deflate"))))) ce = [str "deflate"] /\
  http_body (snd (fst (received (stored_answer (str "deflate"))))) (b_body (stored_answer (str "deflate"))) = None /\
  writes_blocks storing /\ crc32 (str "123456789") = 3421780262 /\
  unzlib (map ascii_of_N [120; 1; 1; 2; 0; 253; 255; 104; 105; 1; 59; 0; 210]) = Some (str "hi").
Proof.
  cbv zeta. split; [reflexivity|]. split; [exact I|]. split; [right; split; [discriminate|reflexivity]|]. split; [unfold with_body; lia|].
  split; [split; [constructor|intros ? ? ? ? []]|]. split; [intros (? & ? & [] & _)|].
  split; [vm_compute; reflexivity|]. split; [vm_compute; reflexivity|]. split; [vm_compute; reflexivity|]. split; [vm_compute; reflexivity|].
  split; [vm_compute; reflexivity|]. split; [apply storing_blocks|]. split; vm_compute; reflexivity.
Qed.
