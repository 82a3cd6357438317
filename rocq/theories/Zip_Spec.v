(** * What clients make of compressed bodies

    Readers after RFC 1950 (zlib), 1951 (deflate, stored blocks only) and 1952 (gzip,
    without optional fields), and the codings of HTTP (RFC 9110, 8.4.1: deflate is the zlib
    format). *)
From Coq Require Import List NArith ZArith Ascii String Bool.
From Verif Require Import GoBase Http_Model Auth_Model Chain_Model Serve_Model Resp_Model Resp_Spec.
Import ListNotations.
Local Open Scope N_scope.

(** Stored blocks: the data and what follows the last block. *)
Fixpoint inflate (fuel : nat) (s : bytes) : option (bytes * bytes) :=
  match fuel, s with
  | S f, h :: l :: m :: l' :: m' :: r =>
      let n := code l + 256 * code m in
      if (code h mod 8 <? 2) && (code l' + code l =? 255) && (code m' + code m =? 255) && (n <=? blen r) then
        let data := firstn (N.to_nat n) r in
        let rest := skipn (N.to_nat n) r in
        if code h mod 2 =? 1 then Some (data, rest)
        else match inflate f rest with Some (d, t) => Some (data ++ d, t) | None => None end
      else None
  | _, _ => None
  end.
Definition inflated (s : bytes) : option (bytes * bytes) := inflate (List.length s) s.

(** CRC-32 bit by bit (RFC 1952, 8): the lowest bit of a byte comes first. *)
Definition crc_bit (c : N) (bit : bool) : N :=
  if xorb (N.odd c) bit then N.lxor (c / 2) 3988292384 else c / 2.
Definition bits_of (b : byte) : list bool := map (fun i => N.testbit (code b) (N.of_nat i)) (seq 0 8).
Definition crc32 (s : bytes) : N := N.lxor (fold_left crc_bit (flat_map bits_of s) 4294967295) 4294967295.

(** A number of some bytes, the lowest first. *)
Fixpoint number_le (s : bytes) : N := match s with [] => 0 | b :: r => code b + 256 * number_le r end.

(** gzip: header without optional fields, data, checksum and length. *)
Definition gunzip (s : bytes) : option bytes :=
  match s with
  | a :: b :: c :: flags :: _ :: _ :: _ :: _ :: _ :: _ :: r =>
      if (code a =? 31) && (code b =? 139) && (code c =? 8) && (code flags =? 0) then
        match inflated r with
        | Some (d, t) =>
            if (List.length t =? 8)%nat && (number_le (firstn 4 t) =? crc32 d) && (number_le (skipn 4 t) =? blen d mod 2 ^ 32)
            then Some d else None
        | None => None
        end
      else None
  | _ => None
  end.

(** Adler-32 (RFC 1950, 8) and zlib: two bytes, data and checksum, highest byte first. *)
Definition adler32 (s : bytes) : N :=
  let (a, b) := fold_left (fun ab c => let a := (fst ab + code c) mod 65521 in (a, (snd ab + a) mod 65521)) s (1, 0) in b * 65536 + a.
Definition unzlib (s : bytes) : option bytes :=
  match s with
  | cmf :: flg :: r =>
      if (code cmf mod 16 =? 8) && ((code cmf * 256 + code flg) mod 31 =? 0) && negb (N.testbit (code flg) 5) then
        match inflated r with
        | Some (d, t) => if (List.length t =? 4)%nat && (number_le (rev t) =? adler32 d) then Some d else None
        | None => None
        end
      else None
  | _ => None
  end.

(** What a client reads: it undoes the coding named in Content-Encoding. *)
Definition http_body (h : hmap) (body : bytes) : option bytes :=
  match hvalues h ce with
  | [] => Some body
  | [v] => if beqb v (str "gzip") then gunzip body else if beqb v (str "deflate") then unzlib body else None
  | _ => None
  end.

(** A client that reads deflate as RFC 1951 without the zlib format around it. *)
Definition bare_body (body : bytes) : option bytes :=
  match inflated body with Some (d, []) => Some d | _ => None end.

(** What compress/flate writes begins with a block (RFC 1951, 3.2.3) that is padded with zeros
    if it is a stored one. *)
Definition begins_with_block (s : bytes) : Prop :=
  exists c r, s = c :: r /\ (code c mod 8 = 0 -> code c = 0).
Definition writes_blocks (k : compressor) : Prop :=
  forall level ops, let (s, out) := zrun k (znew k Deflate level) ops in begins_with_block (out ++ zclose k s).
(** The beginning of the zlib format: method 8 and a check of the first two bytes. *)
Definition zlib_start (s : bytes) : Prop :=
  exists cmf flg r, s = cmf :: flg :: r /\ code cmf mod 16 = 8 /\ (code cmf * 256 + code flg) mod 31 = 0.
