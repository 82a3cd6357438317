(** * Model of the compressors at level 0 (gzip.NoCompression)

    compress/gzip and compress/flate of the standard library (Go 1.19), as
    response/compress.go 48-76 uses them with the level that middleware/compress.go accepts.
    At level 0 data are stored in blocks.  The other levels are not modelled. *)
From Coq Require Import List NArith ZArith Ascii String Bool.
From Verif Require Import GoBase Http_Model Auth_Model Chain_Model Serve_Model Resp_Model.
Import ListNotations.
Local Open Scope N_scope.

(** [huffmanBitWriter.writeStoredHeader] (huffman_bit_writer.go): three bits, padded with
    zeros, the length and its complement. *)
Definition stored_header (last : bool) (n : N) : bytes :=
  map ascii_of_N [if last then 1 else 0; n mod 256; n / 256; 255 - n mod 256; 255 - n / 256].
(** [compressor.writeStoredBlock] (deflate.go). *)
Definition stored_block (data : bytes) : bytes := stored_header false (blen data) ++ data.

(** [compressor.write] with [store] and [fillStore] (deflate.go): a full window is written
    when more bytes come.  The library copies as many bytes as fit at a time. *)
Fixpoint flate_write (window bs : bytes) : bytes * bytes :=
  match bs with
  | [] => (window, [])
  | c :: bs' =>
      if blen window =? 65535
      then let (w, o) := flate_write [c] bs' in (w, stored_block window ++ o)
      else flate_write (window ++ [c]) bs'
  end.
(** The call of [store] with the flag [sync]. *)
Definition flate_sync (window : bytes) : bytes := match window with [] => [] | _ => stored_block window end.
(** [compressor.syncFlush] and [compressor.close]: what they write; the window is empty
    afterwards. *)
Definition flate_flush (window : bytes) : bytes := flate_sync window ++ stored_header false 0.
Definition flate_close (window : bytes) : bytes := flate_sync window ++ stored_header true 0.

(** [crc32.Update] with the table of IEEE (hash/crc32, [simpleMakeTable] and
    [simpleUpdate]); faster variants that give the same are left out. *)
Definition crc_shift (c : N) : N := if N.odd c then N.lxor (N.div2 c) 3988292384 else N.div2 c.
Definition crc_table (i : N) : N := Nat.iter 8 crc_shift i.
Definition crc_byte (c : N) (b : byte) : N := N.lxor (crc_table (N.lxor (c mod 256) (code b))) (c / 256).
Definition crc_update (c : N) (p : bytes) : N := N.lxor (fold_left crc_byte p (N.lxor c 4294967295)) 4294967295.

(** Four bytes, the lowest first. *)
Definition le32 (n : N) : bytes := map ascii_of_N [n mod 256; n / 256 mod 256; n / 65536 mod 256; n / 16777216 mod 256].

(** [gzip.Writer] (gzip.go): whether the header is written, the checksum and the length of
    the input. *)
Record gzip := GZip { gz_started : bool; gz_digest : N; gz_size : N; gz_window : bytes }.
(** The header: identification, method, no flags, no time, no level, unknown system. *)
Definition gzip_header : bytes := map ascii_of_N [31; 139; 8; 0; 0; 0; 0; 0; 0; 255].
Definition gzip_write (g : gzip) (p : bytes) : gzip * bytes :=
  let (w, o) := flate_write (gz_window g) p in
  (GZip true (crc_update (gz_digest g) p) ((gz_size g + blen p) mod 4294967296) w,
   if gz_started g then o else gzip_header ++ o).
Definition gzip_flush (g : gzip) : gzip * bytes :=
  let (g1, o) := if gz_started g then (g, []) else gzip_write g [] in
  (GZip true (gz_digest g1) (gz_size g1) [], o ++ flate_flush (gz_window g1)).
Definition gzip_close (g : gzip) : bytes :=
  let (g1, o) := if gz_started g then (g, []) else gzip_write g [] in
  o ++ flate_close (gz_window g1) ++ le32 (gz_digest g1) ++ le32 (gz_size g1).

(** Both as one machine; the level is 0. *)
Inductive zwriter := ZGzip (g : gzip) | ZFlate (window : bytes).
Definition storing : compressor :=
  Compressor zwriter
    (fun a _ => match a with Gzip => ZGzip (GZip false 0 0 []) | Deflate => ZFlate [] end)
    (fun s p => match s with
                | ZGzip g => let (g', o) := gzip_write g p in (ZGzip g', o)
                | ZFlate w => let (w', o) := flate_write w p in (ZFlate w', o)
                end)
    (fun s => match s with
              | ZGzip g => let (g', o) := gzip_flush g in (ZGzip g', o)
              | ZFlate w => (ZFlate [], flate_flush w)
              end)
    (fun s => match s with ZGzip g => gzip_close g | ZFlate w => flate_close w end).
