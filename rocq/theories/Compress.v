(** * Model of the compression front end
    (mopaq/src/compression/{methods,compress,decompress}.rs and the thin wrappers
    in algorithms/{zlib,bzip2,lzma,pkware,implode}.rs).

    The third party codecs are parameters, bundled in a record.  Sparse, ADPCM
    and Huffman coding are the crate's own code and modelled in full. *)
From Verif Require Import Bytes Sparse Adpcm Huffman.
Open Scope N_scope.

(** flate2, bzip2, lzma_rs (lzma_dec includes the XZ fallback of
    algorithms/lzma.rs:13-46) and pklib, as functions on byte strings. *)
Record codecs := mkCodecs {
  zlib_enc : bytes -> res bytes;  zlib_dec : bytes -> res bytes;
  bz_enc   : bytes -> res bytes;  bz_dec   : bytes -> res bytes;
  lzma_enc : bytes -> res bytes;  lzma_dec : bytes -> res bytes;
  pk_enc   : bytes -> res bytes;  pk_dec   : bytes -> res bytes }.

(** methods.rs:4-23 *)
Definition HUFFMAN : N := 0x01.
Definition ZLIB : N := 0x02.
Definition IMPLODE : N := 0x04.
Definition PKWARE : N := 0x08.
Definition BZIP2 : N := 0x10.
Definition SPARSE : N := 0x20.
Definition ADPCM_MONO : N := 0x40.
Definition ADPCM_STEREO : N := 0x80.
Definition LZMA : N := 0x12.

(** methods.rs:27-50 *)
Inductive method :=
| MNone | MHuffman | MZlib | MImplode | MPKWare | MBZip2 | MSparse
| MAdpcmMono | MAdpcmStereo | MLzma | MMultiple (flags : N).

(** methods.rs:53-76 [from_flags] *)
Definition from_flags (f : N) : method :=
  if f =? LZMA then MLzma
  else if f =? 0 then MNone
  else if f =? HUFFMAN then MHuffman
  else if f =? ZLIB then MZlib
  else if f =? IMPLODE then MImplode
  else if f =? PKWARE then MPKWare
  else if f =? BZIP2 then MBZip2
  else if f =? SPARSE then MSparse
  else if f =? ADPCM_MONO then MAdpcmMono
  else if f =? ADPCM_STEREO then MAdpcmStereo
  else MMultiple f.

Definition bit (f m : N) : bool := negb (N.land f m =? 0).

(** ** Wrappers *)
(** algorithms/zlib.rs:10-50: a size mismatch is only logged *)
Definition zlib_decompress (L : codecs) (d : bytes) (_ : N) : res bytes := zlib_dec L d.
(** algorithms/bzip2.rs:10-27: the size has to match *)
Definition bz_decompress (L : codecs) (d : bytes) (expected : N) : res bytes :=
  out <- bz_dec L d ;;
  if lenN out =? expected then Ok out else Err ECompression.
(** algorithms/lzma.rs:7-48 *)
Definition lzma_decompress (L : codecs) (d : bytes) (_ : N) : res bytes := lzma_dec L d.
(** algorithms/pkware.rs:7-17 *)
Definition pk_compress (L : codecs) (d : bytes) : res bytes :=
  match d with [] => Ok [] | _ => pk_enc L d end.
(** algorithms/pkware.rs:20-41 *)
Definition pk_decompress (L : codecs) (d : bytes) (_ : N) : res bytes :=
  match d with [] => Ok [] | _ => pk_dec L d end.
(** algorithms/implode.rs:14-90: six headers are tried in turn *)
Definition implode_decompress (L : codecs) (d : bytes) (_ : N) : res bytes :=
  match d with
  | [] => Ok []
  | _ =>
      (fix try (hs : list (N * N)) : res bytes :=
         match hs with
         | [] => Err ECompression
         | (ty, dict) :: hs' =>
             match pk_dec L (Nb ty :: Nb dict :: d) with
             | Ok r => Ok r
             | Err _ => try hs'
             | Panic => Panic
             end
         end) [(0, 4); (0, 5); (0, 6); (1, 4); (1, 5); (1, 6)]
  end.
(** algorithms/implode.rs, [compress]: a stub *)
Definition implode_compress (d : bytes) : res bytes :=
  match d with [] => Ok [] | _ => Err ECompression end.

(** ** Compression *)
(** compress.rs:50-102 [compress_multiple] *)
Definition compress_multiple (L : codecs) (d : bytes) (f : N) : res bytes :=
  cur <- (if bit f ADPCM_MONO then adpcm_compress d 5 1
          else if bit f ADPCM_STEREO then adpcm_compress d 5 2
          else Ok d) ;;
  let b2n (b : bool) : N := if b then 1 else 0 in
  let count := b2n (bit f HUFFMAN) + b2n (bit f ZLIB) + b2n (bit f PKWARE)
               + b2n (bit f BZIP2) + b2n (bit f SPARSE) in
  if count =? 0 then Ok cur
  else if 1 <? count then Err ECompression
  else if bit f HUFFMAN then huffman_compress cur
  else if bit f ZLIB then zlib_enc L cur
  else if bit f BZIP2 then bz_enc L cur
  else if bit f SPARSE then Ok (sparse_compress cur)
  else if bit f PKWARE then pk_compress L cur
  else Ok cur.

(** compress.rs:31-47 [compress_internal] *)
Definition compress_internal (L : codecs) (d : bytes) (m : N) : res bytes :=
  match from_flags m with
  | MNone => Ok d
  | MZlib => zlib_enc L d
  | MBZip2 => bz_enc L d
  | MLzma => lzma_enc L d
  | MSparse => Ok (sparse_compress d)
  | MAdpcmMono => adpcm_compress d 5 1
  | MAdpcmStereo => adpcm_compress d 5 2
  | MPKWare => pk_compress L d
  | MImplode => implode_compress d
  | MHuffman => huffman_compress d
  | MMultiple f => compress_multiple L d f
  end.

(** compress.rs:12-28 [compress] *)
Definition compress (L : codecs) (d : bytes) (m : N) : res bytes :=
  c <- compress_internal L d m ;;
  if lenN d <=? lenN c then Ok d else Ok (Nb m :: c).

(** ** Decompression *)
(** [expected_size * k] on [usize] *)
Definition scaled (expected k : N) : res N := if expected * k <? M64 then Ok (expected * k) else Panic.
(** [Vec::with_capacity(n)], with which the decoders begin; it matters where the
    size asked for was multiplied before. *)
Definition room (n : N) (r : res bytes) : res bytes := if n <? 2 ^ 63 then r else Panic.

(** decompress.rs:49-155 [decompress_multiple] *)
Definition decompress_multiple (L : codecs) (d : bytes) (f expected : N) : res bytes :=
  match d with
  | [] => Err ECompression
  | _ =>
      cur <- (if bit f HUFFMAN then
                n <- scaled expected 2 ;;
                let n := N.max n (lenN d * 2) in room n (huffman_decompress d n)
              else if bit f ZLIB then n <- scaled expected 4 ;; room n (zlib_decompress L d n)
              else if bit f BZIP2 then n <- scaled expected 4 ;; room n (bz_decompress L d n)
              else if bit f SPARSE then n <- scaled expected 4 ;; room n (sparse_decompress d n)
              else if bit f IMPLODE then n <- scaled expected 4 ;; implode_decompress L d n
              else Ok d) ;;
      cur <- (if bit f PKWARE then pk_decompress L cur (N.max expected (lenN cur * 2)) else Ok cur) ;;
      cur <- (if bit f ADPCM_STEREO then adpcm_decompress cur expected 2
              else if bit f ADPCM_MONO then adpcm_decompress cur expected 1
              else Ok cur) ;;
      if f =? ADPCM_MONO then adpcm_decompress d expected 1
      else if f =? ADPCM_STEREO then adpcm_decompress d expected 2
      else if negb (bit f ADPCM_MONO || bit f ADPCM_STEREO) && negb (bit f PKWARE)
              && (bit f HUFFMAN || bit f ZLIB || bit f BZIP2 || bit f SPARSE) then
        if bit f HUFFMAN then huffman_decompress d expected
        else if bit f ZLIB then zlib_decompress L d expected
        else if bit f BZIP2 then bz_decompress L d expected
        else sparse_decompress d expected
      else Ok cur
  end.

(** decompress.rs:8-45 [decompress] *)
Definition decompress (L : codecs) (d : bytes) (m size : N) : res bytes :=
  match d with
  | [] => Err ECompression
  | _ =>
      match from_flags m with
      | MNone => Ok d
      | MZlib => zlib_decompress L d size
      | MBZip2 => bz_decompress L d size
      | MLzma => lzma_decompress L d size
      | MSparse => sparse_decompress d size
      | MImplode => implode_decompress L d size
      | MPKWare => pk_decompress L d size
      | MHuffman => huffman_decompress d size
      | MAdpcmMono => adpcm_decompress d size 1
      | MAdpcmStereo => adpcm_decompress d size 2
      | MMultiple f => decompress_multiple L d f size
      end
  end.
