(** zlib.compressobj as a function of level and data: what it writes before flush is written by
    flush.  The decompressor is that of DeflateModel.v. *)
From Verif Require Import Py ZlibModel DeflateModel.

Definition with_compressor (comp : Z -> bytes -> bytes) : zlib :=
  mk_zlib (astate core) (mk_a inflate_start [] [] []) (a_decompress core inflate_feed inflate_done inflate_direct) a_tail a_unused
    (Z * bytes) (fun level => (level, [])) (fun c d => ([], (fst c, snd c ++ d))) (fun c => comp (fst c) (snd c)).
