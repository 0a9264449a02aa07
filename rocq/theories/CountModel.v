(** Model of DecompressMemMapReader.compressed_bytes_read, gitdb/stream.py:151-196, on streams
    that may have been closed. *)
From Verif Require Import Py FunModel ZlibModel ReaderModel ClosedModel.

Section Count.
  Context {K : zlib} (pagesize : Z).

  (** gitdb/stream.py:173-196 with _m closed and [s] the value of _s: the length that line 184
      asks for is a ValueError, after line 176 has set _br to 0. *)
  Definition count_closed_s (s : Z) (r : reader K) : res Z * reader K :=
    if (r_br r =? s) && (len (zs_unused K (r_zip r)) =? 0) then (Raise ValueError, with_buf r (r_buf r) (r_buflen r) 0)
    else (Ok (r_cbr r), r).
  (** The same, with the access to _s (as in [read_closed]). *)
  Definition count_closed (r : reader K) : res Z * reader K :=
    match r_s r with
    | Some s => count_closed_s s r
    | None =>
        match closed_header r with
        | (Ok s, r) => count_closed_s s r
        | (Raise e, r) => (Raise e, r)
        | (Diverge, r) => (Diverge, r)
        end
    end.
  (** The method, open or closed.  What an exception leaves of an open stream is not modelled:
      it is left as it was. *)
  Definition ostream_count (fuel : nat) (o : ostream K) : res Z * ostream K :=
    let with_reader r := mk_ostream r (o_flag o) (o_closable o) (o_open o) in
    if o_open o then
      match compressed_bytes_read pagesize fuel (o_reader o) with
      | Ok (n, r) => (Ok n, with_reader r)
      | Raise e => (Raise e, o)
      | Diverge => (Diverge, o)
      end
    else let (n, r) := count_closed (o_reader o) in (n, with_reader r).
End Count.
