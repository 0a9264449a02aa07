(** The interface of Python's zlib module as gitdb uses it, the laws assumed of it, and one
    executable implementation (streams of stored blocks) for examples and witnesses.
    zlib is not part of /repo; the uses are gitdb/stream.py:73, 207, 287, 613, 655,
    gitdb/fun.py:409 and gitdb/pack.py:974. *)
From Verif Require Import Py.

(** [zlib.decompressobj()] and its [decompress(data, max_length)], [unconsumed_tail] and
    [unused_data]; [zlib.compressobj(level)] with [compress] and [flush]. *)
Record zlib := mk_zlib {
  zs : Type;
  zs_new : zs;
  zs_decompress : zs -> bytes -> Z -> res (bytes * zs);
  zs_tail : zs -> bytes;
  zs_unused : zs -> bytes;
  zc : Type;
  zc_new : Z -> zc;
  zc_compress : zc -> bytes -> bytes * zc;
  zc_flush : zc -> bytes }.

(** Feeding chunks to a compressor and flushing it. *)
Fixpoint zc_all (K : zlib) (c : zc K) (chunks : list bytes) : bytes :=
  match chunks with
  | [] => zc_flush K c
  | d :: l => let (o, c') := zc_compress K c d in o ++ zc_all K c' l
  end.

(** One of the two is a beginning of the other. *)
Definition prefix {A} (a b : list A) : Prop := exists r, b = a ++ r.

(** One call of decompress on an object that still expects the compressed bytes zr and will
    produce dr from them ([at_]).  How much output a call produces is left open, except that
    input is left over only when the requested amount was produced and more output is to
    come.  The last two equations describe CPython 3's save_unconsumed_input: at the end of
    the stream the rest of the input goes to unused_data, and if unconsumed_tail was not
    empty before the call, the rest goes there, too. *)
Definition zstep (K : zlib) (at_ : zs K -> bytes -> bytes -> Prop) (st : zs K) (zr dr inp : bytes) (n : Z)
    (zr' dr' out : bytes) (st' : zs K) : Prop :=
  zs_decompress K st inp n = Ok (out, st') /\
  exists used over,
    inp = used ++ over /\ zr = used ++ zr' /\ dr = out ++ dr' /\ len out <= n /\ at_ st' zr' dr' /\
    (zr' <> [] -> zs_tail K st' = over /\ zs_unused K st' = zs_unused K st /\
                  (over <> [] -> len out = n /\ dr' <> [])) /\
    (zr' = [] -> dr' = [] /\ zs_unused K st' = zs_unused K st ++ over /\
                 zs_tail K st' = match zs_tail K st with [] => [] | _ => over end).

(** The laws.  [zl_stream z d]: z is a complete zlib stream of d. *)
Record zlib_laws (K : zlib) : Type := mk_zlib_laws {
  zl_stream : bytes -> bytes -> Prop;
  zl_at : zs K -> bytes -> bytes -> Prop;
  zl_start : forall z d, zl_stream z d ->
    z <> [] /\ zl_at (zs_new K) z d /\ zs_tail K (zs_new K) = [] /\ zs_unused K (zs_new K) = [];
  zl_step : forall st zr dr inp n, zl_at st zr dr -> zr <> [] -> 0 < n ->
    prefix inp zr \/ prefix zr inp ->
    exists zr' dr' out st', zstep K zl_at st zr dr inp n zr' dr' out st';
  zl_done : forall st inp n, zl_at st [] [] -> 0 < n ->
    exists st', zs_decompress K st inp n = Ok ([], st') /\ zl_at st' [] [] /\
      zs_unused K st' = zs_unused K st ++ inp /\
      zs_tail K st' = match zs_tail K st with [] => [] | _ => inp end;
  zl_bytes : forall z d, zl_stream z d -> is_bytes z /\ is_bytes d;
  zl_compress : forall level chunks, Forall is_bytes chunks ->
    zl_stream (zc_all K (zc_new K level) chunks) (concat chunks) }.
Arguments zl_stream {K}.
Arguments zl_at {K}.

(** The states a decompressobj goes through when it is fed the stream z in any pieces. *)
Inductive reach {K} (L : zlib_laws K) (z d : bytes) : zs K -> bytes -> bytes -> Prop :=
| reach_new : reach L z d (zs_new K) z d
| reach_step st zr dr inp n zr' dr' out st' :
    reach L z d st zr dr -> zr <> [] -> 0 < n -> prefix inp zr \/ prefix zr inp ->
    zstep K (zl_at L) st zr dr inp n zr' dr' out st' -> reach L z d st' zr' dr'.
(** Whenever output is still to come, any 8 bytes of input produce some. *)
Definition dense {K} (L : zlib_laws K) (z d : bytes) : Prop :=
  forall st zr dr inp n out st',
    reach L z d st zr dr -> zr <> [] -> dr <> [] -> prefix inp zr \/ prefix zr inp ->
    8 <= len inp -> 0 < n -> zs_decompress K st inp n = Ok (out, st') -> out <> [].

(** ** Stored blocks: an implementation of the interface *)

(** RFC 1950 *)
Definition adler_step (ab : Z * Z) (c : Z) : Z * Z :=
  let a := (fst ab + c) mod 65521 in (a, (snd ab + a) mod 65521).
Definition adler (d : bytes) : Z * Z := fold_left adler_step d (1, 0).
Definition adler_bytes (ab : Z * Z) : bytes := be_enc 2 (snd ab) ++ be_enc 2 (fst ab).

(** States of a byte-wise decoder: collecting the 2 header bytes, a 5-byte block header,
    copying (at least one byte to go), collecting the 4-byte checksum, finished. *)
Inductive sphase :=
| SHead (l : bytes) | SBlock (l : bytes) | SCopy (final : bool) (n : Z) | STrail (l : bytes) | SDone.
Definition after_block (final : bool) (n : Z) : sphase :=
  if 0 <? n then SCopy final n else if final then STrail [] else SBlock [].
Definition s_feed (ph : sphase) (ab : Z * Z) (c : Z) : res (sphase * (Z * Z) * bytes) :=
  match ph with
  | SHead [] => if c =? 120 then Ok (SHead [c], ab, []) else Raise ZlibError
  | SHead _ => if c =? 1 then Ok (SBlock [], ab, []) else Raise ZlibError
  | SBlock [f; l0; l1; n0] =>
      let n := l0 + 256 * l1 in
      if ((f =? 0) || (f =? 1)) && (n0 + 256 * c =? 65535 - n) then Ok (after_block (f =? 1) n, ab, [])
      else Raise ZlibError
  | SBlock l => Ok (SBlock (l ++ [c]), ab, [])
  | SCopy final n => Ok (after_block final (n - 1), adler_step ab c, [c])
  | STrail [a; b; d] =>
      if beq [a; b; d; c] (adler_bytes ab) then Ok (SDone, ab, []) else Raise ZlibError
  | STrail l => Ok (STrail (l ++ [c]), ab, [])
  | SDone => Raise ZlibError
  end.
(** Phase, checksum, unconsumed_tail, unused_data. *)
Record sstate := mk_s { s_ph : sphase; s_ab : Z * Z; s_tail : bytes; s_unused : bytes }.
(** Decoding goes on while there is input, the stream is not finished and, if the next byte
    would be output, there is room for it.  The output is collected backwards. *)
Fixpoint s_fast (ph : sphase) (ab : Z * Z) (inp : bytes) (n : Z) (rout : bytes) : res (sphase * (Z * Z) * bytes * bytes) :=
  match inp with
  | [] => Ok (ph, ab, rev' rout, [])
  | c :: inp' =>
      match ph with
      | SDone => Ok (ph, ab, rev' rout, inp)
      | SCopy _ _ =>
          if n <=? 0 then Ok (ph, ab, rev' rout, inp)
          else let! (ph, ab, o) := s_feed ph ab c in s_fast ph ab inp' (n - len o) (rev_append o rout)
      | _ => let! (ph, ab, o) := s_feed ph ab c in s_fast ph ab inp' (n - len o) (rev_append o rout)
      end
  end.
Definition s_decompress (st : sstate) (inp : bytes) (n : Z) : res (bytes * sstate) :=
  let! (ph, ab, out, over) := s_fast (s_ph st) (s_ab st) inp n [] in
  match ph with
  | SDone => Ok (out, mk_s ph ab (match s_tail st with [] => [] | _ => over end) (s_unused st ++ over))
  | _ => Ok (out, mk_s ph ab over (s_unused st))
  end.
(** Compression: collect everything, write it as stored blocks of at most 65535 bytes. *)
Definition s_block (final : bool) (d : bytes) : bytes :=
  let n := len d in
  [if final then 1 else 0; n mod 256; n / 256; (65535 - n) mod 256; (65535 - n) / 256] ++ d.
Fixpoint s_blocks (fuel : nat) (d : bytes) : bytes :=
  match fuel with
  | O => []
  | S f => if len d <=? 65535 then s_block true d
           else s_block false (firstn (Z.to_nat 65535) d) ++ s_blocks f (skipn (Z.to_nat 65535) d)
  end.
Definition s_compress (d : bytes) : bytes :=
  [120; 1] ++ s_blocks (S (length d)) d ++ adler_bytes (adler d).
Definition stored : zlib :=
  mk_zlib sstate (mk_s (SHead []) (1, 0) [] []) s_decompress s_tail s_unused
    bytes (fun _ => []) (fun c d => ([], c ++ d)) s_compress.
