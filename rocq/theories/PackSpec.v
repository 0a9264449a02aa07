(** Pack files as git's documentation describes them (gitformat-pack, "pack-*.pack files have
    the following format"), and what resolving an object in one means. *)
From Verif Require Import Py FunModel FunSpec IndexModel IndexSpec ZlibModel ReaderModel StreamSpec DeltaModel DeltaSpec PackModel.

(** The data of one entry: type id, base reference, inflated data, zlib stream. *)
Record pentry := mk_pentry { pn_type : Z; pn_delta : delta_info; pn_data : bytes; pn_z : bytes }.

(** (undeltified representation) type and length, compressed data;
    (deltified representation) type and length, base object name if OBJ_REF_DELTA or a
    negative relative offset if OBJ_OFS_DELTA, compressed delta data. *)
Inductive entry_bytes {K} (L : zlib_laws K) : pentry -> bytes -> bytes -> Prop :=
| eb_full t hdr d z : In t [1; 2; 3; 4] -> pack_header t hdr (len d) -> zl_stream L z d ->
    entry_bytes L (mk_pentry t NoDelta d z) hdr z
| eb_ofs hdr bs n d z : pack_header 6 hdr (len d) -> ofs_distance bs n -> zl_stream L z d ->
    entry_bytes L (mk_pentry 6 (OfsDelta n) d z) (hdr ++ bs) z
| eb_ref hdr s d z : pack_header 7 hdr (len d) -> sha_ok s -> zl_stream L z d ->
    entry_bytes L (mk_pentry 7 (RefDelta s) d z) (hdr ++ s) z.
(** The entry is found at that offset. *)
Definition entry_at {K} (L : zlib_laws K) (pack : bytes) (off : Z) (e : pentry) : Prop :=
  exists pre hdr z post, pack = pre ++ hdr ++ z ++ post /\ len pre = off /\ entry_bytes L e hdr z.

(** "4-byte signature: 'PACK'; 4-byte version number (network byte order): 2;
    4-byte number of objects contained in the pack (network byte order)"; the entries; the
    20-byte checksum of all of the above. *)
Definition pack_head (n : Z) : bytes := [80; 65; 67; 75] ++ be_enc 4 2 ++ be_enc 4 n.
(** Entries one after the other from offset [off] on, ending at [fin]. *)
Inductive entries {K} (L : zlib_laws K) : Z -> list (Z * pentry) -> bytes -> Z -> Prop :=
| es_nil off : entries L off [] [] off
| es_cons off e hdr z es b fin : entry_bytes L e hdr z -> entries L (off + len hdr + len z) es b fin ->
    entries L off ((off, e) :: es) (hdr ++ z ++ b) fin.
Definition pack_file {K} (L : zlib_laws K) (sha1 : bytes -> bytes) (es : list (Z * pentry)) (pack : bytes) : Prop :=
  exists body fin, entries L 12 es body fin /\ len es < 2 ^ 32 /\
    pack = (pack_head (len es) ++ body) ++ sha1 (pack_head (len es) ++ body).

(** Names of the objects in the pack, as an index gives them. *)
Definition found_at (shas : list bytes) (offs : list Z) (sha : bytes) (off : Z) : Prop :=
  exists i, index shas i = Ok sha /\ index offs i = Ok off /\ 0 <= i.

(** The chain of offsets from an object to its base: OFS_DELTA entries lead to the entry
    that many bytes before, REF_DELTA entries to the object of that name, until an
    undeltified object or an unknown name. *)
Inductive base_chain {K} (L : zlib_laws K) (pack : bytes) (shas : list bytes) (offs : list Z) : Z -> list (Z * pentry) -> Prop :=
| bc_full off e : entry_at L pack off e -> pn_delta e = NoDelta -> base_chain L pack shas offs off [(off, e)]
| bc_unknown off e s : entry_at L pack off e -> pn_delta e = RefDelta s -> ~ In s shas ->
    base_chain L pack shas offs off [(off, e)]
| bc_ofs off e n l : entry_at L pack off e -> pn_delta e = OfsDelta n ->
    base_chain L pack shas offs (off - n) l -> base_chain L pack shas offs off ((off, e) :: l)
| bc_ref off e s off' l : entry_at L pack off e -> pn_delta e = RefDelta s -> found_at shas offs s off' ->
    base_chain L pack shas offs off' l -> base_chain L pack shas offs off ((off, e) :: l).
(** The chain as gitdb/pack.py:865-898 follows it: once a REF_DELTA has been passed ([r]), an
    OFS_DELTA leads to its distance counted from the start of the pack. *)
Inductive walk {K} (L : zlib_laws K) (pack : bytes) (shas : list bytes) (offs : list Z) : bool -> Z -> list (Z * pentry) -> Prop :=
| wk_full r off e : entry_at L pack off e -> pn_delta e = NoDelta -> walk L pack shas offs r off [(off, e)]
| wk_unknown r off e s : entry_at L pack off e -> pn_delta e = RefDelta s -> ~ In s shas -> walk L pack shas offs r off [(off, e)]
| wk_ofs (r : bool) off e n l : entry_at L pack off e -> pn_delta e = OfsDelta n ->
    walk L pack shas offs r (if r then n else off - n) l -> walk L pack shas offs r off ((off, e) :: l)
| wk_ref r off e s off' l : entry_at L pack off e -> pn_delta e = RefDelta s -> found_at shas offs s off' ->
    walk L pack shas offs true off' l -> walk L pack shas offs r off ((off, e) :: l).
(** No OFS_DELTA after the first REF_DELTA (the chains the code can follow). *)
Fixpoint refs_only (l : list (Z * pentry)) : Prop :=
  match l with
  | [] => True
  | (_, e) :: l' => match pn_delta e with OfsDelta _ => False | _ => True end /\ refs_only l'
  end.
Fixpoint ofs_then_refs (l : list (Z * pentry)) : Prop :=
  match l with
  | [] => True
  | (_, e) :: l' => match pn_delta e with OfsDelta _ => ofs_then_refs l' | _ => refs_only l' end
  end.

(** The object a chain stands for: the deltas applied, oldest first, to the base. *)
Definition chain_object (l : list (Z * pentry)) (t : Z) (content : bytes) : Prop :=
  exists ds off base, l = ds ++ [(off, base)] /\ pn_delta base = NoDelta /\ pn_type base = t /\
    delta_chain (pn_data base) (map (fun p => pn_data (snd p)) ds) content.

(** Where the data of the object at [off] ends: at the next object, or at the checksum. *)
Definition object_end (offs : list Z) (footer off next : Z) : Prop :=
  (off < next /\ In next offs /\ forall o, In o offs -> o <= off \/ next <= o) \/
  ((forall o, In o offs -> o <= off) /\ next = footer).

(** What reading a stream chunk by chunk delivers, up to the first chunk of another size. *)
Inductive chunks_read {R} (read : R -> Z -> res (bytes * R)) (n : Z) : R -> list bytes -> Prop :=
| cr_last r c r' : read r n = Ok (c, r') -> len c <> n -> chunks_read read n r [c]
| cr_more r c r' l : read r n = Ok (c, r') -> len c = n -> chunks_read read n r' l -> chunks_read read n r (c :: l).

(** The loose form of an object, whose hash is its name: type, space, decimal size, null
    byte, content. *)
Definition loose_form (type content obj : bytes) : Prop :=
  exists ds, decimal ds (len content) /\ obj = type ++ [32] ++ ds ++ [0] ++ content.

(** A zlib stream that a single read() delivers completely: any 8 bytes of it produce output,
    or it is not longer than the data. *)
Definition whole {K} (L : zlib_laws K) (z d : bytes) : Prop := dense L z d \/ len z <= Z.max 8 (len d).

(** A chain of deltas (the base comes last) whose streams DeltaApplyReader reads completely:
    the base is copied in chunks of 1 MB, of each delta 512 bytes are read first.  Without
    deltas the object is read as the caller likes. *)
Definition at_once {K} (L : zlib_laws K) (n : Z) (e : pentry) : Prop :=
  dense L (pn_z e) (pn_data e) \/ (len (pn_z e) <= Z.max 8 (len (pn_data e)) /\ len (pn_data e) <= n).
Definition chain_readable {K} (L : zlib_laws K) (l : list (Z * pentry)) : Prop :=
  exists ds base, l = ds ++ [base] /\ Forall (fun p => at_once L 512 (snd p)) ds /\
    (if len ds =? 0 then whole L (pn_z (snd base)) (pn_data (snd base)) else at_once L 1048576 (snd base)).

(** ** Iterating *)
(** What stream_iter can handle: not empty, read in one chunk. *)
Definition pack_entry_readable {K} (L : zlib_laws K) (pagesize : Z) (e : pentry) : Prop :=
  whole L (pn_z e) (pn_data e) /\ pn_data e <> [] /\ len (pn_data e) <= chunk_size pagesize.
(** The object yielded for an entry: offset, type, size, base reference; its stream. *)
Definition yields {K} (p : Z * pentry) (o : pobj K) : Prop :=
  po_offset o = fst p /\ po_type_id o = pn_type (snd p) /\ po_size o = len (pn_data (snd p)) /\ po_delta o = pn_delta (snd p) /\
  (forall ops, exists outs,
     evaluates (fun f => run_stream (read f) (fun r => seek r 0 0) (po_stream o) ops) (Ok outs) /\
     StreamSpec.contiguous (pn_data (snd p)) 0 ops outs /\ within_request ops outs) /\
  (forall n, n < 1 \/ len (pn_data (snd p)) <= n ->
     evaluates (fun f => run_stream (read f) (fun r => seek r 0 0) (po_stream o) [Read n]) (Ok [pn_data (snd p)])).

(** Asking a question for each name in turn, up to the first exception. *)
Fixpoint ask_each {A} (ask : bytes -> res A) (shas : list bytes) : res (list A) :=
  match shas with
  | [] => Ok []
  | s :: l => match ask s with
              | Ok a => match ask_each ask l with Ok r => Ok (a :: r) | Raise e => Raise e | Diverge => Diverge end
              | Raise e => Raise e
              | Diverge => Diverge
              end
  end.

(** ** Writing *)
Section Written.
  Context {K : zlib} (L : zlib_laws K) (pagesize : Z) {R : Type} (oread : R -> Z -> res (bytes * R)) (content : R -> bytes).
  (** object_count: None and 0 mean all objects. *)
  Definition announced (objs : list (@wobj R)) (object_count : option Z) (n : Z) : Prop :=
    match object_count with None => n = len objs | Some k => (k = 0 /\ n = len objs) \/ (k <> 0 /\ n = k) end.
  (** What is written for an object: a header with its type and declared size, and the
      compressed chunks its stream delivered, which have that size together. *)
  Definition written_as (level : Z) (o : @wobj R) (part : bytes) : Prop :=
    exists t hdr chunks, type_to_type_id (wo_type o) = Ok t /\ pack_header t hdr (wo_size o) /\
      chunks_read oread (chunk_size pagesize) (wo_stream o) chunks /\ len (concat chunks) = wo_size o /\
      part = hdr ++ zc_all K (zc_new K level) chunks.
  (** An object with a known type whose stream delivers exactly the declared size. *)
  Definition complete_obj (o : @wobj R) : Prop :=
    exists t chunks, type_to_type_id (wo_type o) = Ok t /\
      chunks_read oread (chunk_size pagesize) (wo_stream o) chunks /\ len (concat chunks) = wo_size o.
  (** An object of one of the four types whose stream has the declared size. *)
  Definition good_obj (o : @wobj R) : Prop :=
    exists t, In t [1; 2; 3; 4] /\ type_id_to_type t = Ok (wo_type o) /\ wo_size o = len (content (wo_stream o)) /\ is_bytes (content (wo_stream o)).
  (** The entry written for it. *)
  Definition entry_for (level : Z) (o : @wobj R) (e : pentry) : Prop :=
    type_id_to_type (pn_type e) = Ok (wo_type o) /\ pn_delta e = NoDelta /\ pn_data e = content (wo_stream o) /\
    exists chunks, concat chunks = content (wo_stream o) /\ pn_z e = zc_all K (zc_new K level) chunks.
  (** Reading it back by name: type, size; the stream delivers the content in pieces one
      after the other, a read of everything delivers everything if zlib's output allows it,
      every read is exact if any 8 compressed bytes produce output, and in any case reads give
      what a DecompressMemMapReader on zlib's output, followed by other bytes, gives. *)
  Definition reads_back (level : Z) (e : entity) (o : @wobj R) : Prop :=
    let d := content (wo_stream o) in
    (forall f, entity_info K f e (wo_binsha o) = Ok (mk_oinfo (wo_binsha o) (wo_type o) (len d))) /\
    exists st chunks, concat chunks = d /\ (forall f, entity_stream K f e (wo_binsha o) = Ok st) /\
      os_type st = wo_type o /\ os_size st = len d /\
      (forall ops, exists outs, evaluates (fun f => run_stream (os_read f) os_seek0 st ops) (Ok outs) /\ StreamSpec.contiguous d 0 ops outs /\ within_request ops outs) /\
      (whole L (zc_all K (zc_new K level) chunks) d -> forall n, n < 1 \/ len d <= n ->
        evaluates (fun f => run_stream (os_read f) os_seek0 st [Read n]) (Ok [d])) /\
      (dense L (zc_all K (zc_new K level) chunks) d -> forall ops,
        evaluates (fun f => run_stream (os_read f) os_seek0 st ops) (Ok (cursor d 0 ops))) /\
      (exists rest, forall ops outs,
        evaluates (fun f => run_stream (read f) (fun r => seek r 0 0) (reader_init K (zc_all K (zc_new K level) chunks ++ rest) (Some (len d))) ops) (Ok outs) ->
        evaluates (fun f => run_stream (os_read f) os_seek0 st ops) (Ok outs)).
  Definition missing_objects (e : entity) (objs : list (@wobj R)) : Prop :=
    forall sha, sha_ok sha -> ~ In sha (map wo_binsha objs) -> forall f,
      entity_info K f e sha = Raise BadObject /\ entity_stream K f e sha = Raise BadObject.
End Written.
