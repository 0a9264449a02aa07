(** What MemoryDB promises. *)
From Verif Require Import Py FunModel FunSpec IndexSpec ZlibModel ReaderModel StreamSpec PackSpec OsModel LooseModel LooseSpec MemModel.

(** What a caller does with the database: storing, asking for a stream and reading from it
    (or not), and the other queries. *)
Inductive mop {R : Type} :=
| MStore (i : istream R) | MUse (sha : bytes) (ops : list rop) | MInfo (sha : bytes) | MHas (sha : bytes) | MSize | MShas.
Arguments mop : clear implicits.
(** What the caller sees. *)
Inductive mout :=
| OStored (sha type : bytes) (size : Z) | OStream (sha type : bytes) (size : Z) (got : list bytes) | OInfo (sha type : bytes) (size : Z)
| OHas (b : bool) | OSize (n : Z) | OShas (l : list bytes).

Section Use.
  Context (K : zlib) (sha1 : bytes -> bytes) (pagesize : Z) {R : Type} (rd : R -> Z -> res (bytes * R)).
  (** Reading through a handle. *)
  Fixpoint use_handle (fuel : nat) (db : mdb K) (n : nat) (ops : list rop) : res (list bytes * mdb K) :=
    match ops with
    | [] => Ok ([], db)
    | Read k :: ops => let! (d, db) := handle_read fuel db n k in let! (l, db) := use_handle fuel db n ops in Ok (d :: l, db)
    | Rewind :: ops => let! db := handle_rewind db n in let! (l, db) := use_handle fuel db n ops in Ok ([] :: l, db)
    end.
  Definition settle_m {A} (db : mdb K) (r : res (A * mdb K)) (f : A -> mout) : prog (res mout * mdb K) :=
    match r with
    | Ok (a, db) => ret (Ok (f a), db)
    | Raise e => ret (Raise e, db)
    | Diverge => Ret Diverge
    end.
  (** One operation; after an exception the database is taken to be as before (no theorem
      says anything about what comes after an exception other than BadObject). *)
  Definition m_do (fuel : nat) (db : mdb K) (op : mop R) : prog (res mout * mdb K) :=
    match op with
    | MStore i => after (mem_store K sha1 pagesize rd fuel db i) (fun r =>
        settle_m db r (fun i => OStored (match is_binsha i with Some s => s | None => [] end) (is_type i) (is_size i)))
    | MUse sha ops =>
        settle_m db (let! (n, db) := mem_stream db sha in let! o := handle_object db n in
                     let! (l, db) := use_handle fuel db n ops in Ok (OStream (ot_binsha o) (ot_type o) (ot_size o) l, db)) (fun o => o)
    | MInfo sha =>
        settle_m db (let! (n, db) := mem_info db sha in let! o := handle_object db n in
                     Ok (OInfo (ot_binsha o) (ot_type o) (ot_size o), db)) (fun o => o)
    | MHas sha => ret (Ok (OHas (mem_has_object db sha)), db)
    | MSize => ret (Ok (OSize (mem_size db)), db)
    | MShas => ret (Ok (OShas (mem_sha_iter db)), db)
    end.
  Fixpoint m_run (fuel : nat) (db : mdb K) (ops : list (mop R)) : prog (list (res mout) * mdb K) :=
    match ops with
    | [] => ret ([], db)
    | op :: ops => do! (o, db) := m_do fuel db op in do! (l, db) := m_run fuel db ops in ret (o :: l, db)
    end.
End Use.

Section Spec.
  Context (sha1 : bytes -> bytes) {R : Type} (content : R -> bytes).
  Definition known (objs : list object) (sha : bytes) : Prop := exists o, In o objs /\ name_of sha1 o sha.
  (** What an operation answers when the objects objs have been stored. *)
  Definition answers (objs : list object) (op : mop R) (out : res mout) : Prop :=
    match op with
    | MStore i => exists sha, name_of sha1 (object_of content i) sha /\ out = Ok (OStored sha (is_type i) (is_size i))
    | MUse sha ops => (exists o, In o objs /\ name_of sha1 o sha /\ out = Ok (OStream sha (fst o) (len (snd o)) (cursor (snd o) 0 ops))) \/
                      (~ known objs sha /\ out = Raise BadObject)
    | MInfo sha => (exists o, In o objs /\ name_of sha1 o sha /\ out = Ok (OInfo sha (fst o) (len (snd o)))) \/
                   (~ known objs sha /\ out = Raise BadObject)
    | MHas sha => exists b, out = Ok (OHas b) /\ (b = true <-> known objs sha)
    | MSize => exists l, NoDup l /\ (forall sha, In sha l <-> known objs sha) /\ out = Ok (OSize (len l))
    | MShas => exists l, NoDup l /\ (forall sha, In sha l <-> known objs sha) /\ out = Ok (OShas l)
    end.
  Definition now_stored (objs : list object) (op : mop R) : list object :=
    match op with MStore i => object_of content i :: objs | _ => objs end.
  Inductive all_answered : list object -> list (mop R) -> list (res mout) -> Prop :=
  | aa_nil objs : all_answered objs [] []
  | aa_cons objs op ops out outs : answers objs op out -> all_answered (now_stored objs op) ops outs ->
      all_answered objs (op :: ops) (out :: outs).
  Fixpoint m_objects (ops : list (mop R)) : list object :=
    match ops with
    | [] => []
    | MStore i :: ops => object_of content i :: m_objects ops
    | _ :: ops => m_objects ops
    end.
End Spec.

(** A byte string in pieces of n bytes; at least one. *)
Fixpoint cut (fuel n : nat) (c : bytes) : list bytes :=
  match fuel with
  | O => [c]
  | S f => if Nat.leb (length c) n then [c] else firstn n c :: cut f n (skipn n c)
  end.
Definition pieces (n : Z) (c : bytes) : list bytes := cut (length c) (Z.to_nat n) c.

(** The restrictions of DecompressMemMapReader (C23-C26).  The compressed form has no long
    parts that produce nothing, or it is small; a caller reads nothing, or reads as [respects]
    says, and at least the part that fits into 8192 bytes with the header. *)
Section Restrictions.
  Context {K : zlib} (L : zlib_laws K) (pagesize : Z).
  Definition header_of (o : object) : bytes := loose_object_header (fst o) (len (snd o)).
  Definition compressed_as (o : object) : bytes := zc_all K (zc_new K 1) (header_of o :: pieces (1000 * pagesize) (snd o)).
  Definition good_object (o : object) : Prop :=
    len (header_of o) <= 8192 /\
    (dense L (compressed_as o) (header_of o ++ snd o) \/ len (compressed_as o) <= 8192).
  Definition good_use (o : object) (ops : list rop) : Prop :=
    let B := Z.to_nat (Z.min (len (snd o)) (8192 - len (header_of o))) in
    ops = [] \/ (respects (dense L (compressed_as o) (header_of o ++ snd o)) B (length (compressed_as o)) (snd o) 0 ops /\ (B <= position 0 ops (cursor (snd o) 0 ops))%nat).
End Restrictions.
Definition m_proper {K : zlib} (L : zlib_laws K) (sha1 : bytes -> bytes) (pagesize : Z) {R} (content : R -> bytes) (all : list object) (op : mop R) : Prop :=
  match op with
  | MStore i => proper content i /\ good_object L pagesize (object_of content i)
  | MUse sha ops => forall o, In o all -> name_of sha1 o sha -> good_use L pagesize o ops
  | _ => True
  end.

(** What copying the objects named shas from a database holding objs into the files below root
    does to the files: nothing that is there is changed; the file of a listed object that was
    not there holds a zlib stream of header and content; no other file appears. *)
Definition copied {K : zlib} (L : zlib_laws K) (sha1 : bytes -> bytes) (objs : list object) (root : path) (shas : list bytes) (s s' : world) : Prop :=
  (forall p z, contents s p = Some z -> contents s' p = Some z) /\
  (forall sha, In sha shas -> contents s (object_file root sha) = None ->
     exists o form z, In o objs /\ loose_form (fst o) (snd o) form /\ sha = sha1 form /\
       contents s' (object_file root sha) = Some z /\ zl_stream L z form) /\
  (forall p, contents s p = None -> (forall sha, In sha shas -> p <> object_file root sha) -> contents s' p = None).
(** The number of different shas in the list without a file. *)
Definition number_missing (root : path) (s : world) (shas : list bytes) (n : Z) : Prop :=
  exists l, NoDup l /\ (forall sha, In sha l <-> In sha shas /\ contents s (object_file root sha) = None) /\ n = len l.
