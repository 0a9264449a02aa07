(** What LooseObjectDB promises, without reference to how it does it. *)
From Verif Require Import Py FunModel FunSpec IndexSpec ZlibModel ReaderModel StreamSpec PackSpec OsModel LooseModel.

(** The file of an object: two hex digits, a slash, the other digits. *)
Definition object_file (root : path) (sha : bytes) : path :=
  root ++ [firstn 2 (bin_to_hex sha); skipn 2 (bin_to_hex sha)].

(** What a stream delivers when [size] bytes of it are wanted in pieces of at most [chunk]
    bytes, [have] of them already there: up to the first short piece. *)
Inductive delivered {R} (read : R -> Z -> res (bytes * R)) (size chunk : Z) : Z -> R -> list bytes -> R -> Prop :=
| dl_last have r d r' : read r (Z.min chunk (size - have)) = Ok (d, r') ->
    len d < Z.min chunk (size - have) \/ have + len d = size -> delivered read size chunk have r [d] r'
| dl_more have r d r' l r'' : read r (Z.min chunk (size - have)) = Ok (d, r') ->
    Z.min chunk (size - have) <= len d -> have + len d <> size ->
    delivered read size chunk (have + len d) r' l r'' -> delivered read size chunk have r (d :: l) r''.

Section Spec.
  Context (K : zlib) (sha1 : bytes -> bytes) (pagesize : Z) {R : Type} (read : R -> Z -> res (bytes * R)).

  (** Which bytes end up in which file when i is stored below root: without a sha, the
      compressed header and data in the file named by their hash; with a sha, the stream as
      it is in the file named by the sha (if the system takes all that is written). *)
  Definition stored_as (O : os) (root : path) (i : istream R) (p : path) (z : bytes) : Prop :=
    match is_binsha i with
    | None => exists chunks r', delivered read (is_size i) (stream_chunk_size pagesize) 0 (is_stream i) chunks r' /\
        let h := loose_object_header (is_type i) (is_size i) in
        p = object_file root (sha1 (h ++ concat chunks)) /\ z = zc_all K (zc_new K 1) (h :: chunks)
    | Some sha => sha <> [] /\ p = object_file root sha /\
        (may_fail O KShort = false ->
         exists chunks r', delivered read maxsize (stream_chunk_size pagesize) 0 (is_stream i) chunks r' /\ z = concat chunks)
    end.
End Spec.

(** The names mkstemp gives: never those of objects. *)
Definition temp_file (root t : path) : Prop := exists suf, tmp_suffix suf /\ t = root ++ [obj_prefix ++ suf].

(** A step in which a write took less than it was given. *)
Definition is_short {B} (c : call B) : B -> bool :=
  match c in call B return B -> bool with
  | Write _ d => fun a => match a with Ok k => k <? len d | _ => false end
  | _ => fun _ => false
  end.
Definition short_step (O : os) {A} (p : prog A) (s : world) (p' : prog A) (s' : world) : Prop :=
  match p with
  | Ret _ => False
  | Call c k => exists a, sys O c s a s' /\ p' = k a /\ is_short c a = true
  end.

(** A query that leaves the files alone and has just one possible outcome. *)
Definition yields (O : os) {A} (p : prog A) (s : world) (r : res A) : Prop :=
  runs O p s r s /\ forall r' s', runs O p s r' s' -> r' = r /\ s' = s.

(** A process using a database: operations whose results and exceptions are ignored. *)
Section Use.
  Context (K : zlib) (sha1 : bytes -> bytes) (pagesize : Z) {R : Type} (read : R -> Z -> res (bytes * R)).
  Inductive lop := LStore (i : istream R) | LHas (sha : bytes) | LInfo (sha : bytes) | LStream (sha : bytes).
  Definition settle {A} (p : prog A) (db : ldb) (f : A -> ldb) : prog ldb :=
    after p (fun r => match r with Ok a => ret (f a) | Raise _ => ret db | Diverge => Ret Diverge end).
  Definition l_do (fuel : nat) (db : ldb) (op : lop) : prog ldb :=
    match op with
    | LStore i => settle (store K sha1 pagesize read fuel db None i) db (fun _ => db)
    | LHas sha => settle (has_object db sha) db snd
    | LInfo sha => settle (info K db sha) db (fun _ => db)
    | LStream sha => settle (stream K fuel db sha) db (fun _ => db)
    end.
  (** A history: operations that end (normally or with an exception), and operations during
      which the process dies, after which a new process opens the database. *)
  Inductive lives (O : os) (fuel : nat) : ldb -> world -> list lop -> ldb -> world -> Prop :=
  | lv_end db s : lives O fuel db s [] db s
  | lv_op db s op db1 s1 ops db2 s2 : runs O (l_do fuel db op) s (Ok db1) s1 ->
      lives O fuel db1 s1 ops db2 s2 -> lives O fuel db s (op :: ops) db2 s2
  | lv_crash db s op s1 noatime ops db2 s2 : stops O (l_do fuel db op) s s1 ->
      lives O fuel (loose_init (l_root db) noatime) s1 ops db2 s2 -> lives O fuel db s (op :: ops) db2 s2.
End Use.
Arguments LStore {R}. Arguments LHas {R}. Arguments LInfo {R}. Arguments LStream {R}.

(** Objects: a type and a content.  An input stream for one of them, and the objects stored
    by a list of operations. *)
Definition object : Type := bytes * bytes.
Definition object_of {R} (content : R -> bytes) (i : istream R) : object := (is_type i, content (is_stream i)).
Definition proper {R} (content : R -> bytes) (i : istream R) : Prop :=
  is_binsha i = None /\ is_size i = len (content (is_stream i)) /\
  is_bytes (is_type i) /\ is_bytes (content (is_stream i)) /\
  ~ In 32 (is_type i) /\ ~ In 0 (is_type i).
Fixpoint objects_of {R} (content : R -> bytes) (ops : list (lop (R := R))) : list object :=
  match ops with
  | [] => []
  | LStore i :: ops' => object_of content i :: objects_of content ops'
  | _ :: ops' => objects_of content ops'
  end.
Definition proper_op {R} (content : R -> bytes) (op : lop (R := R)) : Prop :=
  match op with LStore i => proper content i | _ => True end.
(** The name of an object. *)
Definition name_of (sha1 : bytes -> bytes) (o : object) (sha : bytes) : Prop :=
  exists form, loose_form (fst o) (snd o) form /\ sha = sha1 form.
Definition no_collision (sha1 : bytes -> bytes) (l : list object) : Prop :=
  forall o1 o2 sha, In o1 l -> In o2 l -> name_of sha1 o1 sha -> name_of sha1 o2 sha -> o1 = o2.
(** No file below root has the name of an object. *)
Definition no_objects (root : path) (s : world) : Prop :=
  forall sha, sha_ok sha -> path_exists s (object_file root sha) = false.

(** Nothing goes wrong by itself. *)
Definition faultless (O : os) : Prop := forall k, may_fail O k = false.
(** The database directory exists, and nothing but directories and the object file itself is
    where store wants to put the object file. *)
Definition room_for (root : path) (sha : bytes) (s : world) : Prop :=
  is_dir s root = true /\ is_dir s (object_file root sha) = false /\
  forall d, In d (ancestors [] (dirname (object_file root sha))) -> is_file s d = false.

(** The objects of a database directory: the files named by a sha.  Nothing else in it looks
    like an object. *)
Definition present (root : path) (s : world) (sha : bytes) : Prop := sha_ok sha /\ is_file s (object_file root sha) = true.
Definition tidy (root : path) (s : world) : Prop :=
  forall p, is_file s p = true -> (exists q, p = root ++ q) -> len (basename (dirname p)) = 2 -> len (basename p) = 38 ->
    exists sha, sha_ok sha /\ p = object_file root sha.

(** The complete file of an object that was stored: with a sha the file named by it with all
    that the stream contains, without one the file named by the hash of header and content,
    a zlib stream of header and content. *)
Definition complete {K} (L : zlib_laws K) (sha1 : bytes -> bytes) {R} (content : R -> bytes) (root : path) (i : istream R) (p : path) (z : bytes) : Prop :=
  match is_binsha i with
  | None => exists form, loose_form (is_type i) (content (is_stream i)) form /\ p = object_file root (sha1 form) /\ zl_stream L z form
  | Some sha => p = object_file root sha /\ z = content (is_stream i)
  end.
(** What may be stored: an object, or the compressed form of one with its sha. *)
Definition storable {R} (content : R -> bytes) (i : istream R) : Prop :=
  match is_binsha i with
  | None => proper content i
  | Some sha => sha_ok sha /\ len (content (is_stream i)) <= 2 ^ 63 - 1
  end.
(** The hex name of sha starts with [prefix]. *)
Definition abbreviates (prefix sha : bytes) : Prop := exists rest, bin_to_hex sha = prefix ++ rest.

(** A complete file of one of the objects [objs], under its name. *)
Definition file_of {K} (L : zlib_laws K) (sha1 : bytes -> bytes) (objs : list object) (sha : bytes) (o : object) (z : bytes) : Prop :=
  In o objs /\ exists form, loose_form (fst o) (snd o) form /\ sha = sha1 form /\ zl_stream L z form.
(** All object files of a directory are such files. *)
Definition sound_dir {K} (L : zlib_laws K) (sha1 : bytes -> bytes) (objs : list object) (root : path) (s : world) : Prop :=
  forall sha, sha_ok sha -> is_dir s (object_file root sha) = false /\
    forall z, contents s (object_file root sha) = Some z -> exists o, file_of L sha1 objs sha o z.
(** What is stored is one of the objects, possibly compressed already and with its name. *)
Definition honest {K} (L : zlib_laws K) (sha1 : bytes -> bytes) {R} (content : R -> bytes) (objs : list object) (i : istream R) : Prop :=
  match is_binsha i with
  | None => proper content i /\ In (object_of content i) objs
  | Some sha => len (content (is_stream i)) <= 2 ^ 63 - 1 /\ exists o, file_of L sha1 objs sha o (content (is_stream i))
  end.
