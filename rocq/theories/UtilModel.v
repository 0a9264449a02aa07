(** Model of further helpers of gitdb/util.py, gitdb/stream.py and gitdb/db/base.py: file
    contents, the in-memory file, byte_ord, NullStream and db_path.  Definitions only. *)
From Verif Require Import Py FunModel.

(** ** gitdb/util.py:163-189: file_contents_ro

    What the system has to say about one open descriptor: the contents of the file, the
    descriptor's position, whether each of the two attempts to map it fails with OSError
    ([true]), what os.fstat says and what os.read answers when asked for n bytes. *)
Record open_file := mk_open_file {
  of_contents : bytes;
  of_pos : Z;
  of_map1 : bool;
  of_map2 : bool;
  of_fstat : res Z;
  of_read : Z -> res bytes
}.

(** What the caller gets: a memory map, plain bytes, or a _RandomAccessBytesIO. *)
Inductive memory := Mapped (b : bytes) | Plain (b : bytes) | Buffer (b : bytes).

(** mmap.mmap(fd, n, access=ACCESS_READ) with n = 0 or the size of the file: the whole file;
    an empty file cannot be mapped and gives ValueError (not an OSError). *)
Definition map_file (fails : bool) (f : open_file) : res memory :=
  if fails then Raise OSError
  else match of_contents f with [] => Raise ValueError | b => Ok (Mapped b) end.

(** gitdb/util.py:185-189 *)
Definition read_manually (f : open_file) (stream : bool) : res memory :=
  let! n := of_fstat f in
  let! b := of_read f n in
  if stream then Ok (Buffer b) else Ok (Plain b).

(** gitdb/util.py:172-183: an OSError of the first map leads to the second, an OSError of
    the second (or of its os.fstat) to reading. *)
Definition file_contents_ro (f : open_file) (stream allow_mmap : bool) : res memory :=
  if allow_mmap then
    match map_file (of_map1 f) f with
    | Raise OSError =>
        match (let! _ := of_fstat f in map_file (of_map2 f) f) with
        | Raise OSError => read_manually f stream
        | r => r
        end
    | r => r
    end
  else read_manually f stream.

(** gitdb/util.py:192-209: the file is opened, and closed whatever comes of it.  The result
    comes with what happened to the descriptor. *)
Inductive fd_event := Opened | Closed.
Definition file_contents_ro_filepath (opened : res open_file) (closing : res unit)
  (stream allow_mmap : bool) : res memory * list fd_event :=
  match opened with
  | Ok f =>
      let r := file_contents_ro f stream allow_mmap in
      (match closing with Ok _ => r | Raise e => Raise e | Diverge => Diverge end, [Opened; Closed])
  | Raise e => (Raise e, [])
  | Diverge => (Diverge, [])
  end.

(** ** gitdb/util.py:97-116: _RandomAccessBytesIO

    A BytesIO object: its contents and position. *)
Record bytesio := mk_bytesio { bio_data : bytes; bio_pos : Z }.

(** _RandomAccessBytesIO(buf), also without an argument: the default is the text '', which
    BytesIO refuses. *)
Definition bio_new (buf : pystr) : res bytesio :=
  match buf with PBytes b => Ok (mk_bytesio b 0) | PStr _ => Raise TypeError end.
Definition bio_default : pystr := PStr [].

(** BytesIO.seek(n), from the start: ValueError for a negative n; n may lie beyond the end. *)
Definition bio_seek (b : bytesio) (n : Z) : res bytesio :=
  if n <? 0 then Raise ValueError else Ok (mk_bytesio (bio_data b) n).
(** BytesIO.write: a gap before the position is filled with zeros; writing nothing does nothing. *)
Definition bio_write (b : bytesio) (d : bytes) : bytesio :=
  if len d =? 0 then b
  else
    let old := bio_data b in
    let pos := bio_pos b in
    mk_bytesio (slice_to old pos ++ repeat 0 (Z.to_nat (pos - len old)) ++ d
                ++ slice_from old (pos + len d))
      (pos + len d).
(** BytesIO.read(n) *)
Definition bio_read (b : bytesio) (n : Z) : bytes * bytesio :=
  let d := if n <? 0 then slice_from (bio_data b) (bio_pos b)
           else slice (bio_data b) (bio_pos b) (bio_pos b + n) in
  (d, mk_bytesio (bio_data b) (bio_pos b + len d)).
(** __len__ (gitdb/util.py:109-110) and __getitem__ (112-113) go through getvalue(). *)
Definition bio_len (b : bytesio) : Z := len (bio_data b).
Definition bio_item (b : bytesio) (i : Z) : res Z := index (bio_data b) i.

(** ** gitdb/util.py:119-127: byte_ord *)
Inductive ordinal := ONum (n : Z) | OText (p : pystr).
(** [ord] takes text or bytes of length one, and raises TypeError for anything else; then
    the argument is given back. *)
Definition byte_ord (b : ordinal) : ordinal :=
  match b with
  | OText (PBytes [x]) => ONum x
  | OText (PStr [x]) => ONum x
  | _ => b
  end.

(** ** gitdb/stream.py:714-728: NullStream

    read gives the text '', write says that all was written. *)
Definition null_read (size : Z) : pystr := PStr [].
Definition null_write (d : bytes) : Z := len d.

(** ** gitdb/db/base.py:128-132: db_path

    os.path.join of a root and a path (posixpath.join): an absolute second path replaces
    the first. *)
Definition slash_char : Z := 47.
Definition path_join (a b : bytes) : bytes :=
  match b with
  | 47 :: _ => b
  | _ => match List.rev a with
         | [] => b
         | 47 :: _ => a ++ b
         | _ => a ++ slash_char :: b
         end
  end.
Definition db_path (root rela : bytes) : bytes := path_join root rela.
