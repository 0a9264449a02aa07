(** Model of text and bytes: gitdb/utils/encoding.py, its uses, and the texts of exceptions,
    gitdb/exc.py.  Definitions only. *)
From Verif Require Import Py FunModel ZlibModel ReaderModel PackModel OsModel LooseModel PackDbModel CompoundModel GitModel GitAbbrModel.

(** Text is a list of code points, 0 to 0x10FFFF. *)
Definition text := list Z.
(** A value given by a caller: bytes, text, something else with the buffer interface (which
    is neither, for example a memoryview), anything else. *)
Inductive value := VBytes (b : bytes) | VStr (t : text) | VBuffer (b : bytes) | VOther.

(** text.encode('utf-8'); surrogates raise UnicodeEncodeError, a ValueError. *)
Definition utf8_one (c : Z) : res bytes :=
  if c <? 128 then Ok [c]
  else if c <? 2048 then Ok [192 + c / 64; 128 + c mod 64]
  else if (55296 <=? c) && (c <=? 57343) then Raise ValueError
  else if c <? 65536 then Ok [224 + c / 4096; 128 + c / 64 mod 64; 128 + c mod 64]
  else Ok [240 + c / 262144; 128 + c / 4096 mod 64; 128 + c / 64 mod 64; 128 + c mod 64].
Fixpoint utf8_encode (t : text) : res bytes :=
  match t with
  | [] => Ok []
  | c :: t' => let! b := utf8_one c in let! r := utf8_encode t' in Ok (b ++ r)
  end.
(** bytes.decode('utf-8'); anything not well formed raises UnicodeDecodeError, a ValueError.
    The second byte is limited after E0 (overlong), ED (surrogates), F0 (overlong) and F4
    (beyond 10FFFF). *)
Definition cont (b : Z) : bool := (128 <=? b) && (b <? 192).
Fixpoint utf8_decode (b : bytes) : res text :=
  match b with
  | [] => Ok []
  | x :: r =>
      if x <? 128 then let! t := utf8_decode r in Ok (x :: t)
      else if (194 <=? x) && (x <? 224) then
        match r with
        | y :: r => if cont y then let! t := utf8_decode r in Ok ((x - 192) * 64 + (y - 128) :: t) else Raise ValueError
        | _ => Raise ValueError
        end
      else if (224 <=? x) && (x <? 240) then
        match r with
        | y :: z :: r =>
            if cont y && cont z && negb ((x =? 224) && (y <? 160)) && negb ((x =? 237) && (160 <=? y)) then
              let! t := utf8_decode r in Ok ((x - 224) * 4096 + (y - 128) * 64 + (z - 128) :: t)
            else Raise ValueError
        | _ => Raise ValueError
        end
      else if (240 <=? x) && (x <? 245) then
        match r with
        | y :: z :: w :: r =>
            if cont y && cont z && cont w && negb ((x =? 240) && (y <? 144)) && negb ((x =? 244) && (144 <=? y)) then
              let! t := utf8_decode r in Ok ((x - 240) * 262144 + (y - 128) * 4096 + (z - 128) * 64 + (w - 128) :: t)
            else Raise ValueError
        | _ => Raise ValueError
        end
      else Raise ValueError
  end.

(** gitdb/utils/encoding.py:1-8 *)
Definition force_bytes (v : value) : res value :=
  match v with
  | VStr t => let! b := utf8_encode t in Ok (VBytes b)
  | _ => Ok v
  end.
(** gitdb/utils/encoding.py:11-18; str(data, encoding) needs a buffer. *)
Definition force_text (v : value) : res text :=
  match v with
  | VStr t => Ok t
  | VBytes b => utf8_decode b
  | VBuffer b => utf8_decode b
  | VOther => Raise TypeError
  end.

(** text.encode('ascii') *)
Fixpoint ascii_encode (t : text) : res bytes :=
  match t with
  | [] => Ok []
  | c :: t' => if c <? 128 then let! r := ascii_encode t' in Ok (c :: r) else Raise ValueError
  end.
(** gitdb/fun.py:481-485 *)
Definition loose_header_of (type : value) (size : Z) : res bytes :=
  let! t := force_text type in ascii_encode (t ++ [32] ++ fmt_i size ++ [0]).

(** binascii.a2b_hex, gitdb/util.py:46: text has to be ASCII, otherwise ValueError. *)
Definition a2b_hex (v : value) : res bytes :=
  match v with
  | VBytes b => hex_to_bin b
  | VBuffer b => hex_to_bin b
  | VStr t => let! b := ascii_encode t in hex_to_bin b
  | VOther => Raise TypeError
  end.
(** binascii.b2a_hex, gitdb/util.py:47: text is a TypeError. *)
Definition b2a_hex (v : value) : res bytes :=
  match v with
  | VBytes b => Ok (bin_to_hex b)
  | VBuffer b => Ok (bin_to_hex b)
  | _ => Raise TypeError
  end.
(** len(v); of something else taken to be a TypeError *)
Definition value_len (v : value) : res Z :=
  match v with
  | VBytes b => Ok (len b)
  | VBuffer b => Ok (len b)
  | VStr t => Ok (len t)
  | VOther => Raise TypeError
  end.
(** gitdb/util.py:219-223 *)
Definition to_hex_sha_of (v : value) : res value :=
  let! n := value_len v in if n =? 40 then Ok v else let! h := b2a_hex v in Ok (VBytes h).
(** gitdb/util.py:226-229 *)
Definition to_bin_sha_of (v : value) : res value :=
  let! n := value_len v in if n =? 20 then Ok v else let! h := a2b_hex v in Ok (VBytes h).

(** repr(bytes): in single quotes unless there is a single and no double quote in it. *)
Definition hex_escape (b : Z) : text := [92; 120; hex_digit (b / 16); hex_digit (b mod 16)].
Definition repr_byte (q b : Z) : text :=
  if (b =? q) || (b =? 92) then [92; b]
  else if b =? 9 then [92; 116]
  else if b =? 10 then [92; 110]
  else if b =? 13 then [92; 114]
  else if (b <? 32) || (127 <=? b) then hex_escape b
  else [b].
Definition repr_bytes (b : bytes) : text :=
  let q := if existsb (Z.eqb 39) b && negb (existsb (Z.eqb 34) b) then 34 else 39 in
  [98; q] ++ concat (map (repr_byte q) b) ++ [q].
(** [%s] formatting of a value (not under python -bb); the text of other objects is left out (empty). *)
Definition percent_s (v : value) : text :=
  match v with VStr t => t | VBytes b => repr_bytes b | _ => [] end.
(** The text BadObject, a colon and a space. *)
Definition str_bad_object : text := [66; 97; 100; 79; 98; 106; 101; 99; 116; 58; 32].
(** gitdb/exc.py:31-33: str(BadObject(v)) *)
Definition bad_object_text (v : value) : res text :=
  let! h := to_hex_sha_of v in Ok (str_bad_object ++ percent_s h).

(** ** What BadObject is raised with *)
Inductive lookup :=
| ByName (sha : bytes)      (* gitdb/pack.py:706 and 755, gitdb/db/base.py:197, gitdb/db/pack.py:85, gitdb/db/mem.py:78, gitdb/db/loose.py:140 and 144 *)
| ByPath (hexsha : value)   (* LooseObjectDB.readable_db_object_path, gitdb/db/loose.py:106 *)
| LoosePart (digits : value)  (* LooseObjectDB.partial_to_complete_sha_hex, gitdb/db/loose.py:122 *)
| PackedPart (partial : bytes)  (* PackedDB.partial_to_complete_sha, gitdb/db/pack.py:204 *)
| CompoundPart (digits : value).  (* CompoundDB.partial_to_complete_sha_hex, gitdb/db/base.py:248-253 and 275 *)
(** gitdb/db/base.py:248-253 *)
Definition partial_binsha (digits : value) : res bytes :=
  let! t := force_text digits in
  if negb (len t mod 2 =? 0) then a2b_hex (VStr (t ++ [48])) else a2b_hex (VStr t).
Definition bad_object_arg (l : lookup) : res value :=
  match l with
  | ByName sha => Ok (VBytes sha)
  | ByPath hexsha => Ok hexsha
  | LoosePart digits => Ok digits
  | PackedPart partial => Ok (VBytes partial)
  | CompoundPart digits => let! b := partial_binsha digits in Ok (VBytes b)
  end.
Definition bad_object_message (l : lookup) : res text :=
  let! v := bad_object_arg l in bad_object_text v.

(** ** Digits given as text or as bytes *)
(** gitdb/db/base.py:240-276 for any value: a text that is not ASCII raises ValueError in
    a2b_hex; for an ASCII text force_bytes in LooseObjectDB (gitdb/db/loose.py:115) gives the
    same digits. *)
Definition db_partial_of (F : fs) (fuel : nat) (digits : value) (d : db) : res bytes * db :=
  match db_open F fuel d with
  | (Ok _, d) =>
      match force_text digits with
      | Ok t =>
          match partial_binsha digits with
          | Ok binsha =>
              match force_bytes (VStr t) with
              | Ok (VBytes b) =>
                  let (r, d) := db_ask F b binsha fuel [] d in (match r with Ok [] => Raise BadObject | _ => r end, d)
              | Ok _ => (Raise TypeError, d)
              | Raise x => (Raise x, d)
              | Diverge => (Diverge, d)
              end
          | Raise x => (Raise x, d)
          | Diverge => (Diverge, d)
          end
      | Raise x => (Raise x, d)
      | Diverge => (Diverge, d)
      end
  | (Raise x, d) => (Raise x, d)
  | (Diverge, d) => (Diverge, d)
  end.
