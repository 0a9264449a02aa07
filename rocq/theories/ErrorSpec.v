(** Which errors files of packs and indices cause. *)
From Verif Require Import Py FunModel IndexModel ZlibModel ReaderModel PackModel PackDbModel PackDbSpec.

(** Not a pack: no room for the header, another signature than PACK. *)
Definition bad_pack (c : bytes) (x : exn) : Prop :=
  (len c < 12 /\ x = StructError) \/ (12 <= len c /\ firstn 4 c <> [80; 65; 67; 75] /\ x = ParseError).
(** Not an index.  Version 2 has a signature, the version and a table of 256 numbers, version 1
    the table only. *)
Definition bad_index (c : bytes) (x : exn) : Prop :=
  (firstn 4 c = [255; 116; 79; 99] /\
    ((len c < 8 /\ x = StructError) \/ (8 <= len c /\ firstn 4 (skipn 4 c) <> [0; 0; 0; 2] /\ x = AssertionError) \/
     (8 <= len c < 1032 /\ firstn 4 (skipn 4 c) = [0; 0; 0; 2] /\ x = StructError))) \/
  (firstn 4 c <> [255; 116; 79; 99] /\ len c < 1024 /\ x = StructError).
(** The directory has no such file, it cannot be opened or mapped, it is empty (mmap raises
    ValueError), or it is none of that kind. *)
Definition file_fails (bad : bytes -> exn -> Prop) (d : dir) (n : bytes) (x : exn) : Prop :=
  (~ listed d n /\ x = FileNotFound) \/ In (n, Raise x) (d_files d) \/ (In (n, Ok []) (d_files d) /\ x = ValueError) \/
  exists c, c <> [] /\ In (n, Ok c) (d_files d) /\ bad c x.
(** A known pack: its index has been mapped already, or is looked for. *)
Definition index_fails (d : dir) (it : item) (x : exn) : Prop :=
  match it_idx it with
  | Some c => bad_index c x
  | None => forall idx, pack_and_index (it_name it) idx -> file_fails bad_index d idx x
  end.
(** Files contain bytes; opening one does not raise BadObject, and returns. *)
Definition readable_dir (d : dir) : Prop :=
  forall n c, In (n, c) (d_files d) -> match c with Ok b => is_bytes b | Raise x => x <> BadObject | Diverge => False end.
Definition proper_call (o : op) : Prop := e_dir (op_env o) = None \/ exists d, proper_env (op_env o) d /\ readable_dir d.
(** the exception an answer is *)
Definition raised {K} (a : answer K) : option exn :=
  let of {A} (r : res A) := match r with Raise x => Some x | _ => None end in
  match a with
  | AHas r => of r | AInfo r => of r | AStream r => of r | AIter r => of r
  | ASize r => of r | APartial r => of r | AEntities r => of r | AUpdate r => of r
  end.
