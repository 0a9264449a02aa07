(** What the records of gitdb/base.py and some small helpers are for, written down from
    their documentation. *)
From Verif Require Import Py FunModel RecordModel UtilModel.

(** The arguments a record is made from, by the properties they should come back as: the
    third argument of a pack record is called type there, but is a number. *)
Definition parameters (c : record_class) : list attribute :=
  match c with
  | OInfo => [Binsha; Type_; Size]
  | OPackInfo => [PackOffset; TypeId; Size]
  | ODeltaPackInfo => [PackOffset; TypeId; Size; DeltaInfo]
  | OStream => [Binsha; Type_; Size; Stream]
  | ODeltaStream => [Binsha; Type_; Size; Stream]
  | OPackStream => [PackOffset; TypeId; Size; Stream]
  | ODeltaPackStream => [PackOffset; TypeId; Size; DeltaInfo; Stream]
  | IStream => [Type_; Size; Stream; Binsha]
  | InvalidOInfo => [Binsha; Error_]
  | InvalidOStream => [Binsha; Error_]
  end.
(** Records with a stream, as files. *)
Definition readable_class (c : record_class) : Prop := In Stream (parameters c).
(** What a caller may set on an IStream. *)
Definition settable (a : attribute) : Prop := In a [Binsha; Type_; Size; Stream; Error_].

(** git's kinds of objects: the numbers packs use, and the names. *)
Definition git_kinds : list (Z * bytes) :=
  [(1, [99; 111; 109; 109; 105; 116]); (2, [116; 114; 101; 101]); (3, [98; 108; 111; 98]); (4, [116; 97; 103])].

(** Systems that do not make things up: os.fstat gives the size; os.read gives bytes from the
    position on, not more than asked for; both may fail with OSError. *)
Definition honest (f : open_file) : Prop :=
  0 <= of_pos f /\
  (of_fstat f = Ok (len (of_contents f)) \/ of_fstat f = Raise OSError) /\
  forall n, of_read f n = Raise OSError \/
    exists b rest, of_read f n = Ok b /\ skipn (Z.to_nat (of_pos f)) (of_contents f) = b ++ rest /\ len b <= Z.max 0 n.
(** os.read gives all the bytes asked for, if the file has them. *)
Definition reads_fully (f : open_file) : Prop :=
  of_fstat f = Ok (len (of_contents f)) /\
  of_read f (len (of_contents f)) = Ok (skipn (Z.to_nat (of_pos f)) (of_contents f)).
(** os.read of Linux: never more than 0x7ffff000 bytes at a time. *)
Definition linux_reads (f : open_file) : Prop :=
  of_pos f = 0 /\ of_fstat f = Ok (len (of_contents f)) /\
  forall n, of_read f n = Ok (firstn (Z.to_nat (Z.min n 2147479552)) (of_contents f)).

Definition contents_of (m : memory) : bytes :=
  match m with Mapped b => b | Plain b => b | Buffer b => b end.
(** Memory maps and in-memory files can be read like files, bytes cannot. *)
Definition readable (m : memory) : Prop := match m with Plain _ => False | _ => True end.

(** The names a path consists of, without empty ones. *)
Fixpoint names_from (cur p : bytes) : list bytes :=
  match p with
  | [] => match cur with [] => [] | _ => [cur] end
  | x :: p' => if x =? 47 then match cur with [] => names_from [] p' | _ => cur :: names_from [] p' end
               else names_from (cur ++ [x]) p'
  end.
Definition path_names (p : bytes) : list bytes := names_from [] p.
Definition absolute (p : bytes) : Prop := hd_error p = Some 47.
