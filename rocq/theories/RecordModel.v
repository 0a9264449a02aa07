(** Model of the record classes of gitdb/base.py: what their constructors make of their
    arguments, and what their properties give.  Definitions only.

    Simplified: keyword arguments are not modelled (OStream and ODeltaStream would drop
    unknown ones); attributes a class does not have give AttributeError, and those of
    tuple and list are left out. *)
From Verif Require Import Py FunModel TextModel.

(** The classes of gitdb/base.py. *)
Inductive record_class :=
| OInfo | OPackInfo | ODeltaPackInfo | OStream | ODeltaStream | OPackStream | ODeltaPackStream
| IStream | InvalidOInfo | InvalidOStream.

(** The properties these classes have. *)
Inductive attribute :=
| Binsha | Hexsha | Type_ | TypeId | Size | Stream | PackOffset | DeltaInfo | Error_.

Section Records.
  (** [S]: the streams records carry; [size_of s] is s.size and [read_of s n] is s.read(n). *)
  Variable S : Type.

  (** What is kept in a record: None, text or bytes, a number, a stream, an exception. *)
  Inductive item :=
  | INone
  | IText (p : pystr)
  | IInt (n : Z)
  | IStr (s : S)
  | IExc (e : exn).

  Variable size_of : S -> res item.
  Variable read_of : S -> Z -> res bytes.

  (** [tuple.__new__] keeps the items given.  The constructors of gitdb/base.py:
      OInfo 35-39, OPackInfo 76-80, ODeltaPackInfo 111-112, OStream 128-133,
      ODeltaStream 151-153, OPackStream 170-172, ODeltaPackStream 189-190, IStream 213-217,
      InvalidOInfo 290-294 (inherited by InvalidOStream, 310-313).

      - OStream, ODeltaStream and OPackStream take further arguments and drop them.
      - An IStream can be given a sha, and has no error at first.
      - InvalidOInfo.__init__ calls tuple.__init__(self, (sha, exc)), which is
        object.__init__; with an argument too many that raises TypeError when the class
        has an __init__ of its own.
      - A wrong number of arguments raises TypeError. *)
  Definition construct (c : record_class) (args : list item) : res (list item) :=
    match c, args with
    | OInfo, [sha; type; size] => Ok [sha; type; size]
    | OPackInfo, [offset; type; size] => Ok [offset; type; size]
    | ODeltaPackInfo, [offset; type; size; delta_info] => Ok [offset; type; size; delta_info]
    | OStream, sha :: type :: size :: stream :: _ => Ok [sha; type; size; stream]
    | ODeltaStream, sha :: type :: size :: stream :: _ => Ok [sha; type; size; stream]
    | OPackStream, offset :: type :: size :: stream :: _ => Ok [offset; type; size; stream]
    | ODeltaPackStream, [offset; type; size; delta_info; stream] =>
        Ok [offset; type; size; delta_info; stream]
    | IStream, [type; size; stream] => Ok [INone; type; size; stream; INone]
    | IStream, [type; size; stream; sha] => Ok [sha; type; size; stream; INone]
    | _, _ => Raise TypeError
    end.

  (** self[i] for a constant i *)
  Definition item_at (o : list item) (i : nat) : res item :=
    match nth_error o i with Some x => Ok x | None => Raise IndexError end.

  (** binascii.b2a_hex of an item *)
  Definition hex_item (x : item) : res item :=
    match x with
    | IText (PBytes b) => Ok (IText (PBytes (bin_to_hex b)))
    | _ => Raise TypeError
    end.
  (** type_to_type_id_map[x] (gitdb/fun.py:44-51); its keys are names. *)
  Definition id_of_item (x : item) : res item :=
    match x with
    | IText p => let! i := type_to_type_id p in Ok (IInt i)
    | _ => Raise KeyError
    end.
  (** type_id_to_type_map[x] (gitdb/fun.py:33-42); its keys are numbers. *)
  Definition name_of_item (x : item) : res item :=
    match x with
    | IInt i => let! p := type_id_to_type i in Ok (IText p)
    | _ => Raise KeyError
    end.
  (** x.size: only streams have one. *)
  Definition size_of_item (x : item) : res item :=
    match x with IStr s => size_of s | _ => Raise AttributeError end.

  (** The getters: OInfo 42-62 (inherited by OStream and ODeltaStream), OPackInfo 84-98
      (inherited by the other pack records), ODeltaPackInfo 115-117, OStream 140-142,
      ODeltaStream 157-159, OPackStream 178-180, ODeltaPackStream 196-198, IStream 220-278,
      InvalidOInfo 296-307. *)
  Definition oinfo_get (o : list item) (a : attribute) : res item :=
    match a with
    | Binsha => item_at o 0
    | Hexsha => let! x := item_at o 0 in hex_item x
    | Type_ => item_at o 1
    | TypeId => let! x := item_at o 1 in id_of_item x
    | Size => item_at o 2
    | _ => Raise AttributeError
    end.
  Definition opackinfo_get (o : list item) (a : attribute) : res item :=
    match a with
    | PackOffset => item_at o 0
    | Type_ => let! x := item_at o 1 in name_of_item x
    | TypeId => item_at o 1
    | Size => item_at o 2
    | _ => Raise AttributeError
    end.
  Definition get (c : record_class) (o : list item) (a : attribute) : res item :=
    match c, a with
    | OInfo, _ => oinfo_get o a
    | OPackInfo, _ => opackinfo_get o a
    | ODeltaPackInfo, DeltaInfo => item_at o 3
    | ODeltaPackInfo, _ => opackinfo_get o a
    | OStream, Stream => item_at o 3
    | OStream, _ => oinfo_get o a
    | ODeltaStream, Stream => item_at o 3
    | ODeltaStream, Size => let! x := item_at o 3 in size_of_item x
    | ODeltaStream, _ => oinfo_get o a
    | OPackStream, Stream => item_at o 3
    | OPackStream, _ => opackinfo_get o a
    | ODeltaPackStream, Stream => item_at o 4
    | ODeltaPackStream, DeltaInfo => item_at o 3
    | ODeltaPackStream, _ => opackinfo_get o a
    | IStream, Binsha => item_at o 0
    | IStream, Hexsha => let! x := item_at o 0 in hex_item x
    | IStream, Type_ => item_at o 1
    | IStream, Size => item_at o 2
    | IStream, Stream => item_at o 3
    | IStream, Error_ => item_at o 4
    | IStream, _ => Raise AttributeError
    | InvalidOInfo, Binsha | InvalidOStream, Binsha => item_at o 0
    | InvalidOInfo, Hexsha | InvalidOStream, Hexsha => let! x := item_at o 0 in hex_item x
    | InvalidOInfo, Error_ | InvalidOStream, Error_ => item_at o 1
    | InvalidOInfo, _ | InvalidOStream, _ => Raise AttributeError
    end.

  (** self[i] = x for a list *)
  Fixpoint put_at (o : list item) (i : nat) (x : item) : res (list item) :=
    match o, i with
    | [], _ => Raise IndexError
    | _ :: r, O => Ok (x :: r)
    | y :: r, Datatypes.S i => let! r := put_at r i x in Ok (y :: r)
    end.

  (** The setters of IStream (gitdb/base.py:229-278); the other classes have none, and
      IStream.hexsha has none: AttributeError. *)
  Definition set (c : record_class) (o : list item) (a : attribute) (x : item) : res (list item) :=
    match c, a with
    | IStream, Binsha => put_at o 0 x
    | IStream, Type_ => put_at o 1 x
    | IStream, Size => put_at o 2 x
    | IStream, Stream => put_at o 3 x
    | IStream, Error_ => put_at o 4 x
    | _, _ => Raise AttributeError
    end.

  (** read(size): OStream 137-138, OPackStream 175-176, ODeltaPackStream 193-194, IStream
      239-242.  What is not a stream has no read. *)
  Definition read_item (x : item) (n : Z) : res bytes :=
    match x with IStr s => read_of s n | _ => Raise AttributeError end.
  Definition read (c : record_class) (o : list item) (n : Z) : res bytes :=
    match c with
    | OStream | ODeltaStream | OPackStream | IStream => let! x := item_at o 3 in read_item x n
    | ODeltaPackStream => let! x := item_at o 4 in read_item x n
    | _ => Raise AttributeError
    end.
End Records.
Arguments INone {S}.
Arguments IText {S}.
Arguments IInt {S}.
Arguments IStr {S}.
Arguments IExc {S}.
