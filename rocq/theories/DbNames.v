(** The attributes of the database classes of gitdb/db, and the in operator. *)
From Coq Require Import String.
From Verif Require Import Py.

Inductive db_class := CLoose | CMemory | CPacked | CCompound | CReference | CGit.
Section Names.
  Local Open Scope string_scope. Local Open Scope list_scope.
  (** gitdb/db/base.py:30-160 *)
  Definition names_objectdbr := ["__contains__"; "has_object"; "info"; "stream"; "size"; "sha_iter"].
  Definition names_objectdbw := ["__init__"; "_ostream"; "set_ostream"; "ostream"; "store"].
  Definition names_filedbbase := ["__init__"; "_root_path"; "root_path"; "db_path"].
  (** gitdb/util.py:237-266 *)
  Definition names_lazymixin := ["__getattr__"; "_set_cache_"].
  (** gitdb/db/base.py:166-276 *)
  Definition names_compounddb := names_objectdbr ++ names_lazymixin ++
    ["update_cache"; "_dbs"; "_db_cache"; "_db_query"; "databases"; "partial_to_complete_sha_hex"].
  (** The methods and instance variables of the classes of gitdb/db (those with two
      underscores that every object has are left out). *)
  Definition names (c : db_class) : list string :=
    match c with
    | CLoose => names_filedbbase ++ names_objectdbr ++ names_objectdbw ++
        ["stream_chunk_size"; "new_objects_mode"; "_hexsha_to_file"; "_fd_open_flags"; "object_path";
         "readable_db_object_path"; "partial_to_complete_sha_hex"; "_map_loose_object"]
    | CMemory => names_objectdbr ++ names_objectdbw ++ ["_db"; "_cache"; "stream_copy"]
    | CPacked => names_filedbbase ++ names_objectdbr ++ names_lazymixin ++
        ["_sort_interval"; "_entities"; "_hit_count"; "_st_mtime"; "_sort_entities"; "_pack_info"; "store";
         "update_cache"; "entities"; "partial_to_complete_sha"]
    | CCompound => names_compounddb
    | CReference => names_compounddb ++ ["ObjectDBCls"; "_ref_file"; "_update_dbs_from_ref_file"]
    | CGit => names_filedbbase ++ names_objectdbw ++ names_compounddb ++
        ["PackDBCls"; "LooseDBCls"; "ReferenceDBCls"; "packs_dir"; "loose_dir"; "alternates_dir"; "_loose_db"]
    end.
  (** gitdb/db/base.py:30-31: [sha in db] evaluates self.has_obj, which is not called; what a
      class has under that name would be true. *)
  Definition contains (c : db_class) (sha : bytes) : res bool :=
    if existsb (String.eqb "has_obj") (names c) then Ok true else Raise AttributeError.
End Names.
