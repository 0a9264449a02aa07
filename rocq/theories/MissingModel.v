(** Model of asking a PackFile, a PackIndexFile or a PackEntity for an attribute that it does not
    have, as hasattr does: LazyMixin.__getattr__, gitdb/util.py:248-255, calls _set_cache_ with the
    name and then object.__getattribute__, which raises AttributeError.  Definitions only. *)
From Verif Require Import Py FunModel IndexModel ZlibModel ReaderModel DeltaReaderModel PackModel LazyModel LazySpec.

(** gitdb/pack.py:532-542: whatever the name is *)
Definition pf_missing (D : res bytes) : method pfile unit := get (fun _ => None) (pf_set_cache D).
(** gitdb/pack.py:282-302: the last branch *)
Definition xf_missing (D : res bytes) : method ifile unit := get (fun _ => None) (xf_set_cache D).
(** gitdb/pack.py:677-700: whatever the name is *)
Definition ef_missing (DX DP : res bytes) : method efile unit := get (fun _ => None) (ef_set_cache DX DP).

(** ** Histories of calls as in LazySpec.v, in which missing attributes are asked for as well *)
Inductive pf_life (D : res bytes) : bool -> pfile -> Prop :=
| pl_new : pf_life D false pf_new
| pl_call b s s' : pf_life D b s -> pf_call D s s' -> pf_life D b s'
| pl_missing b s : pf_life D b s -> pf_life D b (snd (pf_missing D s))
| pl_close b s : pf_life D b s -> pf_life D true (snd (pf_close s)).
Inductive xf_life (D : res bytes) : bool -> ifile -> Prop :=
| xl_new : xf_life D false xf_new
| xl_call b s s' : xf_life D b s -> xf_call D s s' -> xf_life D b s'
| xl_missing b s : xf_life D b s -> xf_life D b (snd (xf_missing D s))
| xl_close b s : xf_life D b s -> xf_life D true (snd (xf_close s)).
Inductive ef_life (K : zlib) (sha1 : bytes -> bytes) (pagesize : Z) (DX DP : res bytes) : bool -> efile -> Prop :=
| fl_new : ef_life K sha1 pagesize DX DP false ef_new
| fl_call b s s' : ef_life K sha1 pagesize DX DP b s -> ef_call K sha1 pagesize DX DP s s' -> ef_life K sha1 pagesize DX DP b s'
| fl_missing b s : ef_life K sha1 pagesize DX DP b s -> ef_life K sha1 pagesize DX DP b (snd (ef_missing DX DP s))
| fl_index_missing b s : ef_life K sha1 pagesize DX DP b s -> ef_life K sha1 pagesize DX DP b (snd (on_index (xf_missing DX) s))
| fl_pack_missing b s : ef_life K sha1 pagesize DX DP b s -> ef_life K sha1 pagesize DX DP b (snd (on_pack (pf_missing DP) s))
| fl_close b s : ef_life K sha1 pagesize DX DP b s -> ef_life K sha1 pagesize DX DP true (snd (ef_close s)).
