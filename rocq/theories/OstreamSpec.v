(** Storing through an output stream, as seen by the caller. *)
From Verif Require Import Py FunModel FunSpec ZlibModel ReaderModel OsModel LooseModel LooseSpec OstreamModel.

Section Ostream.
  Context {K : zlib} (sha1 : bytes -> bytes) (pagesize : Z) {R : Type} (read : R -> Z -> res (bytes * R)).
  (** Sha1Writer and ZippedStoreShaWriter; what they have digested. *)
  Definition digested (w : writer K) : option bytes :=
    match w with WSha seen => Some seen | WZip seen _ _ => Some seen | _ => None end.
  (** Writers nothing has been written to. *)
  Definition unused (w : writer K) : Prop := w = WSha [] \/ w = WZip [] (zc_new K 1) [].
  (** Objects one after the other, until one raises. *)
  Fixpoint store_each (fuel : nat) (d : wdb K) (l : list (istream R)) : prog (list (istream R) * wdb K) :=
    match l with
    | [] => ret ([], d)
    | i :: l' => do! (i', d) := db_store K sha1 pagesize read fuel d i in
                 do! (rest, d) := store_each fuel d l' in ret (i' :: rest, d)
    end.
End Ostream.
