(** The order in which PackedDB asks its packs, and the hit counters. *)
From Coq Require Import Sorted Permutation.
From Verif Require Import Py FunModel IndexModel ZlibModel ReaderModel PackModel PackDbModel.

(** Packs with higher counters first; packs with the same counter in the order they had. *)
Definition descending (l : list item) : Prop := StronglySorted (fun a b => it_hits b <= it_hits a) l.
Definition rearranged (l l' : list item) : Prop :=
  Permutation l l' /\ descending l' /\ forall h, filter (fun it => it_hits it =? h) l' = filter (fun it => it_hits it =? h) l.
(** The order for a query, given how many were answered before: every 500 the packs are
    sorted again. *)
Definition query_order (answered : Z) (l l' : list item) : Prop :=
  if answered mod 500 =? 0 then rearranged l l' else l' = l.

(** The index of a pack: from the map kept by the item, or the file in the directory. *)
Definition opens (e : env) (it : item) (ix : pidx) : Prop :=
  exists d, (it_idx it = Some d \/ (it_idx it = None /\ map_file e (idx_name (it_name it)) = Ok d)) /\ index_open d = Ok ix.
Definition has_not (e : env) (sha : bytes) (it : item) : Prop := exists ix, opens e it ix /\ sha_to_index ix sha = Ok None.

(** Counter and name of each pack, in the order they are kept. *)
Definition counters (l : list item) : list (Z * bytes) := map (fun it => (it_hits it, it_name it)) l.
