(** Model of PackedDB, gitdb/db/pack.py.  Definitions only.
    Simplifications: the directory does not change during one call; file names stand for
    path names (all packs are in the one directory, whose path contains no characters
    special to glob, see GlobModel.v); a map of a file shows its contents at the time of mapping.  The hit
    counters are not raced for (see the note in lines 64-67 of the code). *)
From Verif Require Import Py FunModel IndexModel ZlibModel ReaderModel PackModel.

(** What is in the directory: file names, each with what opening and mapping the file gives. *)
Record dir := mk_dir { d_mtime : Z; d_files : list (bytes * res bytes) }.
(** What one call finds: the directory, if there is one, and the order in which a set of
    names is iterated. *)
Record env := mk_env { e_dir : option dir; e_order : list bytes -> list bytes }.

Fixpoint file_named (n : bytes) (l : list (bytes * res bytes)) : res bytes :=
  match l with
  | [] => Raise FileNotFound
  | (m, c) :: l' => if beq m n then c else file_named n l'
  end.
(** mman.make_cursor(path).use_region() and map(); an empty file cannot be mapped. *)
Definition map_file (e : env) (n : bytes) : res bytes :=
  match e_dir e with
  | None => Raise FileNotFound
  | Some d =>
      let! c := file_named n (d_files d) in
      if len c =? 0 then Raise ValueError else Ok c
  end.

Definition str_pack_dash : bytes := [112; 97; 99; 107; 45].
Definition str_dot_pack : bytes := [46; 112; 97; 99; 107].
Definition str_dot_idx : bytes := [46; 105; 100; 120].
(** The pattern "pack-*.pack", gitdb/db/pack.py:149 *)
Definition is_pack_name (n : bytes) : bool :=
  startswith n str_pack_dash && beq (slice_from n (-5)) str_dot_pack && (10 <=? len n).
(** glob.glob(os.path.join(self.root_path(), "pack-*.pack")) *)
Definition glob_packs (d : dir) : list bytes := filter is_pack_name (map fst (d_files d)).
(** gitdb/pack.py:670-673: os.path.splitext of a name that ends in ".pack" *)
Definition idx_name (n : bytes) : bytes := slice_to n (-5) ++ str_dot_idx.

(** An element of _entities, gitdb/db/pack.py:43-47: the hit counter and the PackEntity,
    with its name, the data its pack file maps (opened by update_cache for its size) and the
    data its index file maps, if that has been used already. *)
Record item := mk_item { it_hits : Z; it_name : bytes; it_pack : bytes; it_idx : option bytes }.

(** gitdb/db/pack.py:48-49, and the list loaded when first used *)
Record pdb := mk_pdb { p_entities : option (list item); p_hit_count : Z; p_mtime : Z }.
Definition packed_init : pdb := mk_pdb None 0 0.
Definition sort_interval : Z := 500.

(** gitdb/db/pack.py:58: sort by the first element, descending; elements with the same
    counter keep their order. *)
Fixpoint insert_item (x : item) (l : list item) : list item :=
  match l with
  | [] => [x]
  | y :: l' => if it_hits x <? it_hits y then y :: insert_item x l' else x :: l
  end.
Fixpoint sort_items (l : list item) : list item :=
  match l with [] => [] | x :: l' => insert_item x (sort_items l') end.

Definition mem (n : bytes) (l : list bytes) : bool := existsb (beq n) l.
(** the set of the elements of a list *)
Fixpoint dedup (l : list bytes) : list bytes :=
  match l with [] => [] | x :: l' => if mem x l' then dedup l' else x :: dedup l' end.

(** gitdb/db/pack.py:153-158; the list as far as it was extended *)
Fixpoint add_packs (e : env) (new : list bytes) (l : list item) : res unit * list item :=
  match new with
  | [] => (Ok tt, l)
  | n :: new' =>
      match (let! d := map_file e n in let! (_, size) := pack_open d in Ok (mk_item size n d None)) with
      | Ok it => add_packs e new' (l ++ [it])
      | Raise x => (Raise x, l)
      | Diverge => (Diverge, l)
      end
  end.
(** gitdb/db/pack.py:162-170 *)
Fixpoint remove_first (n : bytes) (l : list item) : option (list item) :=
  match l with
  | [] => None
  | it :: l' => if beq (it_name it) n then Some l' else option_map (cons it) (remove_first n l')
  end.
Fixpoint remove_packs (gone : list bytes) (l : list item) : res unit * list item :=
  match gone with
  | [] => (Ok tt, l)
  | n :: gone' =>
      match remove_first n l with
      | Some l' => remove_packs gone' l'
      | None => (Raise AssertionError, l)
      end
  end.
(** gitdb/db/pack.py:149-175, _entities being [l] *)
Definition refresh (e : env) (d : dir) (l : list item) : res bool * list item :=
  let pack_files := glob_packs d in
  let ours := dedup (map it_name l) in
  match add_packs e (e_order e (filter (fun n => negb (mem n ours)) pack_files)) l with
  | (Ok _, l1) =>
      match remove_packs (e_order e (filter (fun n => negb (mem n pack_files)) ours)) l1 with
      | (Ok _, l2) => (Ok true, sort_items l2)
      | (Raise x, l2) => (Raise x, l2)
      | (Diverge, l2) => (Diverge, l2)
      end
  | (Raise x, l1) => (Raise x, l1)
  | (Diverge, l1) => (Diverge, l1)
  end.

(** gitdb/db/pack.py:51-55 with 141-175: first use of _entities.  The attribute is set before
    the directory is read. *)
Definition load (e : env) (s : pdb) : res (list item) * pdb :=
  match p_entities s with
  | Some l => (Ok l, s)
  | None =>
      match e_dir e with
      | None => (Raise FileNotFound, mk_pdb (Some []) (p_hit_count s) (p_mtime s))
      | Some d =>
          match refresh e d [] with
          | (Ok _, l) => (Ok l, mk_pdb (Some l) (p_hit_count s) (d_mtime d))
          | (Raise x, l) => (Raise x, mk_pdb (Some l) (p_hit_count s) (d_mtime d))
          | (Diverge, l) => (Diverge, mk_pdb (Some l) (p_hit_count s) (d_mtime d))
          end
      end
  end.
(** gitdb/db/pack.py:132-175 *)
Definition update_cache (e : env) (force : bool) (s : pdb) : res bool * pdb :=
  match e_dir e with
  | None => (Raise FileNotFound, s)
  | Some d =>
      if negb force && (d_mtime d <=? p_mtime s) then (Ok false, s)
      else
        match load e (mk_pdb (p_entities s) (p_hit_count s) (d_mtime d)) with
        | (Ok l, s) => let (r, l) := refresh e d l in (r, mk_pdb (Some l) (p_hit_count s) (p_mtime s))
        | (Raise x, s) => (Raise x, s)
        | (Diverge, s) => (Diverge, s)
        end
  end.

(** gitdb/pack.py:268-302: the index of an entity, opened when first used *)
Definition open_index (e : env) (it : item) : res pidx * item :=
  match it_idx it with
  | Some d => (index_open d, it)
  | None =>
      match map_file e (idx_name (it_name it)) with
      | Ok d => (index_open d, mk_item (it_hits it) (it_name it) (it_pack it) (Some d))
      | Raise x => (Raise x, it)
      | Diverge => (Diverge, it)
      end
  end.

(** gitdb/db/pack.py:73-80 *)
Fixpoint look (e : env) (sha : bytes) (l : list item) : res (option (entity * Z)) * list item :=
  match l with
  | [] => (Ok None, [])
  | it :: l' =>
      let (r, it) := open_index e it in
      match (let! ix := r in let! i := sha_to_index ix sha in Ok (ix, i)) with
      | Ok (ix, Some i) =>
          (Ok (Some (mk_entity ix (it_pack it), i)), mk_item (it_hits it + 1) (it_name it) (it_pack it) (it_idx it) :: l')
      | Ok (_, None) => let (r, l') := look e sha l' in (r, it :: l')
      | Raise x => (Raise x, it :: l')
      | Diverge => (Diverge, it :: l')
      end
  end.
(** gitdb/db/pack.py:60-85 *)
Definition pack_info (e : env) (sha : bytes) (s : pdb) : res (entity * Z) * pdb :=
  match load e s with
  | (Ok l, s) =>
      let l := if p_hit_count s mod sort_interval =? 0 then sort_items l else l in
      match look e sha l with
      | (Ok (Some p), l) => (Ok p, mk_pdb (Some l) (p_hit_count s + 1) (p_mtime s))
      | (Ok None, l) => (Raise BadObject, mk_pdb (Some l) (p_hit_count s) (p_mtime s))
      | (Raise x, l) => (Raise x, mk_pdb (Some l) (p_hit_count s) (p_mtime s))
      | (Diverge, l) => (Diverge, mk_pdb (Some l) (p_hit_count s) (p_mtime s))
      end
  | (Raise x, s) => (Raise x, s)
  | (Diverge, s) => (Diverge, s)
  end.

(** gitdb/db/pack.py:89-95 *)
Definition has_object (e : env) (sha : bytes) (s : pdb) : res bool * pdb :=
  match pack_info e sha s with
  | (Ok _, s) => (Ok true, s)
  | (Raise BadObject, s) => (Ok false, s)
  | (Raise x, s) => (Raise x, s)
  | (Diverge, s) => (Diverge, s)
  end.

(** All indices, one after the other; the ones opened so far stay open. *)
Fixpoint each_index {A} (e : env) (f : pidx -> res A) (l : list item) : res (list A) * list item :=
  match l with
  | [] => (Ok [], [])
  | it :: l' =>
      let (r, it) := open_index e it in
      match (let! ix := r in f ix) with
      | Ok a => let (r, l') := each_index e f l' in ((let! t := r in Ok (a :: t)), it :: l')
      | Raise x => (Raise x, it :: l')
      | Diverge => (Diverge, it :: l')
      end
  end.
Definition on_indices {A} (e : env) (f : pidx -> res A) (s : pdb) : res (list A) * pdb :=
  match load e s with
  | (Ok l, s) => let (r, l) := each_index e f l in (r, mk_pdb (Some l) (p_hit_count s) (p_mtime s))
  | (Raise x, s) => (Raise x, s)
  | (Diverge, s) => (Diverge, s)
  end.
(** gitdb/db/pack.py:105-112, all that the generator yields *)
Definition index_shas (ix : pidx) : res (list bytes) :=
  let! n := ix_size ix in Ok (map (fun i => ix_sha ix (Z.of_nat i)) (seq 0 (Z.to_nat n))).
Definition sha_iter (e : env) (s : pdb) : res (list bytes) * pdb :=
  let (r, s) := on_indices e index_shas s in ((let! l := r in Ok (concat l)), s).
(** gitdb/db/pack.py:114-116 *)
Definition size (e : env) (s : pdb) : res Z * pdb :=
  let (r, s) := on_indices e ix_size s in ((let! l := r in Ok (fold_left Z.add l 0)), s).

(** gitdb/db/pack.py:189-204; [if candidate] is false for None and for the empty string *)
Fixpoint partial_scan (e : env) (partial : bytes) (n : Z) (l : list item) (candidate : option bytes) : res bytes * list item :=
  match l with
  | [] => (match candidate with Some (b :: s) => Ok (b :: s) | _ => Raise BadObject end, [])
  | it :: l' =>
      let (r, it) := open_index e it in
      match (let! ix := r in
             let! i := partial_sha_to_index ix partial n in
             match i with
             | None => Ok candidate
             | Some i =>
                 let sha := ix_sha ix i in
                 match candidate with
                 | Some (b :: s) => if beq (b :: s) sha then Ok (Some sha) else Raise AmbiguousObjectName
                 | _ => Ok (Some sha)
                 end
             end) with
      | Ok candidate => let (r, l') := partial_scan e partial n l' candidate in (r, it :: l')
      | Raise x => (Raise x, it :: l')
      | Diverge => (Diverge, it :: l')
      end
  end.
(** gitdb/db/pack.py:181-204 *)
Definition partial_to_complete_sha (e : env) (partial : bytes) (n : Z) (s : pdb) : res bytes * pdb :=
  match load e s with
  | (Ok l, s) => let (r, l) := partial_scan e partial n l None in (r, mk_pdb (Some l) (p_hit_count s) (p_mtime s))
  | (Raise x, s) => (Raise x, s)
  | (Diverge, s) => (Diverge, s)
  end.

(** gitdb/db/pack.py:177-179 *)
Definition entities (e : env) (s : pdb) : res (list item) * pdb := load e s.

Section Objects.
  Context (K : zlib).
  (** gitdb/db/pack.py:97-103 *)
  Definition info (fuel : nat) (e : env) (sha : bytes) (s : pdb) : res oinfo * pdb :=
    let (r, s) := pack_info e sha s in ((let! (en, i) := r in info_at_index K fuel en i), s).
  Definition stream (fuel : nat) (e : env) (sha : bytes) (s : pdb) : res (ostream K) * pdb :=
    let (r, s) := pack_info e sha s in ((let! (en, i) := r in stream_at_index K fuel en i), s).
End Objects.
(** gitdb/db/pack.py:122-126 *)
Definition store {A} (istream : A) : res A := Raise UnsupportedOperation.
