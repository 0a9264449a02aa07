(** What a directory of packs contains and what a database over it should answer. *)
From Coq Require Import Permutation.
From Verif Require Import Py FunModel FunSpec IndexModel IndexSpec ZlibModel ReaderModel PackModel PackSpec PackDbModel.

(** A pack: the contents of its index, the bytes of its two files. *)
Record pack := mk_pack { k_version : Z; k_shas : list bytes; k_crcs : list Z; k_offs : list Z; k_idx : bytes; k_data : bytes }.
Definition good_pack (k : pack) : Prop :=
  index_file (k_version k) (k_shas k) (k_crcs k) (k_offs k) (k_idx k) /\ strictly_sorted_shas (k_shas k) /\
  exists version n rest, 0 <= version < 2 ^ 32 /\ 0 <= n < 2 ^ 32 /\ k_data k = [80; 65; 67; 75] ++ be_enc 4 version ++ be_enc 4 n ++ rest.

(** "pack-" anything ".pack", and the name of the index that goes with it *)
Definition pack_and_index (name idx : bytes) : Prop :=
  exists x, name = [112; 97; 99; 107; 45] ++ x ++ [46; 112; 97; 99; 107] /\ idx = [112; 97; 99; 107; 45] ++ x ++ [46; 105; 100; 120].
Definition listed (d : dir) (n : bytes) : Prop := exists c, In (n, c) (d_files d).
Definition packs_in (d : dir) (n : bytes) : Prop := listed d n /\ exists idx, pack_and_index n idx.

(** A directory has every name once; iterating a set gives every element once. *)
Definition proper_env (e : env) (d : dir) : Prop :=
  e_dir e = Some d /\ NoDup (map fst (d_files d)) /\ forall l, Permutation (e_order e l) l.

(** ** What a database has to answer *)
Inductive query :=
| QHas (sha : bytes) | QInfo (fuel : nat) (sha : bytes) | QStream (fuel : nat) (sha : bytes)
| QIter | QSize | QPartial (prefix : bytes) (canonical : Z) | QEntities.
(** One call: what it finds, and what is called. *)
Inductive op := Query (e : env) (q : query) | Update (e : env) (force : bool).
Inductive answer {K : zlib} :=
| AHas (r : res bool) | AInfo (r : res oinfo) | AStream (r : res (ostream K)) | AIter (r : res (list bytes))
| ASize (r : res Z) | APartial (r : res bytes) | AEntities (r : res (list item)) | AUpdate (r : res bool).
Arguments answer : clear implicits.

Section Run.
  Context (K : zlib).
  Definition tag {A} (f : A -> answer K) (p : A * pdb) : answer K * pdb := (f (fst p), snd p).
  Definition do_op (o : op) (s : pdb) : answer K * pdb :=
    match o with
    | Query e (QHas sha) => tag AHas (has_object e sha s)
    | Query e (QInfo fuel sha) => tag AInfo (info K fuel e sha s)
    | Query e (QStream fuel sha) => tag AStream (stream K fuel e sha s)
    | Query e QIter => tag AIter (sha_iter e s)
    | Query e QSize => tag ASize (size e s)
    | Query e (QPartial p n) => tag APartial (partial_to_complete_sha e p n s)
    | Query e QEntities => tag AEntities (entities e s)
    | Update e force => tag AUpdate (update_cache e force s)
    end.
  Fixpoint run_ops (ops : list op) (s : pdb) : list (answer K) * pdb :=
    match ops with
    | [] => ([], s)
    | o :: ops' => let (a, s) := do_op o s in let (l, s) := run_ops ops' s in (a :: l, s)
    end.
End Run.

(** What the database has to know: the packs found when it last looked (nothing yet: None),
    and the time stamp of the directory then. *)
Record view := mk_view { v_known : option (bytes -> Prop); v_mtime : Z }.
Definition op_env (o : op) : env := match o with Query e _ => e | Update e _ => e end.
Definition look_again (o : op) (v : view) (d : dir) : bool :=
  match o with
  | Query _ _ => match v_known v with None => true | Some _ => false end
  | Update _ force => force || (v_mtime v <? d_mtime d)
  end.
Definition view_after (o : op) (v : view) : view :=
  match e_dir (op_env o) with
  | None => v
  | Some d => if look_again o v d then mk_view (Some (packs_in d)) (d_mtime d) else v
  end.

Section Answers.
  (** The packs there are, by name: files of that name never have other contents. *)
  Variable U : bytes -> option pack.
  Definition there (d : dir) (n : bytes) : Prop :=
    exists k idx, U n = Some k /\ good_pack k /\ pack_and_index n idx /\
      In (n, Ok (k_data k)) (d_files d) /\ In (idx, Ok (k_idx k)) (d_files d).
  (** When it is looked at, the directory has only complete packs; a query finds the known packs
      still there. *)
  Definition proper_op (o : op) (v : view) : Prop :=
    exists d, proper_env (op_env o) d /\ (look_again o v d = true -> forall n, packs_in d n -> there d n) /\
      match o, v_known v with
      | Query _ _, Some P => forall n, P n -> there d n
      | _, _ => True
      end.

  Definition pack_has (P : bytes -> Prop) (n : bytes) (k : pack) (sha : bytes) : Prop :=
    P n /\ U n = Some k /\ In sha (k_shas k).
  Definition entity_of (k : pack) (e : entity) : Prop := index_open (k_idx k) = Ok (en_index e) /\ en_pack e = k_data k.
  (** Answered by one of the packs that have the object, or BadObject if there is none. *)
  Definition by_some_pack {A} (P : bytes -> Prop) (sha : bytes) (f : entity -> res A) (r : res A) : Prop :=
    (exists n k e, pack_has P n k sha /\ entity_of k e /\ r = f e) \/
    ((forall n k, ~ pack_has P n k sha) /\ r = Raise BadObject).
  (** The first name in a pack that begins with these digits. *)
  Definition offers (P : bytes -> Prop) (prefix s : bytes) : Prop :=
    exists n k i, P n /\ U n = Some k /\ first_index (fun s => startswith (bin_to_hex s) prefix) (k_shas k) = Some i /\ index (k_shas k) i = Ok s.
  (** The packs, each once. *)
  Definition all_packs (P : bytes -> Prop) (ks : list (bytes * pack)) : Prop :=
    NoDup (map fst ks) /\ (forall n k, In (n, k) ks -> U n = Some k) /\ forall n, P n <-> In n (map fst ks).
  Definition right_answer {K} (P : bytes -> Prop) (q : query) (a : answer K) : Prop :=
    match q, a with
    | QHas sha, AHas r => sha_ok sha -> exists b, r = Ok b /\ (b = true <-> exists n k, pack_has P n k sha)
    | QInfo fuel sha, AInfo r => sha_ok sha -> by_some_pack P sha (fun e => entity_info K fuel e sha) r
    | QStream fuel sha, AStream r => sha_ok sha -> by_some_pack P sha (fun e => entity_stream K fuel e sha) r
    | QIter, AIter r => exists ks l, all_packs P ks /\ r = Ok l /\ Permutation l (concat (map (fun p => k_shas (snd p)) ks))
    | QSize, ASize r => exists ks, all_packs P ks /\ r = Ok (len (concat (map (fun p => k_shas (snd p)) ks)))
    | QPartial mtch n, APartial r =>
        forall prefix, lower_hex prefix -> n = len prefix -> 3 <= n <= 40 -> hex_to_bin (pad_even prefix) = Ok mtch ->
        match r with
        | Ok s => offers P prefix s /\ forall s', offers P prefix s' -> s' = s
        | Raise AmbiguousObjectName => exists s s', offers P prefix s /\ offers P prefix s' /\ s <> s'
        | Raise BadObject => forall s, ~ offers P prefix s
        | _ => False
        end
    | QEntities, AEntities r => exists l, r = Ok l /\ NoDup (map it_name l) /\ forall n, P n <-> In n (map it_name l)
    | _, _ => False
    end.
  (** Calls and answers one after the other. *)
  Inductive all_right {K} : view -> list op -> list (answer K) -> view -> Prop :=
  | ar_nil v : all_right v [] [] v
  | ar_query v e q ops a l v' P : v_known (view_after (Query e q) v) = Some P -> right_answer P q a ->
      all_right (view_after (Query e q) v) ops l v' -> all_right v (Query e q :: ops) (a :: l) v'
  | ar_update v e force d ops l v' : e_dir e = Some d ->
      all_right (view_after (Update e force) v) ops l v' ->
      all_right v (Update e force :: ops) (AUpdate (Ok (look_again (Update e force) v d)) :: l) v'.
  Fixpoint all_proper (v : view) (ops : list op) : Prop :=
    match ops with
    | [] => True
    | o :: ops' => proper_op o v /\ all_proper (view_after o v) ops'
    end.
End Answers.

(** ** Updating *)
(** A pack file that can be opened: it begins like a pack; and how the database lists it. *)
Definition openable (d : dir) (n : bytes) (count : Z) (data : bytes) : Prop :=
  In (n, Ok data) (d_files d) /\ exists version rest, 0 <= version < 2 ^ 32 /\ 0 <= count < 2 ^ 32 /\ data = [80; 65; 67; 75] ++ be_enc 4 version ++ be_enc 4 count ++ rest.

(** ** Any state and surroundings *)
Definition possible_env (e : env) : Prop := e_dir e = None \/ exists d, proper_env e d.
Definition items (s : pdb) : list item := match p_entities s with Some l => l | None => [] end.
Definition distinct (s : pdb) : Prop := match p_entities s with None => True | Some l => NoDup (map it_name l) end.
(** States a database can be in. *)
Definition reachable (s : pdb) : Prop :=
  exists K ops l, Forall (fun o => possible_env (op_env o)) ops /\ run_ops K ops packed_init = (l, s).

(** The call raised this exception. *)
Definition raised (x : exn) {K} (a : answer K) : Prop :=
  match a with
  | AHas r => r = Raise x | AInfo r => r = Raise x | AStream r => r = Raise x | AIter r => r = Raise x
  | ASize r => r = Raise x | APartial r => r = Raise x | AEntities r => r = Raise x | AUpdate r => r = Raise x
  end.
