(** What a repository with alternates has to answer. *)
From Coq Require Import Permutation Relations Sorting.Sorted.
From Verif Require Import Py FunModel FunSpec IndexModel IndexSpec ZlibModel ReaderModel PackModel PackSpec OsModel LooseModel PackDbModel PackDbSpec CompoundModel CompoundSpec GitModel.

(** ** The alternates file *)
Definition line_break (c : Z) : Prop := In c [10; 11; 12; 13; 28; 29; 30; 133; 8232; 8233].
Definition white (c : Z) : Prop :=
  9 <= c <= 13 \/ 28 <= c <= 32 \/ 8192 <= c <= 8202 \/ In c [133; 160; 5760; 8232; 8233; 8239; 8287; 12288].
(** A line of a text that is not blank, without the white space around it. *)
Definition line_of (text p : list Z) : Prop :=
  exists a line b w w', text = a ++ line ++ b /\
    (a = [] \/ exists a' c, a = a' ++ [c] /\ line_break c) /\ (b = [] \/ exists c b', b = c :: b' /\ line_break c) /\
    Forall (fun c => ~ line_break c) line /\ line = w ++ p ++ w' /\ Forall white w /\ Forall white w' /\
    p <> [] /\ (forall c p', p = c :: p' -> ~ white c) /\ (forall c p', p = p' ++ [c] -> ~ white c).

(** The lines, each where it is first. *)
Fixpoint once (l : list (list Z)) : list (list Z) :=
  match l with [] => [] | p :: l' => p :: filter (fun q => negb (beq q p)) (once l') end.

(** ** Repositories *)
(** A path that can be used as a repository: there is a directory. *)
Definition usable (F : fs) (p : list Z) : Prop := p <> [] /\ exists r, f_repo F p = Some r.
Definition is_usable (F : fs) (p : list Z) : bool :=
  match p with [] => false | _ => match f_repo F p with Some _ => true | None => false end end.
Definition alternate (F : fs) (r p : list Z) : Prop :=
  (exists R text, f_repo F r = Some R /\ r_alt R = Some (Ok text) /\ line_of text p) /\ usable F p.
(** Reached through alternates files, in any number of steps. *)
Definition reaches (F : fs) : list Z -> list Z -> Prop := clos_refl_trans _ (alternate F).

Section Repositories.
  (** Pack files by repository and name. *)
  Context (F : fs) (U : list Z -> bytes -> option pack).
  (** The object is in a repository itself: loose, or in a pack. *)
  Definition in_packs (r : list Z) (sha : bytes) : Prop :=
    exists R d n k, f_repo F r = Some R /\ r_pack R = Some d /\ pack_has (U r) (packs_in d) n k sha.
  Definition is_loose_in (r : list Z) (sha : bytes) : Prop :=
    exists R c, f_repo F r = Some R /\ In (sha, c) (r_loose R).
  Definition repo_has (r : list Z) (sha : bytes) : Prop := in_packs r sha \/ is_loose_in r sha.
  (** The object is in a repository or in one that it reaches. *)
  Definition found (r : list Z) (sha : bytes) : Prop := exists r', reaches F r r' /\ repo_has r' sha.

  (** A repository as it should be: complete packs, an alternates file that can be decoded
      or cannot be read at all. *)
  Definition proper_repo (r : list Z) : Prop :=
    forall R, f_repo F r = Some R ->
    (forall d, r_pack R = Some d -> NoDup (map fst (d_files d)) /\ forall n, packs_in d n -> there (U r) d n) /\
    NoDup (map fst (r_loose R)) /\
    (forall t, r_alt R = Some t -> (exists text, t = Ok text) \/ t = Raise FileNotFound \/ t = Raise OSError \/ t = Raise PermissionError).
  Definition proper_from (r : list Z) : Prop :=
    (forall l, Permutation (f_order F l) l) /\ usable F r /\ forall r', reaches F r r' -> proper_repo r'.
  (** Alternates that form a finite graph without a cycle. *)
  Definition finite_acyclic (r : list Z) : Prop :=
    (exists l, forall r', reaches F r r' -> In r' l) /\ forall r', reaches F r r' -> ~ clos_trans _ (alternate F) r' r'.

  (** All names in the packs of a repository, pack by pack; the names of its loose objects. *)
  Definition packs_list (r : list Z) (l : list bytes) : Prop :=
    exists R, f_repo F r = Some R /\
    match r_pack R with
    | None => l = []
    | Some d => exists ks, all_packs (U r) (packs_in d) ks /\ l = concat (map (fun p => k_shas (snd p)) ks)
    end.
  Definition loose_list (r : list Z) (l : list bytes) : Prop := exists R, f_repo F r = Some R /\ l = map fst (r_loose R).
  (** The names of a repository and of those it reaches, along every way. *)
  Inductive listing : list Z -> list bytes -> Prop :=
  | listing_repo r lp ll ps ls : packs_list r lp -> loose_list r ll ->
      NoDup ps -> (forall p, alternate F r p <-> In p ps) -> Forall2 listing ps ls -> listing r (lp ++ ll ++ concat ls).

  Context (K : zlib).
  (** What a repository may say about an object it has.  Reading a pack may take as much time
      as [m] allows. *)
  Definition repo_says (m : nat) (r : list Z) (sha : bytes) (x : res oinfo) : Prop :=
    (exists R d n k e f, f_repo F r = Some R /\ r_pack R = Some d /\ pack_has (U r) (packs_in d) n k sha /\ entity_of k e /\
       (m <= f)%nat /\ x = entity_info K f e sha) \/
    (exists R c, f_repo F r = Some R /\ In (sha, c) (r_loose R) /\
       match c with
       | Ok z => x = (let! (typ, size) := loose_object_header_info K z in Ok (mk_oinfo sha (PBytes typ) size))
       | Raise e => x = Raise (if is_oserror e then BadObject else e)
       | Diverge => x = Diverge
       end).

  (** ** Histories of one database, nothing changing on disk *)
  Inductive gop := GHas (sha : bytes) | GInfo (sha : bytes) | GIter | GSize | GUpdate (force : bool).
  Inductive ganswer := HHas (r : res bool) | HInfo (r : res oinfo) | HIter (r : res (list bytes)) | HSize (r : res Z) | HUpdate (r : res bool).
  Definition g_do (fuel : nat) (o : gop) (d : db) : ganswer * db :=
    match o with
    | GHas sha => let (r, d) := db_has F fuel sha d in (HHas r, d)
    | GInfo sha => let (r, d) := db_info K F fuel sha d in (HInfo r, d)
    | GIter => let (r, d) := db_iter F fuel d in (HIter r, d)
    | GSize => let (r, d) := db_size F fuel d in (HSize r, d)
    | GUpdate force => let (r, d) := db_update F fuel force d in (HUpdate r, d)
    end.
  Fixpoint g_run (fuel : nat) (ops : list gop) (d : db) : list ganswer * db :=
    match ops with
    | [] => ([], d)
    | o :: ops' => let (a, d) := g_do fuel o d in let (l, d) := g_run fuel ops' d in (a :: l, d)
    end.
  Definition g_proper (o : gop) : Prop := match o with GHas sha | GInfo sha => sha_ok sha | _ => True end.

  Definition g_right (m : nat) (r : list Z) (o : gop) (a : ganswer) : Prop :=
    match o, a with
    | GHas sha, HHas x => exists b, x = Ok b /\ (b = true <-> found r sha)
    | GInfo sha, HInfo x => (exists r', reaches F r r' /\ repo_has r' sha /\ repo_says m r' sha x) \/ ((~ found r sha) /\ x = Raise BadObject)
    | GIter, HIter x => exists l l', x = Ok l /\ listing r l' /\ Permutation l l'
    | GSize, HSize x => exists l', listing r l' /\ x = Ok (len l')
    | GUpdate _, HUpdate x => exists b, x = Ok b
    | _, _ => False
    end.
  Definition never_returns (a : ganswer) : Prop :=
    match a with HHas x => x = Diverge | HInfo x => x = Diverge | HIter x => x = Diverge | HSize x => x = Diverge | HUpdate x => x = Diverge end.
End Repositories.

(** ** The databases of a ReferenceDB *)
Definition members (d : db) : list db := match d with Git _ (Some c) => c_dbs c | Ref _ (Some c) => c_dbs c | _ => [] end.
(** States a ReferenceDB can be in: any methods called, anything changing on disk between calls. *)
Inductive ref_state (root : list Z) : db -> Prop :=
| ref_new : ref_state root (Ref root None)
| ref_call F K fuel o d : (forall l, Permutation (f_order F l) l) -> ref_state root d -> ref_state root (snd (g_do F K fuel o d)).

(** ** Changes on disk that a database notices *)
(** Every repository is still there, with a pack directory and an alternates file only if it
    had them before, and no loose object is gone.  Packs, loose objects and alternates are
    added or removed. *)
Definition noticed (F F' : fs) (r : list Z) : Prop :=
  forall p R, reaches F r p -> f_repo F p = Some R -> exists R', f_repo F' p = Some R' /\
    (r_pack R = None <-> r_pack R' = None) /\ (r_alt R = None <-> r_alt R' = None) /\
    forall sha, In sha (map fst (r_loose R)) -> In sha (map fst (r_loose R')).

(** A GitDB first used while its directory had neither packs nor an alternates file, then any
    calls with anything there, but never the object [sha] loose. *)
Inductive begun_bare (r : list Z) (sha : bytes) : db -> Prop :=
| bare_first F K fuel o R : f_repo F r = Some R -> r <> [] -> r_pack R = None -> r_alt R = None -> ~ is_loose_in F r sha ->
    begun_bare r sha (snd (g_do F K (S fuel) o (gitdb r)))
| bare_call F K fuel o d : ~ is_loose_in F r sha -> begun_bare r sha d -> begun_bare r sha (snd (g_do F K (S fuel) o d)).

(** ** Relative paths *)
(** git resolves a relative path in an alternates file of the objects directory [r] against
    [r].  Directories by absolute path; a process has a current directory. *)
Definition absolute (p : list Z) : Prop := exists p', p = 47 :: p'.
Definition against (base p : list Z) : list Z := match p with 47 :: _ => p | _ => base ++ 47 :: p end.
Definition in_directory (cwd : list Z) (T : list Z -> option repo) (order : list bytes -> list bytes) : fs := mk_fs (fun p => T (against cwd p)) order.
Definition git_alternate (T : list Z -> option repo) (r p : list Z) : Prop :=
  exists R text line, T r = Some R /\ r_alt R = Some (Ok text) /\ line_of text line /\ p = against r line /\ exists R', T p = Some R'.
