(** The operating system as the modelled code sees it, and programs that call it.  Not gitdb
    code; the calls are those of gitdb/db/loose.py, gitdb/util.py:46-78 and 165-202,
    gitdb/util.py:269-396 and gitdb/pack.py:1007-1029.

    Simplifications: every call is one atomic step; a file descriptor is the file itself and
    writing appends (all modelled files are new when they are opened for writing and written
    sequentially); there are no hard or symbolic links; access rights are in RightsSpec.v.  What
    a call gives back and whether it fails is decided by the system, not by the program. *)
From Coq Require Import Permutation.
From Verif Require Import Py.

(** ** Files *)

(** Path names are lists of components. *)
Definition path := list bytes.
Definition path_eq_dec (p q : path) : {p = q} + {p <> q} := list_eq_dec (list_eq_dec Z.eq_dec) p q.
Definition path_eqb (p q : path) : bool := if path_eq_dec p q then true else false.
(** [dirname] and [basename] *)
Definition dirname (p : path) : path := removelast p.
Definition basename (p : path) : bytes := last p [].

(** Directory entries of regular files, directories, contents by file, the next unused file
    number. *)
Definition ino := nat.
Record world := mk_world {
  w_files : list (path * ino);
  w_dirs : list path;
  w_data : ino -> bytes;
  w_next : ino }.

Fixpoint assoc (p : path) (l : list (path * ino)) : option ino :=
  match l with
  | [] => None
  | (q, i) :: l' => if path_eq_dec q p then Some i else assoc p l'
  end.
Definition lookup (s : world) (p : path) : option ino := assoc p (w_files s).
(** What a reader of the file p finds. *)
Definition contents (s : world) (p : path) : option bytes := option_map (w_data s) (lookup s p).
Definition is_file (s : world) (p : path) : bool := match lookup s p with Some _ => true | None => false end.
Definition is_dir (s : world) (p : path) : bool :=
  match p with [] => true | _ => existsb (path_eqb p) (w_dirs s) end.
Definition path_exists (s : world) (p : path) : bool := is_file s p || is_dir s p.

Definition unlink (s : world) (p : path) : world :=
  mk_world (filter (fun e => negb (path_eqb (fst e) p)) (w_files s)) (w_dirs s) (w_data s) (w_next s).
Definition link (s : world) (p : path) (i : ino) : world :=
  mk_world ((p, i) :: w_files (unlink s p)) (w_dirs s) (w_data s) (w_next s).
Definition set_data (s : world) (i : ino) (d : bytes) : world :=
  mk_world (w_files s) (w_dirs s) (fun j => if Nat.eqb j i then d else w_data s j) (w_next s).
(** A new empty file. *)
Definition create (s : world) (p : path) : world :=
  let s1 := set_data s (w_next s) [] in
  let s2 := link s1 p (w_next s) in
  mk_world (w_files s2) (w_dirs s2) (w_data s2) (S (w_next s)).
(** A directory and those above it. *)
Fixpoint ancestors (above : path) (p : path) : list path :=
  match p with
  | [] => []
  | c :: p' => (above ++ [c]) :: ancestors (above ++ [c]) p'
  end.
Definition add_dirs (s : world) (p : path) : world :=
  mk_world (w_files s) (ancestors [] p ++ w_dirs s) (w_data s) (w_next s).
(** [p] lies below the directory [d]. *)
Fixpoint under (d p : path) : bool :=
  match d, p with
  | [], _ :: _ => true
  | x :: d', y :: p' => if list_eq_dec Z.eq_dec x y then under d' p' else false
  | _, _ => false
  end.

(** ** Calls *)

Inductive call : Type -> Type :=
| Mkstemp (prefix : bytes) (dir : path) : call (res (path * ino))   (* tempfile.mkstemp *)
| OpenNew (p : path) : call (res ino)              (* os.open, O_WRONLY | O_CREAT | O_EXCL *)
| OpenRead (noatime : bool) (p : path) : call (res ino)   (* os.open, O_RDONLY *)
| Map (fd : ino) : call (res bytes)                (* mmap.mmap(fd, 0, access=ACCESS_READ) *)
| Write (fd : ino) (d : bytes) : call (res Z)      (* os.write *)
| Close (fd : ino) : call (res unit)               (* os.close *)
| Remove (p : path) : call (res unit)              (* os.remove *)
| Rename (src dst : path) : call (res unit)        (* os.rename *)
| Makedirs (p : path) : call (res unit)            (* os.makedirs(exist_ok=True) *)
| Chmod (p : path) : call (res unit)               (* os.chmod *)
| Isfile (p : path) : call bool                    (* os.path.isfile *)
| Exists (p : path) : call bool                    (* os.path.exists *)
| Walk (p : path) : call (list path).              (* the files found by os.walk *)

(** What may go wrong without being the program's fault. *)
Inductive kind := KCreate | KOpen | KNoatime | KWrite | KShort | KClose | KRemove | KRename | KMkdir | KChmod.
Record os := mk_os { may_fail : kind -> bool; windows : bool }.
Definition fails {A} (O : os) (k : kind) (e : exn) (s : world) (a : res A) (s' : world) : Prop :=
  may_fail O k = true /\ a = Raise e /\ s' = s.
Definition gives {A} (v : A) (s1 : world) (a : A) (s' : world) : Prop := a = v /\ s' = s1.

(** The 8 characters mkstemp chooses. *)
Definition tmp_char (c : Z) : Prop := 97 <= c <= 122 \/ 48 <= c <= 57 \/ c = 95.
Definition tmp_suffix (l : bytes) : Prop := len l = 8 /\ Forall tmp_char l.


Definition sys (O : os) {B : Type} (c : call B) (s : world) : B -> world -> Prop :=
  match c in call B return B -> world -> Prop with
  | Mkstemp pre dir => fun a s' =>
      fails O KCreate OSError s a s' \/
      if is_dir s dir then
        exists suf, tmp_suffix suf /\ let p := dir ++ [pre ++ suf] in
          path_exists s p = false /\ gives (Ok (p, w_next s)) (create s p) a s'
      else gives (Raise FileNotFound) s a s'
  | OpenNew p => fun a s' =>
      fails O KCreate OSError s a s' \/
      if path_exists s p then gives (Raise OSError) s a s'
      else if is_dir s (dirname p) then gives (Ok (w_next s)) (create s p) a s'
      else gives (Raise FileNotFound) s a s'
  | OpenRead noatime p => fun a s' =>
      fails O KOpen OSError s a s' \/ (noatime = true /\ fails O KNoatime PermissionError s a s') \/
      match lookup s p with
      | Some i => gives (Ok i) s a s'
      | None => gives (Raise (if is_dir s p then OSError else FileNotFound)) s a s'
      end
  | Map fd => fun a s' =>
      match w_data s fd with [] => gives (Raise ValueError) s a s' | d => gives (Ok d) s a s' end
  | Write fd d => fun a s' =>
      fails O KWrite OSError s a s' \/
      (may_fail O KShort = true /\ exists k, 0 <= k < len d /\
         gives (Ok k) (set_data s fd (w_data s fd ++ slice_to d k)) a s') \/
      gives (Ok (len d)) (set_data s fd (w_data s fd ++ d)) a s'
  | Close fd => fun a s' => fails O KClose OSError s a s' \/ gives (Ok tt) s a s'
  | Remove p => fun a s' =>
      fails O KRemove OSError s a s' \/
      match lookup s p with
      | Some _ => gives (Ok tt) (unlink s p) a s'
      | None => gives (Raise (if is_dir s p then OSError else FileNotFound)) s a s'
      end
  | Rename src dst => fun a s' =>
      fails O KRename OSError s a s' \/
      match lookup s src with
      | None => gives (Raise FileNotFound) s a s'
      | Some i =>
          if is_dir s dst then gives (Raise OSError) s a s'
          else if negb (is_dir s (dirname dst)) then gives (Raise FileNotFound) s a s'
          else if windows O && is_file s dst then gives (Raise OSError) s a s'
          else gives (Ok tt) (link (unlink s src) dst i) a s'
      end
  | Makedirs p => fun a s' =>
      fails O KMkdir OSError s a s' \/
      if existsb (is_file s) (ancestors [] p) then gives (Raise OSError) s a s'
      else gives (Ok tt) (add_dirs s p) a s'
  | Chmod p => fun a s' =>
      fails O KChmod PermissionError s a s' \/
      if path_exists s p then gives (Ok tt) s a s' else gives (Raise FileNotFound) s a s'
  | Isfile p => gives (is_file s p) s
  | Exists p => gives (path_exists s p) s
  | Walk p => fun a s' => s' = s /\ Permutation a (filter (under p) (map fst (w_files s)))
  end.

(** ** Programs *)

(** Either finished, or about to make a call and to go on with its answer. *)
Inductive prog (A : Type) : Type :=
| Ret (r : res A)
| Call (B : Type) (c : call B) (k : B -> prog A).
Arguments Ret {A} _.
Arguments Call {A B} _ _.

(** Run p, then f on its outcome (value or exception). *)
Fixpoint after {A B} (p : prog A) (f : res A -> prog B) : prog B :=
  match p with
  | Ret r => f r
  | Call c k => Call c (fun b => after (k b) f)
  end.
Definition pbind {A B} (p : prog A) (f : A -> prog B) : prog B :=
  after p (fun r => match r with Ok a => f a | Raise e => Ret (Raise e) | Diverge => Ret Diverge end).
Notation "'do!' x := p 'in' k" := (pbind p (fun x => k))
  (at level 200, x pattern, p at level 100, k at level 200, right associativity).
Definition ret {A} (a : A) : prog A := Ret (Ok a).
Definition throw {A} (e : exn) : prog A := Ret (Raise e).
(** Calls that can raise, and calls that cannot. *)
Definition sysr {A} (c : call (res A)) : prog A := Call c (fun r => Ret r).
Definition sysv {A} (c : call A) : prog A := Call c (fun v => Ret (Ok v)).
(** [try: p finally: q] *)
Definition finally {A} (p : prog A) (q : prog unit) : prog A :=
  after p (fun r => match r with
                    | Diverge => Ret Diverge
                    | _ => do! _ := q in Ret r
                    end).
(** [try: p except: q; raise] *)
Definition on_error {A} (p : prog A) (q : prog unit) : prog A :=
  after p (fun r => match r with
                    | Raise e => do! _ := q in Ret (Raise e)
                    | _ => Ret r
                    end).
(** [try: p except ...: h] *)
Definition catch {A} (p : prog A) (h : exn -> prog A) : prog A :=
  after p (fun r => match r with Raise e => h e | _ => Ret r end).

(** ** Executions *)

(** One step of a process. *)
Definition step (O : os) {A} (p : prog A) (s : world) (p' : prog A) (s' : world) : Prop :=
  match p with
  | Ret _ => False
  | Call c k => exists a, sys O c s a s' /\ p' = k a
  end.
Inductive steps (O : os) {A} : prog A -> world -> prog A -> world -> Prop :=
| steps_refl p s : steps O p s p s
| steps_one p s p1 s1 p2 s2 : step O p s p1 s1 -> steps O p1 s1 p2 s2 -> steps O p s p2 s2.
(** Running alone to the end; stopping (by a crash) anywhere. *)
Definition runs (O : os) {A} (p : prog A) (s : world) (r : res A) (s' : world) : Prop := steps O p s (Ret r) s'.
Definition stops (O : os) {A} (p : prog A) (s : world) (s' : world) : Prop := exists p', steps O p s p' s'.
(** Running while others change the files according to [env]. *)
Inductive steps_in (O : os) (env : world -> world -> Prop) {A} : prog A -> world -> prog A -> world -> Prop :=
| si_refl p s : steps_in O env p s p s
| si_env p s s1 p2 s2 : env s s1 -> steps_in O env p s1 p2 s2 -> steps_in O env p s p2 s2
| si_one p s p1 s1 p2 s2 : step O p s p1 s1 -> steps_in O env p1 s1 p2 s2 -> steps_in O env p s p2 s2.
(** Several processes, any interleaving. *)
Inductive interleaved (O : os) {A} : list (prog A) -> world -> list (prog A) -> world -> Prop :=
| il_refl l s : interleaved O l s l s
| il_step l1 p l2 s p' s' l'' s'' : step O p s p' s' -> interleaved O (l1 ++ p' :: l2) s' l'' s'' ->
    interleaved O (l1 ++ p :: l2) s l'' s''.

(** One process among several others of a different kind. *)
Inductive amid (O : os) {A B} : prog B -> list (prog A) -> world -> prog B -> list (prog A) -> world -> Prop :=
| am_refl q l s : amid O q l s q l s
| am_own q l s q1 s1 q2 l2 s2 : step O q s q1 s1 -> amid O q1 l s1 q2 l2 s2 -> amid O q l s q2 l2 s2
| am_other q l1 p l2 s p' s1 q2 l' s2 : step O p s p' s1 -> amid O q (l1 ++ p' :: l2) s1 q2 l' s2 ->
    amid O q (l1 ++ p :: l2) s q2 l' s2.

(** ** A deterministic system, for examples and witnesses *)

(** No faults. *)
Definition calm : os := mk_os (fun _ => false) false.
(** Nothing but short writes. *)
Definition short_writes : os := mk_os (fun k => match k with KShort => true | _ => false end) false.
Definition tmp_name (n : nat) : bytes := map (fun k => 48 + (Z.of_nat n / 10 ^ k) mod 10) [7; 6; 5; 4; 3; 2; 1; 0].
(** The answer without faults, except that a write of more than [short] bytes takes only that many. *)
Definition answer (win : bool) (short : option Z) {B : Type} (c : call B) (s : world) : B * world :=
  match c in call B return B * world with
  | Mkstemp pre dir =>
      if is_dir s dir then
        let p := dir ++ [pre ++ tmp_name (w_next s)] in (Ok (p, w_next s), create s p)
      else (Raise FileNotFound, s)
  | OpenNew p =>
      if path_exists s p then (Raise OSError, s)
      else if is_dir s (dirname p) then (Ok (w_next s), create s p) else (Raise FileNotFound, s)
  | OpenRead _ p =>
      match lookup s p with Some i => (Ok i, s) | None => (Raise (if is_dir s p then OSError else FileNotFound), s) end
  | Map fd => match w_data s fd with [] => (Raise ValueError, s) | d => (Ok d, s) end
  | Write fd d =>
      match short with
      | Some k => if (0 <=? k) && (k <? len d) then (Ok k, set_data s fd (w_data s fd ++ slice_to d k))
                  else (Ok (len d), set_data s fd (w_data s fd ++ d))
      | None => (Ok (len d), set_data s fd (w_data s fd ++ d))
      end
  | Close fd => (Ok tt, s)
  | Remove p =>
      match lookup s p with Some _ => (Ok tt, unlink s p) | None => (Raise (if is_dir s p then OSError else FileNotFound), s) end
  | Rename src dst =>
      match lookup s src with
      | None => (Raise FileNotFound, s)
      | Some i =>
          if is_dir s dst then (Raise OSError, s)
          else if negb (is_dir s (dirname dst)) then (Raise FileNotFound, s)
          else if win && is_file s dst then (Raise OSError, s)
          else (Ok tt, link (unlink s src) dst i)
      end
  | Makedirs p => if existsb (is_file s) (ancestors [] p) then (Raise OSError, s) else (Ok tt, add_dirs s p)
  | Chmod p => if path_exists s p then (Ok tt, s) else (Raise FileNotFound, s)
  | Isfile p => (is_file s p, s)
  | Exists p => (path_exists s p, s)
  | Walk p => (filter (under p) (map fst (w_files s)), s)
  end.
Definition is_write {B} (c : call B) : bool := match c with Write _ _ => true | _ => false end.
(** [plan]: how many bytes the successive writes take (None, or after the end: all). *)
Fixpoint run_plan (win : bool) (plan : list (option Z)) {A} (p : prog A) (s : world) : res A * world :=
  match p with
  | Ret r => (r, s)
  | Call c k =>
      let (a, s') := answer win (hd None plan) c s in
      run_plan win (if is_write c then tl plan else plan) (k a) s'
  end.
Definition no_files (dirs : list path) : world := mk_world [] dirs (fun _ => []) O.
