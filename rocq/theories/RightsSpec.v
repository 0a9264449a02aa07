(** Owners and access rights of files, as a refinement of OsModel.v (C108).  Not gitdb code.

    Simplifications: a file is readable by its owner only, or by everyone; no process is
    privileged; all directories may be written by everyone (a shared database); systems with
    POSIX rights.  Modes that the modelled code uses: mkstemp and LockedFD make files with
    mode 600 (gitdb/util.py:323), chmod is called with 444 (gitdb/db/loose.py:73) or 644
    (gitdb/util.py:392). *)
From Verif Require Import Py OsModel IndexSpec LooseModel LooseSpec.

Definition user := nat.
Record rights := mk_rights { owner : ino -> user; public : ino -> bool }.
Definition may_read (g : rights) (u : user) (i : ino) : bool := Nat.eqb (owner g i) u || public g i.
(** A file made by u, readable by u only. *)
Definition born (g : rights) (i : ino) (u : user) : rights :=
  mk_rights (fun j => if Nat.eqb j i then u else owner g j) (fun j => if Nat.eqb j i then false else public g j).
Definition published (g : rights) (i : ino) : rights :=
  mk_rights (owner g) (fun j => if Nat.eqb j i then true else public g j).

(** A call made by u.  New files belong to u; only the owner may change the mode of a file,
    and only the owner may open it without changing its access time; reading needs the right
    to read.  All other calls are as before. *)
Definition rsys (O : os) (u : user) {B : Type} (c : call B) (s : world) (g : rights) : B -> world -> rights -> Prop :=
  match c in call B return B -> world -> rights -> Prop with
  | Mkstemp pre dir => fun a s' g' =>
      sys O (Mkstemp pre dir) s a s' /\ g' = match a with Ok (_, i) => born g i u | _ => g end
  | OpenNew p => fun a s' g' =>
      sys O (OpenNew p) s a s' /\ g' = match a with Ok i => born g i u | _ => g end
  | OpenRead noatime p => fun a s' g' =>
      g' = g /\
      match lookup s p with
      | Some i => if may_read g u i && (negb noatime || Nat.eqb (owner g i) u) then sys O (OpenRead noatime p) s a s'
                  else a = Raise PermissionError /\ s' = s
      | None => sys O (OpenRead noatime p) s a s'
      end
  | Chmod p => fun a s' g' =>
      match lookup s p with
      | Some i => if Nat.eqb (owner g i) u then sys O (Chmod p) s a s' /\ g' = match a with Ok _ => published g i | _ => g end
                  else a = Raise PermissionError /\ s' = s /\ g' = g
      | None => sys O (Chmod p) s a s' /\ g' = g
      end
  | c => fun a s' g' => sys O c s a s' /\ g' = g
  end.

Definition rstep (O : os) (u : user) {A} (p : prog A) (s : world) (g : rights) (p' : prog A) (s' : world) (g' : rights) : Prop :=
  match p with
  | Ret _ => False
  | Call c k => exists a, rsys O u c s g a s' g' /\ p' = k a
  end.
Inductive rsteps (O : os) (u : user) {A} : prog A -> world -> rights -> prog A -> world -> rights -> Prop :=
| rs_refl p s g : rsteps O u p s g p s g
| rs_one p s g p1 s1 g1 p2 s2 g2 : rstep O u p s g p1 s1 g1 -> rsteps O u p1 s1 g1 p2 s2 g2 -> rsteps O u p s g p2 s2 g2.
(** u runs p to its end. *)
Definition rruns (O : os) (u : user) {A} (p : prog A) (s : world) (g : rights) (r : res A) (s' : world) (g' : rights) : Prop :=
  rsteps O u p s g (Ret r) s' g'.

(** [p] is a file that everyone may read; that only u may read. *)
Definition for_all (s : world) (g : rights) (p : path) : Prop := exists i, lookup s p = Some i /\ public g i = true.
Definition only_for (u : user) (s : world) (g : rights) (p : path) : Prop :=
  exists i, lookup s p = Some i /\ owner g i = u /\ public g i = false.
Definition owned_by (u : user) (s : world) (g : rights) (p : path) : Prop := exists i, lookup s p = Some i /\ owner g i = u.

(** The name under which an IStream is stored: the one given, or that of its object. *)
Definition goes_to {R} (sha1 : bytes -> bytes) (content : R -> bytes) (i : istream R) (sha : bytes) : Prop :=
  match is_binsha i with
  | None => proper content i /\ name_of sha1 (object_of content i) sha
  | Some x => x = sha /\ sha_ok sha
  end.

(** The deterministic system, for examples. *)
Definition ranswer (u : user) {B : Type} (c : call B) (s : world) (g : rights) : B * world * rights :=
  match c in call B return B * world * rights with
  | Mkstemp pre dir => let (a, s') := answer false None (Mkstemp pre dir) s in (a, s', match a with Ok (_, i) => born g i u | _ => g end)
  | OpenNew p => let (a, s') := answer false None (OpenNew p) s in (a, s', match a with Ok i => born g i u | _ => g end)
  | OpenRead noatime p =>
      match lookup s p with
      | Some i => if may_read g u i && (negb noatime || Nat.eqb (owner g i) u) then (answer false None (OpenRead noatime p) s, g)
                  else (Raise PermissionError, s, g)
      | None => (answer false None (OpenRead noatime p) s, g)
      end
  | Chmod p =>
      match lookup s p with
      | Some i => if Nat.eqb (owner g i) u then
                    let (a, s') := answer false None (Chmod p) s in (a, s', match a with Ok _ => published g i | _ => g end)
                  else (Raise PermissionError, s, g)
      | None => (answer false None (Chmod p) s, g)
      end
  | c => (answer false None c s, g)
  end.
Fixpoint rrun (u : user) {A} (p : prog A) (s : world) (g : rights) : res A * world * rights :=
  match p with
  | Ret r => (r, s, g)
  | Call c k => let '(a, s', g') := ranswer u c s g in rrun u (k a) s' g'
  end.
