(** What abbreviated names mean in a repository with alternates. *)
From Verif Require Import Py FunModel FunSpec IndexModel IndexSpec ZlibModel ReaderModel PackModel PackSpec OsModel LooseModel PackDbModel PackDbSpec CompoundModel CompoundSpec GitModel GitSpec GitAbbrModel.

Definition begins (digits sha : bytes) : Prop := startswith (bin_to_hex sha) digits = true.
(** Hexadecimal digits, and the same in lower case. *)
Definition any_hex (h : bytes) : Prop := Forall (fun c => 48 <= c <= 57 \/ 97 <= c <= 102 \/ 65 <= c <= 70) h.
Definition lower (h : bytes) : bytes := map (fun c => if (65 <=? c) && (c <=? 70) then c + 32 else c) h.

Section Abbr.
  Context (F : fs) (U : list Z -> bytes -> option pack).
  (** What a repository itself offers for some digits: the loose objects whose names begin
      so, and of every pack the first such name.  Packs do not look at the case of digits. *)
  Definition repo_offers (r digits s : bytes) : Prop :=
    (is_loose_in F r s /\ begins digits s) \/ (exists R d, f_repo F r = Some R /\ r_pack R = Some d /\ offers (U r) (packs_in d) (lower digits) s).
  Definition git_offers (r digits s : bytes) : Prop := exists r', reaches F r r' /\ repo_offers r' digits s.
  (** The answer that goes with what is offered. *)
  Definition settles (P : bytes -> Prop) (x : res bytes) : Prop :=
    match x with
    | Ok s => P s /\ forall s', P s' -> s' = s
    | Raise AmbiguousObjectName => exists s s', P s /\ P s' /\ s <> s'
    | Raise BadObject => forall s, ~ P s
    | _ => False
    end.
  (** What a user of the repository can tell from the answer: names of objects that are found
      and begin with the digits. *)
  Definition named (r digits s : bytes) : Prop := found F U r s /\ begins (lower digits) s.
  Definition completes (r digits : bytes) (x : res bytes) : Prop :=
    match x with
    | Ok s => named r digits s
    | Raise AmbiguousObjectName => exists s s', named r digits s /\ named r digits s' /\ s <> s'
    | Raise BadObject => lower_hex digits -> forall s, ~ named r digits s
    | _ => False
    end.
End Abbr.

(** Histories in which names are completed, too. *)
Inductive aop := Other (o : gop) | Complete (digits : bytes).
Inductive aanswer := AOther (a : ganswer) | AComplete (x : res bytes).
Definition a_never (a : aanswer) : Prop := match a with AOther a => never_returns a | AComplete x => x = Diverge end.
Section Run.
  Context (F : fs) (K : zlib) (fuel : nat).
  Definition a_do (o : aop) (d : db) : aanswer * db :=
    match o with
    | Other o => let (a, d) := g_do F K fuel o d in (AOther a, d)
    | Complete digits => let (x, d) := db_partial F fuel digits d in (AComplete x, d)
    end.
  Fixpoint a_run (ops : list aop) (d : db) : list aanswer * db :=
    match ops with
    | [] => ([], d)
    | o :: ops' => let (a, d) := a_do o d in let (l, d) := a_run ops' d in (a :: l, d)
    end.
End Run.
Definition a_proper (o : aop) : Prop :=
  match o with Other o => g_proper o | Complete digits => any_hex digits /\ 3 <= len digits <= 40 end.
Definition a_right (F : fs) (U : list Z -> bytes -> option pack) (K : zlib) (m : nat) (r : list Z) (o : aop) (a : aanswer) : Prop :=
  match o, a with
  | Other o, AOther a => g_right F U K m r o a
  | Complete digits, AComplete x => settles (git_offers F U r digits) x
  | _, _ => False
  end.
