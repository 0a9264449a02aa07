(** What a database made of others has to answer. *)
From Verif Require Import Py FunModel FunSpec IndexSpec CompoundModel.

(** The place of the first element with a property, and the element. *)
Definition first {K} (P : K -> Prop) (ks : list K) (i : nat) (k : K) : Prop :=
  nth_error ks i = Some k /\ P k /\ forall j k', (j < i)%nat -> nth_error ks j = Some k' -> ~ P k'.

(** ** Members that do not change *)
(** The contents of a member: which objects it has, what it may say about them, which lists
    of all names and which numbers of objects it may give. *)
Record contents (A : Type) := mk_contents {
  d_has : bytes -> Prop; d_says : bytes -> res A -> Prop; d_names : list bytes -> Prop; d_size : Z -> Prop }.
Arguments d_has {A}. Arguments d_says {A}. Arguments d_names {A}. Arguments d_size {A}. Arguments mk_contents {A}.
Record methods (M A : Type) := mk_methods {
  m_has : bytes -> M -> res bool * M; m_ask : bytes -> M -> res A * M; m_size : M -> res Z * M;
  m_iter : M -> res (list bytes) * M; m_update : bool -> M -> res bool * M }.
Arguments m_has {M A}. Arguments m_ask {M A}. Arguments m_size {M A}. Arguments m_iter {M A}. Arguments m_update {M A}. Arguments mk_methods {M A}.

(** In a state of a member that goes with certain contents, all methods answer according to
    these, and lead to such a state again. *)
Definition faithful {M A} (f : methods M A) (R : contents A -> M -> Prop) : Prop :=
  forall d m, R d m ->
  (forall sha, sha_ok sha -> exists b m', m_has f sha m = (Ok b, m') /\ (b = true <-> d_has d sha) /\ R d m') /\
  (forall sha, sha_ok sha -> exists r m', m_ask f sha m = (r, m') /\ d_says d sha r /\ R d m') /\
  (exists n m', m_size f m = (Ok n, m') /\ d_size d n /\ R d m') /\
  (exists l m', m_iter f m = (Ok l, m') /\ d_names d l /\ R d m') /\
  (forall force, exists b m', m_update f force m = (Ok b, m') /\ R d m').

(** ** Histories *)
Inductive cop := CHas (sha : bytes) | CAsk (sha : bytes) | CSize | CIter | CUpdate (force : bool).
Inductive canswer {A : Type} :=
| KHas (r : res bool) | KAsk (r : res A) | KSize (r : res Z) | KIter (r : res (list bytes)) | KUpdate (r : res bool).
Arguments canswer : clear implicits.
Section Run.
  Context {M A : Type} (f : methods M A).
  Definition ctag {B} (g : B -> canswer A) (p : B * compound M) : canswer A * compound M := (g (fst p), snd p).
  Definition c_do (o : cop) (c : compound M) : canswer A * compound M :=
    match o with
    | CHas sha => ctag KHas (c_has (m_has f) sha c)
    | CAsk sha => ctag KAsk (c_ask (m_has f) (m_ask f) sha c)
    | CSize => ctag KSize (c_size (m_size f) c)
    | CIter => ctag KIter (c_iter (m_iter f) c)
    | CUpdate force => ctag KUpdate (c_update (m_update f force) c)
    end.
  Fixpoint c_run (ops : list cop) (c : compound M) : list (canswer A) * compound M :=
    match ops with
    | [] => ([], c)
    | o :: ops' => let (a, c) := c_do o c in let (l, c) := c_run ops' c in (a :: l, c)
    end.
End Run.

(** The right answer of a database whose members have the contents [ds]. *)
Definition c_right {A} (ds : list (contents A)) (o : cop) (a : canswer A) : Prop :=
  match o, a with
  | CHas sha, KHas r => sha_ok sha -> exists b, r = Ok b /\ (b = true <-> exists d, In d ds /\ d_has d sha)
  | CAsk sha, KAsk r => sha_ok sha ->
      (exists i d, first (fun d => d_has d sha) ds i d /\ d_says d sha r) \/
      ((forall d, In d ds -> ~ d_has d sha) /\ r = Raise BadObject)
  | CSize, KSize r => exists ns, Forall2 d_size ds ns /\ r = Ok (fold_right Z.add 0 ns)
  | CIter, KIter r => exists ls, Forall2 d_names ds ls /\ r = Ok (concat ls)
  | CUpdate _, KUpdate r => exists b, r = Ok b
  | _, _ => False
  end.
(** Names are asked for in the right form. *)
Definition c_proper (o : cop) : Prop := match o with CHas sha | CAsk sha => sha_ok sha | _ => True end.

(** ** Abbreviated names *)
Inductive below {M} (m : M) : tree M -> Prop :=
| below_leaf : below m (Leaf m)
| below_node t l : In t l -> below m t -> below m (Node l).
(** What a member says about a prefix: [digits] as it was given, [padded] to bytes. *)
Definition member_says (digits padded : bytes) (m : completer) (r : res bytes) : Prop :=
  match m with
  | mk_completer (Some f) _ => r = f digits
  | mk_completer None (Some f) => r = f padded (len digits)
  | mk_completer None None => False
  end.
(** A member has one name with that prefix, none, or several. *)
Definition good_answer (r : res bytes) : Prop := r = Raise BadObject \/ r = Raise AmbiguousObjectName \/ exists s, s <> [] /\ r = Ok s.
