(** What a DeltaApplyReader should answer, whatever it is asked first. *)
From Verif Require Import Py FunModel LazyModel LazyDeltaModel.

(** Reading, going back to the start, asking for the size, asking for an attribute there is not *)
Inductive lop := LRead (n : Z) | LRewind | LSize | LOther.
Inductive lans := ABytes (d : bytes) | ANum (n : Z) | ADone | AError (e : exn) | ANever.
Definition answer {A} (f : A -> lans) (r : res A) : lans := match r with Ok a => f a | Raise x => AError x | Diverge => ANever end.

Fixpoint l_run {R} (read : R -> Z -> res (bytes * R)) (fuel : nat) (ops : list lop) (s : @ldar R) : list lans :=
  match ops with
  | [] => []
  | LRead n :: ops => let (r, s) := l_read read fuel n s in answer ABytes r :: l_run read fuel ops s
  | LRewind :: ops => let (r, s) := l_seek read fuel 0 0 s in answer (fun _ => ADone) r :: l_run read fuel ops s
  | LSize :: ops => let (r, s) := l_size_of read fuel s in answer ANum r :: l_run read fuel ops s
  | LOther :: ops => let (r, s) := l_other read fuel s in answer (fun _ => ADone) r :: l_run read fuel ops s
  end.

(** The answers for an object of these bytes, from position [p].  [missing] is the error for an
    attribute there is not when something was asked before, [first] when nothing was. *)
Fixpoint lanswers (missing first : exn) (data : bytes) (p : nat) (ops : list lop) : list lans :=
  match ops with
  | [] => []
  | LRead n :: ops =>
      let d := if n <? 1 then skipn p data else firstn (Z.to_nat n) (skipn p data) in
      ABytes d :: lanswers missing missing data (p + length d) ops
  | LRewind :: ops => ADone :: lanswers missing missing data 0 ops
  | LSize :: ops => ANum (len data) :: lanswers missing missing data p ops
  | LOther :: ops => AError first :: lanswers missing missing data p ops
  end.
