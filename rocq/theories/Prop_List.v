(** Property C103 of properties.jsonl: listing a loose object directory. *)
From Coq Require Import Permutation.
From Verif Require Import Py PyFacts FunModel FunSpec IndexSpec Prop_Index ZlibModel ReaderModel OsModel OsProofs LooseModel DbNames LooseSpec LooseProofs LooseTop LooseQuery GitAbbrSpec GitAbbrProofs TextProofs LooseList Prop_Loose.

(** Full statement of C103: sha_iter() lists the objects that are there, each of them once, and
    nothing else; size() is their number.  It holds if all files that are named like objects
    are object files ([tidy]; stores keep it so, C46_histories_are_tidy). *)
Theorem C103_listing_partial :
  forall (O : os) (db : ldb) (s : world), wf s -> tidy (l_root db) s ->
  exists shas, NoDup shas /\ (forall sha, In sha shas <-> present (l_root db) s sha) /\
    yields O (loose_size db) s (Ok (len shas)) /\ (exists r, runs O (sha_iter db) s r s) /\
    forall r s', runs O (sha_iter db) s r s' -> s' = s /\ exists l, r = Ok (map Ok l) /\ Permutation l shas.
Proof. intros O db s Hw Ht. now apply listing. Qed.
Print Assumptions C103_listing_partial.
(** One file with 38 characters in a directory with two characters that are not all hexadecimal
    digits, anywhere below the root: size() raises binascii.Error, the iteration ends with it
    where the file is met, and no abbreviated name is found any more. *)
Theorem C103_stray_file_refuted :
  forall (O : os) (db : ldb) (s : world) (p : path), wf s -> is_file s p = true -> object_like (l_root db) p -> ~ any_hex (digits_of p) ->
  yields O (loose_size db) s (Raise BinasciiError) /\
  (forall r s', runs O (sha_iter db) s r s' -> exists k, r = Ok (map Ok k ++ [Raise BinasciiError])) /\
  forall digits r s', runs O (partial_to_complete_sha_hex db digits) s r s' -> r = Raise BinasciiError \/ r = Raise AmbiguousObjectName.
Proof. intros O db s p. exact (stray O db s p). Qed.
Print Assumptions C103_stray_file_refuted.
(** A file that is named with capital letters, or is deeper below the root, is listed as an
    object although has_object does not know it. *)
Theorem C103_not_an_object_refuted :
  forall (O : os) (db : ldb) (s : world) (p : path) (sha : bytes), wf s -> cache_ok db s ->
  (forall p, is_file s p = true -> object_like (l_root db) p -> any_hex (digits_of p)) ->
  is_file s p = true -> object_like (l_root db) p -> sha_ok sha -> lower (digits_of p) = bin_to_hex sha -> path_exists s (object_file (l_root db) sha) = false ->
  (forall r s', runs O (sha_iter db) s r s' -> exists k, r = Ok (map Ok k) /\ In sha k) /\
  exists db', yields O (has_object db sha) s (Ok (false, db')).
Proof.
  intros O db s p sha Hw Hc Hh Hf Hp [_ Hs] Hd Hno. split.
  - intros r s' H. destruct (hex_names O db s Hw Hh r s' H) as (_ & k & -> & Hk). exists k. split; [reflexivity|]. apply Hk. exists p. split; [exact Hf|]. split; [exact Hp|].
    destruct (any_hex_ok _ (digits_of p) (le_n _) (Hh p Hf Hp)) as (b & Eb); [now rewrite (digits_len _ _ Hp)|]. rewrite Eb. f_equal.
    pose proof (hex_back _ _ b (le_n _) Eb (Hh p Hf Hp)) as E. rewrite Hd in E. destruct (TextProofs.hex_bytes _ _ b (le_n _) Eb) as [Hb _].
    pose proof (hex_to_bin_to_hex b Hb) as E1. rewrite E, hex_to_bin_to_hex in E1 by exact Hs. now injection E1.
  - destruct (has_yields O db sha s Hc) as (db' & Hy & _). rewrite Hno in Hy. now exists db'.
Qed.
Print Assumptions C103_not_an_object_refuted.
(** Two objects; the same with a file named with capital letters, and with a stray file. *)
Definition caps : path := ex_root ++ [[65; 66]; repeat 66 38].
Definition odd : path := ex_root ++ [[97; 98]; repeat 122 38].
Definition with_file (s : world) (p : path) : world := mk_world ((p, w_next s) :: w_files s) (w_dirs s) (w_data s) (S (w_next s)).
Example C103_example :
  fst (run_plan false [] (sha_iter ex_db) ex_w2) = Ok [Ok ex_n2; Ok ex_n1] /\ fst (run_plan false [] (loose_size ex_db) ex_w2) = Ok 2 /\
  fst (run_plan false [] (sha_iter ex_db) (with_file ex_w2 caps)) = Ok [Ok (171 :: repeat 187 19); Ok ex_n2; Ok ex_n1] /\
  fst (run_plan false [] (loose_size ex_db) (with_file ex_w2 odd)) = Raise BinasciiError /\
  object_like ex_root caps /\ lower (digits_of caps) = bin_to_hex (171 :: repeat 187 19) /\ is_file (with_file ex_w2 caps) caps = true /\
  path_exists (with_file ex_w2 caps) (object_file ex_root (171 :: repeat 187 19)) = false /\
  object_like ex_root odd /\ is_file (with_file ex_w2 odd) odd = true /\ ~ any_hex (digits_of odd).
Proof.
  do 4 (split; [by_vm|]). split; [split; [now eexists; eexists|split; reflexivity]|]. do 3 (split; [by_vm|]). split; [split; [now eexists; eexists|split; reflexivity]|]. split; [by_vm|].
  intros H. unfold any_hex in H. rewrite Forall_forall in H. assert (Hi : In 122 (digits_of odd)) by (right; right; left; reflexivity). apply H in Hi. lia.
Qed.
