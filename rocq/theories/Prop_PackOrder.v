(** C87: the order in which PackedDB asks its packs. *)
From Coq Require Import Sorted Permutation.
From Verif Require Import Py FunModel IndexModel ZlibModel ReaderModel PackModel PackDbModel PackDbSpec PackOrderSpec PackOrderProofs.
From Verif Require Import Prop_Index Prop_PackDb.

Ltac by_vm := match goal with |- ?a = ?b => exact (@eq_refl _ b <: a = b) end.

(** A query that finds the object: the packs before the one that answers do not have it; the
    counter of that one and the number of answered queries increase by one, and nothing else. *)
Theorem C87_hit :
  forall (e : env) (sha : bytes) (s s' : pdb) (en : entity) (i : Z), pack_info e sha s = (Ok (en, i), s') ->
  exists (l : list item) (s1 : pdb) (a : list item) (it : item) (b : list item) (ix : pidx) (l' : list item),
    load e s = (Ok l, s1) /\ query_order (p_hit_count s1) l (a ++ it :: b) /\ Forall (has_not e sha) a /\
    opens e it ix /\ sha_to_index ix sha = Ok (Some i) /\ en = mk_entity ix (it_pack it) /\
    p_entities s' = Some l' /\ counters l' = counters a ++ (it_hits it + 1, it_name it) :: counters b /\ p_hit_count s' = p_hit_count s1 + 1.
Proof. intros e sha s s' en i. exact (lookup_hit e sha s en i s'). Qed.
Print Assumptions C87_hit.
(** A query for an object that no pack has changes no counter. *)
Theorem C87_miss :
  forall (e : env) (sha : bytes) (s s1 : pdb) (l : list item), load e s = (Ok l, s1) -> Forall (has_not e sha) l ->
  exists (l1 l' : list item) (s' : pdb), pack_info e sha s = (Raise BadObject, s') /\ query_order (p_hit_count s1) l l1 /\
    p_entities s' = Some l' /\ counters l' = counters l1 /\ p_hit_count s' = p_hit_count s1.
Proof. intros e sha s s1 l. exact (lookup_miss e sha s l s1). Qed.
Print Assumptions C87_miss.
(** The list is in order when it is first loaded, where every counter is the number of objects
    the header of the pack tells, and after every update that did something. *)
Theorem C87_loaded :
  forall (e : env) (s s1 : pdb) (l : list item), p_entities s = None -> load e s = (Ok l, s1) ->
  descending l /\ p_hit_count s1 = p_hit_count s /\
  Forall (fun it => exists version, pack_open (it_pack it) = Ok (version, it_hits it) /\ map_file e (it_name it) = Ok (it_pack it)) l.
Proof. intros e s s1 l. exact (first_load e s l s1). Qed.
Print Assumptions C87_loaded.
Theorem C87_updated :
  forall (e : env) (force : bool) (s s' : pdb), update_cache e force s = (Ok true, s') -> exists l, p_entities s' = Some l /\ descending l.
Proof. exact update_desc. Qed.
Print Assumptions C87_updated.

(** Two packs with two objects each.  The object ex_s3 is in both: the first answers.  ex_s2
    is only in the second.  When 500 queries have been answered the second is asked first. *)
Definition o_after (n : nat) : pdb := Nat.iter n (fun s => snd (pack_info ex_e1 ex_s2 s)) packed_init.
Definition o_counters (s : pdb) : list (Z * bytes) := match p_entities s with Some l => counters l | None => [] end.
Example C87_example :
  o_counters (snd (pack_info ex_e1 ex_s3 packed_init)) = [(3, ex_name 97); (2, ex_name 98)] /\
  o_counters (o_after 1) = [(2, ex_name 97); (3, ex_name 98)] /\
  o_counters (o_after 3) = [(2, ex_name 97); (5, ex_name 98)] /\
  o_counters (snd (pack_info ex_e1 (repeat 5 20) (o_after 3))) = [(2, ex_name 97); (5, ex_name 98)] /\
  o_counters (snd (pack_info ex_e1 ex_s3 (mk_pdb (p_entities (o_after 3)) 500 5))) = [(6, ex_name 98); (2, ex_name 97)] /\
  o_counters (snd (pack_info ex_e1 ex_s3 (mk_pdb (p_entities (o_after 3)) 501 5))) = [(3, ex_name 97); (5, ex_name 98)].
Proof. repeat (split; [by_vm|]). by_vm. Qed.
