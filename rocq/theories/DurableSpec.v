(** What a power failure leaves (C102).  Not gitdb code.  None of the modelled functions calls
    fsync (gitdb/util.py:65 defines a name for os.fsync that nothing uses), so the system may
    have kept any of the data in memory. *)
From Verif Require Import Py ZlibModel OsModel.

(** Everything was on disk when the world was [s0]; the power fails when it is [s]; afterwards
    it is [s'].  Changes of directories are on disk.  Of files written since s0 any first
    part may be there; the others are unharmed. *)
Definition power_loss (s0 s s' : world) : Prop :=
  w_files s' = w_files s /\ w_dirs s' = w_dirs s /\ w_next s' = w_next s /\
  forall i, prefix (w_data s' i) (w_data s i) /\
    ((i < w_next s0)%nat -> w_data s i = w_data s0 i -> w_data s' i = w_data s i).
