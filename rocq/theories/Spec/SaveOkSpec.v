(** When the operating system lets a file be written. *)
From Verif.Model Require Import Package.

(** The old file, if there is one, can be removed, the new one can be created, and none of the
    writes fails: there is one more of them than sizes listed. *)
Definition Healthy (f : faults) (path : string) (fs : filesys) : Prop :=
  (fs !! path = None \/ f_remove f = false) /\ f_create f = false
  /\ match f_write f with None => True | Some n => (length (f_pieces f) < n)%nat end.
