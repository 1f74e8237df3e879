(** Which parts of a file nobody touches: pictures, charts, macros and the like. *)
From Verif.Model Require Import Excel.
From Verif.Spec Require Import PackageSpec SessionSpec FlowSpec ReopenSpec GrowSpec.
Open Scope N_scope.

(** None of the calls asks for the sheet whose part is [q], nor for a sheet whose relationships are in [q]. *)
Definition LeftOut `{Env} `{Hashes} (cs : list call) (s : session) (q : string) : Prop := forall p, AskedFor cs s p -> q <> p /\ ~ Beside p q.
(** The part [q] lies in the file a workbook was opened from, beside the parts of its own that the workbook has. *)
Definition Foreign (x : excel) (q : string) : Prop := q <> content_types_name /\ q ∉ basic_parts x ++ other_parts x.
(** Files one after the other, from the first of which [q] is left apart: each is opened, worked on and saved, and what was saved is the next. *)
Inductive Journey `{Env} `{Hashes} (q : string) : list round -> string * filesys -> string * filesys -> Prop :=
| Journey_none a : Journey q [] a a
| Journey_more r rs file fs0 x fs s fs1 b : excel_new (Some file) fs0 = Ok x -> Foreign x q -> LeftOut (ro_calls r) (x, []) q ->
    Worked r x fs s fs1 -> Journey q rs (ro_path r, fs1) b -> Journey q (r :: rs) (file, fs0) b.
(** The file at [path] has one part [q], and its bytes are [data]. *)
Definition Carries `{Env} (fs : filesys) (path q data : string) : Prop := exists l, Stored fs path l /\ forall b, (q, b) ∈ l <-> b = data.
