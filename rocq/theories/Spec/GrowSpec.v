(** Which parts a file has that was opened, worked on and saved. *)
From Verif.Model Require Import Excel.
From Verif.Spec Require Import PackageSpec SessionSpec FlowSpec.
Open Scope N_scope.

(** The part of the relationships of the part [p]: in the folder [_rels] beside it, under its name with [.rels] after it. *)
Definition Beside (p q : string) : Prop :=
  exists dir file, p = dir +:+ "/" +:+ file /\ (forall a b, file <> a +:+ "/" +:+ b) /\ q = dir +:+ "/_rels/" +:+ file +:+ ".rels".
(** The call asks for the sheet whose part is [p]: one that is listed leads there; or none of this name is listed, and
    [p] is a part for a new sheet that is not stored yet. *)
Definition AsksFor (s : session) (c : call) (p : string) : Prop :=
  (exists n, asks c (Some n) /\ LeadsTo s n p)
  \/ (exists name dir m, asks c name /\ (forall n, name = Some n -> n ∉ list_sheet_names (x_book s.1))
      /\ p = dir +:+ "worksheets/sheet" +:+ show_N m +:+ ".xml" /\ of_archive (x_office s.1) !! p = None).
(** One of the calls asks for the sheet whose part is [p]. *)
Definition AskedFor `{Env} `{Hashes} (cs : list call) (s : session) (p : string) : Prop :=
  exists cs1 c cs2 s1, cs = cs1 ++ c :: cs2 /\ calls cs1 s = Some s1 /\ AsksFor s1 c p.
(** One of the calls hands out the sheet [w]. *)
Definition HandedOut `{Env} `{Hashes} (cs : list call) (s : session) (w : worksheet) : Prop :=
  exists cs1 c cs2 s1 s2, cs = cs1 ++ c :: cs2 /\ calls cs1 s = Some s1 /\ opens c /\ call_step c s1 = (s2, Ok tt)
  /\ handle (length s1.2) s2 = Some w.
(** How many of the calls ask for a sheet. *)
Definition asking (cs : list call) : nat := length (List.filter (fun c => match c with CAdd _ | CGet _ => true | _ => false end) cs).
