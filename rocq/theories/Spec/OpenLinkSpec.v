(** The sheets that an opened workbook and the one saved from it list, and the parts they lead to. *)
From Verif.Model Require Import Excel.
From Verif.Spec Require Import RelSpec XmlSpec XmlRepr XmlHistory PackageSpec PartSpec SheetSpec SessionSpec LinkSpec FlowSpec BookSpec OpenSpec OpenMoreSpec.
Open Scope N_scope.

(** The relationship [id] leads to [part]. *)
Definition LeadsTo (rels : list rel) (folder id part : string) : Prop := exists r, r ∈ rels /\ r_id r = id /\ Resolves folder (r_target r) part.
(** The name of a part does not start with a slash. *)
Definition Proper (q : string) : Prop := forall p, q <> "/" +:+ p.
(** The file [l0]: no id is given twice, and the sheets lead to parts of the file, each to its own, which
    are none of [taken]. *)
Definition FileLinks (l0 : list (string * string)) (taken : list string) (rels : list rel) (folder : string) (sheets : list sheet) : Prop :=
  NoDup (map r_id rels) /\ exists ps, NoDup ps /\ Forall2 (fun x p => LeadsTo rels folder (sh_rel x) p /\ p ∈ l0.*1 /\ Proper p /\ p ∉ taken) sheets ps.
(** The entry at position [i] of the element [sheets] has this name, and its relationship id names
    exactly one relationship in [rels], which leads to [part] and is one of the relationships [old] or that
    of a worksheet. *)
Definition SheetIn (sheets rels : tree) (folder : string) (old : list rel) (i : nat) (name part : string) : Prop :=
  exists c id j r, t_children sheets !! i = Some c /\ child_attr c "name" = Some name /\ child_attr c "r:id" = Some id
  /\ relations_in rels !! j = Some r /\ child_attr r "Id" = Some id
  /\ (forall j' r', relations_in rels !! j' = Some r' -> child_attr r' "Id" = Some id -> j' = j)
  /\ (exists target, child_attr r "Target" = Some target /\ Resolves folder target part)
  /\ ((exists r0, r0 ∈ old /\ RelSaid r0 r) \/ child_attr r "Type" = Some worksheet_type).
(** The files [l] of a package list sheets of these names in this order; each sheet leads to a part
    of the package, and no two sheets to the same. *)
Definition KeptLinks `{Env} (l : list (string * string)) (book rels folder : string) (old : list rel) (names : list string) : Prop :=
  exists wroot sheets rroot, PartHolds l book wroot /\ only_child "sheets" wroot sheets /\ PartHolds l rels rroot
  /\ length (t_children sheets) = length names
  /\ (forall i name, names !! i = Some name -> exists part, SheetIn sheets rroot folder old i name part /\ part ∈ l.*1)
  /\ (forall i j n m part, SheetIn sheets rroot folder old i n part -> SheetIn sheets rroot folder old j m part -> i = j).
