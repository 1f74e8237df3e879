(** The sheets a saved workbook lists, and the parts they lead to. *)
From Verif.Model Require Import Excel.
From Verif.Spec Require Import XmlSpec PackageSpec SheetSpec SessionSpec.
Open Scope N_scope.

Definition worksheet_type : string := "http://schemas.openxmlformats.org/officeDocument/2006/relationships/worksheet".
Definition relations_in (root : tree) : list tree := List.filter (fun t => String.eqb (t_tag t) "Relationship") (t_children root).
(** The entry at position [i] of the element [sheets] has this name, and its relationship id names
    exactly one relationship in [rels], which is that of a sheet and leads to [part]. *)
Definition SheetAt (sheets rels : tree) (i : nat) (name part : string) : Prop :=
  exists c id j r, t_children sheets !! i = Some c /\ child_attr c "name" = Some name /\ child_attr c "r:id" = Some id
  /\ relations_in rels !! j = Some r /\ child_attr r "Id" = Some id
  /\ (forall j' r', relations_in rels !! j' = Some r' -> child_attr r' "Id" = Some id -> j' = j)
  /\ child_attr r "Type" = Some worksheet_type /\ child_attr r "Target" = Some ("/" +:+ part).
(** The files [l] of a package list sheets of these names in this order; each sheet leads to a part
    of the package, and no two sheets to the same. *)
Definition GoodLinks `{Env} (l : list (string * string)) (names : list string) : Prop :=
  exists wt wns wroot sheets rt rns rroot,
    ("xl/workbook.xml", prolog +:+ wt) ∈ l /\ Renders (Some wns) wroot wt /\ only_child "sheets" wroot sheets
    /\ ("xl/_rels/workbook.xml.rels", prolog +:+ rt) ∈ l /\ Renders (Some rns) rroot rt
    /\ length (t_children sheets) = length names
    /\ (forall i name, names !! i = Some name -> exists part, SheetAt sheets rroot i name part /\ part ∈ l.*1)
    /\ (forall i j n m part, SheetAt sheets rroot i n part -> SheetAt sheets rroot j m part -> i = j).
(** A call that asks for a sheet fails, and either no sheet has the name asked for, or what is stored for a
    part that one of these relationships of the workbook leads to cannot be read. *)
Definition BadOpen `{Env} `{Hashes} (cs : list call) (s : session) (ids : session -> string -> Prop) : Prop :=
  exists cs1 c cs2 s1 name e, cs = cs1 ++ c :: cs2 /\ calls cs1 s = Some s1 /\ (c = CAdd name \/ exists n, name = Some n /\ c = CGet n) /\ (call_step c s1).2 = Err e
  /\ ((forall x, x ∈ wb_sheets (x_book s1.1) -> name <> Some (sh_name x))
      \/ exists id p, ids s1 id /\ get_target_by_id (wb_rels (x_book s1.1)) id = Ok (Some p) /\ Unreadable (x_office s1.1) p).
Definition any_rel (s : session) (id : string) : Prop := True.
Definition listed_rel (s : session) (id : string) : Prop := exists x, x ∈ wb_sheets (x_book s.1) /\ sh_rel x = id.
(** A sheet is deleted through a handle that does not have the sheet's present name. *)
Definition StaleDelete `{Env} `{Hashes} (cs : list call) (s : session) : Prop :=
  exists cs1 h cs2 s1 w x, cs = cs1 ++ CDelete h :: cs2 /\ calls cs1 s = Some s1 /\ handle h s1 = Some w
  /\ x ∈ wb_sheets (x_book s1.1) /\ get_target_by_id (wb_rels (x_book s1.1)) (sh_rel x) = Ok (Some (ws_path w)) /\ sh_name x <> ws_name w.
Definition renames (c : call) : Prop := match c with CRename _ _ => True | _ => False end.
