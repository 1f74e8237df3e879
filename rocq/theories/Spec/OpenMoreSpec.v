(** What an opened file says in its calculation chain, in its document properties and in the
    relationships of the package, and what the file saved from it shows there. *)
From Verif.Model Require Import Excel.
From Verif.Spec Require Import RelSpec XmlSpec XmlRepr XmlHistory PackageSpec PartSpec SheetSpec SessionSpec FlowSpec BookSpec OpenSpec.
Open Scope N_scope.

(** ** The calculation chain *)
(** The entries of a chain, each with a cell and the number of a sheet. *)
Definition ChainSaid (root : tree) (l : list (string * string)) : Prop :=
  Forall2 (fun x t => child_attr t "r" = Some x.1 /\ child_attr t "i" = Some x.2)
    l (List.filter (fun t => String.eqb (t_tag t) "c") (t_children root)).
Definition ChainShown `{Env} (l : list (string * string)) (path : string) (ns : gmap string string) (root : tree) (chain : list (string * string)) : Prop :=
  exists text root' nsl, (forall b, (path, b) ∈ l <-> b = prolog +:+ text) /\ Renders (Some nsl) root' text /\ NsKept ns nsl
  /\ t_tag root' = t_tag root /\ t_attrs root' = t_attrs root
  /\ ChainSaid root' chain /\ others ["c"] root' = others ["c"] root.
(** In the workbook part the sheet with the number [i] is the one that the relationship [id] leads to. *)
Definition Numbered (root : tree) (i id : string) : Prop :=
  exists ts t, only_child "sheets" root ts /\ t ∈ t_children ts /\ child_attr t "sheetId" = Some i /\ child_attr t "r:id" = Some id.
(** The sheets are numbered from one, in their order. *)
Definition InOrder (root : tree) : Prop :=
  forall ts k t, only_child "sheets" root ts -> t_children ts !! k = Some t -> child_attr t "sheetId" = Some (show_N (N.of_nat k + 1)).
(** The part of a saved file that holds the element [root]. *)
Definition PartHolds `{Env} (l : list (string * string)) (path : string) (root : tree) : Prop :=
  exists text nsl, (forall b, (path, b) ∈ l <-> b = prolog +:+ text) /\ Renders (Some nsl) root text.
Definition deletes (c : call) : Prop := match c with CDelete _ => True | _ => False end.

(** ** The document properties *)
(** The times are set, the time of creation only where there is none, and everything else is as it was. *)
Definition PropertiesShown `{Env} (l : list (string * string)) (path : string) (ns : gmap string string) (root : tree) (now1 now2 : string) : Prop :=
  exists text root' nsl cs, (forall b, (path, b) ∈ l <-> b = prolog +:+ text) /\ Renders (Some nsl) root' text /\ NsKept ns nsl
  /\ t_tag root' = t_tag root /\ t_attrs root' = t_attrs root /\ t_value root' = t_value root
  /\ SetText "dcterms:modified" now1 (t_children root) cs
  /\ (property "dcterms:created" root = None -> SetText "dcterms:created" now2 cs (t_children root'))
  /\ (property "dcterms:created" root <> None -> t_children root' = cs).
(** The kinds of relationships a package must have, with the usual targets. *)
Definition core_type : string := "http://schemas.openxmlformats.org/package/2006/relationships/metadata/core-properties".
Definition suite_kinds : list (string * string) := [(core_type, "/docProps/core.xml")].
Definition book_kinds : list (string * string) := suite_kinds ++ [(rel_type "officeDocument", "/xl/workbook.xml")].
(** The relationships [new]: one for each kind of which there is none in [rels], and no more. *)
Definition Completes (kinds : list (string * string)) (rels new : list rel) : Prop :=
  map (fun y => (r_type y, r_target y, r_mode y)) new = map (fun k => (k.1, k.2, None)) (filter (fun k => k.1 ∉ map r_type rels) kinds).
