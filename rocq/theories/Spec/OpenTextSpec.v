(** The table of strings of an opened file and of the file saved from it. *)
From Verif.Model Require Import Excel.
From Verif.Spec Require Import RelSpec XmlSpec XmlRepr XmlHistory PackageSpec PartSpec SheetSpec SessionSpec FlowSpec BookSpec OpenSpec.
Open Scope N_scope.

Definition items (root : tree) : list tree := List.filter (fun t => String.eqb (t_tag t) "si") (t_children root).
(** Each item of the table starts with a plain text; hints for its pronunciation may follow. *)
Definition FirstTexts (root : tree) (texts : list string) : Prop :=
  Forall2 (fun x t => exists c cs, t_children t = c :: cs /\ t_tag c = "t" /\ x = default "" (t_value c)) texts (items root).
(** The saved file has these texts in its table, the numbers of items and of different texts, and otherwise
    what the table [root] of the opened file has. *)
Definition TableShown `{Env} (l : list (string * string)) (path : string) (ns : gmap string string) (root : tree) (texts : list string) : Prop :=
  exists text root' nsl, (forall b, (path, b) ∈ l <-> b = prolog +:+ text) /\ Renders (Some nsl) root' text /\ NsKept ns nsl
  /\ t_tag root' = t_tag root /\ Forall2 Item texts (items root') /\ others ["si"] root' = others ["si"] root
  /\ child_attr root' "count" = Some (show_N (N.of_nat (length texts)))
  /\ (exists n, Distinct texts n /\ child_attr root' "uniqueCount" = Some (show_N n))
  /\ forall k, k <> "count" -> k <> "uniqueCount" -> child_attr root' k = child_attr root k.
(** What is stored for a part is read as the tree [root]. *)
Definition PartReads `{Env} (l : list (string * string)) (path : string) (root : tree) : Prop := exists data, (path, data) ∈ l /\ ReadsAs data root.
(** The package [l] shows the text [s] in a cell: the cell carries a number, and the item of that number
    in the table of strings has the text. *)
Definition TextCell `{Env} (l : list (string * string)) (sheet table : string) (r c : N) (s : string) : Prop :=
  exists sroot data cell v i troot texts, PartReads l sheet sroot /\ only_child "sheetData" sroot data /\ CellAt data r c cell
  /\ child_attr cell "t" = Some "s" /\ v ∈ t_children cell /\ t_tag v = "v" /\ t_value v = Some (show_N i)
  /\ PartReads l table troot /\ t_value troot = None /\ FirstTexts troot texts /\ texts !! N.to_nat i = Some s.
