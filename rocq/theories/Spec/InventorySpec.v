(** The parts and relationships of a workbook that was created, worked on and saved. *)
From Verif.Model Require Import Excel.
From Verif.Spec Require Import XmlSpec SheetSpec PackageSpec LinkSpec FlowSpec AnswerSpec.
Open Scope N_scope.

(** The part of the sheet with this number, and the part of its relationships. *)
Definition sheet_part (m : N) : string := "xl/worksheets/sheet" +:+ show_N m +:+ ".xml".
Definition sheet_rels_part (m : N) : string := "xl/worksheets/_rels/sheet" +:+ show_N m +:+ ".xml.rels".
(** How many of the calls asked for a sheet and were answered with one. *)
Fixpoint handed_out (cs : list call) (bs : list bool) : nat :=
  match cs, bs with
  | c :: cs, b :: bs => match c with CAdd _ | CGet _ => if b then S (handed_out cs bs) else handed_out cs bs | _ => handed_out cs bs end
  | _, _ => O
  end.
(** What a relationship says: its id, its type, the part it leads to. *)
Definition told (t : tree) : option string * option string * option string := (child_attr t "Id", child_attr t "Type", child_attr t "Target").
Definition says (id type part : string) : option string * option string * option string := (Some id, Some type, Some ("/" +:+ part)).
Definition relation_type (kind : string) : string := "http://schemas.openxmlformats.org/officeDocument/2006/relationships/" +:+ kind.
(** The relationships of the workbook: its theme, its texts if there are any, its styles, and one for each link. *)
Definition book_relations (texts : bool) (links : list (N * N)) : list (option string * option string * option string) :=
  [says "rId1" (relation_type "theme") "xl/theme/theme1.xml"]
  ++ (if texts then [says "rId2" (relation_type "sharedStrings") "xl/sharedStrings.xml"] else [])
  ++ [says "rId4" (relation_type "styles") "xl/styles.xml"]
  ++ map (fun l => says ("rId" +:+ show_N l.1) worksheet_type (sheet_part l.2)) links.
(** A cell whose text goes among the texts of the workbook: one given as such a text, or one that is to be guessed and is
    no number and neither true nor false. *)
Definition shares (c : cell) : bool :=
  match ce_value c, ce_type c with
  | Some _, TShared => true
  | Some v, TAuto => negb (f64_parses v) && negb (String.eqb v "true") && negb (String.eqb v "false")
  | _, _ => false
  end.
(** The call puts such a cell through a handle that is there. *)
Definition PutsText (k : desk) (c : call) : Prop := exists h x col cs, Puts h c col cs /\ hand k h = Some x /\ existsb shares cs = true.
(** Some call does so when it is its turn. *)
Inductive SomeText : desk -> list call -> Prop :=
| SomeText_now k c cs : PutsText k c -> SomeText k (c :: cs)
| SomeText_later k c b k1 cs : Does k c b k1 -> SomeText k1 cs -> SomeText k (c :: cs).
