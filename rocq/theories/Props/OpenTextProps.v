(** C62: the table of strings of an opened file, and the texts of cells. *)
From Verif.Model Require Import Excel.
From Verif.Spec Require Import RelSpec XmlSpec XmlRepr XmlHistory ColumnSpec PackageSpec PartSpec SheetSpec StyleSpec SessionSpec FlowSpec BookSpec OpenSpec OpenTextSpec DemoEnv.
From Verif.Proofs Require Import BaseFacts PackageFacts XmlTreeFacts SessionFacts ReadAnyFacts KeepFacts FlowOpenFacts OpenBookFacts OpenTextFacts.
From Verif.Props Require Import KeepProps FlowProps OpenProps OpenStyleProps OpenMoreProps.
Open Scope N_scope.

(** ** Theorems *)
(** C62, the table. The items of the table of strings in the file start with plain texts. After any calls and a
    save that succeeds the table of the saved file has these texts in their order, each under the number it had,
    and new ones after them; the numbers of items and of different texts are right; the root element has its name,
    its namespaces and its other attributes; every other element is as it was. Whoever reads the saved file gets the
    texts with the blanks at their ends removed. *)
Theorem C62_table : forall (E : Env) (Hs : Hashes) (file path data : string) (fs0 fs fs' : filesys) (l0 : list (string * string)) (root : tree) (ns : gmap string string)
    (texts : list string) (x0 : excel) (cs : list call) (s : session) (t : clock) (f : faults) (tr : list filesys),
  Stored fs0 file l0 -> excel_new (Some file) fs0 = Ok x0 ->
  (ss_path (wb_sst (x_book x0)), data) ∈ l0 -> ss_path (wb_sst (x_book x0)) <> content_types_name ->
  ReadsIn data root ns -> t_value root = None -> FirstTexts root texts ->
  calls cs (x0, []) = Some s -> excel_save t f path s.1 fs = (tr, Ok tt) -> last tr = Some fs' ->
  exists l new, Stored fs' path l /\ ss_strings (wb_sst (x_book s.1)) = texts ++ new
  /\ (texts ++ new <> [] -> TableShown l (ss_path (wb_sst (x_book x0))) ns root (texts ++ new)
      /\ exists troot, PartReads l (ss_path (wb_sst (x_book x0))) troot /\ t_value troot = None /\ FirstTexts troot (map trim (texts ++ new))).
Proof. intros E Hs file path data fs0 fs fs' l0 root ns texts x0 cs s t f tr. apply table_flow. Qed.
(** C62, the cells. A cell of the file shows a text without blanks at its ends. Any calls are made, none of which asks
    for the sheet, and the workbook is saved with success: the cell shows the same text in the saved file, however
    many texts were added. *)
Theorem C62_cell : forall (E : Env) (Hs : Hashes) (file path q txt : string) (r c : N) (fs0 fs fs' : filesys) (l0 : list (string * string))
    (x0 : excel) (cs : list call) (s : session) (t : clock) (f : faults) (tr : list filesys),
  Stored fs0 file l0 -> excel_new (Some file) fs0 = Ok x0 -> ss_path (wb_sst (x_book x0)) <> content_types_name -> q <> content_types_name ->
  TextCell l0 q (ss_path (wb_sst (x_book x0))) r c txt -> trim txt = txt ->
  of_open (x_office x0) !! q = None -> ~ rels_name q ->
  calls cs (x0, []) = Some s -> ~ Reopens cs (x0, []) q -> excel_save t f path s.1 fs = (tr, Ok tt) -> last tr = Some fs' ->
  exists l, Stored fs' path l /\ TextCell l q (ss_path (wb_sst (x_book x0))) r c txt.
Proof. intros E Hs file path q txt r c fs0 fs fs' l0 x0 cs s t f tr. apply text_cell_flow. Qed.

(** ** Examples *)
(** The first cell of the second sheet shows "old text"; the first sheet is changed and the table grows. *)
Definition first_table : string := "<sst xmlns:x=""u"" xml:lang=""en"" count=""7""><si><t>old text</t><phoneticPr fontId=""1""/></si><extLst><ext uri=""v""/></extLst></sst>".
Definition first_tree : tree := Node "sst" (attr [("xml:lang", "en"); ("count", "7")]) None
  [Node "si" (attr []) None [Node "t" (attr []) (Some "old text") []; Node "phoneticPr" (attr [("fontId", "1")]) None []]; Node "extLst" (attr []) None [Node "ext" (attr [("uri", "v")]) None []]].
Example C62_reads : let E := demo_env Checked in ReadsAs first_table first_tree /\ FirstTexts first_tree ["old text"].
Proof.
  cbv zeta. split; [apply reads_as; vm_compute; reflexivity|]. unfold FirstTexts, items. cbn [first_tree t_children List.filter t_tag]. constructor; [|constructor].
  eexists _, _. split; [reflexivity|]. split; reflexivity.
Qed.
Example C62_cell_reads : let E := demo_env Checked in
  TextCell [("xl/sharedStrings.xml", first_table); ("xl/worksheets/sheet2.xml", two_data)] "xl/worksheets/sheet2.xml" "xl/sharedStrings.xml" 1 1 "old text" /\ trim "old text" = "old text".
Proof.
  cbv zeta. split; [|vm_compute; reflexivity]. eexists two_tree, _, _, _, 0, first_tree, ["old text"].
  split; [exists two_data; split; [right; left|exact C52_reads]|]. split; [vm_compute; reflexivity|]. split.
  { eexists _, "A". split; [split; [left|split; vm_compute; reflexivity]|]. split; [left|]. split; [reflexivity|]. split; [by vm_compute|vm_compute; reflexivity]. }
  split; [vm_compute; reflexivity|]. split; [left|]. split; [reflexivity|]. split; [vm_compute; reflexivity|].
  split; [exists first_table; split; [left|apply C62_reads]|]. split; [reflexivity|]. split; [apply C62_reads|reflexivity].
Qed.
Example C62_example : match @book_demo (demo_env Checked) value_hashes [("xl/sharedStrings.xml", first_table); ("xl/worksheets/sheet2.xml", two_data)]
    [CGet "sheet1"; CRow 0 1 1 [text "new"; text "old text"; text "new"]; CDrop 0] with
  | Some l => ends (part_of "xl/sharedStrings.xml" l) "<sst xmlns:x=""u"" count=""2"" uniqueCount=""2"" xml:lang=""en"" ><extLst  ><ext uri=""v"" /></extLst><si ><t >old text</t></si><si ><t >new</t></si></sst>" && bool_decide (part_of "xl/worksheets/sheet2.xml" l = Some two_data)
  | None => false end = true.
Proof. vm_compute. reflexivity. Qed.

(** ** What one would want and what does not hold *)
Definition says_text (path : list (string * nat)) (v : option string) (root : tree) : bool :=
  match dig path root with Some t => bool_decide (t_value t = v) | None => false end.
Definition says_parts (path : list (string * nat)) (l : list string) (root : tree) : bool :=
  match dig path root with Some t => bool_decide (map t_tag (t_children t) = l) | None => false end.
(** A text in formatted runs is empty after the file is opened and saved. *)
Theorem C62_runs_refuted : Resays "xl/sharedStrings.xml"
  (fun r => says_parts [("si", 0%nat)] ["r"; "r"] r && says_text [("si", 0%nat); ("r", 0%nat); ("t", 0%nat)] (Some "Hello") r && says_text [("si", 0%nat); ("r", 1%nat); ("t", 0%nat)] (Some "World") r)
  (fun r => says_parts [("si", 0%nat)] ["t"] r && says_text [("si", 0%nat); ("t", 0%nat)] None r).
Proof. apply (resays_ok _ "<sst><si><r><t>Hello</t></r><r><rPr><b/></rPr><t>World</t></r></si></sst>"). vm_compute. reflexivity. Qed.
(** The pronunciation that goes with a text is lost. *)
Theorem C62_phonetic_refuted : Resays "xl/sharedStrings.xml" (says_parts [("si", 0%nat)] ["t"; "rPh"]) (says_parts [("si", 0%nat)] ["t"]).
Proof. apply (resays_ok _ "<sst><si><t>a</t><rPh sb=""0"" eb=""1""><t>b</t></rPh></si></sst>"). vm_compute. reflexivity. Qed.
(** An item without content takes a number in the file; after opening and saving the texts after it have other
    numbers. *)
Theorem C62_shift_refuted : Resays "xl/sharedStrings.xml" (says_text [("si", 2%nat); ("t", 0%nat)] (Some "b")) (says_text [("si", 2%nat); ("t", 0%nat)] (Some "c")).
Proof. apply (resays_ok _ "<sst><si><t>a</t></si><si/><si><t>b</t></si><si><t>c</t></si></sst>"). vm_compute. reflexivity. Qed.
(** Extensions, which the schema wants last, come to stand before the items. *)
Theorem C62_order_refuted : Resays "xl/sharedStrings.xml" (says_tags ["si"; "extLst"]) (says_tags ["extLst"; "si"]).
Proof. apply (resays_ok _ "<sst><si><t>a</t></si><extLst><ext uri=""u""/></extLst></sst>"). vm_compute. reflexivity. Qed.
(** Blanks at the ends of a text are lost, even where the file says that they count. *)
Definition blank_table : string := "<sst><si><t xml:space=""preserve""> a </t></si></sst>".
Definition trimmed_table : string := "<?xml version=""1.0"" encoding=""utf-8""?><sst  count=""1"" uniqueCount=""1"" ><si ><t >a</t></si></sst>".
Theorem C62_blanks_refuted : exists (E : Env) (Hs : Hashes) (t : clock) (l0 l : list (string * string)), Becomes t [] l0 l
  /\ ("xl/sharedStrings.xml", blank_table) ∈ l0 /\ ("xl/sharedStrings.xml", trimmed_table) ∈ l.
Proof.
  exists (demo_env Checked), value_hashes, demo_clock.
  assert (@become_check (demo_env Checked) value_hashes []
    (fun l0 l => bool_decide (part_of "xl/sharedStrings.xml" l0 = Some blank_table) && bool_decide (part_of "xl/sharedStrings.xml" l = Some trimmed_table))
    (with_parts [("xl/sharedStrings.xml", blank_table)] (@demo_parts (demo_env Checked) value_hashes true)) = true) as Hc by (vm_compute; reflexivity).
  apply (@become_found (demo_env Checked) value_hashes) in Hc as (l0 & l & Hr & Hp). apply andb_true_iff in Hp as [P1%bool_decide_eq_true P2%bool_decide_eq_true].
  exists l0, l. split; [exact Hr|]. clear Hr. split; by apply part_of_in.
Qed.

Print Assumptions C62_table.
Print Assumptions C62_cell.
Print Assumptions C62_reads.
Print Assumptions C62_cell_reads.
Print Assumptions C62_example.
Print Assumptions C62_runs_refuted.
Print Assumptions C62_phonetic_refuted.
Print Assumptions C62_shift_refuted.
Print Assumptions C62_order_refuted.
Print Assumptions C62_blanks_refuted.
