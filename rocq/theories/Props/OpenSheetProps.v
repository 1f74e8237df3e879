(** C58: the rest of a sheet of a file that is opened, and of the file saved. *)
From Verif.Model Require Import Excel.
From Verif.Spec Require Import RelSpec XmlSpec XmlRepr XmlHistory PackageSpec PartSpec ColumnSpec SheetSpec StyleSpec SessionSpec FlowSpec DemoEnv.
From Verif.Proofs Require Import BaseFacts XmlTreeFacts DocBuild ReadAnyFacts OpenSheetFacts.
From Verif.Props Require Import KeepProps FlowProps OpenProps OpenStyleProps.
From Verif.Spec Require Import OpenSpec OpenSheetSpec.
Open Scope N_scope.

(** C58. A file has a sheet in the part [q], read as [root] with the column definitions [cols] and
    the views [views]. The file is opened, the sheet is asked for, written to through the calls
    [cs] and released, and the file is saved. Then the part has its old root element, attributes
    and namespaces; cells and rows as in C52, within a dimension that encloses them; the columns
    defined before, changed by the settings made through the handle; the views in reverse order,
    then one more; and every other element as it was, in the order of the schema but for three
    kinds of element. *)
Theorem C58_kept : forall (E : Env) (Hs : Hashes) (file path q data0 : string) (fs0 fs fs' : filesys) (l0 : list (string * string))
    (root sd : tree) (ns : gmap string string) (cols : option (list col_props)) (views : list sheet_view)
    (x0 : excel) (pre cs post : list call) (c0 c : call) (name : option string) (s s1 s2 s3 : session) (w0 : worksheet)
    (ops : list sheet_op) (t : clock) (f : faults) (tr : list filesys),
  Stored fs0 file l0 -> (q, data0) ∈ l0 -> q <> content_types_name -> ~ rels_name q ->
  ReadsIn data0 root ns -> t_value root = None -> only_child "sheetData" root sd -> CellsPlaced sd -> ColsSaid root cols -> ViewsSaid root views ->
  excel_new (Some file) fs0 = Ok x0 -> of_open (x_office x0) !! q = None ->
  calls pre (x0, []) = Some s -> ~ Reopens pre (x0, []) q ->
  asks c0 name -> call_step c0 s = (s1, Ok tt) -> handle (length s.2) s1 = Some w0 -> ws_path w0 = q ->
  History (length s.2) cs ops -> Forall in_range ops -> Forall op_typed ops -> releases (length s.2) c ->
  calls (cs ++ [c]) s1 = Some s2 -> calls post s2 = Some s3 -> ~ Reopens post s2 q ->
  excel_save t f path s3.1 fs = (tr, Ok tt) -> last tr = Some fs' ->
  exists l text root' nsl, Stored fs' path l /\ (forall b, (q, b) ∈ l <-> b = prolog +:+ text) /\ Renders (Some nsl) root' text
    /\ SheetPart ns root sd cols views (ss_strings (wb_sst (x_book s3.1))) ops (col_sets (length s.2) cs) nsl root'.
Proof.
  intros E Hs file path q data0 fs0 fs fs' l0 root sd ns cols views x0 pre cs post c0 c name s s1 s2 s3 w0 ops t f tr. apply sheet_kept.
Qed.

(** C58, valid parts stay valid. When all elements of the sheet are those of the schema and none is one of the
    three the library does not know, the elements of the saved sheet come in the order of the schema. *)
Theorem C58_order : forall (E : Env) (Hs : Hashes) (file path q data0 : string) (fs0 fs fs' : filesys) (l0 : list (string * string))
    (root sd : tree) (ns : gmap string string) (cols : option (list col_props)) (views : list sheet_view)
    (x0 : excel) (pre cs post : list call) (c0 c : call) (name : option string) (s s1 s2 s3 : session) (w0 : worksheet)
    (ops : list sheet_op) (t : clock) (f : faults) (tr : list filesys),
  Stored fs0 file l0 -> (q, data0) ∈ l0 -> q <> content_types_name -> ~ rels_name q ->
  ReadsIn data0 root ns -> t_value root = None -> only_child "sheetData" root sd -> CellsPlaced sd -> ColsSaid root cols -> ViewsSaid root views ->
  Forall (fun x => t_tag x ∈ sheet_schema /\ t_tag x ∉ ["sheetProtection"; "legacyDrawing"; "legacyDrawingHF"]) (t_children root) ->
  excel_new (Some file) fs0 = Ok x0 -> of_open (x_office x0) !! q = None ->
  calls pre (x0, []) = Some s -> ~ Reopens pre (x0, []) q ->
  asks c0 name -> call_step c0 s = (s1, Ok tt) -> handle (length s.2) s1 = Some w0 -> ws_path w0 = q ->
  History (length s.2) cs ops -> Forall in_range ops -> Forall op_typed ops -> releases (length s.2) c ->
  calls (cs ++ [c]) s1 = Some s2 -> calls post s2 = Some s3 -> ~ Reopens post s2 q ->
  excel_save t f path s3.1 fs = (tr, Ok tt) -> last tr = Some fs' ->
  exists l text root' nsl, Stored fs' path l /\ (forall b, (q, b) ∈ l <-> b = prolog +:+ text) /\ Renders (Some nsl) root' text
    /\ Forall (fun x => t_tag x ∈ sheet_schema) (t_children root')
    /\ StronglySorted (fun x y => MayPrecede sheet_schema (t_tag x) (t_tag y)) (t_children root').
Proof.
  intros E Hs file path q data0 fs0 fs fs' l0 root sd ns cols views x0 pre cs post c0 c name s s1 s2 s3 w0 ops t f tr H1 H2 H3 H4 H5 H6 H7 H8 H9 H10 Hall.
  intros H11 H12 H13 H14 H15 H16 H17 H18 H19 H20 H21 H22 H23 H24 H25 H26 H27.
  destruct (C58_kept E Hs file path q data0 fs0 fs fs' l0 root sd ns cols views x0 pre cs post c0 c name s s1 s2 s3 w0 ops t f tr) as (l & text & root' & nsl & L1 & L2 & L3 & L4); try done.
  exists l, text, root', nsl. split; [done|]. split; [done|]. split; [done|]. destruct (sp_order _ _ _ _ _ _ _ _ _ _ L4) as (front & Hf & Hp & Hs').
  assert (filter (fun x => ~ placed sheet_schema sheet_late x) (t_children root) = []) as Hn.
  { clear -Hall. induction Hall as [|x xs Hx _ IH]; [done|]. rewrite filter_cons_False; [exact IH|]. intros Hn. by apply Hn. }
  rewrite Hn, app_nil_r in Hf. rewrite Hf. split; [|done].
  rewrite Forall_forall in Hp. apply Forall_forall. intros x Hx. by apply Hp.
Qed.

(** ** Examples *)
(** A sheet with most of what a sheet has. *)
Definition full_data : string :=
  "<worksheet xmlns:r=""http://r""><sheetPr filterMode=""1""/><dimension ref=""A1:B2""/><sheetViews><sheetView tabSelected=""1"" zoomScale=""80"" workbookViewId=""0""/></sheetViews><sheetFormatPr defaultRowHeight=""15""/><cols><col min=""1"" max=""3"" width=""9.5"" customWidth=""1""/><col min=""5"" max=""5"" hidden=""1""/></cols><sheetData><row r=""1""><c r=""B1""><v>7</v></c></row></sheetData><mergeCells count=""1""><mergeCell ref=""A4:B5""/></mergeCells><pageMargins left=""1""/><drawing r:id=""rId1""/><extLst><ext/></extLst></worksheet>".
Definition full_rows : tree :=
  el "sheetData" [] [el "row" [("r", "1")] [el "c" [("r", "B1")] [Node "v" (attr []) (Some "7") []]]].
Definition full_tree : tree :=
  el "worksheet" []
    [el "sheetPr" [("filterMode", "1")] [];
     el "dimension" [("ref", "A1:B2")] [];
     el "sheetViews" [] [el "sheetView" [("tabSelected", "1"); ("zoomScale", "80"); ("workbookViewId", "0")] []];
     el "sheetFormatPr" [("defaultRowHeight", "15")] [];
     el "cols" [] [el "col" [("min", "1"); ("max", "3"); ("width", "9.5"); ("customWidth", "1")] []; el "col" [("min", "5"); ("max", "5"); ("hidden", "1")] []];
     full_rows;
     el "mergeCells" [("count", "1")] [el "mergeCell" [("ref", "A4:B5")] []];
     el "pageMargins" [("left", "1")] [];
     el "drawing" [("r:id", "rId1")] [];
     el "extLst" [] [el "ext" [] []]].
Definition full_cols : list col_props := [mkCol 1 3 (Some "9.5") None None None 0 None; mkCol 5 5 None (Some true) None None 0 None].
Definition full_view : sheet_view := mkView "0" None None None None None None None None None (Some true) None None None (Some 80%Z) None None None.
Example C58_reads : let E := demo_env Checked in ReadsIn full_data full_tree {["r" := "http://r"]} /\ t_value full_tree = None.
Proof. cbv zeta. split; [apply reads_ns_in; vm_compute; reflexivity|done]. Qed.
Example C58_example : match @two_demo (demo_env Checked) value_hashes full_data
    [CGet "Two"; CCol 0 2 (Some (mkCol 1 1 (Some "20") None None None 0 None)); CRow 0 3 4 [text "12"]; CDrop 0] with
  | Some l => ends (part_of "xl/worksheets/sheet2.xml" l)
        "<worksheet xmlns:r=""http://r""  ><sheetPr filterMode=""1"" /><dimension ref=""B1:D3"" /><sheetViews ><sheetView tabSelected=""1"" workbookViewId=""0"" zoomScale=""80"" /><sheetView workbookViewId=""0"" /></sheetViews><sheetFormatPr defaultRowHeight=""15"" /><cols ><col customWidth=""1"" max=""1"" min=""1"" width=""9.5"" /><col hidden=""1"" max=""5"" min=""5"" /><col customWidth=""1"" max=""2"" min=""2"" width=""20"" /><col max=""3"" min=""3"" /></cols><sheetData ><row r=""1"" ><c r=""B1"" ><v >7</v></c></row><row r=""3"" ><c r=""D3"" ><v >12</v></c></row></sheetData><mergeCells count=""1"" ><mergeCell ref=""A4:B5"" /></mergeCells><pageMargins left=""1"" /><drawing r:id=""rId1"" /><extLst  ><ext  /></extLst></worksheet>"
  | None => false end = true.
Proof. vm_compute. reflexivity. Qed.
Example C58_says : let E := demo_env Checked in only_child "sheetData" full_tree full_rows /\ CellsPlaced full_rows
  /\ ColsSaid full_tree (Some full_cols) /\ ranges_ok full_cols /\ ViewsSaid full_tree [full_view]
  /\ Forall (fun x => t_tag x ∈ sheet_schema /\ t_tag x ∉ ["sheetProtection"; "legacyDrawing"; "legacyDrawingHF"]) (t_children full_tree).
Proof.
  cbv zeta. split; [reflexivity|]. split; [|split; [|split; [|split]]].
  - intros row t. cbn [full_rows el t_children]. intros ->%elem_of_list_singleton. cbn [t_children]. intros ->%elem_of_list_singleton. exists "B", "1". by vm_compute.
  - right. exists (el "cols" [] [el "col" [("min", "1"); ("max", "3"); ("width", "9.5"); ("customWidth", "1")] []; el "col" [("min", "5"); ("max", "5"); ("hidden", "1")] []]), full_cols.
    split; [reflexivity|]. split; [|reflexivity]. constructor; [|constructor; [|constructor]].
    + constructor; try (vm_compute; reflexivity).
      * right. exists "9.5". by vm_compute.
      * right. vm_compute. tauto.
      * right. vm_compute. tauto.
      * left. by vm_compute.
      * right. vm_compute. tauto.
    + constructor; try (vm_compute; reflexivity).
      * left. by vm_compute.
      * left. vm_compute. tauto.
      * right. vm_compute. tauto.
      * left. by vm_compute.
      * right. vm_compute. tauto.
  - split; [by repeat constructor|]. intros i j x y c Hx Hy. destruct i as [|[|]], j as [|[|]]; try done; cbn in Hx, Hy; injection Hx as <-; injection Hy as <-; unfold covers; cbn; lia.
  - right. eexists. split; [reflexivity|]. constructor; [|constructor]. constructor; try (vm_compute; reflexivity); try (left; by vm_compute).
    + right. left. vm_compute. tauto.
    + by vm_compute.
  - repeat constructor; try (by vm_compute; set_solver).
Qed.

(** ** What one would want and what does not hold *)
(** A file is opened, one of its sheets is asked for and released, the file is saved; [r0] and [r1] are
    the sheet before and after. *)
Definition Visited `{Env} `{Hashes} (r0 r1 : tree) : Prop :=
  exists (fs0 fs fs' : filesys) (file path name q data0 data1 : string) (l0 l : list (string * string)) (x0 : excel) (s : session)
    (t : clock) (f : faults) (tr : list filesys),
  Stored fs0 file l0 /\ (q, data0) ∈ l0 /\ ReadsAs data0 r0 /\ excel_new (Some file) fs0 = Ok x0
  /\ calls [CGet name; CDrop 0] (x0, []) = Some s
  /\ excel_save t f path s.1 fs = (tr, Ok tt) /\ last tr = Some fs' /\ Stored fs' path l /\ (q, data1) ∈ l /\ ReadsAs data1 r1.
Definition visit_check `{Env} `{Hashes} (P : tree -> tree -> bool) (l0 : list (string * string)) (name q : string) : bool :=
  match env_unzip (env_zip l0) with
  | Some l1 =>
    match excel_new (Some "in") {["in" := env_zip l0]} with
    | Ok x0 =>
      match calls [CGet name; CDrop 0] (x0, []) with
      | Some s =>
        match saved_parts (excel_save demo_clock demo_faults "a.xlsx" s.1 ∅) with
        | Some l => match part_of q l1, part_of q l with
          | Some d0, Some d1 => match tree_read d0, tree_read d1 with Some t0, Some t1 => P t0 t1 | _, _ => false end
          | _, _ => false end
        | None => false end
      | None => false end
    | _ => false end
  | None => false end.
Lemma visit_found `{Env} `{Hashes} P l0 name q : visit_check P l0 name q = true -> exists t0 t1, Visited t0 t1 /\ P t0 t1 = true.
Proof.
  unfold visit_check. destruct (env_unzip (env_zip l0)) as [l1|] eqn:Eu; [|done]. destruct (excel_new _ _) as [x0| |] eqn:En; [|done..].
  destruct (calls _ _) as [s|] eqn:Ec; [|done]. unfold saved_parts. destruct (excel_save _ _ _ _ _) as [tr r] eqn:Ev. cbn [fst snd].
  destruct r as [[]|r|r]; [|done..]. destruct (last tr) as [fs'|] eqn:El; [|done].
  destruct (fs' !! "a.xlsx") as [b|] eqn:Eb; cbn [mbind option_bind]; [|done]. destruct (env_unzip b) as [l|] eqn:Eub; [|done].
  destruct (part_of q l1) as [d0|] eqn:E0; [|done]. destruct (part_of q l) as [d1|] eqn:E1; [|done].
  destruct (tree_read d0) as [t0|] eqn:F0; [|done]. destruct (tree_read d1) as [t1|] eqn:F1; [|done]. intros HP. exists t0, t1. split; [|done].
  exists {["in" := env_zip l0]}, ∅, fs', "in", "a.xlsx", name, q, d0, d1, l1, l, x0, s, demo_clock, demo_faults, tr.
  split. { exists (env_zip l0). by rewrite lookup_singleton. }
  split; [by apply part_of_in|]. split; [by apply tree_read_ok|]. do 4 (split; [done|]). split; [by exists b|].
  split; [by apply part_of_in|by apply tree_read_ok].
Qed.
Definition visit (sheet : string) (P : tree -> tree -> bool) : bool :=
  @visit_check (demo_env Checked) value_hashes P (@two_parts (demo_env Checked) value_hashes sheet) "Two" "xl/worksheets/sheet2.xml".
(** An element of the sheet is lost. *)
Definition SheetLoses (path : list (string * nat)) : Prop :=
  exists (E : Env) (Hs : Hashes) (r0 r1 : tree), Visited r0 r1 /\ dig path r0 <> None /\ dig path r1 = None /\ dig (removelast path) r1 <> None.
(** An attribute of an element turns from [v0] to [v1], where [None] is: not there. *)
Definition SheetAlters (path : list (string * nat)) (k : string) (v0 v1 : option string) : Prop :=
  exists (E : Env) (Hs : Hashes) (r0 r1 e0 e1 : tree), Visited r0 r1 /\ dig path r0 = Some e0 /\ dig path r1 = Some e1 /\ child_attr e0 k = v0 /\ child_attr e1 k = v1.
(** Two elements, each there once, change places. *)
Definition two_of (a b : string) (l : list string) : list string := List.filter (fun g => String.eqb g a || String.eqb g b) l.
Definition tags_of (a b : string) (root : tree) : list string := two_of a b (map t_tag (t_children root)).
Definition SheetSwaps (a b : string) : Prop := exists (E : Env) (Hs : Hashes) (r0 r1 : tree), Visited r0 r1 /\ tags_of a b r0 = [a; b] /\ tags_of a b r1 = [b; a].
Lemma sheet_loses sheet path : visit sheet (fun r0 r1 => is_some (dig path r0) && negb (is_some (dig path r1)) && is_some (dig (removelast path) r1)) = true -> SheetLoses path.
Proof.
  intros Hc. unfold visit in Hc. apply (@visit_found (demo_env Checked) value_hashes) in Hc as (t0 & t1 & Hr & Hp). rewrite !andb_true_iff in Hp. destruct Hp as [[P1 P2] P3].
  exists (demo_env Checked), value_hashes, t0, t1. split; [exact Hr|]. clear Hr. destruct (dig path t0); [|discriminate P1]. destruct (dig path t1); [discriminate P2|]. destruct (dig (removelast path) t1); [|discriminate P3].
  split; [discriminate|]. split; [reflexivity|discriminate].
Qed.
Lemma sheet_alters sheet path k v0 v1 : visit sheet (fun r0 r1 => match dig path r0, dig path r1 with
      | Some e0, Some e1 => bool_decide (child_attr e0 k = v0) && bool_decide (child_attr e1 k = v1)
      | _, _ => false end) = true -> SheetAlters path k v0 v1.
Proof.
  intros Hc. unfold visit in Hc. apply (@visit_found (demo_env Checked) value_hashes) in Hc as (t0 & t1 & Hr & Hp).
  revert Hp. destruct (dig path t0) as [e0|] eqn:E0; [|discriminate]. destruct (dig path t1) as [e1|] eqn:E1; [|discriminate]. rewrite !andb_true_iff. intros [P3 P4].
  apply bool_decide_eq_true in P3, P4. exists (demo_env Checked), value_hashes, t0, t1, e0, e1. split; [exact Hr|]. split; [exact E0|]. split; [exact E1|]. split; [exact P3|exact P4].
Qed.
Lemma sheet_swaps sheet a b : visit sheet (fun r0 r1 => bool_decide (tags_of a b r0 = [a; b]) && bool_decide (tags_of a b r1 = [b; a])) = true -> SheetSwaps a b.
Proof.
  intros Hc. unfold visit in Hc. apply (@visit_found (demo_env Checked) value_hashes) in Hc as (t0 & t1 & Hr & Hp). rewrite !andb_true_iff in Hp. destruct Hp as [P1 P2].
  apply bool_decide_eq_true in P1, P2. exists (demo_env Checked), value_hashes, t0, t1. split; [exact Hr|]. split; [exact P1|exact P2].
Qed.
Definition parted (before after : string) : string := "<worksheet>" +:+ before +:+ "<sheetData><row r=""1""><c r=""A1""><v>7</v></c></row></sheetData>" +:+ after +:+ "</worksheet>".
Definition viewed (view : string) : string := parted ("<sheetViews>" +:+ view +:+ "</sheetViews>") "".
Definition columned (col : string) : string := parted ("<cols>" +:+ col +:+ "</cols>") "".
(** Frozen panes and selections are lost. *)
Theorem C58_pane_refuted : SheetLoses [("sheetViews", 0%nat); ("sheetView", 0%nat); ("pane", 0%nat)].
Proof. apply (sheet_loses (viewed "<sheetView workbookViewId=""0""><pane ySplit=""1"" state=""frozen""/></sheetView>")). vm_compute. reflexivity. Qed.
Theorem C58_selection_refuted : SheetLoses [("sheetViews", 0%nat); ("sheetView", 0%nat); ("selection", 0%nat)].
Proof. apply (sheet_loses (viewed "<sheetView workbookViewId=""0""><selection activeCell=""B2""/></sheetView>")). vm_compute. reflexivity. Qed.
(** Of two views each gets the place of the other. *)
Theorem C58_view_order_refuted : SheetAlters [("sheetViews", 0%nat); ("sheetView", 0%nat)] "workbookViewId" (Some "0") (Some "1").
Proof. apply (sheet_alters (viewed "<sheetView workbookViewId=""0""/><sheetView workbookViewId=""1""/>")). vm_compute. reflexivity. Qed.
(** A sheet with one view gets a second for the same window. *)
Theorem C58_views_refuted : exists (E : Env) (Hs : Hashes) (r0 r1 : tree), Visited r0 r1
  /\ dig [("sheetViews", 0%nat); ("sheetView", 1%nat)] r0 = None
  /\ (fun v => child_attr v "workbookViewId") <$> dig [("sheetViews", 0%nat); ("sheetView", 0%nat)] r1 = Some (Some "0")
  /\ (fun v => child_attr v "workbookViewId") <$> dig [("sheetViews", 0%nat); ("sheetView", 1%nat)] r1 = Some (Some "0").
Proof.
  assert (visit (viewed "<sheetView workbookViewId=""0""/>") (fun r0 r1 => negb (is_some (dig [("sheetViews", 0%nat); ("sheetView", 1%nat)] r0))
    && bool_decide ((fun v => child_attr v "workbookViewId") <$> dig [("sheetViews", 0%nat); ("sheetView", 0%nat)] r1 = Some (Some "0"))
    && bool_decide ((fun v => child_attr v "workbookViewId") <$> dig [("sheetViews", 0%nat); ("sheetView", 1%nat)] r1 = Some (Some "0"))) = true) as Hc by (vm_compute; reflexivity).
  unfold visit in Hc. apply (@visit_found (demo_env Checked) value_hashes) in Hc as (t0 & t1 & Hr & Hp). rewrite !andb_true_iff in Hp. destruct Hp as [[P1 P2] P3].
  apply bool_decide_eq_true in P2, P3. exists (demo_env Checked), value_hashes, t0, t1. split; [exact Hr|]. clear Hr. split; [|split; [exact P2|exact P3]].
  revert P1. destruct (dig _ t0); [discriminate|reflexivity].
Qed.
(** Groups of columns are no longer grouped. *)
Theorem C58_outline_refuted : SheetAlters [("cols", 0%nat); ("col", 0%nat)] "outlineLevel" (Some "1") None.
Proof. apply (sheet_alters (columned "<col min=""1"" max=""3"" outlineLevel=""1""/>")). vm_compute. reflexivity. Qed.
Theorem C58_collapsed_refuted : SheetAlters [("cols", 0%nat); ("col", 0%nat)] "collapsed" (Some "1") None.
Proof. apply (sheet_alters (columned "<col min=""4"" max=""4"" collapsed=""1""/>")). vm_compute. reflexivity. Qed.
(** A flag that is written as "true" is not understood: hidden columns and rows show, widths and heights are lost. *)
Theorem C58_hidden_column_refuted : SheetAlters [("cols", 0%nat); ("col", 0%nat)] "hidden" (Some "true") None.
Proof. apply (sheet_alters (columned "<col min=""1"" max=""3"" hidden=""true""/>")). vm_compute. reflexivity. Qed.
Theorem C58_width_refuted : SheetAlters [("cols", 0%nat); ("col", 0%nat)] "width" (Some "20") None.
Proof. apply (sheet_alters (columned "<col min=""1"" max=""3"" width=""20"" customWidth=""true""/>")). vm_compute. reflexivity. Qed.
Theorem C58_hidden_row_refuted : SheetAlters [("sheetData", 0%nat); ("row", 0%nat)] "hidden" (Some "true") None.
Proof. apply (sheet_alters "<worksheet><sheetData><row r=""1"" hidden=""true""><c r=""A1""/></row></sheetData></worksheet>"). vm_compute. reflexivity. Qed.
Theorem C58_height_refuted : SheetAlters [("sheetData", 0%nat); ("row", 0%nat)] "ht" (Some "30") None.
Proof. apply (sheet_alters "<worksheet><sheetData><row r=""1"" ht=""30"" customHeight=""true""><c r=""A1""/></row></sheetData></worksheet>"). vm_compute. reflexivity. Qed.
(** The protection of a sheet and its comments move behind elements that have to follow them. *)
Theorem C58_protection_refuted : two_of "sheetProtection" "pageMargins" sheet_schema = ["sheetProtection"; "pageMargins"] /\ SheetSwaps "sheetProtection" "pageMargins".
Proof. split; [vm_compute; reflexivity|]. apply (sheet_swaps (parted "" "<sheetProtection sheet=""1""/><pageMargins left=""1""/>")). vm_compute. reflexivity. Qed.
Theorem C58_comments_refuted : two_of "legacyDrawing" "tableParts" sheet_schema = ["legacyDrawing"; "tableParts"] /\ SheetSwaps "legacyDrawing" "tableParts".
Proof. split; [vm_compute; reflexivity|]. apply (sheet_swaps (parted "" "<legacyDrawing id=""rId1""/><tableParts count=""1""/>")). vm_compute. reflexivity. Qed.
(** A sheet whose rows or cells do not say where they are, as the schema allows, cannot be had. *)
Definition Unasked (sheet : string) : Prop :=
  exists (E : Env) (Hs : Hashes) (fs0 : filesys) (file name q e : string) (l0 : list (string * string)) (x0 : excel) (root : tree),
  Stored fs0 file l0 /\ (q, sheet) ∈ l0 /\ ReadsAs sheet root /\ excel_new (Some file) fs0 = Ok x0 /\ LeadsTo (x0, []) name q /\ (call_step (CGet name) (x0, [])).2 = Err e.
Definition unasked `{Env} `{Hashes} (sheet : string) (l0 : list (string * string)) (name q : string) : bool :=
  match env_unzip (env_zip l0) with
  | Some l1 =>
    match excel_new (Some "in") {["in" := env_zip l0]}, tree_read sheet with
    | Ok x0, Some _ => bool_decide (part_of q l1 = Some sheet)
        && existsb (fun x => seqb (sh_name x) name && match get_target_by_id (wb_rels (x_book x0)) (sh_rel x) with Ok (Some p) => seqb p q | _ => false end) (wb_sheets (x_book x0))
        && match (call_step (CGet name) (x0, [])).2 with Err _ => true | _ => false end
    | _, _ => false end
  | None => false end.
Lemma unasked_ok E Hs sheet l0 name q : @unasked E Hs sheet l0 name q = true -> Unasked sheet.
Proof.
  unfold unasked. destruct (env_unzip (env_zip l0)) as [l1|] eqn:Eu; [|done]. destruct (excel_new _ _) as [x0| |] eqn:En; [|done..]. destruct (tree_read sheet) as [root|] eqn:Er; [|done].
  rewrite !andb_true_iff. intros [[P1%bool_decide_eq_true P2] P3]. apply existsb_exists in P2 as (x & Hx & [Q1 Q2]%andb_true_iff). apply elem_of_list_In in Hx. apply String.eqb_eq in Q1.
  destruct (call_step (CGet name) (x0, [])).2 as [[]|e|] eqn:Ec; [done| |done].
  exists E, Hs, {["in" := env_zip l0]}, "in", name, q, e, l1, x0, root. split. { exists (env_zip l0). by rewrite lookup_singleton. }
  split; [by apply part_of_in|]. split; [by apply tree_read_ok|]. split; [done|]. split; [|done]. exists x. split; [done|]. split; [done|].
  cbn [fst]. destruct (get_target_by_id _ _) as [[p|]| |]; try done. apply String.eqb_eq in Q2. by subst.
Qed.
Theorem C58_cell_refuted : Unasked "<worksheet><sheetData><row r=""1""><c><v>7</v></c></row></sheetData></worksheet>".
Proof. apply (unasked_ok (demo_env Checked) value_hashes _ (@two_parts (demo_env Checked) value_hashes "<worksheet><sheetData><row r=""1""><c><v>7</v></c></row></sheetData></worksheet>") "Two" "xl/worksheets/sheet2.xml"). vm_compute. reflexivity. Qed.
Theorem C58_row_refuted : Unasked "<worksheet><sheetData><row><c r=""A1""><v>7</v></c></row></sheetData></worksheet>".
Proof. apply (unasked_ok (demo_env Checked) value_hashes _ (@two_parts (demo_env Checked) value_hashes "<worksheet><sheetData><row><c r=""A1""><v>7</v></c></row></sheetData></worksheet>") "Two" "xl/worksheets/sheet2.xml"). vm_compute. reflexivity. Qed.

Print Assumptions C58_kept.
Print Assumptions C58_order.
Print Assumptions C58_reads.
Print Assumptions C58_example.
Print Assumptions C58_says.
Print Assumptions C58_pane_refuted.
Print Assumptions C58_selection_refuted.
Print Assumptions C58_view_order_refuted.
Print Assumptions C58_views_refuted.
Print Assumptions C58_outline_refuted.
Print Assumptions C58_collapsed_refuted.
Print Assumptions C58_hidden_column_refuted.
Print Assumptions C58_width_refuted.
Print Assumptions C58_hidden_row_refuted.
Print Assumptions C58_height_refuted.
Print Assumptions C58_protection_refuted.
Print Assumptions C58_comments_refuted.
Print Assumptions C58_cell_refuted.
Print Assumptions C58_row_refuted.
