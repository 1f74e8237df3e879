(** C53 to C56: the parts of the workbook itself, from a file that is opened to the file saved. *)
From Verif.Model Require Import Excel.
From Verif.Spec Require Import RelSpec XmlSpec XmlRepr PackageSpec PartSpec SheetSpec StyleSpec SessionSpec FlowSpec DemoEnv.
From Verif.Proofs Require Import BaseFacts XmlTreeFacts DocBuild RelFacts KeepFacts ReadAnyFacts FlowFacts FlowOpenFacts OwnFacts OpenBookFacts OpenRelFacts FoundFacts.
From Verif.Props Require Import KeepProps FlowProps.
From Verif.Spec Require Import BookSpec OpenSpec.
Open Scope N_scope.

(** C53, opening. The workbook part of a file lists [sheets] and has the view settings [view]. The
    workbook that is opened has these sheets, in this order, and these settings. *)
Theorem C53_opened : forall (E : Env) (Hs : Hashes) (file data : string) (fs0 : filesys) (l0 : list (string * string)) (root : tree) (ns : gmap string string)
    (sheets : list sheet) (view : option book_view) (x0 : excel),
  Stored fs0 file l0 -> excel_new (Some file) fs0 = Ok x0 ->
  (wb_path (x_book x0), data) ∈ l0 -> wb_path (x_book x0) <> content_types_name ->
  ReadsIn data root ns -> t_value root = None -> ListSaid root sheets -> ViewSaid root view ->
  wb_sheets (x_book x0) = sheets /\ wb_view (x_book x0) = view.
Proof.
  intros E Hs file data fs0 l0 root ns sheets view x0 H1 H2 H3 H4 H5 H6 H7 H8.
  destruct (book_flow file fs0 l0 data root ns sheets view x0 [] (x0, []) (mkClock "" "" "" "") (mkFaults false false None []) "" ∅ [] ∅ H1 H2 H3 H4 H5 H6 H7 H8) as (A & B & _). done.
Qed.

(** C53, saving. Any calls are made, failing ones included, and the workbook is saved. The workbook part
    of the saved file lists the sheets that the calls leave of those in the file, in their order, and has
    the view settings with what the calls changed. Its root element has the name, the attributes and
    the namespaces it had, and every other element it had is there as it was; the elements are in the
    order the schema wants. *)
Theorem C53_saved : forall (E : Env) (Hs : Hashes) (file path data : string) (fs0 fs fs' : filesys) (l0 : list (string * string)) (root : tree) (ns : gmap string string)
    (sheets : list sheet) (view : option book_view) (x0 : excel) (cs : list call) (s : session) (t : clock) (f : faults) (tr : list filesys),
  Stored fs0 file l0 -> excel_new (Some file) fs0 = Ok x0 ->
  (wb_path (x_book x0), data) ∈ l0 -> wb_path (x_book x0) <> content_types_name -> no_rels (wb_path (x_book x0)) ->
  ReadsIn data root ns -> t_value root = None -> ListSaid root sheets -> ViewSaid root view ->
  calls cs (x0, []) = Some s -> excel_save t f path s.1 fs = (tr, Ok tt) -> last tr = Some fs' ->
  exists l sheets' view', Stored fs' path l /\ BookShown l (wb_path (x_book x0)) ns root sheets' view'
    /\ ListHistory (list_ops cs (x0, [])) sheets sheets' /\ ViewAfter (omap view_op_of cs) view view'.
Proof.
  intros E Hs file path data fs0 fs fs' l0 root ns sheets view x0 cs s t f tr H1 H2 H3 H4 Hn H5 H6 H7 H8 H9 H10 H11.
  destruct (book_flow file fs0 l0 data root ns sheets view x0 cs s t f path fs tr fs' H1 H2 H3 H4 H5 H6 H7 H8) as (_ & _ & Hr).
  destruct (Hr H9 H10 H11) as (l & A & B & C & D). exists l, (wb_sheets (x_book s.1)), (wb_view (x_book s.1)). split; [done|]. split; [done|]. split; [by apply D|done].
Qed.

(** C54, the relationships of the workbook. The file lists [rels] for the workbook. After any calls and a
    save that succeeds the saved file lists those of them, in their order, whose target is not that of a
    sheet deleted and not the table of strings or the calculation chain when these are empty; each
    keeps its id, type, target and mode. After them come relationships the library added. If the ids in
    the file were distinct, so are the new ones. *)
Theorem C54_relationships : forall (E : Env) (Hs : Hashes) (file path data : string) (fs0 fs fs' : filesys) (l0 : list (string * string)) (root : tree) (ns : gmap string string)
    (rels : list rel) (x0 : excel) (cs : list call) (s : session) (t : clock) (f : faults) (tr : list filesys),
  Stored fs0 file l0 -> excel_new (Some file) fs0 = Ok x0 ->
  (rl_path (wb_rels (x_book x0)), data) ∈ l0 -> rl_path (wb_rels (x_book x0)) <> content_types_name ->
  ReadsIn data root ns -> t_value root = None -> RelsSaid root rels ->
  calls cs (x0, []) = Some s -> excel_save t f path s.1 fs = (tr, Ok tt) -> last tr = Some fs' ->
  exists l kept new, Stored fs' path l
    /\ (kept ++ new <> [] -> RelsShown l (rl_path (wb_rels (x_book x0))) ns root (kept ++ new))
    /\ kept `sublist_of` rels
    /\ (forall x, x ∈ kept <-> x ∈ rels /\ r_target x ∉ deleted cs (x0, []) /\ r_target x ∉ unused (x_book s.1))
    /\ Forall rel_added new
    /\ (NoDup (map r_id rels) -> NoDup (map r_id (kept ++ new))).
Proof.
  intros E Hs file path data fs0 fs fs' l0 root ns rels x0 cs s t f tr H1 H2 H3 H4 H5 H6 H7 H8 H9 H10.
  destruct (rels_flow file fs0 l0 data root ns rels x0 cs s t f path fs tr fs' H1 H2 H3 H4 H5 H6 H7 H8 H9 H10) as (l & kept & new & A & B & -> & D & F).
  eexists l, _, new. split; [done|]. split; [exact B|]. split; [apply kept_sublist|]. split; [|done].
  intros x. rewrite elem_of_list_filter, not_elem_of_app. tauto.
Qed.

(** C54, sheets. The ids in the file are distinct. After any calls, a sheet that has the id of one of the
    relationships in the file, whose target was not that of a sheet deleted, is opened from the part that
    relationship leads to. *)
Theorem C54_sheet_part : forall (E : Env) (Hs : Hashes) (file name folder : string) (fs0 : filesys) (l0 : list (string * string))
    (rels : list rel) (x0 : excel) (cs : list call) (c : call) (s s1 : session) (x : sheet) (r : rel) (w : worksheet),
  Stored fs0 file l0 -> excel_new (Some file) fs0 = Ok x0 -> rl_path (wb_rels (x_book x0)) <> content_types_name ->
  Lists l0 (rl_path (wb_rels (x_book x0))) rels -> OwnerFolder (rl_path (wb_rels (x_book x0))) folder -> NoDup (map r_id rels) ->
  calls cs (x0, []) = Some s ->
  List.find (fun x => String.eqb (sh_name x) name) (wb_sheets (x_book s.1)) = Some x ->
  r ∈ rels -> r_id r = sh_rel x -> r_target r ∉ deleted cs (x0, []) ->
  asks c (Some name) -> call_step c s = (s1, Ok tt) -> handle (length s.2) s1 = Some w ->
  Resolves folder (r_target r) (ws_path w).
Proof.
  intros E Hs file name folder fs0 l0 rels x0 cs c s s1 x r w H1 H2 H3 H4 H5 H6 H7 H8 H9 H10 H11 H12 H13 H14.
  by eapply (found_sheet file fs0 l0 x0 rels cs s x r s1 name w folder).
Qed.

(** C55. The workbook part of a file is the target of the first relationship of that type that the package
    lists, or [xl/workbook.xml] when it lists none; the theme, the table of strings, the calculation chain and the
    styles are found in the same way from the list of the workbook, where a target that does not start with a slash
    counts from the folder of the workbook. This list is taken from [_rels/workbook.xml.rels] in the folder of the
    workbook. *)
Theorem C55_found : forall (E : Env) (Hs : Hashes) (file : string) (fs0 : filesys) (l0 : list (string * string)) (rels : list rel) (x0 : excel),
  Stored fs0 file l0 -> excel_new (Some file) fs0 = Ok x0 -> Lists l0 "_rels/.rels" rels ->
  FoundBy rels "" (rel_type "officeDocument") "xl/workbook.xml" (wb_path (x_book x0))
  /\ exists dir name, wb_path (x_book x0) = dir +:+ "/" +:+ name
    /\ (no_rels dir -> forall rels', Lists l0 (dir +:+ "/_rels/workbook.xml.rels") rels' -> BookFound rels' (dir +:+ "/") (x_book x0)).
Proof.
  intros E Hs file fs0 l0 rels x0 H1 H2 H3. split; [by eapply found_opened|]. destruct (sources_opened _ _ _ H2) as (o & Ho & S).
  destruct (so_folder _ _ _ S) as (dir & name & H4 & H5). exists dir, name. split; [done|]. intros Hn rels' Hl. rewrite <- H5 in Hl. eapply found_services; [done|done| |done|].
  - rewrite H5. apply rels_no_types.
  - rewrite H5. by apply (Own_dir dir "/workbook.xml.rels").
Qed.

(** C56. The theme of the file is, after any calls, written as it was read: the same elements, attributes,
    texts and namespaces. *)
Theorem C56_theme : forall (E : Env) (Hs : Hashes) (file path data : string) (fs0 fs fs' : filesys) (l0 : list (string * string)) (root : tree) (ns : gmap string string)
    (x0 : excel) (cs : list call) (s : session) (t : clock) (f : faults) (tr : list filesys),
  Stored fs0 file l0 -> excel_new (Some file) fs0 = Ok x0 ->
  (wb_theme (x_book x0), data) ∈ l0 -> wb_theme (x_book x0) <> content_types_name -> ReadsIn data root ns ->
  calls cs (x0, []) = Some s -> excel_save t f path s.1 fs = (tr, Ok tt) -> last tr = Some fs' ->
  exists l, Stored fs' path l /\ PartSame l (wb_theme (x_book x0)) ns root.
Proof. intros E Hs file path data fs0 fs fs' l0 root ns x0 cs s t f tr. apply theme_flow. Qed.

(** ** Examples *)
Definition reads_ns `{Env} (data : string) (t : tree) (ns : gmap string string) : bool :=
  match read_doc data with Ok d => match doc_tree d with Some t' => tree_eqb t' t && ns_okb (d_ns d) && bool_decide (d_ns d = ns) | None => false end | _ => false end.
Lemma reads_ns_in `{Env} data t ns : reads_ns data t ns = true -> ReadsIn data t ns.
Proof.
  unfold reads_ns. destruct (read_doc data) as [d| |] eqn:Er; [|done..]. destruct (doc_tree d) as [t'|] eqn:Ht; [|done]. rewrite !andb_true_iff. intros [[<-%tree_eqb_eq Hn] Hq%bool_decide_eq_true].
  destruct (read_doc_computed _ _ _ Er Ht) as ((it & [Hr _] & He) & _).
  exists d, it. split; [done|]. split; [done|]. split; [done|]. split; [done|]. rewrite <- Hq. by apply ns_okb_ok.
Qed.
(** A file with a workbook part as other programs write them. *)
Definition book_data : string :=
  "<workbook xmlns:r=""http://r""><workbookPr date1904=""1""/><bookViews><workbookView xWindow=""5"" activeTab=""1"" tabRatio=""600"" minimized=""1""/></bookViews><sheets><sheet name=""sheet1"" sheetId=""4"" r:id=""rId5""/><sheet name=""Two"" sheetId=""9"" state=""hidden"" r:id=""rId6""/></sheets><definedNames><definedName name=""x"">Two!A1</definedName></definedNames></workbook>".
Definition book_tree : tree :=
  Node "workbook" (attr []) None
    [Node "workbookPr" (attr [("date1904", "1")]) None [];
     Node "bookViews" (attr []) None [Node "workbookView" (attr [("xWindow", "5"); ("activeTab", "1"); ("tabRatio", "600"); ("minimized", "1")]) None []];
     Node "sheets" (attr []) None
      [Node "sheet" (attr [("name", "sheet1"); ("sheetId", "4"); ("r:id", "rId5")]) None [];
       Node "sheet" (attr [("name", "Two"); ("sheetId", "9"); ("state", "hidden"); ("r:id", "rId6")]) None []];
     Node "definedNames" (attr []) None [Node "definedName" (attr [("name", "x")]) (Some "Two!A1") []]].
Definition book_sheets : list sheet := [mkSheet "sheet1" "rId5" false false; mkSheet "Two" "rId6" false true].
Definition book_settings : book_view := mkBookView (Some "1") None None true false false false (Some 600%Z) None.
Example C53_reads : let E := demo_env Checked in ReadsIn book_data book_tree {["r" := "http://r"]}.
Proof. cbv zeta. apply reads_ns_in. vm_compute. reflexivity. Qed.
Example C53_says : ListSaid book_tree book_sheets /\ ViewSaid book_tree (Some book_settings).
Proof.
  split.
  - right. eexists. split; [vm_compute; reflexivity|]. constructor; [|constructor; [|constructor]]; (split; [by vm_compute|]; split; [by vm_compute|]; split; [by vm_compute|done]).
  - right. eexists _, _, book_settings. split; [vm_compute; reflexivity|]. split; [reflexivity|]. split; [|done].
    constructor; try (vm_compute; reflexivity).
    + right. left. split; [left; by vm_compute|done].
    + left. by vm_compute.
    + left. by vm_compute.
    + left. by vm_compute.
    + by vm_compute.
    + by vm_compute.
Qed.
Definition book_demo `{Env} `{Hashes} (new : list (string * string)) (cs : list call) : option (list (string * string)) :=
  match excel_new (Some "in") {["in" := env_zip (with_parts new (demo_parts true))]} with
  | Ok x0 => s ← calls cs (x0, []); saved_parts (excel_save demo_clock demo_faults "a.xlsx" s.1 ∅)
  | _ => None end.
Example C53_example : match @book_demo (demo_env Checked) value_hashes [("xl/workbook.xml", book_data)]
    [CRename "sheet1" "One"; CHScroll true; CAdd (Some "Three"); CRename "no such sheet" "x"; CDrop 0] with
  | Some l => ends (part_of "xl/workbook.xml" l)
      "<workbookPr date1904=""1"" /><bookViews ><workbookView activeTab=""1"" minimized=""1"" showHorizontalScroll=""0"" showSheetTabs=""1"" showVerticalScroll=""1"" tabRatio=""600"" /></bookViews><sheets ><sheet name=""One"" r:id=""rId5"" sheetId=""1"" /><sheet name=""Two"" r:id=""rId6"" sheetId=""2"" state=""hidden"" /><sheet name=""Three"" r:id=""rId9"" sheetId=""3"" /></sheets><definedNames  ><definedName name=""x"" >Two!A1</definedName></definedNames></workbook>"
  | None => false end = true.
Proof. vm_compute. reflexivity. Qed.
(** The relationships of the workbook in a file: a theme with a target relative to the workbook, an external
    link the library knows nothing about, two sheets. One sheet is deleted, another one added. *)
Definition rels_data : string :=
  "<Relationships><Relationship Id=""a"" Type=""http://schemas.openxmlformats.org/officeDocument/2006/relationships/theme"" Target=""theme/theme1.xml""/><Relationship Id=""b"" Type=""http://other"" Target=""http://elsewhere"" TargetMode=""External""/><Relationship Id=""rId5"" Type=""http://schemas.openxmlformats.org/officeDocument/2006/relationships/worksheet"" Target=""/xl/worksheets/sheet1.xml""/><Relationship Id=""rId6"" Type=""http://schemas.openxmlformats.org/officeDocument/2006/relationships/worksheet"" Target=""worksheets/sheet2.xml""/></Relationships>".
Definition rels_read : list rel :=
  [mkRel "a" "theme/theme1.xml" (rel_type "theme") None; mkRel "b" "http://elsewhere" "http://other" (Some "External");
   mkRel "rId5" "/xl/worksheets/sheet1.xml" (rel_type "worksheet") None; mkRel "rId6" "worksheets/sheet2.xml" (rel_type "worksheet") None].
Definition rels_tree : tree :=
  Node "Relationships" (attr []) None
    [Node "Relationship" (attr [("Id", "a"); ("Type", rel_type "theme"); ("Target", "theme/theme1.xml")]) None [];
     Node "Relationship" (attr [("Id", "b"); ("Type", "http://other"); ("Target", "http://elsewhere"); ("TargetMode", "External")]) None [];
     Node "Relationship" (attr [("Id", "rId5"); ("Type", rel_type "worksheet"); ("Target", "/xl/worksheets/sheet1.xml")]) None [];
     Node "Relationship" (attr [("Id", "rId6"); ("Type", rel_type "worksheet"); ("Target", "worksheets/sheet2.xml")]) None []].
Example C54_reads : let E := demo_env Checked in ReadsIn rels_data rels_tree ∅ /\ RelsSaid rels_tree rels_read /\ NoDup (map r_id rels_read).
Proof.
  cbv zeta. split; [apply reads_ns_in; vm_compute; reflexivity|]. split.
  - unfold RelsSaid, rels_read. cbn [rels_tree t_children List.filter t_tag String.eqb]. repeat (constructor; [repeat split; by vm_compute|]). constructor.
  - vm_compute. repeat constructor; set_solver.
Qed.
Example C54_example : match @book_demo (demo_env Checked) value_hashes [("xl/_rels/workbook.xml.rels", rels_data)] [CGet "sheet1"; CDelete 0; CAdd (Some "Three"); CDrop 1; CGet "Two"] with
  | Some l => ends (part_of "xl/_rels/workbook.xml.rels" l)
      "<Relationship Id=""a"" Target=""theme/theme1.xml"" Type=""http://schemas.openxmlformats.org/officeDocument/2006/relationships/theme"" /><Relationship Id=""b"" Target=""http://elsewhere"" TargetMode=""External"" Type=""http://other"" /><Relationship Id=""rId6"" Target=""worksheets/sheet2.xml"" Type=""http://schemas.openxmlformats.org/officeDocument/2006/relationships/worksheet"" /><Relationship Id=""rId9"" Target=""/xl/styles.xml"" Type=""http://schemas.openxmlformats.org/officeDocument/2006/relationships/styles"" /><Relationship Id=""rId10"" Target=""/xl/worksheets/sheet3.xml"" Type=""http://schemas.openxmlformats.org/officeDocument/2006/relationships/worksheet"" /></Relationships>"
  | None => false end = true.
Proof. vm_compute. reflexivity. Qed.
(** C55: a package whose workbook is in another folder, and its parts beside it. *)
Example C55_example : FoundBy rels_read "xl/" (rel_type "theme") "xl/theme/theme1.xml" "xl/theme/theme1.xml"
  /\ FoundBy [mkRel "x" "book/workbook.xml" (rel_type "officeDocument") None] "" (rel_type "officeDocument") "xl/workbook.xml" "book/workbook.xml"
  /\ FoundBy rels_read "xl/" (rel_type "styles") "xl/styles.xml" "xl/styles.xml".
Proof.
  split; [left; eexists [], _, _; split; [reflexivity|]; split; [done|]; split; [constructor|]; by apply (Res_rel "xl/" "t"%char)|].
  split; [left; eexists [], _, _; split; [reflexivity|]; split; [done|]; split; [constructor|]; by apply (Res_rel "" "b"%char)|].
  right. split; [|done]. repeat constructor; by vm_compute.
Qed.
Example C56_example : match @book_demo (demo_env Checked) value_hashes [("xl/theme/theme1.xml", "<a:theme xmlns:a=""http://a"" name=""Mine""><a:x v=""1"">text</a:x></a:theme>")] [CAdd None; CDrop 0] with
  | Some l => ends (part_of "xl/theme/theme1.xml" l) "<a:theme xmlns:a=""http://a"" name=""Mine"" ><a:x v=""1"" >text</a:x></a:theme>"
  | None => false end = true.
Proof. vm_compute. reflexivity. Qed.

(** ** What one would want and what does not hold *)
(** A file is opened and saved, nothing else; [r0] and [r1] are the workbook part before and after. *)
Definition Resaved `{Env} `{Hashes} (q : string) (r0 r1 : tree) : Prop :=
  exists (fs0 fs fs' : filesys) (file path data0 data1 : string) (l0 l : list (string * string)) (x0 : excel) (t : clock) (f : faults) (tr : list filesys),
  Stored fs0 file l0 /\ (q, data0) ∈ l0 /\ ReadsAs data0 r0 /\ excel_new (Some file) fs0 = Ok x0
  /\ excel_save t f path x0 fs = (tr, Ok tt) /\ last tr = Some fs' /\ Stored fs' path l /\ (q, data1) ∈ l /\ ReadsAs data1 r1.
Definition tree_read `{Env} (data : string) : option tree :=
  match read_doc data with Ok d => match doc_tree d with Some t => if ns_okb (d_ns d) then Some t else None | None => None end | _ => None end.
Lemma tree_read_ok `{Env} data t : tree_read data = Some t -> ReadsAs data t.
Proof.
  unfold tree_read. destruct (read_doc data) as [d| |] eqn:Er; [|done..]. destruct (doc_tree d) as [t'|] eqn:Ht; [|done]. destruct (ns_okb _) eqn:Hn; [|done]. intros [= <-].
  destruct (read_doc_computed _ _ _ Er Ht) as ((it & [Hr _] & He) & _). exists d, it. split; [done|]. split; [done|]. split; [done|]. by apply ns_okb_ok.
Qed.
Definition resave_check `{Env} `{Hashes} (P : tree -> tree -> bool) (l0 : list (string * string)) (q : string) : bool :=
  match env_unzip (env_zip l0) with
  | Some l1 =>
    match excel_new (Some "in") {["in" := env_zip l0]} with
    | Ok x0 =>
      match saved_parts (excel_save demo_clock demo_faults "a.xlsx" x0 ∅) with
      | Some l => match part_of q l1, part_of q l with
        | Some d0, Some d1 => match tree_read d0, tree_read d1 with Some t0, Some t1 => P t0 t1 | _, _ => false end
        | _, _ => false end
      | None => false end
    | _ => false end
  | None => false end.
Lemma resave_found `{Env} `{Hashes} P l0 q : resave_check P l0 q = true -> exists t0 t1, Resaved q t0 t1 /\ P t0 t1 = true.
Proof.
  unfold resave_check. destruct (env_unzip (env_zip l0)) as [l1|] eqn:Eu; [|done]. destruct (excel_new _ _) as [x0| |] eqn:En; [|done..].
  unfold saved_parts. destruct (excel_save _ _ _ _ _) as [tr r] eqn:Ev. cbn [fst snd].
  destruct r as [[]|r|r]; [|done..]. destruct (last tr) as [fs'|] eqn:El; [|done].
  destruct (fs' !! "a.xlsx") as [b|] eqn:Eb; cbn [mbind option_bind]; [|done]. destruct (env_unzip b) as [l|] eqn:Eub; [|done].
  destruct (part_of q l1) as [d0|] eqn:E0; [|done]. destruct (part_of q l) as [d1|] eqn:E1; [|done].
  destruct (tree_read d0) as [t0|] eqn:F0; [|done]. destruct (tree_read d1) as [t1|] eqn:F1; [|done]. intros HP. exists t0, t1. split; [|done].
  exists {["in" := env_zip l0]}, ∅, fs', "in", "a.xlsx", d0, d1, l1, l, x0, demo_clock, demo_faults, tr.
  split. { exists (env_zip l0). by rewrite lookup_singleton. }
  split; [by apply part_of_in|]. split; [by apply tree_read_ok|]. do 3 (split; [done|]). split; [by exists b|].
  split; [by apply part_of_in|by apply tree_read_ok].
Qed.
(** The attribute [k] of the entry at position [i] of a collection. *)
Definition attr_in (tag : string) (i : nat) (k : string) (root : tree) : option string :=
  match List.filter (fun t => String.eqb (t_tag t) tag) (t_children root) with
  | [ts] => match nth_error (t_children ts) i with Some t => child_attr t k | None => None end
  | _ => None end.
Definition has_entry (tag : string) (i : nat) (root : tree) : bool :=
  match List.filter (fun t => String.eqb (t_tag t) tag) (t_children root) with
  | [ts] => match nth_error (t_children ts) i with Some _ => true | None => false end
  | _ => false end.
(** Opening and saving turns the value [v0] of an attribute into [v1], where [None] is: not there. *)
Definition Turns (q tag : string) (i : nat) (k : string) (v0 v1 : option string) : Prop :=
  exists (E : Env) (Hs : Hashes) (r0 r1 : tree), Resaved q r0 r1 /\ has_entry tag i r0 = true /\ has_entry tag i r1 = true
    /\ attr_in tag i k r0 = v0 /\ attr_in tag i k r1 = v1.
Definition turns (q data tag : string) (i : nat) (k : string) (v0 v1 : option string) : bool :=
  @resave_check (demo_env Checked) value_hashes (fun r0 r1 => has_entry tag i r0 && has_entry tag i r1 && bool_decide (attr_in tag i k r0 = v0) && bool_decide (attr_in tag i k r1 = v1))
    (with_parts [(q, data)] (@demo_parts (demo_env Checked) value_hashes true)) q.
Lemma turns_ok q data tag i k v0 v1 : turns q data tag i k v0 v1 = true -> Turns q tag i k v0 v1.
Proof.
  intros Hc. apply (@resave_found (demo_env Checked) value_hashes) in Hc as (t0 & t1 & Hr & Hp). rewrite !andb_true_iff in Hp. destruct Hp as [[[P1 P2] P3] P4].
  apply bool_decide_eq_true in P3, P4. exists (demo_env Checked), value_hashes, t0, t1. done.
Qed.
Definition book_with (view sheet : string) : string :=
  "<workbook>" +:+ view +:+ "<sheets><sheet name=""sheet1"" sheetId=""4"" r:id=""rId5""/>" +:+ sheet +:+ "</sheets></workbook>".
(** A sheet that is very hidden, so that users cannot unhide it, becomes visible. *)
Theorem C53_very_hidden_refuted : Turns "xl/workbook.xml" "sheets" 1 "state" (Some "veryHidden") None.
Proof. apply (turns_ok _ (book_with "" "<sheet name=""Two"" sheetId=""9"" state=""veryHidden"" r:id=""rId6""/>")). vm_compute. reflexivity. Qed.
(** The numbers of sheets are given anew. *)
Theorem C53_sheet_id_refuted : Turns "xl/workbook.xml" "sheets" 1 "sheetId" (Some "9") (Some "2").
Proof. apply (turns_ok _ (book_with "" "<sheet name=""Two"" sheetId=""9"" r:id=""rId6""/>")). vm_compute. reflexivity. Qed.
(** An ampersand in the name of a sheet is escaped once more. *)
Theorem C53_name_refuted : Turns "xl/workbook.xml" "sheets" 1 "name" (Some "A&amp;B") (Some "A&amp;amp;B").
Proof. apply (turns_ok _ (book_with "" "<sheet name=""A&amp;B"" sheetId=""9"" r:id=""rId6""/>")). vm_compute. reflexivity. Qed.
(** Hidden tabs become visible. *)
Theorem C53_tabs_refuted : Turns "xl/workbook.xml" "bookViews" 0 "showSheetTabs" (Some "0") (Some "1").
Proof. apply (turns_ok _ (book_with "<bookViews><workbookView showSheetTabs=""0""/></bookViews>" "")). vm_compute. reflexivity. Qed.
(** The position of the window is lost. *)
Theorem C53_window_refuted : Turns "xl/workbook.xml" "bookViews" 0 "xWindow" (Some "5") None.
Proof. apply (turns_ok _ (book_with "<bookViews><workbookView xWindow=""5""/></bookViews>" "")). vm_compute. reflexivity. Qed.
(** The setting for dates in filters comes back as the width of the tabs. *)
Theorem C53_grouping_refuted : Turns "xl/workbook.xml" "bookViews" 0 "tabRatio" (Some "600") (Some "1").
Proof. apply (turns_ok _ (book_with "<bookViews><workbookView tabRatio=""600"" autoFilterDateGrouping=""1""/></bookViews>" "")). vm_compute. reflexivity. Qed.

(** C55, what one would want: the relationships of a workbook are those of its part, whatever its name. A file
    whose workbook part is [xl/book.xml] has them in [xl/_rels/book.xml.rels]; they lead from the listed sheet to a part
    of the file. The sheet cannot be opened. *)
Definition renamed (l : list (string * string)) : list (string * string) :=
  map (fun nd : string * string => if seqb nd.1 "xl/workbook.xml" then ("xl/book.xml", nd.2)
    else if seqb nd.1 "xl/_rels/workbook.xml.rels" then ("xl/_rels/book.xml.rels", nd.2)
    else if seqb nd.1 "_rels/.rels" then (nd.1, "<Relationships><Relationship Id=""a"" Type=""http://schemas.openxmlformats.org/officeDocument/2006/relationships/officeDocument"" Target=""xl/book.xml""/></Relationships>")
    else nd) l.
Definition rel_of_tree (t : tree) : option rel :=
  match child_attr t "Id", child_attr t "Target", child_attr t "Type" with
  | Some i, Some g, Some y => Some (mkRel i g y (child_attr t "TargetMode"))
  | _, _, _ => None end.
Definition all_rels (ts : list tree) : option (list rel) := mapM rel_of_tree ts.
Lemma all_rels_ok ts l : all_rels ts = Some l -> Forall2 RelSaid l ts.
Proof.
  unfold all_rels. intros Hm. apply mapM_Some in Hm. apply Forall2_flip in Hm. eapply Forall2_impl; [exact Hm|]. intros x t Ht. unfold flip, rel_of_tree in Ht.
  destruct (child_attr t "Id") eqn:E1; [|done]. destruct (child_attr t "Target") eqn:E2; [|done]. destruct (child_attr t "Type") eqn:E3; [|done]. injection Ht as <-. repeat split; done.
Qed.
Definition lists `{Env} (l0 : list (string * string)) (path : string) : option (list rel) :=
  data ← part_of path l0; t ← tree_read data; all_rels (List.filter (fun t => String.eqb (t_tag t) "Relationship") (t_children t)).
Lemma lists_ok `{Env} l0 path rels : lists l0 path = Some rels -> Lists l0 path rels.
Proof.
  unfold lists. destruct (part_of path l0) as [data|] eqn:Ep; [|done]. cbn [mbind option_bind]. destruct (tree_read data) as [t|] eqn:Et; [|done]. cbn [mbind option_bind]. intros Ha.
  apply tree_read_ok in Et as (d & it & H1 & H2 & H3 & H4). exists data, t, (d_ns d). split; [by apply part_of_in|]. split; [by exists d, it|]. by apply all_rels_ok.
Qed.
Definition no_sheet_check `{Env} `{Hashes} (l0 : list (string * string)) (name q : string) : bool :=
  match env_unzip (env_zip l0) with
  | Some l1 =>
    match lists l1 "_rels/.rels", lists l1 "xl/_rels/book.xml.rels", excel_new (Some "in") {["in" := env_zip l0]} with
    | Some [p], Some rels, Ok x0 =>
      seqb (r_type p) (rel_type "officeDocument") && seqb (r_target p) "xl/book.xml"
      && existsb (fun x => seqb (sh_name x) name && existsb (fun r => seqb (r_id r) (sh_rel x) && seqb (r_target r) (String "/" q)) rels) (wb_sheets (x_book x0))
      && match part_of q l1 with Some _ => true | None => false end
      && match (call_step (CGet name) (x0, [])).2 with Err _ => true | _ => false end
    | _, _, _ => false end
  | None => false end.
Theorem C55_name_refuted : exists (E : Env) (Hs : Hashes) (fs0 : filesys) (file e : string) (l0 : list (string * string)) (x0 : excel) (p r : rel) (rels : list rel) (x : sheet) (q : string),
  Stored fs0 file l0 /\ Lists l0 "_rels/.rels" [p] /\ r_type p = rel_type "officeDocument" /\ r_target p = "xl/book.xml"
  /\ Lists l0 "xl/_rels/book.xml.rels" rels /\ r ∈ rels /\ r_target r = "/" +:+ q /\ q ∈ l0.*1
  /\ excel_new (Some file) fs0 = Ok x0 /\ x ∈ wb_sheets (x_book x0) /\ sh_rel x = r_id r
  /\ (call_step (CGet (sh_name x)) (x0, [])).2 = Err e.
Proof.
  assert (forall (E : Env) (Hs : Hashes) l0 name q, no_sheet_check l0 name q = true -> exists fs0 file e l0 x0 p r rels x q,
    Stored fs0 file l0 /\ Lists l0 "_rels/.rels" [p] /\ r_type p = rel_type "officeDocument" /\ r_target p = "xl/book.xml"
    /\ Lists l0 "xl/_rels/book.xml.rels" rels /\ r ∈ rels /\ r_target r = "/" +:+ q /\ q ∈ l0.*1
    /\ excel_new (Some file) fs0 = Ok x0 /\ x ∈ wb_sheets (x_book x0) /\ sh_rel x = r_id r
    /\ (call_step (CGet (sh_name x)) (x0, [])).2 = Err e) as Hgen.
  { intros E Hs l0 name q. unfold no_sheet_check. destruct (env_unzip (env_zip l0)) as [l1|] eqn:Eu; [|done].
    destruct (lists l1 "_rels/.rels") as [[|p [|]]|] eqn:E1; try done. destruct (lists l1 "xl/_rels/book.xml.rels") as [rels|] eqn:E2; [|done].
    destruct (excel_new _ _) as [x0| |] eqn:En; [|done..]. rewrite !andb_true_iff. intros [[[[P1 P2] P3] P4] P5]. apply String.eqb_eq in P1, P2.
    apply existsb_exists in P3 as (x & Hx & [N1%String.eqb_eq N2]%andb_true_iff). apply existsb_exists in N2 as (r & Hr & [R1%String.eqb_eq R2%String.eqb_eq]%andb_true_iff).
    destruct (part_of q l1) as [dq|] eqn:Eq; [|done]. destruct (call_step (CGet name) (x0, [])).2 as [|e|] eqn:Ec; [done| |done].
    exists {["in" := env_zip l0]}, "in", e, l1, x0, p, r, rels, x, q. split; [exists (env_zip l0); by rewrite lookup_singleton|]. split; [by apply lists_ok|]. do 2 (split; [done|]).
    split; [by apply lists_ok|]. split; [by apply elem_of_list_In|]. split; [done|]. split.
    { apply elem_of_list_fmap. exists (q, dq). split; [done|]. by apply part_of_in. }
    split; [done|]. split; [by apply elem_of_list_In|]. split; [done|]. by rewrite N1. }
  exists (demo_env Checked), value_hashes. apply (Hgen _ _ (renamed (@demo_parts (demo_env Checked) value_hashes true)) "Two" "xl/worksheets/sheet2.xml"). vm_compute. reflexivity.
Qed.

Print Assumptions C53_opened.
Print Assumptions C53_saved.
Print Assumptions C54_relationships.
Print Assumptions C54_sheet_part.
Print Assumptions C55_found.
Print Assumptions C56_theme.
Print Assumptions C53_reads.
Print Assumptions C53_says.
Print Assumptions C53_example.
Print Assumptions C54_reads.
Print Assumptions C54_example.
Print Assumptions C55_example.
Print Assumptions C56_example.
Print Assumptions C53_very_hidden_refuted.
Print Assumptions C53_sheet_id_refuted.
Print Assumptions C53_name_refuted.
Print Assumptions C53_tabs_refuted.
Print Assumptions C53_window_refuted.
Print Assumptions C53_grouping_refuted.
Print Assumptions C55_name_refuted.
