(** C61: the sheets that an opened workbook lists once it is saved, and the parts they lead to. *)
From Verif.Model Require Import Excel.
From Verif.Spec Require Import RelSpec XmlSpec XmlRepr XmlHistory PackageSpec PartSpec SheetSpec StyleSpec SessionSpec LinkSpec FlowSpec BookSpec OpenSpec OpenMoreSpec OpenLinkSpec DemoEnv.
From Verif.Proofs Require Import BaseFacts PackageFacts XmlTreeFacts SessionFacts ReadAnyFacts KeepFacts FlowOpenFacts OpenBookFacts OpenMoreFacts OpenLinkFacts.
From Verif.Props Require Import KeepProps FlowProps OpenProps OpenStyleProps OpenMoreProps.
Open Scope N_scope.

(** ** Theorems *)
(** C61. The sheets of a file lead to parts of it, each to its own, and to neither the calculation chain nor the table
    of strings. The file is opened, any calls are made, and the workbook, which still has a sheet, is saved with
    success. Unless a call that asks for a new sheet failed, or one that asks for a listed sheet failed while the part
    of a listed sheet could not be read, or a sheet was deleted through a handle with an older name of it: the file
    written lists the sheets of the workbook in order under their names; the id of each names exactly one
    relationship, which is one of the file opened or that of a worksheet; it leads to a part of the file written, and
    no two sheets lead to the same part. *)
Theorem C61_links : forall (E : Env) (Hs : Hashes) (file path data rdata folder : string) (fs0 fs fs' : filesys) (l0 : list (string * string)) (root rroot : tree) (ns rns : gmap string string)
    (sheets : list sheet) (view : option book_view) (rels : list rel) (x0 : excel) (cs : list call) (s : session) (t : clock) (f : faults) (tr : list filesys),
  Stored fs0 file l0 -> excel_new (Some file) fs0 = Ok x0 ->
  (wb_path (x_book x0), data) ∈ l0 -> wb_path (x_book x0) <> content_types_name ->
  ReadsIn data root ns -> t_value root = None -> ListSaid root sheets -> ViewSaid root view ->
  (rl_path (wb_rels (x_book x0)), rdata) ∈ l0 -> rl_path (wb_rels (x_book x0)) <> content_types_name ->
  ReadsIn rdata rroot rns -> t_value rroot = None -> RelsSaid rroot rels ->
  OwnerFolder (rl_path (wb_rels (x_book x0))) folder -> folder <> "" -> Proper folder ->
  Proper (cc_path (wb_calc (x_book x0))) -> Proper (ss_path (wb_sst (x_book x0))) ->
  FileLinks l0 [content_types_name; cc_path (wb_calc (x_book x0)); ss_path (wb_sst (x_book x0))] rels folder sheets ->
  calls cs (x0, []) = Some s -> ~ BadOpen cs (x0, []) listed_rel -> ~ StaleDelete cs (x0, []) -> list_sheet_names (x_book s.1) <> [] ->
  excel_save t f path s.1 fs = (tr, Ok tt) -> last tr = Some fs' ->
  exists l, Stored fs' path l /\ KeptLinks l (wb_path (x_book x0)) (rl_path (wb_rels (x_book x0))) folder rels (list_sheet_names (x_book s.1)).
Proof.
  intros E Hs file path data rdata folder fs0 fs fs' l0 root rroot ns rns sheets view rels x0 cs s t f tr.
  apply (links_flow file fs0 l0 data root ns sheets view rdata rroot rns rels folder x0 cs s t f path fs tr fs').
Qed.
(** Where no sheet is renamed, no handle has an older name. *)
Theorem C61_no_rename : forall (E : Env) (Hs : Hashes) (file data folder : string) (fs0 : filesys) (l0 : list (string * string)) (root : tree) (ns : gmap string string)
    (sheets : list sheet) (view : option book_view) (rels : list rel) (x0 : excel) (cs : list call),
  Stored fs0 file l0 -> excel_new (Some file) fs0 = Ok x0 ->
  (wb_path (x_book x0), data) ∈ l0 -> wb_path (x_book x0) <> content_types_name ->
  ReadsIn data root ns -> t_value root = None -> ListSaid root sheets -> ViewSaid root view ->
  rl_path (wb_rels (x_book x0)) <> content_types_name -> Lists l0 (rl_path (wb_rels (x_book x0))) rels ->
  OwnerFolder (rl_path (wb_rels (x_book x0))) folder -> folder <> "" -> Proper folder ->
  FileLinks l0 [content_types_name; cc_path (wb_calc (x_book x0)); ss_path (wb_sst (x_book x0))] rels folder sheets ->
  ~ BadOpen cs (x0, []) listed_rel -> Forall (fun c => ~ renames c) cs -> ~ StaleDelete cs (x0, []).
Proof.
  intros E Hs file data folder fs0 l0 root ns sheets view rels x0 cs H1 H2 H3 H4 H5 H6 H7 H8 H9 H10 H11 H12 H13 H14 H15 H16.
  destruct (C53_opened E Hs file data fs0 l0 root ns sheets view x0 H1 H2 H3 H4 H5 H6 H7 H8) as [Hsh _].
  destruct (new_linv _ _ _ H2) as [I0 _].
  eapply (calls_ofresh folder _ rels H13 H12 cs (x0, [])); [|done| | |done|done].
  - intros q. instantiate (1 := [content_types_name; cc_path (wb_calc (x_book x0)); ss_path (wb_sst (x_book x0))]). cbn [fst]. unfold FrameFacts.own_parts. rewrite !elem_of_cons. tauto.
  - eapply opened_olinks; [exact H1|done|done|done|done|by left|]. by rewrite Hsh.
  - intros w x Hw. by apply elem_of_nil in Hw.
Qed.

(** ** Examples *)
(** The workbook of the examples of C53 with the relationships of the example of C54: one sheet has a target
    that starts with a slash, one has a target relative to the workbook. *)
Definition link_parts : list (string * string) :=
  with_parts [("xl/workbook.xml", book_data); ("xl/_rels/workbook.xml.rels", rels_data)] (@demo_parts (demo_env Checked) value_hashes true).
Lemma proper_at a q : a <> "/"%char -> Proper (String a q).
Proof. intros H p Hp. cbn in Hp. injection Hp as Hp _. done. Qed.
Example C61_file : FileLinks link_parts [content_types_name; "xl/calcChain.xml"; "xl/sharedStrings.xml"] rels_read "xl/" book_sheets
  /\ OwnerFolder "xl/_rels/workbook.xml.rels" "xl/" /\ Proper "xl/".
Proof.
  split; [|split; [|by apply proper_at]].
  - split; [apply (bool_decide_unpack _); vm_compute; reflexivity|]. exists ["xl/worksheets/sheet1.xml"; "xl/worksheets/sheet2.xml"].
    split; [apply (bool_decide_unpack _); vm_compute; reflexivity|].
    constructor; [|constructor; [|constructor]]; (split; [|split; [apply (bool_decide_unpack _); vm_compute; reflexivity|split; [by apply proper_at|apply (bool_decide_unpack _); vm_compute; reflexivity]]]).
    + exists (mkRel "rId5" "/xl/worksheets/sheet1.xml" (rel_type "worksheet") None). split; [do 2 right; by left|]. split; [done|]. apply (Res_abs "xl/" "xl/worksheets/sheet1.xml").
    + exists (mkRel "rId6" "worksheets/sheet2.xml" (rel_type "worksheet") None). split; [do 3 right; by left|]. split; [done|]. by apply (Res_rel "xl/" "w" "orksheets/sheet2.xml").
  - apply (Own_dir "xl" "/workbook.xml.rels"). intros a b Hab. apply (f_equal String.length) in Hab. rewrite !slength_app in Hab. cbn in Hab. lia.
Qed.
(** Sheets are added, deleted and renamed; a sheet whose handle is held is asked for again, which fails. *)
Definition link_calls : list call := [CAdd (Some "Three"); CGet "Three"; CGet "sheet1"; CDelete 1; CRename "Two" "Second"; CDrop 0; CAdd None].
Definition outcomes `{Env} `{Hashes} (l0 : list (string * string)) (cs : list call) : option (list bool) :=
  match excel_new (Some "in") {["in" := env_zip l0]} with
  | Ok x0 => Some (map (fun k => match calls (take k cs) (x0, []) with
      | Some s1 => match nth_error cs k with Some c => match (call_step c s1).2 with Ok _ => true | _ => false end | None => true end
      | None => true end) (seq 0 (length cs)))
  | _ => None end.
Example C61_example : @outcomes (demo_env Checked) value_hashes link_parts link_calls = Some [true; false; true; true; true; true; true]
  /\ match @book_demo (demo_env Checked) value_hashes [("xl/workbook.xml", book_data); ("xl/_rels/workbook.xml.rels", rels_data)] link_calls with
  | Some l => ends (part_of "xl/_rels/workbook.xml.rels" l)
        "<Relationship Id=""rId6"" Target=""worksheets/sheet2.xml"" Type=""http://schemas.openxmlformats.org/officeDocument/2006/relationships/worksheet"" /><Relationship Id=""rId9"" Target=""/xl/styles.xml"" Type=""http://schemas.openxmlformats.org/officeDocument/2006/relationships/styles"" /><Relationship Id=""rId10"" Target=""/xl/worksheets/sheet3.xml"" Type=""http://schemas.openxmlformats.org/officeDocument/2006/relationships/worksheet"" /><Relationship Id=""rId11"" Target=""/xl/worksheets/sheet4.xml"" Type=""http://schemas.openxmlformats.org/officeDocument/2006/relationships/worksheet"" /></Relationships>"
      && ends (part_of "xl/workbook.xml" l)
        "<sheets ><sheet name=""Second"" r:id=""rId6"" sheetId=""1"" state=""hidden"" /><sheet name=""Three"" r:id=""rId10"" sheetId=""2"" /><sheet name=""sheet4"" r:id=""rId11"" sheetId=""3"" /></sheets><definedNames  ><definedName name=""x"" >Two!A1</definedName></definedNames></workbook>"
      && forallb (fun q => bool_decide (q ∈ l.*1)) ["xl/worksheets/sheet2.xml"; "xl/worksheets/sheet3.xml"; "xl/worksheets/sheet4.xml"]
  | None => false end = true.
Proof. split; vm_compute; reflexivity. Qed.

(** ** What one would want and what does not hold *)
(** The workbook element lists a sheet with this relationship id. *)
Definition Listed (root : tree) (id : string) : Prop := exists ts c, only_child "sheets" root ts /\ c ∈ t_children ts /\ child_attr c "r:id" = Some id.
(** The relationships have one of a worksheet with this id and target. *)
Definition Relates (root : tree) (id target : string) : Prop :=
  exists r, r ∈ relations_in root /\ child_attr r "Id" = Some id /\ child_attr r "Target" = Some target /\ child_attr r "Type" = Some worksheet_type.
Definition listed_ids (root : tree) : list (option string) :=
  match List.filter (fun x => String.eqb (t_tag x) "sheets") (t_children root) with [ts] => map (fun c => child_attr c "r:id") (t_children ts) | _ => [] end.
Definition related (root : tree) : list (option string * option string * option string) := map (fun r => (child_attr r "Id", child_attr r "Target", child_attr r "Type")) (relations_in root).
Lemma listed_ok root id : Listed root id <-> Some id ∈ listed_ids root.
Proof.
  unfold Listed, listed_ids, only_child. split.
  - intros (ts & c & -> & Hc & He). rewrite <- He. apply elem_of_list_In. apply (in_map (fun c => child_attr c "r:id")). by apply elem_of_list_In.
  - destruct (List.filter _ _) as [|ts [|]]; [by intros ?%elem_of_nil| |by intros ?%elem_of_nil]. intros Hi. apply elem_of_list_In, in_map_iff in Hi as (c & He & Hc). exists ts, c. split; [done|]. split; [by apply elem_of_list_In|done].
Qed.
Lemma related_ok root id target : (Some id, Some target, Some worksheet_type) ∈ related root -> Relates root id target.
Proof. unfold related. intros Hi. apply elem_of_list_In, in_map_iff in Hi as (r & [= H1 H2 H3] & Hr). exists r. split; [by apply elem_of_list_In|done]. Qed.
(** A sheet is deleted whose target in the file is relative to the workbook, as is usual. The workbook lists it no more,
    but its relationship stays, and its part. *)
Definition deleted_test `{Env} (l0 l : list (string * string)) : bool :=
  match held l0 "xl/workbook.xml", held l "xl/workbook.xml", held l "xl/_rels/workbook.xml.rels" with
  | Some b0, Some b1, Some r1 => bool_decide (Some "rId6" ∈ listed_ids b0) && negb (bool_decide (Some "rId6" ∈ listed_ids b1))
      && bool_decide ((Some "rId6", Some "worksheets/sheet2.xml", Some worksheet_type) ∈ related r1) && bool_decide ("xl/worksheets/sheet2.xml" ∈ l.*1)
  | _, _, _ => false end.
Theorem C61_deleted_refuted : exists (E : Env) (Hs : Hashes) (t : clock) (l0 l : list (string * string)) (b0 b1 r1 : tree),
  Becomes t [CGet "Two"; CDelete 0] l0 l /\ Holds l0 "xl/workbook.xml" b0 /\ Listed b0 "rId6"
  /\ Holds l "xl/workbook.xml" b1 /\ ~ Listed b1 "rId6"
  /\ Holds l "xl/_rels/workbook.xml.rels" r1 /\ Relates r1 "rId6" "worksheets/sheet2.xml" /\ "xl/worksheets/sheet2.xml" ∈ l.*1.
Proof.
  exists (demo_env Checked), value_hashes, demo_clock.
  assert (@become_check (demo_env Checked) value_hashes [CGet "Two"; CDelete 0] (@deleted_test (demo_env Checked)) link_parts = true) as Hc by (vm_compute; reflexivity).
  apply (@become_found (demo_env Checked) value_hashes) in Hc as (l0 & l & Hr & Hp). unfold deleted_test in Hp.
  destruct (held l0 "xl/workbook.xml") as [b0|] eqn:E0; [|discriminate Hp]. destruct (held l "xl/workbook.xml") as [b1|] eqn:E1; [|discriminate Hp].
  destruct (held l "xl/_rels/workbook.xml.rels") as [r1|] eqn:E2; [|discriminate Hp]. rewrite !andb_true_iff, negb_true_iff in Hp. destruct Hp as [[[P1 P2] P3] P4].
  apply bool_decide_eq_true in P1, P3, P4. apply bool_decide_eq_false in P2. exists l0, l, b0, b1, r1. split; [exact Hr|]. clear Hr.
  split; [by apply held_ok|]. split; [by apply listed_ok|]. split; [by apply held_ok|]. split; [by rewrite listed_ok|]. split; [by apply held_ok|]. split; [by apply related_ok|done].
Qed.
(** What is stored for a sheet is not XML. It is asked for, which fails. The file saved afterwards lists the sheet and
    has its relationship, but the part is not in it. *)
Definition unread_test `{Env} (l0 l : list (string * string)) : bool :=
  match held l "xl/workbook.xml", held l "xl/_rels/workbook.xml.rels" with
  | Some b1, Some r1 => bool_decide (Some "rId6" ∈ listed_ids b1) && bool_decide ((Some "rId6", Some "worksheets/sheet2.xml", Some worksheet_type) ∈ related r1)
      && bool_decide ("xl/worksheets/sheet2.xml" ∈ l0.*1) && negb (bool_decide ("xl/worksheets/sheet2.xml" ∈ l.*1))
  | _, _ => false end.
Theorem C61_unreadable_refuted : exists (E : Env) (Hs : Hashes) (t : clock) (l0 l : list (string * string)) (b1 r1 : tree),
  Becomes t [CGet "Two"] l0 l /\ "xl/worksheets/sheet2.xml" ∈ l0.*1
  /\ Holds l "xl/workbook.xml" b1 /\ Listed b1 "rId6" /\ Holds l "xl/_rels/workbook.xml.rels" r1 /\ Relates r1 "rId6" "worksheets/sheet2.xml" /\ "xl/worksheets/sheet2.xml" ∉ l.*1.
Proof.
  exists (demo_env Checked), value_hashes, demo_clock.
  assert (@become_check (demo_env Checked) value_hashes [CGet "Two"] (@unread_test (demo_env Checked)) (with_parts [("xl/worksheets/sheet2.xml", "not xml")] link_parts) = true) as Hc by (vm_compute; reflexivity).
  apply (@become_found (demo_env Checked) value_hashes) in Hc as (l0 & l & Hr & Hp). unfold unread_test in Hp.
  destruct (held l "xl/workbook.xml") as [b1|] eqn:E1; [|discriminate Hp].
  destruct (held l "xl/_rels/workbook.xml.rels") as [r1|] eqn:E2; [|discriminate Hp]. rewrite !andb_true_iff, negb_true_iff in Hp. destruct Hp as [[[P1 P2] P3] P4].
  apply bool_decide_eq_true in P1, P2, P3. apply bool_decide_eq_false in P4. exists l0, l, b1, r1. split; [exact Hr|]. clear Hr.
  split; [done|]. split; [by apply held_ok|]. split; [by apply listed_ok|]. split; [by apply held_ok|]. split; [by apply related_ok|done].
Qed.

Print Assumptions C61_links.
Print Assumptions C61_no_rename.
Print Assumptions C61_file.
Print Assumptions C61_example.
Print Assumptions C61_deleted_refuted.
Print Assumptions C61_unreadable_refuted.
