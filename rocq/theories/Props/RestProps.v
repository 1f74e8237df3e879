(** C77: what the library does not take apart stays in a sheet whatever is done with it. *)
From Verif.Model Require Import Excel.
From Verif.Spec Require Import XmlSpec PackageSpec SheetSpec StyleSpec SessionSpec FlowSpec OpenSpec ReopenSpec GrowSpec RestSpec DemoEnv.
From Verif.Proofs Require Import BaseFacts DocBuild FlowOpenFacts OpenBookFacts GrowFacts RestFacts.
From Verif.Props Require Import KeepProps FlowProps OpenProps OpenStyleProps OpenSheetProps ReopenProps.
Open Scope N_scope.

(** C77. A file opened, any calls whatever (also those that fail, that leave the sheet held, that make it unwritable, that delete it), a save that succeeds: the part
    [q] of a sheet is in the saved file, once, it can be read, and it has the name, the attributes, the namespaces and all the elements of the part as it was, in
    the same order for elements of one name, but for the four elements that the library takes apart. Each was written and read as often as the part was, which is
    at most as often as a sheet was asked for. The sheet has to have such an element (otherwise see C73). *)
Theorem C77_kept : forall (E : Env) (HH : Hashes) (file path q data0 : string) (fs0 fs fs' : filesys) (l0 : list (string * string)) (root : tree) (ns : gmap string string)
    (x0 : excel) (cs : list call) (s : session) (t : clock) (f : faults) (tr : list filesys),
  Stored fs0 file l0 -> (q, data0) ∈ l0 -> q <> content_types_name -> ~ rels_name q -> ReadsIn data0 root ns ->
  t_value root = None -> others ["dimension"; "cols"; "sheetData"; "sheetViews"] root <> [] ->
  excel_new (Some file) fs0 = Ok x0 -> of_open (x_office x0) !! q = None -> calls cs (x0, []) = Some s ->
  excel_save t f path s.1 fs = (tr, Ok tt) -> last tr = Some fs' ->
  exists l b root' ns' n, Stored fs' path l /\ (forall b', (q, b') ∈ l <-> b' = b) /\ ReadsIn b root' ns' /\ SameNs ns ns' /\ (n <= asking cs)%nat /\ Endures n root root'.
Proof.
  intros E HH file path q data0 fs0 fs fs' l0 root ns x0 cs s t f tr Hst Hin Hct Hnr Hrd Hv Ho Hx Hcl Hcs Hs Hl. by eapply rests_saved.
Qed.
(** C77. Attribute values without special characters and text without blanks around it: then the elements are the same. *)
Theorem C77_plain : forall (E : Env) (HH : Hashes) (file path q data0 : string) (fs0 fs fs' : filesys) (l0 : list (string * string)) (root : tree) (a ns : gmap string string)
    (x0 : excel) (cs : list call) (s : session) (t : clock) (f : faults) (tr : list filesys),
  Stored fs0 file l0 -> (q, data0) ∈ l0 -> q <> content_types_name -> ~ rels_name q -> ReadsIn data0 root ns ->
  t_value root = None -> others ["dimension"; "cols"; "sheetData"; "sheetViews"] root <> [] ->
  t_attrs root = Some a -> map_Forall (fun _ x => plain_text x) a -> Forall Lasting (others ["dimension"; "cols"; "sheetData"; "sheetViews"] root) ->
  excel_new (Some file) fs0 = Ok x0 -> of_open (x_office x0) !! q = None -> calls cs (x0, []) = Some s ->
  excel_save t f path s.1 fs = (tr, Ok tt) -> last tr = Some fs' ->
  exists l b root' ns', Stored fs' path l /\ (forall b', (q, b') ∈ l <-> b' = b) /\ ReadsIn b root' ns' /\ SameNs ns ns'
  /\ t_tag root' = t_tag root /\ t_attrs root' = t_attrs root /\ t_value root' = None /\ RestKept ["dimension"; "cols"; "sheetData"; "sheetViews"] root root'.
Proof.
  intros E HH file path q data0 fs0 fs fs' l0 root a ns x0 cs s t f tr Hst Hin Hct Hnr Hrd Hv Ho Ha Hp Hla Hx Hcl Hcs Hs Hl.
  destruct (rests_saved _ _ _ _ _ _ _ _ _ _ _ _ _ _ _ _ Hst Hin Hct Hnr Hrd Hv Ho Hx Hcl Hcs Hs Hl) as (l & b & r1 & ns1 & n & S1 & S2 & S3 & S4 & S5 & S6).
  exists l, b, r1, ns1. do 4 (split; [done|]). split; [apply (su_tag _ _ _ S6)|]. split; [rewrite Ha; by eapply lasting_attrs|]. split; [apply (su_value _ _ _ S6)|]. by eapply lasting_kept.
Qed.
(** C77. Any number of files, each opened from the one saved before. *)
Theorem C77_files : forall (E : Env) (HH : Hashes) (file file' q data0 : string) (fs0 fs' : filesys) (l0 : list (string * string)) (root : tree) (ns : gmap string string) (css : list (list call)),
  Stored fs0 file l0 -> (q, data0) ∈ l0 -> q <> content_types_name -> ~ rels_name q -> ReadsIn data0 root ns ->
  t_value root = None -> others ["dimension"; "cols"; "sheetData"; "sheetViews"] root <> [] -> Passes q (file, fs0) css (file', fs') ->
  exists l data root' ns' n, Stored fs' file' l /\ (q, data) ∈ l /\ ReadsIn data root' ns' /\ SameNs ns ns' /\ (n <= asking (concat css))%nat /\ Endures n root root'
  /\ (Forall Lasting (others ["dimension"; "cols"; "sheetData"; "sheetViews"] root) -> RestKept ["dimension"; "cols"; "sheetData"; "sheetViews"] root root').
Proof.
  intros E HH file file' q data0 fs0 fs' l0 root ns css Hst Hin Hct Hnr Hrd Hv Ho Hp.
  destruct (passes_kept _ _ _ _ Hp l0 data0 root ns Hst Hin Hct Hnr Hrd Hv Ho) as (l & b & r1 & ns1 & n & S1 & S2 & S3 & S4 & S5 & S6).
  exists l, b, r1, ns1, n. do 6 (split; [done|]). intros Hla. by eapply lasting_kept.
Qed.

(** A sheet with most of what a sheet has: cells written and the sheet dropped; the sheet held at the save; a cell put in column 0, which makes the sheet
    unwritable; the sheet deleted; and in a file saved after the first, asked for, which fails. The part in the file saved. *)
Definition rest_round `{Env} `{Hashes} (cs : list call) (l0 : list (string * string)) : option (list (string * string)) :=
  match excel_new (Some "in") {["in" := env_zip l0]} with
  | Ok x0 => match of_open (x_office x0) !! "xl/worksheets/sheet2.xml" with
             | None => s ← calls cs (x0, []); saved_parts (excel_save demo_clock demo_faults "a.xlsx" s.1 ∅)
             | Some _ => None
             end
  | _ => None end.
Definition rest_file `{Env} `{Hashes} : list (string * string) := with_parts [("xl/worksheets/sheet2.xml", full_data)] sound_parts.
Definition rest_rounds `{Env} `{Hashes} : list (option string) :=
  map (fun l => l ≫= part_of "xl/worksheets/sheet2.xml")
    [rest_round [CGet "Two"; CRow 0 3 4 [text "12"]; CDrop 0] rest_file; rest_round [CGet "Two"; CRow 0 3 4 [text "12"]] rest_file;
     rest_round [CGet "Two"; CRow 0 7 0 [text "12"]; CDrop 0] rest_file; rest_round [CGet "Two"; CDelete 0] rest_file;
     rest_round [CGet "Two"; CDrop 0] rest_file ≫= rest_round [CGet "Two"; CRow 0 3 4 [text "12"]; CDrop 0]].
Example C77_example : let head := @prolog (demo_env Wrapping) +:+ "<worksheet xmlns:dvmo=""http://schemas.draviavemal.com/openxml-office"" xmlns:r=""http://r""  ><sheetPr filterMode=""1"" />" in
  let format := "<sheetFormatPr defaultRowHeight=""15"" />" in
  let tail := "<mergeCells count=""1"" ><mergeCell ref=""A4:B5"" /></mergeCells><pageMargins left=""1"" /><drawing r:id=""rId1"" /><extLst  ><ext  /></extLst></worksheet>" in
  @rest_rounds (demo_env Wrapping) value_hashes =
  [Some (head +:+ "<dimension ref=""B1:D3"" /><sheetViews ><sheetView tabSelected=""1"" workbookViewId=""0"" zoomScale=""80"" /><sheetView workbookViewId=""0"" /></sheetViews>" +:+ format +:+ "<cols ><col customWidth=""1"" max=""3"" min=""1"" width=""9.5"" /><col hidden=""1"" max=""5"" min=""5"" /></cols><sheetData ><row r=""1"" ><c r=""B1"" ><v >7</v></c></row><row r=""3"" ><c r=""D3"" ><v >12</v></c></row></sheetData>" +:+ tail);
   Some (head +:+ "" +:+ format +:+ "" +:+ tail);
   Some (head +:+ "" +:+ format +:+ "" +:+ tail);
   Some (head +:+ "<dimension ref=""B1:B1"" /><sheetViews ><sheetView tabSelected=""1"" workbookViewId=""0"" zoomScale=""80"" /><sheetView workbookViewId=""0"" /></sheetViews>" +:+ format +:+ "<cols ><col customWidth=""1"" max=""3"" min=""1"" width=""9.5"" /><col hidden=""1"" max=""5"" min=""5"" /></cols><sheetData ><row r=""1"" ><c r=""B1"" ><v >7</v></c></row></sheetData>" +:+ tail);
   Some (head +:+ "<dimension ref=""B1:B1"" /><sheetViews  ><sheetView tabSelected=""1"" workbookViewId=""0"" zoomScale=""80"" /><sheetView workbookViewId=""0"" /></sheetViews>" +:+ format +:+ "<cols  ><col customWidth=""1"" max=""3"" min=""1"" width=""9.5"" /><col hidden=""1"" max=""5"" min=""5"" /></cols><sheetData  ><row r=""1"" ><c r=""B1"" ><v  >7</v></c></row></sheetData>" +:+ tail)].
Proof. vm_compute. reflexivity. Qed.
(** The hypotheses about the part. *)
Example C77_meets : let E := demo_env Wrapping in ReadsIn full_data full_tree {["r" := "http://r"]} /\ t_value full_tree = None
  /\ others ["dimension"; "cols"; "sheetData"; "sheetViews"] full_tree <> [] /\ Forall Lasting (others ["dimension"; "cols"; "sheetData"; "sheetViews"] full_tree)
  /\ t_attrs full_tree = Some ∅ /\ map_Forall (fun _ x => plain_text x) (∅ : gmap string string).
Proof.
  cbv zeta. split; [apply reads_ns_in; vm_compute; reflexivity|]. split; [done|]. split; [by vm_compute|]. split; [|split; [reflexivity|apply map_Forall_empty]].
  assert (others ["dimension"; "cols"; "sheetData"; "sheetViews"] full_tree = [el "sheetPr" [("filterMode", "1")] []; el "sheetFormatPr" [("defaultRowHeight", "15")] [];
    el "mergeCells" [("count", "1")] [el "mergeCell" [("ref", "A4:B5")] []]; el "pageMargins" [("left", "1")] []; el "drawing" [("r:id", "rId1")] []; el "extLst" [] [el "ext" [] []]]) as -> by reflexivity.
  unfold el, attr. repeat constructor; apply map_Forall_to_list; by vm_compute; repeat constructor.
Qed.

Print Assumptions C77_kept.
Print Assumptions C77_plain.
Print Assumptions C77_files.
Print Assumptions C77_example.
Print Assumptions C77_meets.
