(** C51, C52: what is written through sheet handles reaches the saved file, and what is not
    written to stays. *)
From Verif.Model Require Import Excel.
From Verif.Spec Require Import XmlSpec XmlRepr PackageSpec PartSpec ColumnSpec SheetSpec StyleSpec SessionSpec FlowSpec DemoEnv.
From Verif.Proofs Require Import BaseFacts XmlTreeFacts DocBuild SaveFacts ExcelFacts ReadAnyFacts KeepFacts FlowFacts FlowSaveFacts FlowOpenFacts.
From Verif.Props Require Import KeepProps.
Open Scope N_scope.

(** C51, a new sheet. In a workbook, new or opened, and after any calls, a sheet is added: under an
    automatic name, or under a name that is not in use. Through its handle cells, rows and columns
    are written in any order; between these calls the user makes any other calls they like, failing
    ones and writes to other sheets included. The handle is released, any calls follow, except for
    opening that sheet again, and the workbook is saved. The saved file has for this sheet one part.
    It shows each cell as it was last written and the settings of rows as they were last given, each
    in one place, and no other cell and no other row. *)
Theorem C51_new_sheet : forall (E : Env) (Hs : Hashes) (file : option string) (fs0 fs fs' : filesys) (path : string)
    (x0 : excel) (pre cs post : list call) (c0 c : call) (name : option string) (s s1 s2 s3 : session) (w0 : worksheet)
    (ops : list sheet_op) (t : clock) (f : faults) (tr : list filesys),
  excel_new file fs0 = Ok x0 -> calls pre (x0, []) = Some s ->
  asks c0 name -> (forall n, name = Some n -> n ∉ list_sheet_names (x_book s.1)) ->
  call_step c0 s = (s1, Ok tt) -> handle (length s.2) s1 = Some w0 ->
  History (length s.2) cs ops -> Forall in_range ops -> Forall op_typed ops -> releases (length s.2) c ->
  calls (cs ++ [c]) s1 = Some s2 -> calls post s2 = Some s3 -> ~ Reopens post s2 (ws_path w0) ->
  excel_save t f path s3.1 fs = (tr, Ok tt) -> last tr = Some fs' ->
  exists l data, Stored fs' path l /\ PartShows l (ws_path w0) data
    /\ SheetKept [] (ss_strings (wb_sst (x_book s3.1))) ops data.
Proof. intros E Hs file fs0 fs fs' path x0 pre cs post c0 c name s s1 s2 s3 w0 ops t f tr. apply flow_new. Qed.

(** C51, the texts. In a new workbook, after any calls, a save that succeeds puts into the table of
    strings of the file all texts collected for shared strings, in the order of their numbers. *)
Theorem C51_texts : forall (E : Env) (Hs : Hashes) (fs0 fs fs' : filesys) (path : string)
    (x0 : excel) (cs : list call) (s : session) (t : clock) (f : faults) (tr : list filesys),
  excel_new None fs0 = Ok x0 -> calls cs (x0, []) = Some s ->
  excel_save t f path s.1 fs = (tr, Ok tt) -> last tr = Some fs' ->
  ss_strings (wb_sst (x_book s.1)) <> [] ->
  exists l, Stored fs' path l /\ TableIn l (ss_path (wb_sst (x_book x0))) (ss_strings (wb_sst (x_book s.1))).
Proof.
  intros E Hs fs0 fs fs' path x0 cs s t f tr Hx Hcs Hsave Hl Hne. destruct (new_linv _ _ _ Hx) as [I _].
  destruct (ready_new _ _ Hx) as [Hr _]. destruct (texts_flow x0 cs s t f path fs tr fs' I Hr Hcs Hsave Hl) as (_ & l & H1 & H2).
  exists l. split; [done|]. by apply H2.
Qed.

(** C52, the cells. A file is opened. The part of one of its sheets says [rows]: rows, each with
    its number, and cells, each with its reference. The sheet is asked for, perhaps after other calls; cells and
    rows are written through the handle, with any other calls in between; the handle is released;
    any calls follow, except for opening that sheet again; the workbook is saved. In the saved file
    the sheet shows each cell written to as it was last written, and each cell and row not written
    to as the file opened had it, and no other cell and no other row. *)
Theorem C52_cells : forall (E : Env) (Hs : Hashes) (file path q data0 : string) (fs0 fs fs' : filesys) (l0 : list (string * string))
    (root sd : tree) (rows : list (N * row_props * list (N * cell)))
    (x0 : excel) (pre cs post : list call) (c0 c : call) (name : option string) (s s1 s2 s3 : session) (w0 : worksheet)
    (ops : list sheet_op) (t : clock) (f : faults) (tr : list filesys),
  Stored fs0 file l0 -> (q, data0) ∈ l0 -> q <> content_types_name -> ~ rels_name q ->
  ReadsAs data0 root -> t_value root = None -> only_child "sheetData" root sd -> SheetSays sd rows ->
  excel_new (Some file) fs0 = Ok x0 -> of_open (x_office x0) !! q = None ->
  calls pre (x0, []) = Some s -> ~ Reopens pre (x0, []) q ->
  asks c0 name -> call_step c0 s = (s1, Ok tt) -> handle (length s.2) s1 = Some w0 -> ws_path w0 = q ->
  History (length s.2) cs ops -> Forall in_range ops -> Forall op_typed ops -> releases (length s.2) c ->
  calls (cs ++ [c]) s1 = Some s2 -> calls post s2 = Some s3 -> ~ Reopens post s2 q ->
  excel_save t f path s3.1 fs = (tr, Ok tt) -> last tr = Some fs' ->
  exists l data, Stored fs' path l /\ PartShows l q data
    /\ SheetKept rows (ss_strings (wb_sst (x_book s3.1))) ops data.
Proof.
  intros E Hs file path q data0 fs0 fs fs' l0 root sd rows x0 pre cs post c0 c name s s1 s2 s3 w0 ops t f tr.
  apply flow_opened.
Qed.

(** C52, the texts. The file opened has a table of strings with plain texts, or none. After any
    calls a save that succeeds writes a table that starts with these texts, so that every number a
    cell of the file carries still stands for its text; new texts come after them. *)
Theorem C52_texts : forall (E : Env) (Hs : Hashes) (file path : string) (fs0 fs fs' : filesys) (l0 : list (string * string)) (texts : list string)
    (x0 : excel) (cs : list call) (s : session) (t : clock) (f : faults) (tr : list filesys),
  Stored fs0 file l0 -> excel_new (Some file) fs0 = Ok x0 ->
  ss_path (wb_sst (x_book x0)) <> content_types_name -> TableSaid l0 (ss_path (wb_sst (x_book x0))) texts ->
  calls cs (x0, []) = Some s -> excel_save t f path s.1 fs = (tr, Ok tt) -> last tr = Some fs' ->
  exists l new, Stored fs' path l /\ ss_strings (wb_sst (x_book s.1)) = texts ++ new
    /\ (texts ++ new <> [] -> TableIn l (ss_path (wb_sst (x_book x0))) (texts ++ new)).
Proof.
  intros E Hs file path fs0 fs fs' l0 texts x0 cs s t f tr Hst Hx Hq Ht Hcs Hsave Hl. destruct (new_linv _ _ _ Hx) as [I _].
  destruct (ready_opened _ _ _ _ _ Hst Hx Hq Ht) as [Hr Htab]. destruct (texts_flow x0 cs s t f path fs tr fs' I Hr Hcs Hsave Hl) as ([new Hn] & l & H1 & H2).
  rewrite Htab in Hn. exists l, new. split; [done|]. split; [done|]. unfold table in *. by rewrite <- Hn.
Qed.

(** C48, parts nobody asked for. A part of the file opened keeps its bytes through any calls and the save if it
    was not open right after opening the file, is not in a directory of relationships, and no call
    asks for a sheet whose part it is. *)
Theorem C48_unasked : forall (E : Env) (Hs : Hashes) (fs0 fs fs' : filesys) (file path q data : string) (l0 : list (string * string))
    (x0 : excel) (cs : list call) (s : session) (t : clock) (f : faults) (tr : list filesys),
  Stored fs0 file l0 -> excel_new (Some file) fs0 = Ok x0 -> calls cs (x0, []) = Some s ->
  excel_save t f path s.1 fs = (tr, Ok tt) -> last tr = Some fs' ->
  q <> content_types_name -> (q, data) ∈ l0 ->
  of_open (x_office x0) !! q = None -> ~ rels_name q -> ~ Reopens cs (x0, []) q ->
  exists l, Stored fs' path l /\ forall b, (q, b) ∈ l <-> b = data.
Proof.
  intros E Hs fs0 fs fs' file path q data l0 x0 cs s t f tr Hst Hnew Hcs Hsave Hl Hq Hin Hcl Hn Hre.
  destruct (new_linv _ _ _ Hnew) as (I & o & Ho & _ & Hopen). destruct (reopened_file _ _ _ _ Hst Ho) as (_ & Hparts & _).
  destruct (Hparts q data Hq Hin) as (e & He & Hb). destruct (Hopen q e He) as [St|[[p H1]|H1]]; [|congruence|done].
  pose proof (stored_stays _ _ _ _ _ I Hcs St Hn Hre) as St'. destruct (calls_effect _ _ _ I Hcs) as [I' _].
  destruct (flow_saved t f path s fs tr fs' I' Hsave Hl) as (l & L1 & L2 & _). exists l. split; [done|]. by apply (L2 q e data).
Qed.

(** ** Examples *)
Definition part_of (q : string) (l : list (string * string)) : option string := snd <$> List.find (fun x => seqb x.1 q) l.
Definition ends (s : option string) (suffix : string) : bool :=
  match s with
  | Some s => seqb (substring (String.length s - String.length suffix) (String.length suffix) s) suffix
  | None => false end.
Definition text (v : string) : cell := mkCell None (Some v) TAuto None None None None.
(** A new workbook, a sheet "Data" and another one; writes to both, a failing call in between. *)
Definition new_calls : list call :=
  [CRow 0 1 1 [text "12"; text "some text"]; CAdd (Some "Other"); CRow 1 7 7 [text "elsewhere"]; CRename "no such sheet" "x";
   CRowRef 0 "B1" [text "some other text"]; CRowProps 0 4 (mkRow (Some "20") None None None None None None None None)].
Definition new_ops : list sheet_op :=
  [SWrite 1 1 [text "12"; text "some text"]; SWrite 1 2 [text "some other text"]; SProps 4 (mkRow (Some "20") None None None None None None None None)].
Example C51_history : let E := demo_env Checked in History 0 new_calls new_ops /\ Forall in_range new_ops /\ Forall op_typed new_ops.
Proof.
  cbv zeta. split; [|split].
  - unfold new_calls, new_ops. eapply (History_more _ _ _ [_]); [constructor|]. eapply (History_more _ _ _ []); [by constructor|].
    eapply (History_more _ _ _ []); [by constructor|]. eapply (History_more _ _ _ []); [by constructor|].
    eapply (History_more _ _ _ [_]); [apply (Says_ref _ "B" 1); by vm_compute|]. eapply (History_more _ _ _ [_]); [constructor|]. constructor.
  - unfold new_ops. repeat constructor; by vm_compute.
  - unfold new_ops. repeat constructor; by vm_compute.
Qed.
Definition new_demo `{Env} `{Hashes} : option (list (string * string)) :=
  match excel_new None ∅ with
  | Ok x0 => s ← calls ([CAdd (Some "Data")] ++ new_calls ++ [CDrop 0; CDrop 1]) (x0, []);
      saved_parts (excel_save demo_clock demo_faults "a.xlsx" s.1 ∅)
  | _ => None end.
Example C51_example : match @new_demo (demo_env Checked) value_hashes with
  | Some l => ends (part_of "xl/worksheets/sheet2.xml" l)
        "<sheetData ><row r=""1"" ><c r=""A1"" ><v >12</v></c><c r=""B1"" t=""s"" ><v >2</v></c></row><row customHeight=""1"" ht=""20"" r=""4"" /></sheetData></worksheet>"
      && ends (part_of "xl/sharedStrings.xml" l)
        "<si ><t >some text</t></si><si ><t >elsewhere</t></si><si ><t >some other text</t></si></sst>"
  | None => false end = true.
Proof. vm_compute. reflexivity. Qed.

(** A file whose second sheet and table of strings are these. *)
Definition two_data : string :=
  "<worksheet><sheetData><row r=""1""><c r=""A1"" t=""s""><v>0</v></c><c r=""B1"" s=""3""><f>1+1</f><v>2</v></c></row><row r=""3"" ht=""20"" customHeight=""1""><c r=""C3"" t=""inlineStr""><is><t>plain</t></is></c></row></sheetData></worksheet>".
Definition two_table : string := "<sst><si><t>old text</t></si></sst>".
Definition two_rows : list (N * row_props * list (N * cell)) :=
  [(1, row_default, [(1, mkCell None (Some "0") TShared None None None None); (2, mkCell (Some "1+1") (Some "2") TNumber (Some 3) None None None)]);
   (3, mkRow (Some "20") None None None None None None None None, [(3, mkCell None (Some "plain") TInline None None None None)])].
Definition with_parts (new : list (string * string)) (l : list (string * string)) : list (string * string) :=
  map (fun nd : string * string => match part_of nd.1 new with Some d => (nd.1, d) | None => nd end) l.
Definition two_parts `{Env} `{Hashes} (sheet : string) : list (string * string) :=
  with_parts [("xl/worksheets/sheet2.xml", sheet); ("xl/sharedStrings.xml", two_table)] (demo_parts true).
(** Reading a concrete text. *)
Fixpoint tree_eqb (a b : tree) : bool :=
  let 'Node g1 a1 v1 c1 := a in let 'Node g2 a2 v2 c2 := b in
  seqb g1 g2 && bool_decide (a1 = a2) && bool_decide (v1 = v2)
  && (fix go x y := match x, y with [], [] => true | p :: x, q :: y => tree_eqb p q && go x y | _, _ => false end) c1 c2.
Lemma tree_eqb_eq a : forall b, tree_eqb a b = true -> a = b.
Proof.
  induction a as [g a v cs IH] using tree_rect'. intros [g' a' v' cs']. cbn [tree_eqb]. rewrite !andb_true_iff. intros [[[H1 H2] H3] H4].
  apply String.eqb_eq in H1 as ->. apply bool_decide_eq_true in H2 as ->. apply bool_decide_eq_true in H3 as ->. f_equal.
  revert cs' H4. induction IH as [|x cs Hx _ IH]; intros [|y ys]; try done. rewrite andb_true_iff. intros [H1 H2]. f_equal; [by apply Hx|by apply IH].
Qed.
Definition reads `{Env} (data : string) (t : tree) : bool :=
  match read_doc data with Ok d => match doc_tree d with Some t' => tree_eqb t' t && ns_okb (d_ns d) | None => false end | _ => false end.
Lemma reads_as `{Env} data t : reads data t = true -> ReadsAs data t.
Proof.
  unfold reads. destruct (read_doc data) as [d| |] eqn:Er; [|done..]. destruct (doc_tree d) as [t'|] eqn:Ht; [|done]. rewrite andb_true_iff. intros [<-%tree_eqb_eq Hn].
  destruct (read_doc_computed _ _ _ Er Ht) as ((it & [Hr _] & He) & _).
  exists d, it. split; [done|]. split; [done|]. split; [done|]. by apply ns_okb_ok.
Qed.
Definition attr (l : list (string * string)) : option (gmap string string) := Some (list_to_map l).
Definition two_tree : tree :=
  Node "worksheet" (attr []) None [Node "sheetData" (attr []) None
    [Node "row" (attr [("r", "1")]) None
      [Node "c" (attr [("r", "A1"); ("t", "s")]) None [Node "v" (attr []) (Some "0") []];
       Node "c" (attr [("r", "B1"); ("s", "3")]) None [Node "f" (attr []) (Some "1+1") []; Node "v" (attr []) (Some "2") []]];
     Node "row" (attr [("r", "3"); ("ht", "20"); ("customHeight", "1")]) None
      [Node "c" (attr [("r", "C3"); ("t", "inlineStr")]) None [Node "is" (attr []) None [Node "t" (attr []) (Some "plain") []]]]]].
Example C52_reads : let E := demo_env Checked in ReadsAs two_data two_tree.
Proof. cbv zeta. apply reads_as. vm_compute. reflexivity. Qed.
Example C52_says : let E := demo_env Checked in match t_children two_tree with [sd] => SheetSays sd two_rows | _ => False end.
Proof.
  cbv zeta. cbn [two_tree t_children]. split; [|by vm_compute; repeat constructor; set_solver].
  constructor; [|constructor; [|constructor]].
  - split; [vm_compute; reflexivity|]. split; [|split].
    + constructor; first [vm_compute; reflexivity | left; vm_compute; split; congruence | right; vm_compute; tauto | left; vm_compute; tauto].
    + constructor; [|constructor; [|constructor]].
      * split; [exists "A"; by vm_compute|]. split; [by vm_compute|]. constructor; try (vm_compute; reflexivity); [left; vm_compute; reflexivity|discriminate|right; vm_compute; tauto|].
        exists [], [Node "v" (attr []) (Some "0") []]. split; [reflexivity|]. split; [left; split; reflexivity|]. right. left. by eexists.
      * split; [exists "B"; by vm_compute|]. split; [by vm_compute|]. constructor; try (vm_compute; reflexivity); [left; vm_compute; reflexivity|discriminate|right; vm_compute; tauto|].
        exists [Node "f" (attr []) (Some "1+1") []], [Node "v" (attr []) (Some "2") []]. split; [reflexivity|]. split; [right; by eexists|]. right. left. by eexists.
    + vm_compute. repeat constructor; set_solver.
  - split; [vm_compute; reflexivity|]. split; [|split].
    + constructor; first [vm_compute; reflexivity | left; vm_compute; split; congruence | right; vm_compute; tauto | left; vm_compute; tauto | idtac]. right. exists "20". by vm_compute.
    + constructor; [|constructor].
      split; [exists "C"; by vm_compute|]. split; [by vm_compute|]. constructor; try (vm_compute; reflexivity); [left; vm_compute; reflexivity|discriminate|right; vm_compute; tauto|].
      exists [], [Node "is" (attr []) None [Node "t" (attr []) (Some "plain") []]]. split; [reflexivity|]. split; [left; split; reflexivity|]. right. right. by eexists _, _.
    + vm_compute. repeat constructor; set_solver.
Qed.
Definition two_demo `{Env} `{Hashes} (sheet : string) (cs : list call) : option (list (string * string)) :=
  match excel_new (Some "in") {["in" := env_zip (two_parts sheet)]} with
  | Ok x0 => s ← calls cs (x0, []); saved_parts (excel_save demo_clock demo_faults "a.xlsx" s.1 ∅)
  | _ => None end.
Example C52_example : match @two_demo (demo_env Checked) value_hashes two_data [CGet "Two"; CRow 0 3 2 [text "new text"]; CDrop 0] with
  | Some l => ends (part_of "xl/worksheets/sheet2.xml" l)
        "<sheetData ><row r=""1"" ><c r=""A1"" t=""s"" ><v >0</v></c><c r=""B1"" s=""3"" ><f >1+1</f><v >2</v></c></row><row customHeight=""1"" ht=""20"" r=""3"" ><c r=""B3"" t=""s"" ><v >1</v></c><c r=""C3"" t=""inlineStr"" ><is ><t >plain</t></is></c></row></sheetData></worksheet>"
      && ends (part_of "xl/sharedStrings.xml" l) "<si ><t >old text</t></si><si ><t >new text</t></si></sst>"
  | None => false end = true.
Proof. vm_compute. reflexivity. Qed.

(** ** What one would want and what does not hold *)
(** A file is opened, one cell far away is written, the file is saved; [t0] and [t1] are the
    element of cell A1 before and after. *)
Definition FirstCell `{Env} (data : string) (t : tree) : Prop :=
  exists root sd, ReadsAs data root /\ only_child "sheetData" root sd /\ CellAt sd 1 1 t.
Definition Edited `{Env} `{Hashes} (t0 t1 : tree) : Prop :=
  exists (fs0 fs fs' : filesys) (file path name q data0 data1 : string) (l0 l : list (string * string)) (x0 : excel) (s : session)
    (t : clock) (f : faults) (tr : list filesys),
  Stored fs0 file l0 /\ (q, data0) ∈ l0 /\ FirstCell data0 t0 /\ excel_new (Some file) fs0 = Ok x0
  /\ calls [CGet name; CRow 0 9 9 [text "1"]; CDrop 0] (x0, []) = Some s
  /\ excel_save t f path s.1 fs = (tr, Ok tt) /\ last tr = Some fs' /\ Stored fs' path l /\ (q, data1) ∈ l /\ FirstCell data1 t1.
Definition cell_first `{Env} (data : string) : option tree :=
  match read_doc data with
  | Ok d => match doc_tree d with
    | Some root => match List.filter (fun x => String.eqb (t_tag x) "sheetData") (t_children root) with
      | [sd] => match t_children sd with
        | row :: _ => match t_children row with
          | c :: _ => if ns_okb (d_ns d) && seqb (t_tag row) "row" && bool_decide (child_attr row "r" = Some "1") && seqb (t_tag c) "c" && bool_decide (child_attr c "r" = Some "A1")
                      then Some c else None
          | [] => None end
        | [] => None end
      | _ => None end
    | None => None end
  | _ => None end.
Lemma cell_first_ok `{Env} data t : cell_first data = Some t -> FirstCell data t.
Proof.
  unfold cell_first. destruct (read_doc data) as [d| |] eqn:Er; [|done..]. destruct (doc_tree d) as [root|] eqn:Et; [|done].
  destruct (List.filter _ _) as [|sd [|]] eqn:Ef; try done. destruct (t_children sd) as [|row rows] eqn:Es; [done|]. destruct (t_children row) as [|c cs] eqn:Ec; [done|].
  destruct (_ && _) eqn:Eb; [|done]. intros [= <-]. rewrite !andb_true_iff in Eb. destruct Eb as [[[[B1 B2] B3] B4] B5].
  apply bool_decide_eq_true in B3, B5. apply String.eqb_eq in B2, B4. destruct (read_doc_computed _ _ _ Er Et) as ((it & [Hr _] & He) & _).
  exists root, sd. split; [exists d, it; split; [done|split; [done|split; [done|by apply ns_okb_ok]]]|]. split; [done|].
  exists row, "A". split; [split; [rewrite Es; by left|done]|]. split; [rewrite Ec; by left|]. split; [done|]. split; [by vm_compute|done].
Qed.
Definition edit_check `{Env} `{Hashes} (P : tree -> tree -> bool) (l0 : list (string * string)) (name q : string) : bool :=
  match env_unzip (env_zip l0) with
  | Some l1 =>
    match excel_new (Some "in") {["in" := env_zip l0]} with
    | Ok x0 =>
      match calls [CGet name; CRow 0 9 9 [text "1"]; CDrop 0] (x0, []) with
      | Some s =>
        match saved_parts (excel_save demo_clock demo_faults "a.xlsx" s.1 ∅) with
        | Some l => match part_of q l1, part_of q l with
          | Some d0, Some d1 => match cell_first d0, cell_first d1 with Some t0, Some t1 => P t0 t1 | _, _ => false end
          | _, _ => false end
        | None => false end
      | None => false end
    | _ => false end
  | None => false end.
Lemma part_of_in q l d : part_of q l = Some d -> (q, d) ∈ l.
Proof.
  unfold part_of. destruct (List.find _ _) as [[q' d']|] eqn:Ef; [|done]. apply find_some in Ef as [Hin Hq]. cbn in Hq. apply String.eqb_eq in Hq as ->.
  intros [= <-]. by apply elem_of_list_In.
Qed.
Lemma edit_found `{Env} `{Hashes} P l0 name q : edit_check P l0 name q = true -> exists t0 t1, Edited t0 t1 /\ P t0 t1 = true.
Proof.
  unfold edit_check. destruct (env_unzip (env_zip l0)) as [l1|] eqn:Eu; [|done]. destruct (excel_new _ _) as [x0| |] eqn:En; [|done..].
  destruct (calls _ _) as [s|] eqn:Ec; [|done]. unfold saved_parts. destruct (excel_save _ _ _ _ _) as [tr r] eqn:Ev. cbn [fst snd].
  destruct r as [[]|r|r]; [|done..]. destruct (last tr) as [fs'|] eqn:El; [|done].
  destruct (fs' !! "a.xlsx") as [b|] eqn:Eb; cbn [mbind option_bind]; [|done]. destruct (env_unzip b) as [l|] eqn:Eub; [|done].
  destruct (part_of q l1) as [d0|] eqn:E0; [|done]. destruct (part_of q l) as [d1|] eqn:E1; [|done].
  destruct (cell_first d0) as [t0|] eqn:F0; [|done]. destruct (cell_first d1) as [t1|] eqn:F1; [|done]. intros HP. exists t0, t1. split; [|done].
  exists {["in" := env_zip l0]}, ∅, fs', "in", "a.xlsx", name, q, d0, d1, l1, l, x0, s, demo_clock, demo_faults, tr.
  split. { exists (env_zip l0). by rewrite lookup_singleton. }
  split; [by apply part_of_in|]. split; [by apply cell_first_ok|]. do 4 (split; [done|]). split; [by exists b|].
  split; [by apply part_of_in|by apply cell_first_ok].
Qed.
Definition sheet_with (cell : string) : string := "<worksheet><sheetData><row r=""1"">" +:+ cell +:+ "</row></sheetData></worksheet>".
Definition edit_lost `{Env} `{Hashes} (cell : string) (P : tree -> tree -> bool) : bool :=
  edit_check P (two_parts (sheet_with cell)) "Two" "xl/worksheets/sheet2.xml".
(** A cell whose formula is shared with another cell: its formula is lost, only the value last computed stays. *)
Theorem C52_shared_formula_refuted : exists (E : Env) (Hs : Hashes) (t0 t1 : tree), Edited t0 t1
  /\ (exists f, f ∈ t_children t0 /\ t_tag f = "f" /\ child_attr f "t" = Some "shared" /\ child_attr f "si" = Some "0")
  /\ (forall f, f ∈ t_children t1 -> t_tag f <> "f").
Proof.
  exists (demo_env Checked), value_hashes.
  assert (@edit_lost (demo_env Checked) value_hashes "<c r=""A1""><f t=""shared"" si=""0""/><v>7</v></c>"
    (fun t0 t1 => existsb (fun f => seqb (t_tag f) "f" && bool_decide (child_attr f "t" = Some "shared") && bool_decide (child_attr f "si" = Some "0")) (t_children t0)
      && forallb (fun f => negb (seqb (t_tag f) "f")) (t_children t1)) = true) as Hc.
  { vm_compute. reflexivity. }
  apply edit_found in Hc as (t0 & t1 & He & [H1 H2]%andb_true_iff). exists t0, t1. split; [exact He|]. clear He. split.
  - apply existsb_exists in H1 as (f & Hf & [[B1 B2]%andb_true_iff B3]%andb_true_iff). exists f. split; [by apply elem_of_list_In|].
    apply String.eqb_eq in B1. apply bool_decide_eq_true in B2, B3. done.
  - intros f Hf Ht. rewrite forallb_forall in H2. specialize (H2 f). rewrite Ht in H2. apply elem_of_list_In in Hf. by specialize (H2 Hf).
Qed.
(** A text with parts of its own format, written into the cell: the text is lost. *)
Theorem C52_rich_text_refuted : exists (E : Env) (Hs : Hashes) (t0 t1 : tree), Edited t0 t1
  /\ (exists i r x, t_children t0 = [i] /\ t_tag i = "is" /\ t_children i = [r] /\ t_children r = [x] /\ t_tag x = "t" /\ t_value x = Some "one")
  /\ (exists i x, t_children t1 = [i] /\ t_tag i = "is" /\ t_children i = [x] /\ t_tag x = "t" /\ t_value x = None).
Proof.
  exists (demo_env Checked), value_hashes.
  assert (@edit_lost (demo_env Checked) value_hashes "<c r=""A1"" t=""inlineStr""><is><r><t>one</t></r></is></c>"
    (fun t0 t1 => match t_children t0, t_children t1 with
      | [i], [j] => match t_children i, t_children j with
        | [r], [y] => match t_children r with
          | [x] => seqb (t_tag i) "is" && seqb (t_tag x) "t" && bool_decide (t_value x = Some "one") && seqb (t_tag j) "is" && seqb (t_tag y) "t" && bool_decide (t_value y = None)
          | _ => false end
        | _, _ => false end
      | _, _ => false end) = true) as Hc.
  { vm_compute. reflexivity. }
  apply edit_found in Hc as (t0 & t1 & He & Hp). exists t0, t1. split; [exact He|]. clear He.
  destruct (t_children t0) as [|i []]; try done. destruct (t_children t1) as [|j []]; try done. destruct (t_children i) as [|r []] eqn:Ei; try done.
  destruct (t_children j) as [|y []] eqn:Ej; try done. destruct (t_children r) as [|x []] eqn:Ex; try done.
  rewrite !andb_true_iff in Hp. destruct Hp as [[[[[B1 B2] B3] B4] B5] B6]. apply String.eqb_eq in B1, B2, B4, B5. apply bool_decide_eq_true in B3, B6.
  split; [by exists i, r, x|by exists j, y].
Qed.
(** A date becomes a cell without a type, which is one with a number. *)
Theorem C52_date_refuted : exists (E : Env) (Hs : Hashes) (t0 t1 : tree), Edited t0 t1
  /\ child_attr t0 "t" = Some "d" /\ child_attr t1 "t" = None.
Proof.
  exists (demo_env Checked), value_hashes.
  assert (@edit_lost (demo_env Checked) value_hashes "<c r=""A1"" t=""d""><v>2020-01-01</v></c>"
    (fun t0 t1 => bool_decide (child_attr t0 "t" = Some "d") && bool_decide (child_attr t1 "t" = None)) = true) as Hc.
  { vm_compute. reflexivity. }
  apply edit_found in Hc as (t0 & t1 & He & [H1 H2]%andb_true_iff). exists t0, t1. apply bool_decide_eq_true in H1, H2. done.
Qed.

Print Assumptions C51_new_sheet.
Print Assumptions C51_texts.
Print Assumptions C52_cells.
Print Assumptions C52_texts.
Print Assumptions C48_unasked.
Print Assumptions C51_history.
Print Assumptions C51_example.
Print Assumptions C52_reads.
Print Assumptions C52_says.
Print Assumptions C52_example.
Print Assumptions C52_shared_formula_refuted.
Print Assumptions C52_rich_text_refuted.
Print Assumptions C52_date_refuted.
