(** C59 and C60: the calculation chain, the document properties and the relationships of the package of
    an opened file. *)
From Verif.Model Require Import Excel.
From Verif.Spec Require Import RelSpec XmlSpec XmlRepr XmlHistory PackageSpec PartSpec SheetSpec StyleSpec SessionSpec FlowSpec BookSpec OpenSpec OpenMoreSpec DemoEnv.
From Verif.Proofs Require Import BaseFacts PackageFacts XmlTreeFacts SessionFacts ReadAnyFacts FlowOpenFacts OpenBookFacts OpenMoreFacts.
From Verif.Props Require Import KeepProps FlowProps OpenProps OpenStyleProps.
Open Scope N_scope.

(** ** Theorems *)
(** C59. The calculation chain of the file has the entries [chain], each with a cell and the number of a
    sheet. After any calls, failing ones included, and a save that succeeds the chain in the saved file has the
    same entries in the same order; its root element has the name, the attributes and the namespaces it had, and
    every element that is not an entry is there as it was. *)
Theorem C59_entries : forall (E : Env) (Hs : Hashes) (file path data : string) (fs0 fs fs' : filesys) (l0 : list (string * string)) (root : tree) (ns : gmap string string)
    (chain : list (string * string)) (x0 : excel) (cs : list call) (s : session) (t : clock) (f : faults) (tr : list filesys),
  Stored fs0 file l0 -> excel_new (Some file) fs0 = Ok x0 ->
  (cc_path (wb_calc (x_book x0)), data) ∈ l0 -> cc_path (wb_calc (x_book x0)) <> content_types_name ->
  ReadsIn data root ns -> t_value root = None -> ChainSaid root chain -> chain <> [] ->
  calls cs (x0, []) = Some s -> excel_save t f path s.1 fs = (tr, Ok tt) -> last tr = Some fs' ->
  exists l, Stored fs' path l /\ ChainShown l (cc_path (wb_calc (x_book x0))) ns root chain.
Proof. intros E Hs file path data fs0 fs fs' l0 root ns chain x0 cs s t f tr. apply chain_flow. Qed.

(** C59, what the numbers stand for. If the sheets of the file are numbered from one in their order and
    no sheet is deleted, then every number stands in the saved file for the same sheet as in the file, and for no
    other one. *)
Theorem C59_sheets : forall (E : Env) (Hs : Hashes) (file path data : string) (fs0 fs fs' : filesys) (l0 : list (string * string)) (root : tree) (ns : gmap string string)
    (sheets : list sheet) (view : option book_view) (x0 : excel) (cs : list call) (s : session) (t : clock) (f : faults) (tr : list filesys),
  Stored fs0 file l0 -> excel_new (Some file) fs0 = Ok x0 ->
  (wb_path (x_book x0), data) ∈ l0 -> wb_path (x_book x0) <> content_types_name -> no_rels (wb_path (x_book x0)) ->
  ReadsIn data root ns -> t_value root = None -> ListSaid root sheets -> ViewSaid root view ->
  InOrder root -> Forall (fun c => ~ deletes c) cs ->
  calls cs (x0, []) = Some s -> excel_save t f path s.1 fs = (tr, Ok tt) -> last tr = Some fs' ->
  exists l root', Stored fs' path l /\ PartHolds l (wb_path (x_book x0)) root'
    /\ forall i id, Numbered root i id -> Numbered root' i id /\ forall id', Numbered root' i id' -> id' = id.
Proof.
  intros E Hs file path data fs0 fs fs' l0 root ns sheets view x0 cs s t f tr H1 H2 H3 H4 Hn H5 H6 H7 H8 Ho Hd H9 H10 H11.
  destruct (C53_saved E Hs file path data fs0 fs fs' l0 root ns sheets view x0 cs s t f tr H1 H2 H3 H4 Hn H5 H6 H7 H8 H9 H10 H11) as (l & sheets' & view' & Hl & Hb & Hh & _).
  destruct Hb as (text & root' & nsl & ts & B1 & B2 & _ & _ & _ & B3 & B4 & _). exists l, root'. split; [done|]. split; [by exists text, nsl|].
  eapply numbers_kept; [done|done|done|done|]. eapply history_ids; [done|]. by apply ops_delete.
Qed.

(** C60, the properties. The document properties of the file have the root element [cp:coreProperties].
    After any calls and a save that succeeds the first [dcterms:modified] has the time of the save as its text, the
    first [dcterms:created] only if it had no text; nothing else has changed. *)
Theorem C60_properties : forall (E : Env) (Hs : Hashes) (file path data : string) (fs0 fs fs' : filesys) (l0 : list (string * string)) (root : tree) (ns : gmap string string)
    (x0 : excel) (cs : list call) (s : session) (t : clock) (f : faults) (tr : list filesys),
  Stored fs0 file l0 -> excel_new (Some file) fs0 = Ok x0 ->
  (su_core (x_suite x0), data) ∈ l0 -> su_core (x_suite x0) <> content_types_name ->
  ReadsIn data root ns -> t_value root = None -> t_tag root = "cp:coreProperties" ->
  calls cs (x0, []) = Some s -> excel_save t f path s.1 fs = (tr, Ok tt) -> last tr = Some fs' ->
  exists l, Stored fs' path l /\ PropertiesShown l (su_core (x_suite x0)) ns root (ck_1 t) (ck_2 t).
Proof.
  intros E Hs file path data fs0 fs fs' l0 root ns x0 cs s t f tr H1 H2 H3 H4 H5 H6 H7 H8 H9 H10.
  destruct (docs_flow file fs0 l0 x0 cs s t f path fs tr fs' H1 H2 H8 H9 H10) as (l & A & _ & C). exists l. split; [done|]. by apply (C data root ns).
Qed.
(** With another root element the part is written as it was read. *)
Theorem C60_other_root : forall (E : Env) (Hs : Hashes) (file path data : string) (fs0 fs fs' : filesys) (l0 : list (string * string)) (root : tree) (ns : gmap string string)
    (x0 : excel) (cs : list call) (s : session) (t : clock) (f : faults) (tr : list filesys),
  Stored fs0 file l0 -> excel_new (Some file) fs0 = Ok x0 ->
  (su_core (x_suite x0), data) ∈ l0 -> su_core (x_suite x0) <> content_types_name ->
  ReadsIn data root ns -> t_tag root <> "cp:coreProperties" -> no_child "cp:coreProperties" root ->
  calls cs (x0, []) = Some s -> excel_save t f path s.1 fs = (tr, Ok tt) -> last tr = Some fs' ->
  exists l, Stored fs' path l /\ PartSame l (su_core (x_suite x0)) ns root.
Proof.
  intros E Hs file path data fs0 fs fs' l0 root ns x0 cs s t f tr H1 H2 H3 H4 H5 H6 H7 H8 H9 H10.
  destruct (docs_flow file fs0 l0 x0 cs s t f path fs tr fs' H1 H2 H8 H9 H10) as (l & A & _ & C). exists l. split; [done|]. by apply (C data root ns).
Qed.
(** C60, the relationships of the package. The saved file lists all those the file lists, in their order, each with
    its id, type, target and mode. After them come one for the properties and one for the workbook, if the file lists
    none of that type, and no others. If the ids were distinct, they still are. *)
Theorem C60_relationships : forall (E : Env) (Hs : Hashes) (file path data : string) (fs0 fs fs' : filesys) (l0 : list (string * string)) (root : tree) (ns : gmap string string)
    (rels : list rel) (x0 : excel) (cs : list call) (s : session) (t : clock) (f : faults) (tr : list filesys),
  Stored fs0 file l0 -> excel_new (Some file) fs0 = Ok x0 ->
  ("_rels/.rels", data) ∈ l0 -> ReadsIn data root ns -> t_value root = None -> RelsSaid root rels ->
  calls cs (x0, []) = Some s -> excel_save t f path s.1 fs = (tr, Ok tt) -> last tr = Some fs' ->
  exists l new, Stored fs' path l /\ RelsShown l "_rels/.rels" ns root (rels ++ new) /\ Completes book_kinds rels new
    /\ (NoDup (map r_id rels) -> NoDup (map r_id (rels ++ new))).
Proof.
  intros E Hs file path data fs0 fs fs' l0 root ns rels x0 cs s t f tr H1 H2 H3 H4 H5 H6 H7 H8 H9.
  destruct (docs_flow file fs0 l0 x0 cs s t f path fs tr fs' H1 H2 H7 H8 H9) as (l & A & B & _). destruct (B data root ns rels H3 H4 H5 H6) as (new & B1 & B2 & B3). by exists l, new.
Qed.
(** C60, documents and presentations: the same when they are opened and saved. *)
Theorem C60_suite : forall (E : Env) (file path : string) (fs0 fs fs' : filesys) (l0 : list (string * string)) (x0 : suite) (t : clock) (f : faults) (tr : list filesys),
  Stored fs0 file l0 -> suite_new (Some file) fs0 = Ok x0 -> suite_save t f path x0 fs = (tr, Ok tt) -> last tr = Some fs' ->
  exists l, Stored fs' path l
  /\ (forall data root ns rels, ("_rels/.rels", data) ∈ l0 -> ReadsIn data root ns -> t_value root = None -> RelsSaid root rels ->
       exists new, RelsShown l "_rels/.rels" ns root (rels ++ new) /\ Completes suite_kinds rels new /\ (NoDup (map r_id rels) -> NoDup (map r_id (rels ++ new))))
  /\ (forall data root ns, (su_core x0, data) ∈ l0 -> su_core x0 <> content_types_name -> ReadsIn data root ns ->
       (t_tag root = "cp:coreProperties" -> t_value root = None -> PropertiesShown l (su_core x0) ns root (ck_1 t) (ck_2 t))
       /\ (t_tag root <> "cp:coreProperties" -> no_child "cp:coreProperties" root -> PartSame l (su_core x0) ns root)).
Proof.
  intros E file path fs0 fs fs' l0 x0 t f tr H1 H2 H3 H4. destruct (sources_suite _ _ _ H2) as (o & Ho & S). by eapply docs_saved.
Qed.
(** C60: the properties of a file are the target of the first relationship of that type that the package
    lists, or [docProps/core.xml]. *)
Theorem C60_found : forall (E : Env) (file : string) (fs0 : filesys) (l0 : list (string * string)) (rels : list rel),
  Stored fs0 file l0 -> Lists l0 "_rels/.rels" rels ->
  (forall x0, suite_new (Some file) fs0 = Ok x0 -> FoundBy rels "" core_type "docProps/core.xml" (su_core x0))
  /\ (forall x0, excel_new (Some file) fs0 = Ok x0 -> FoundBy rels "" core_type "docProps/core.xml" (su_core (x_suite x0))).
Proof.
  intros E file fs0 l0 rels H1 H2. split; intros x0 Hx; [by eapply core_found|]. apply excel_suite in Hx as (s & Hx & <-). by eapply core_found.
Qed.

(** ** Examples *)
Definition chain_data : string := "<calcChain xmlns=""http://m""><c r=""A1"" i=""1""/><c r=""B2"" i=""2""/><extLst><ext uri=""u""/></extLst></calcChain>".
Definition chain_tree : tree :=
  Node "calcChain" (attr []) None
    [Node "c" (attr [("r", "A1"); ("i", "1")]) None []; Node "c" (attr [("r", "B2"); ("i", "2")]) None [];
     Node "extLst" (attr []) None [Node "ext" (attr [("uri", "u")]) None []]].
Example C59_reads : let E := demo_env Checked in ReadsIn chain_data chain_tree {["<Default>" := "http://m"]} /\ ChainSaid chain_tree [("A1", "1"); ("B2", "2")].
Proof.
  cbv zeta. split; [apply reads_ns_in; vm_compute; reflexivity|]. unfold ChainSaid. cbn [chain_tree t_children List.filter t_tag String.eqb].
  repeat (constructor; [split; by vm_compute|]). constructor.
Qed.
Example C59_example : match @book_demo (demo_env Checked) value_hashes [("xl/calcChain.xml", chain_data)] [CAdd None; CDrop 0; CRename "Two" "Second"; CRename "no such sheet" "x"] with
  | Some l => ends (part_of "xl/calcChain.xml" l) "<calcChain xmlns=""http://m""  ><extLst  ><ext uri=""u"" /></extLst><c i=""1"" r=""A1"" /><c i=""2"" r=""B2"" /></calcChain>"
      && ends (part_of "xl/workbook.xml" l) "<sheets ><sheet name=""sheet1"" r:id=""rId5"" sheetId=""1"" /><sheet name=""Second"" r:id=""rId6"" sheetId=""2"" /><sheet name=""sheet3"" r:id=""rId9"" sheetId=""3"" /></sheets></workbook>"
  | None => false end = true.
Proof. vm_compute. reflexivity. Qed.
Definition ordered : tree :=
  Node "workbook" (attr []) None [Node "sheets" (attr []) None
    [Node "sheet" (attr [("name", "a"); ("sheetId", "1"); ("r:id", "rId5")]) None []; Node "sheet" (attr [("name", "b"); ("sheetId", "2"); ("r:id", "rId6")]) None []]].
Example C59_in_order : InOrder ordered /\ Numbered ordered "2" "rId6" /\ ListSaid ordered [mkSheet "a" "rId5" false false; mkSheet "b" "rId6" false false] /\ ViewSaid ordered None.
Proof.
  split; [|split; [|split]].
  - intros ts k t Ht Hk. unfold only_child in Ht. cbn in Ht. injection Ht as <-. destruct k as [|[|k]]; cbn in Hk; [injection Hk as <-; by vm_compute..|done].
  - eexists _, _. split; [vm_compute; reflexivity|]. split; [right; left|]. split; by vm_compute.
  - right. eexists. split; [vm_compute; reflexivity|]. constructor; [|constructor; [|constructor]]; (split; [by vm_compute|]; split; [by vm_compute|]; split; [by vm_compute|by vm_compute]).
  - left. split; [|done]. by vm_compute.
Qed.
(** Properties as other programs write them, with a time of creation and a title, and without one. *)
Definition core_data (created : string) : string :=
  "<cp:coreProperties xmlns:cp=""http://cp"" xmlns:dcterms=""http://d""><dc:title>Plan</dc:title><dcterms:created xsi:type=""dcterms:W3CDTF"">" +:+ created +:+ "</dcterms:created><dcterms:modified xsi:type=""dcterms:W3CDTF"">then</dcterms:modified><cp:keywords>a b</cp:keywords></cp:coreProperties>".
Example C60_reads : let E := demo_env Checked in ReadsIn (core_data "")
  (Node "cp:coreProperties" (attr []) None
    [Node "dc:title" (attr []) (Some "Plan") []; Node "dcterms:created" (attr [("xsi:type", "dcterms:W3CDTF")]) None [];
     Node "dcterms:modified" (attr [("xsi:type", "dcterms:W3CDTF")]) (Some "then") []; Node "cp:keywords" (attr []) (Some "a b") []]) {["cp" := "http://cp"; "dcterms" := "http://d"]}.
Proof. cbv zeta. apply reads_ns_in. vm_compute. reflexivity. Qed.
Example C60_example :
  match @book_demo (demo_env Checked) value_hashes [("docProps/core.xml", core_data "first")] [CAdd None; CDrop 0] with
  | Some l => ends (part_of "docProps/core.xml" l) "<dc:title  >Plan</dc:title><dcterms:created xsi:type=""dcterms:W3CDTF"" >first</dcterms:created><dcterms:modified xsi:type=""dcterms:W3CDTF"" >1</dcterms:modified><cp:keywords  >a b</cp:keywords></cp:coreProperties>"
  | None => false end = true
  /\ match @book_demo (demo_env Checked) value_hashes [("docProps/core.xml", core_data "")] [] with
  | Some l => ends (part_of "docProps/core.xml" l) "<dc:title  >Plan</dc:title><dcterms:created xsi:type=""dcterms:W3CDTF"" >2</dcterms:created><dcterms:modified xsi:type=""dcterms:W3CDTF"" >1</dcterms:modified><cp:keywords  >a b</cp:keywords></cp:coreProperties>"
  | None => false end = true.
Proof. split; vm_compute; reflexivity. Qed.
(** The package lists its workbook and a thumbnail, but no properties. *)
Definition package_data : string :=
  "<Relationships><Relationship Id=""w"" Type=""http://schemas.openxmlformats.org/officeDocument/2006/relationships/officeDocument"" Target=""xl/workbook.xml""/><Relationship Id=""t"" Type=""http://thumbnail"" Target=""docProps/thumbnail.jpeg""/></Relationships>".
Definition package_rels : list rel := [mkRel "w" "xl/workbook.xml" (rel_type "officeDocument") None; mkRel "t" "docProps/thumbnail.jpeg" "http://thumbnail" None].
Definition package_tree : tree :=
  Node "Relationships" (attr []) None
    [Node "Relationship" (attr [("Id", "w"); ("Type", rel_type "officeDocument"); ("Target", "xl/workbook.xml")]) None [];
     Node "Relationship" (attr [("Id", "t"); ("Type", "http://thumbnail"); ("Target", "docProps/thumbnail.jpeg")]) None []].
Example C60_reads_relationships : let E := demo_env Checked in ReadsIn package_data package_tree ∅ /\ RelsSaid package_tree package_rels
  /\ Completes book_kinds package_rels [mkRel "rId3" "/docProps/core.xml" core_type None].
Proof.
  cbv zeta. split; [apply reads_ns_in; vm_compute; reflexivity|]. split; [|vm_compute; reflexivity].
  unfold RelsSaid, package_rels. cbn [package_tree t_children List.filter t_tag String.eqb]. repeat (constructor; [repeat split; by vm_compute|]). constructor.
Qed.
Example C60_relationships_example : match @book_demo (demo_env Checked) value_hashes [("_rels/.rels", package_data)] [CAdd None; CDrop 0] with
  | Some l => ends (part_of "_rels/.rels" l)
      "<Relationship Id=""w"" Target=""xl/workbook.xml"" Type=""http://schemas.openxmlformats.org/officeDocument/2006/relationships/officeDocument"" /><Relationship Id=""t"" Target=""docProps/thumbnail.jpeg"" Type=""http://thumbnail"" /><Relationship Id=""rId3"" Target=""/docProps/core.xml"" Type=""http://schemas.openxmlformats.org/package/2006/relationships/metadata/core-properties"" /></Relationships>"
  | None => false end = true.
Proof. vm_compute. reflexivity. Qed.
Example C60_found_example : FoundBy package_rels "" core_type "docProps/core.xml" "docProps/core.xml"
  /\ FoundBy [mkRel "c" "/meta/core.xml" core_type None] "" core_type "docProps/core.xml" "meta/core.xml".
Proof. split; [right; split; [|done]; repeat constructor; by vm_compute|]. left. eexists [], _, _. split; [reflexivity|]. split; [done|]. split; [constructor|]. apply Res_abs. Qed.

(** ** What one would want and what does not hold *)
(** A file with the parts [l0] is opened, the calls are made, and the file saved at the time [t] has the parts [l]. *)
Definition Becomes `{Env} `{Hashes} (t : clock) (cs : list call) (l0 l : list (string * string)) : Prop :=
  exists (fs0 fs fs' : filesys) (file path : string) (x0 : excel) (s : session) (f : faults) (tr : list filesys),
  Stored fs0 file l0 /\ excel_new (Some file) fs0 = Ok x0 /\ calls cs (x0, []) = Some s
  /\ excel_save t f path s.1 fs = (tr, Ok tt) /\ last tr = Some fs' /\ Stored fs' path l.
Definition become_check `{Env} `{Hashes} (cs : list call) (P : list (string * string) -> list (string * string) -> bool) (l0 : list (string * string)) : bool :=
  match env_unzip (env_zip l0) with
  | Some l1 =>
    match excel_new (Some "in") {["in" := env_zip l0]} with
    | Ok x0 => match calls cs (x0, []) with
      | Some s => match saved_parts (excel_save demo_clock demo_faults "a.xlsx" s.1 ∅) with Some l => P l1 l | None => false end
      | None => false end
    | _ => false end
  | None => false end.
Lemma become_found `{Env} `{Hashes} cs P l0 : become_check cs P l0 = true -> exists l1 l, Becomes demo_clock cs l1 l /\ P l1 l = true.
Proof.
  unfold become_check. destruct (env_unzip (env_zip l0)) as [l1|] eqn:Eu; [|done]. destruct (excel_new _ _) as [x0| |] eqn:En; [|done..].
  destruct (calls _ _) as [s|] eqn:Ec; [|done]. unfold saved_parts. destruct (excel_save _ _ _ _ _) as [tr r] eqn:Ev. cbn [fst snd].
  destruct r as [[]|r|r]; [|done..]. destruct (last tr) as [fs'|] eqn:El; [|done].
  destruct (fs' !! "a.xlsx") as [b|] eqn:Eb; cbn [mbind option_bind]; [|done]. destruct (env_unzip b) as [l|] eqn:Eub; [|done].
  intros HP. exists l1, l. split; [|done]. exists {["in" := env_zip l0]}, ∅, fs', "in", "a.xlsx", x0, s, demo_faults, tr.
  split. { exists (env_zip l0). by rewrite lookup_singleton. } do 4 (split; [done|]). by exists b.
Qed.
(** The element that a part holds. *)
Definition Holds `{Env} (l : list (string * string)) (q : string) (root : tree) : Prop := exists data, (q, data) ∈ l /\ ReadsAs data root.
Definition held `{Env} (l : list (string * string)) (q : string) : option tree := match part_of q l with Some d => tree_read d | None => None end.
Lemma held_ok `{Env} l q root : held l q = Some root -> Holds l q root.
Proof. unfold held. destruct (part_of q l) as [d|] eqn:Ed; [|done]. intros H1. exists d. split; [by apply part_of_in|by apply tree_read_ok]. Qed.
(** The ids of the sheets that have a number. *)
Definition ids_of (root : tree) (i : string) : list (option string) :=
  match List.filter (fun c => String.eqb (t_tag c) "sheets") (t_children root) with
  | [ts] => map (fun t => child_attr t "r:id") (List.filter (fun t => bool_decide (child_attr t "sheetId" = Some i)) (t_children ts))
  | _ => [] end.
Lemma ids_of_ok root i id : Numbered root i id <-> Some id ∈ ids_of root i.
Proof.
  unfold Numbered, only_child, ids_of. split.
  - intros (ts & t & -> & Ht & H1 & H2). apply elem_of_list_fmap. exists t. split; [done|]. apply elem_of_list_In, filter_In. split; [by apply elem_of_list_In|]. by apply bool_decide_eq_true.
  - destruct (List.filter _ _) as [|ts [|]] eqn:Ef; [by intros H%elem_of_nil| |by intros H%elem_of_nil]. intros (t & H1 & H2)%elem_of_list_fmap.
    apply elem_of_list_In, filter_In in H2 as [H2 H3%bool_decide_eq_true]. exists ts, t. split; [done|]. split; [by apply elem_of_list_In|]. done.
Qed.
Definition chain_of (root : tree) : list (option string * option string) :=
  map (fun t => (child_attr t "r", child_attr t "i")) (List.filter (fun t => String.eqb (t_tag t) "c") (t_children root)).
Lemma chain_of_ok root l : chain_of root = map (fun x => (Some x.1, Some x.2)) l -> ChainSaid root l.
Proof.
  unfold chain_of, ChainSaid. generalize (List.filter (fun t => String.eqb (t_tag t) "c") (t_children root)) as ts.
  induction l as [|x l IH]; intros [|t ts] Ht; try discriminate Ht; [constructor|]. injection Ht as H1 H2 H3. constructor; [done|by apply IH].
Qed.
(** The chain has, before and after, the one entry for the cell in the sheet with the number [i]. This number
    stands for the sheet [id0] before and for the sheet [id1] after. *)
Definition Stands (root : tree) (i id : string) : Prop := Numbered root i id /\ forall id', Numbered root i id' -> id' = id.
Definition ChainTurns (cs : list call) (cell i id0 id1 : string) : Prop :=
  exists (E : Env) (Hs : Hashes) (t : clock) (l0 l : list (string * string)) (c0 c1 b0 b1 : tree), Becomes t cs l0 l
  /\ Holds l0 "xl/calcChain.xml" c0 /\ Holds l "xl/calcChain.xml" c1 /\ Holds l0 "xl/workbook.xml" b0 /\ Holds l "xl/workbook.xml" b1
  /\ ChainSaid c0 [(cell, i)] /\ ChainSaid c1 [(cell, i)] /\ Stands b0 i id0 /\ Stands b1 i id1.
Definition turn_test `{Env} (cell i id0 id1 : string) (l0 l : list (string * string)) : bool :=
  match held l0 "xl/calcChain.xml", held l "xl/calcChain.xml", held l0 "xl/workbook.xml", held l "xl/workbook.xml" with
  | Some c0, Some c1, Some b0, Some b1 => bool_decide (chain_of c0 = [(Some cell, Some i)]) && bool_decide (chain_of c1 = [(Some cell, Some i)])
      && bool_decide (ids_of b0 i = [Some id0]) && bool_decide (ids_of b1 i = [Some id1])
  | _, _, _, _ => false end.
Definition chain_turns (chain book : string) (cs : list call) (cell i id0 id1 : string) : bool :=
  @become_check (demo_env Checked) value_hashes cs (@turn_test (demo_env Checked) cell i id0 id1)
    (with_parts [("xl/calcChain.xml", chain); ("xl/workbook.xml", book)] (@demo_parts (demo_env Checked) value_hashes true)).
Lemma stands_ok root i id : ids_of root i = [Some id] -> Stands root i id.
Proof. intros Hi. split; [apply ids_of_ok; rewrite Hi; by left|]. intros id' H%ids_of_ok. rewrite Hi in H. apply elem_of_list_singleton in H. by injection H. Qed.
Lemma turn_test_ok `{Env} cell i id0 id1 l0 l : turn_test cell i id0 id1 l0 l = true ->
  exists c0 c1 b0 b1, Holds l0 "xl/calcChain.xml" c0 /\ Holds l "xl/calcChain.xml" c1 /\ Holds l0 "xl/workbook.xml" b0 /\ Holds l "xl/workbook.xml" b1
  /\ ChainSaid c0 [(cell, i)] /\ ChainSaid c1 [(cell, i)] /\ Stands b0 i id0 /\ Stands b1 i id1.
Proof.
  unfold turn_test. destruct (held l0 "xl/calcChain.xml") as [c0|] eqn:E0; [|done]. destruct (held l "xl/calcChain.xml") as [c1|] eqn:E1; [|done].
  destruct (held l0 "xl/workbook.xml") as [b0|] eqn:E2; [|done]. destruct (held l "xl/workbook.xml") as [b1|] eqn:E3; [|done]. rewrite !andb_true_iff. intros [[[P1 P2] P3] P4].
  apply bool_decide_eq_true in P1, P2, P3, P4. exists c0, c1, b0, b1. do 4 (split; [by apply held_ok|]). do 2 (split; [by apply chain_of_ok|]). split; by apply stands_ok.
Qed.
Lemma chain_turns_ok chain book cs cell i id0 id1 : chain_turns chain book cs cell i id0 id1 = true -> ChainTurns cs cell i id0 id1.
Proof.
  intros Hc. unfold chain_turns in Hc. apply (@become_found (demo_env Checked) value_hashes) in Hc as (l0 & l & Hr & Hp). apply (@turn_test_ok (demo_env Checked)) in Hp as (c0 & c1 & b0 & b1 & Hp).
  exists (demo_env Checked), value_hashes, demo_clock, l0, l, c0, c1, b0, b1. split; [exact Hr|exact Hp].
Qed.
Definition sheets_of (l : list (string * (string * string))) : string :=
  "<workbook><sheets>" +:+ String.concat "" (map (fun x => "<sheet name=""" +:+ x.1 +:+ """ sheetId=""" +:+ x.2.1 +:+ """ r:id=""" +:+ x.2.2 +:+ """/>") l) +:+ "</sheets></workbook>".
(** The sheets of a file were put in another order, their numbers staying theirs. The file is opened and
    saved: the entry of the chain is now one of the other sheet. *)
Theorem C59_numbers_refuted : ChainTurns [] "A1" "2" "rId5" "rId6".
Proof. apply (chain_turns_ok "<calcChain><c r=""A1"" i=""2""/></calcChain>" (sheets_of [("sheet1", ("2", "rId5")); ("Two", ("1", "rId6"))])). vm_compute. reflexivity. Qed.
(** A sheet is deleted from a file whose sheets are numbered in order: the entries of the chain for the sheet after
    it are now those of the next. *)
Theorem C59_deleted_refuted : ChainTurns [CGet "sheet1"; CDelete 0] "A1" "2" "rId6" "rId7".
Proof. apply (chain_turns_ok "<calcChain><c r=""A1"" i=""2""/></calcChain>" (sheets_of [("sheet1", ("1", "rId5")); ("Two", ("2", "rId6")); ("Three", ("3", "rId7"))])). vm_compute. reflexivity. Qed.
(** A cell with a formula is overwritten with a number: its entry stays in the chain, though the cell has no
    formula. *)
Definition no_formula (t : tree) : Prop := forall f, f ∈ t_children t -> t_tag f <> "f".
Theorem C59_overwritten_refuted : exists (E : Env) (Hs : Hashes) (t : clock) (l0 l : list (string * string)) (d0 d1 : string) (c1 b1 t0 t1 : tree),
  Becomes t [CGet "Two"; CRow 0 1 1 [text "5"]; CDrop 0] l0 l
  /\ ("xl/worksheets/sheet2.xml", d0) ∈ l0 /\ FirstCell d0 t0 /\ (exists f, f ∈ t_children t0 /\ t_tag f = "f" /\ t_value f = Some "B1+B2")
  /\ ("xl/worksheets/sheet2.xml", d1) ∈ l /\ FirstCell d1 t1 /\ no_formula t1
  /\ Holds l "xl/workbook.xml" b1 /\ Stands b1 "2" "rId6" /\ Holds l "xl/calcChain.xml" c1 /\ ChainSaid c1 [("A1", "2")].
Proof.
  exists (demo_env Checked), value_hashes, demo_clock.
  assert (@become_check (demo_env Checked) value_hashes [CGet "Two"; CRow 0 1 1 [text "5"]; CDrop 0]
    (fun l0 l => match part_of "xl/worksheets/sheet2.xml" l0, part_of "xl/worksheets/sheet2.xml" l with
      | Some d0, Some d1 => match @cell_first (demo_env Checked) d0, @cell_first (demo_env Checked) d1, @held (demo_env Checked) l "xl/workbook.xml", @held (demo_env Checked) l "xl/calcChain.xml" with
        | Some t0, Some t1, Some b1, Some c1 => existsb (fun f => seqb (t_tag f) "f" && bool_decide (t_value f = Some "B1+B2")) (t_children t0)
            && forallb (fun f => negb (seqb (t_tag f) "f")) (t_children t1) && bool_decide (ids_of b1 "2" = [Some "rId6"]) && bool_decide (chain_of c1 = [(Some "A1", Some "2")])
        | _, _, _, _ => false end
      | _, _ => false end)
    (with_parts [("xl/calcChain.xml", "<calcChain><c r=""A1"" i=""2""/></calcChain>"); ("xl/worksheets/sheet2.xml", sheet_with "<c r=""A1""><f>B1+B2</f><v>7</v></c>")]
      (@demo_parts (demo_env Checked) value_hashes true)) = true) as Hc.
  { vm_compute. reflexivity. }
  apply (@become_found (demo_env Checked) value_hashes) in Hc as (l0 & l & Hr & Hp).
  destruct (part_of "xl/worksheets/sheet2.xml" l0) as [d0|] eqn:E0; [|discriminate Hp]. destruct (part_of "xl/worksheets/sheet2.xml" l) as [d1|] eqn:E1; [|discriminate Hp].
  destruct (cell_first d0) as [t0|] eqn:F0; [|discriminate Hp]. destruct (cell_first d1) as [t1|] eqn:F1; [|discriminate Hp].
  destruct (held l "xl/workbook.xml") as [b1|] eqn:F2; [|discriminate Hp]. destruct (held l "xl/calcChain.xml") as [c1|] eqn:F3; [|discriminate Hp].
  rewrite !andb_true_iff in Hp. destruct Hp as [[[P1 P2] P3] P4]. apply bool_decide_eq_true in P3, P4. exists l0, l, d0, d1, c1, b1, t0, t1.
  split; [exact Hr|]. clear Hr. split; [by apply part_of_in|]. split; [by apply cell_first_ok|]. split.
  { apply existsb_exists in P1 as (f & Hf & [B1 B2]%andb_true_iff). apply String.eqb_eq in B1. apply bool_decide_eq_true in B2. exists f. split; [by apply elem_of_list_In|done]. }
  split; [by apply part_of_in|]. split; [by apply cell_first_ok|]. split.
  { intros f Hf%elem_of_list_In Ht. rewrite forallb_forall in P2. apply P2 in Hf. rewrite Ht in Hf. discriminate Hf. }
  split; [by apply held_ok|]. split; [by apply stands_ok|]. split; [by apply held_ok|by apply chain_of_ok].
Qed.
(** What a part of a file says, and what it says after the file is opened and saved. *)
Definition Resays (q : string) (P : tree -> bool) (Q : tree -> bool) : Prop :=
  exists (E : Env) (Hs : Hashes) (r0 r1 : tree), Resaved q r0 r1 /\ P r0 = true /\ Q r1 = true.
Definition resays (q data : string) (P Q : tree -> bool) : bool :=
  @resave_check (demo_env Checked) value_hashes (fun r0 r1 => P r0 && Q r1) (with_parts [(q, data)] (@demo_parts (demo_env Checked) value_hashes true)) q.
Lemma resays_ok q data P Q : resays q data P Q = true -> Resays q P Q.
Proof.
  intros Hc. unfold resays in Hc. apply (@resave_found (demo_env Checked) value_hashes) in Hc as (t0 & t1 & Hr & [P1 P2]%andb_true_iff).
  exists (demo_env Checked), value_hashes, t0, t1. split; [exact Hr|]. clear Hr. done.
Qed.
Definition says_attr (path : list (string * nat)) (k : string) (v : option string) (root : tree) : bool :=
  match dig path root with Some t => bool_decide (child_attr t k = v) | None => false end.
Definition says_tags (l : list string) (root : tree) : bool := bool_decide (map t_tag (t_children root) = l).
(** An entry that begins a new level of cells, which can be computed only after those before it, or is one
    of an array of formulas: this is lost. *)
Theorem C59_level_refuted : Resays "xl/calcChain.xml" (says_attr [("c", 0%nat)] "l" (Some "1")) (says_attr [("c", 0%nat)] "l" None).
Proof. apply (resays_ok _ "<calcChain><c r=""A1"" i=""2"" l=""1""/></calcChain>"). vm_compute. reflexivity. Qed.
Theorem C59_array_refuted : Resays "xl/calcChain.xml" (says_attr [("c", 0%nat)] "a" (Some "1")) (says_attr [("c", 0%nat)] "a" None).
Proof. apply (resays_ok _ "<calcChain><c r=""A1"" i=""2"" a=""1""/></calcChain>"). vm_compute. reflexivity. Qed.
(** Extensions, which the schema wants last, come to stand before the entries. *)
Theorem C59_order_refuted : Resays "xl/calcChain.xml" (says_tags ["c"; "extLst"]) (says_tags ["extLst"; "c"]).
Proof. apply (resays_ok _ "<calcChain><c r=""A1"" i=""2""/><extLst><ext uri=""u""/></extLst></calcChain>"). vm_compute. reflexivity. Qed.
(** An entry may leave out the number of its sheet when it is that of the entry before; a file with such an entry
    brings the program down when it is opened. *)
Theorem C59_number_left_out_refuted : exists (E : Env) (Hs : Hashes) (fs0 : filesys) (file data : string) (l0 : list (string * string)) (root : tree),
  Stored fs0 file l0 /\ ("xl/calcChain.xml", data) ∈ l0 /\ ReadsAs data root
  /\ chain_of root = [(Some "A1", Some "1"); (Some "A2", None)] /\ exists p, excel_new (Some file) fs0 = Panic p.
Proof.
  set (data := "<calcChain><c r=""A1"" i=""1""/><c r=""A2""/></calcChain>"). set (l0 := with_parts [("xl/calcChain.xml", data)] (@demo_parts (demo_env Checked) value_hashes true)).
  assert ((match @env_unzip (demo_env Checked) (@env_zip (demo_env Checked) l0) with
    | Some l1 => match part_of "xl/calcChain.xml" l1 with
      | Some d => match @tree_read (demo_env Checked) d with
        | Some root => bool_decide (chain_of root = [(Some "A1", Some "1"); (Some "A2", None)])
            && match @excel_new (demo_env Checked) (Some "in") {["in" := @env_zip (demo_env Checked) l0]} with Panic _ => true | _ => false end
        | None => false end
      | None => false end
    | None => false end) = true) as Hc.
  { vm_compute. reflexivity. }
  revert Hc. generalize l0 as l1. clear l0 data. intros l0 Hc. exists (demo_env Checked), value_hashes, {["in" := @env_zip (demo_env Checked) l0]}, "in".
  destruct (env_unzip (env_zip l0)) as [l1|] eqn:Eu; [|discriminate Hc]. destruct (part_of "xl/calcChain.xml" l1) as [d|] eqn:E0; [|discriminate Hc].
  destruct (tree_read d) as [root|] eqn:F0; [|discriminate Hc]. apply andb_true_iff in Hc as [H1%bool_decide_eq_true H2].
  exists d, l1, root. split. { exists (@env_zip (demo_env Checked) l0). split; [by rewrite lookup_singleton|exact Eu]. }
  split; [by apply part_of_in|]. split; [by apply tree_read_ok|]. split; [exact H1|]. destruct (excel_new _ _) as [?|?|p]; [discriminate H2..|]. by exists p.
Qed.
(** Properties without a time of the last change get none. *)
Definition Untimed (P : tree -> Prop) : Prop :=
  exists (E : Env) (Hs : Hashes) (t : clock) (l0 l : list (string * string)) (r0 r1 : tree), Becomes t [CAdd None; CDrop 0] l0 l
  /\ Holds l0 "docProps/core.xml" r0 /\ Holds l "docProps/core.xml" r1 /\ P r0 /\ P r1 /\ forall c, c ∈ t_children r1 -> t_value c <> Some (ck_1 t).
Definition untimed_test `{Env} (P : tree -> bool) (l0 l : list (string * string)) : bool :=
  match held l0 "docProps/core.xml", held l "docProps/core.xml" with
  | Some r0, Some r1 => P r0 && P r1 && forallb (fun c => bool_decide (t_value c <> Some "1")) (t_children r1)
  | _, _ => false end.
Lemma untimed_ok data (P : tree -> bool) (Q : tree -> Prop) : (forall t, P t = true -> Q t) ->
  @become_check (demo_env Checked) value_hashes [CAdd None; CDrop 0] (@untimed_test (demo_env Checked) P)
    (with_parts [("docProps/core.xml", data)] (@demo_parts (demo_env Checked) value_hashes true)) = true -> Untimed Q.
Proof.
  intros HQ Hc. apply (@become_found (demo_env Checked) value_hashes) in Hc as (l0 & l & Hr & Hp). unfold untimed_test in Hp.
  destruct (held l0 _) as [r0|] eqn:E0; [|discriminate Hp]. destruct (held l _) as [r1|] eqn:E1; [|discriminate Hp]. rewrite !andb_true_iff in Hp. destruct Hp as [[P1 P2] P3].
  exists (demo_env Checked), value_hashes, demo_clock, l0, l, r0, r1. split; [exact Hr|]. clear Hr. split; [by apply held_ok|]. split; [by apply held_ok|].
  split; [by apply HQ|]. split; [by apply HQ|]. intros c Hin%elem_of_list_In. rewrite forallb_forall in P3. apply P3, bool_decide_eq_true in Hin. exact Hin.
Qed.
Theorem C60_no_time_refuted : Untimed (fun root => t_tag root = "cp:coreProperties" /\ map t_tag (t_children root) = ["dc:title"]).
Proof.
  apply (untimed_ok "<cp:coreProperties><dc:title>Plan</dc:title></cp:coreProperties>" (fun root => seqb (t_tag root) "cp:coreProperties" && bool_decide (map t_tag (t_children root) = ["dc:title"]))).
  - by intros t [H1%String.eqb_eq H2%bool_decide_eq_true]%andb_true_iff.
  - vm_compute. reflexivity.
Qed.
(** Properties whose elements have other prefixes for the same namespaces keep the time they had. *)
Theorem C60_prefix_refuted : Untimed (fun root => t_tag root = "p:coreProperties" /\ map t_tag (t_children root) = ["d:modified"] /\ map t_value (t_children root) = [Some "then"]).
Proof.
  apply (untimed_ok "<p:coreProperties xmlns:p=""http://schemas.openxmlformats.org/package/2006/metadata/core-properties"" xmlns:d=""http://purl.org/dc/terms/""><d:modified>then</d:modified></p:coreProperties>"
    (fun root => seqb (t_tag root) "p:coreProperties" && bool_decide (map t_tag (t_children root) = ["d:modified"]) && bool_decide (map t_value (t_children root) = [Some "then"]))).
  - by intros t [[H1%String.eqb_eq H2%bool_decide_eq_true]%andb_true_iff H3%bool_decide_eq_true]%andb_true_iff.
  - vm_compute. reflexivity.
Qed.

Print Assumptions C59_entries.
Print Assumptions C59_sheets.
Print Assumptions C60_properties.
Print Assumptions C60_other_root.
Print Assumptions C60_relationships.
Print Assumptions C60_suite.
Print Assumptions C60_found.
Print Assumptions C59_numbers_refuted.
Print Assumptions C59_deleted_refuted.
Print Assumptions C59_overwritten_refuted.
Print Assumptions C59_level_refuted.
Print Assumptions C59_array_refuted.
Print Assumptions C59_order_refuted.
Print Assumptions C59_number_left_out_refuted.
Print Assumptions C60_no_time_refuted.
Print Assumptions C60_prefix_refuted.
