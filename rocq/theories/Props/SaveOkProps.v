(** C64: saving fails only if the operating system does. *)
From Verif.Model Require Import Excel.
From Verif.Spec Require Import XmlSpec PackageSpec SheetSpec StyleSpec SessionSpec WellSpec SaveOkSpec DemoEnv.
From Verif.Proofs Require Import BaseFacts SaveFacts FrameFacts DocFacts KeepFacts OwnFacts OpenMoreFacts WellFacts SaveOkFacts.
From Verif.Props Require Import KeepProps FlowProps WellProps.
Open Scope N_scope.

(** C64, making. A new workbook can always be made, and so can a new document or presentation. *)
Theorem C64_made : forall (E : Env) (fs : filesys), (exists x, excel_new None fs = Ok x) /\ exists y, suite_new None fs = Ok y.
Proof. intros E fs. split; [apply made|]. destruct (doc_new fs) as (y & t & Hy & _). by exists y. Qed.

(** C64, new workbooks. Whatever calls are made, failing ones included, whatever handles are still
    held: if none of them panicked, saving succeeds exactly if the operating system lets the file
    be written. *)
Theorem C64_new : forall (E : Env) (HH : Hashes) (fs0 fs : filesys) (path : string) (x0 : excel) (cs : list call) (s : session) (t : clock) (f : faults),
  excel_new None fs0 = Ok x0 -> calls cs (x0, []) = Some s ->
  (excel_save t f path s.1 fs).2 = Ok tt <-> Healthy f path fs.
Proof.
  intros E HH fs0 fs path x0 cs s t f Hnew Hcs. assert (forall q data : string, False -> Ordinary data) as Hord by done.
  pose proof (excel_new_inv (fun _ _ => False) Hord None fs0 x0 I Hnew) as Ho. apply (WellFacts.calls_inv _ Hord cs (x0, []) s Ho) in Hcs as Ho'.
  destruct (new_linv _ _ _ Hnew) as [I0 _]. destruct (free_calls cs (x0, []) s I0) as [F L]; [by eapply new_free|done|]. by eapply excel_saves.
Qed.

(** C64, opened workbooks. The same holds for a file whose readable parts have a root element and
    decent namespace declarations, and in which no relationship passes the list of content types
    off as the workbook, its properties, its theme, and so on. *)
Theorem C64_opened : forall (E : Env) (HH : Hashes) (fs0 fs : filesys) (file path : string) (l0 : list (string * string)) (x0 : excel) (cs : list call) (s : session) (t : clock) (f : faults),
  Stored fs0 file l0 -> Forall (fun nd => Ordinary nd.2) l0 -> excel_new (Some file) fs0 = Ok x0 ->
  content_types_name ∉ own_parts (x_book x0) ++ DocsIn (x_suite x0) -> calls cs (x0, []) = Some s ->
  (excel_save t f path s.1 fs).2 = Ok tt <-> Healthy f path fs.
Proof.
  intros E HH fs0 fs file path l0 x0 cs s t f Hst Hf Hnew Hc Hcs. rewrite Forall_forall in Hf.
  assert (forall q data : string, (q, data) ∈ l0 -> Ordinary data) as Hord by (intros q data Hq; apply (Hf (q, data) Hq)).
  pose proof (excel_new_inv _ Hord (Some file) fs0 x0 (fun o => opened_inv _ _ _ o Hst) Hnew) as Ho. apply (WellFacts.calls_inv _ Hord cs (x0, []) s Ho) in Hcs as Ho'.
  destruct (new_linv _ _ _ Hnew) as [I0 _]. destruct (free_calls cs (x0, []) s I0) as [F L]; [by eapply opened_free|done|]. by eapply excel_saves.
Qed.

(** C64, documents and presentations, new and opened. *)
Theorem C64_document : forall (E : Env) (fs0 fs : filesys) (file : option string) (path : string) (l0 : list (string * string)) (x : suite) (t : clock) (f : faults),
  match file with Some p => Stored fs0 p l0 | None => l0 = [] end -> Forall (fun nd => Ordinary nd.2) l0 ->
  suite_new file fs0 = Ok x -> match file with Some _ => content_types_name ∉ DocsIn x | None => True end ->
  (suite_save t f path x fs).2 = Ok tt <-> Healthy f path fs.
Proof.
  intros E fs0 fs file path l0 x t f Hst Hf Hnew Hc. rewrite Forall_forall in Hf.
  assert (forall q data : string, (q, data) ∈ l0 -> Ordinary data) as Hord by (intros q data Hq; apply (Hf (q, data) Hq)).
  assert (match file with Some _ => forall o, office_new file fs0 = Ok o -> OInv (fun q data => (q, data) ∈ l0) o | None => True end) as Hi.
  { destruct file as [p|]; [|done]. intros o. by apply opened_inv. }
  pose proof (suite_new_inv _ Hord file fs0 x Hi Hnew) as Ho. destruct (opens_suite _ _ _ Hnew) as (o & _ & _ & O).
  eapply suite_saves; [exact Ho|apply O|intros q Hq; apply (op_open _ _ _ O); by right|]. eapply suite_free; [done|].
  destruct file as [p|]; [done|]. destruct (doc_new fs0) as (y & ty & Hy & (D1 & D2 & _) & _). rewrite Hnew in Hy. injection Hy as <-. unfold DocsIn. rewrite D1, D2. apply (bool_decide_unpack _). by vm_compute.
Qed.

(** C64, what does not hold without the condition on relationships: if one of them does pass the
    list of content types off as a part of the workbook, the file can be opened and worked on, but
    no save ever succeeds. *)
Theorem C64_types_refuted : forall (E : Env) (HH : Hashes) (fs0 fs : filesys) (file path : string) (x0 : excel) (cs : list call) (s : session) (t : clock) (f : faults),
  excel_new (Some file) fs0 = Ok x0 -> content_types_name ∈ own_parts (x_book x0) ++ DocsIn (x_suite x0) -> calls cs (x0, []) = Some s ->
  (excel_save t f path s.1 fs).2 <> Ok tt.
Proof.
  intros E HH fs0 fs file path x0 cs s t f Hnew Hc Hcs. destruct (new_linv _ _ _ Hnew) as [I0 _]. destruct (calls_effect cs _ _ I0 Hcs) as [I1 _].
  destruct (own_stays _ _ _ I0 Hcs) as [Hown _]. destruct (docs_stay _ _ _ I0 Hcs) as (Hr & Hk & _). cbn [fst] in *.
  apply taken; [done|]. unfold KeepFacts.held, DocsIn in *. rewrite Hown, Hr, Hk. rewrite !elem_of_app in *. tauto.
Qed.

(** A workbook with a handle held, a sheet deleted, and calls that failed: saved over an old file. *)
Definition held_calls : list call :=
  [CAdd (Some "Two"); CAdd (Some "Three"); CRow 0 1 1 [mkCell None (Some "x") TShared None None None None]; CGet "Two"; CRename "none" "Two"; CDelete 1].
Definition outcome {A} (r : res A) : string := match r with Ok _ => "" | Err e => e | Panic e => e end.
Definition session_saves `{Env} `{Hashes} (file : option string) (fs0 : filesys) (cs : list call) (f : faults) (fs : filesys) : option string :=
  match excel_new file fs0 with
  | Ok x0 => s ← calls cs (x0, []); Some (outcome (excel_save demo_clock f "a.xlsx" s.1 fs).2)
  | _ => None end.
Example C64_example : let E := demo_env Checked in let HH := value_hashes in
  session_saves None ∅ held_calls (mkFaults false false None [3; 5]%nat) {["a.xlsx" := "old"]} = Some ""
  /\ session_saves None ∅ held_calls (mkFaults true false None []) ∅ = Some ""
  /\ session_saves None ∅ held_calls (mkFaults false false (Some 3%nat) [3; 5]%nat) ∅ = Some ""
  /\ session_saves None ∅ held_calls (mkFaults true false None []) {["a.xlsx" := "old"]} = Some "Remove Save File Target Failed."
  /\ session_saves None ∅ held_calls (mkFaults false true None []) ∅ = Some "Create Save File Failed"
  /\ session_saves None ∅ held_calls (mkFaults false false (Some 2%nat) [3; 5]%nat) ∅ = Some "Save File Write Failed".
Proof. vm_compute. repeat split. Qed.
(** The condition on opened files is met by the file of the example of C50. *)
Definition clear_types `{Env} (l0 : list (string * string)) : bool :=
  match excel_new (Some "in") {["in" := env_zip l0]} with
  | Ok x0 => bool_decide (content_types_name ∉ own_parts (x_book x0) ++ DocsIn (x_suite x0))
  | _ => false end.
Example C64_opened_example : let E := demo_env Checked in let HH := value_hashes in
  Forall (fun nd => Ordinary nd.2) nasty_parts /\ clear_types nasty_parts = true
  /\ session_saves (Some "in") {["in" := env_zip nasty_parts]} [CGet "sheet1"; CAdd (Some "New"); CGet "none"] (mkFaults false false None []) ∅ = Some "".
Proof. cbv zeta. split; [exact C50_ordinary_example|]. vm_compute. split; reflexivity. Qed.
(** A file in which the theme is said to be the list of content types. *)
Definition types_rels : string :=
  "<Relationships><Relationship Id=""a"" Type=""http://schemas.openxmlformats.org/officeDocument/2006/relationships/theme"" Target=""/[Content_Types].xml""/><Relationship Id=""rId5"" Type=""http://schemas.openxmlformats.org/officeDocument/2006/relationships/worksheet"" Target=""/xl/worksheets/sheet1.xml""/><Relationship Id=""rId6"" Type=""http://schemas.openxmlformats.org/officeDocument/2006/relationships/worksheet"" Target=""worksheets/sheet2.xml""/></Relationships>".
Example C64_types_example : let E := demo_env Checked in let HH := value_hashes in
  let l0 := with_parts [("xl/_rels/workbook.xml.rels", types_rels)] (demo_parts true) in
  clear_types l0 = false /\ session_saves (Some "in") {["in" := env_zip l0]} [CGet "sheet1"; CDrop 0] (mkFaults false false None []) ∅ = Some "Duplicate filename".
Proof. vm_compute. split; reflexivity. Qed.

(** C64, what does not hold for every file that can be opened: the style part of this one is empty.
    The file opens, its sheet can be worked on, the operating system is healthy, and saving fails. *)
Theorem C64_empty_refuted : exists (E : Env) (HH : Hashes) (fs0 fs : filesys) (l0 : list (string * string)) (x0 : excel) (cs : list call) (s : session) (t : clock) (f : faults),
  Stored fs0 "in" l0 /\ excel_new (Some "in") fs0 = Ok x0 /\ content_types_name ∉ own_parts (x_book x0) ++ DocsIn (x_suite x0)
  /\ calls cs (x0, []) = Some s /\ Healthy f "a.xlsx" fs /\ (excel_save t f "a.xlsx" s.1 fs).2 = Err "Parent Element Not Found".
Proof.
  assert (forall (E : Env) (HH : Hashes) (l0 : list (string * string)) (cs : list call),
    match env_unzip (env_zip l0) with Some l1 => bool_decide (l1 = l0) | None => false end = true -> clear_types l0 = true ->
    session_saves (Some "in") {["in" := env_zip l0]} cs demo_faults ∅ = Some "Parent Element Not Found" ->
    match excel_new (Some "in") {["in" := env_zip l0]} with Ok x0 => match calls cs (x0, []) with Some s => match (excel_save demo_clock demo_faults "a.xlsx" s.1 ∅).2 with Err _ => true | _ => false end | None => false end | _ => false end = true ->
    exists x0 s, Stored {["in" := env_zip l0]} "in" l0 /\ excel_new (Some "in") {["in" := env_zip l0]} = Ok x0 /\ content_types_name ∉ own_parts (x_book x0) ++ DocsIn (x_suite x0)
    /\ calls cs (x0, []) = Some s /\ (excel_save demo_clock demo_faults "a.xlsx" s.1 ∅).2 = Err "Parent Element Not Found") as Hgo.
  { intros E HH l0 cs Hu. unfold clear_types, session_saves. destruct (env_unzip (env_zip l0)) as [l1|] eqn:Eu; [|done]. apply bool_decide_eq_true in Hu. subst l1.
    destruct (excel_new _ _) as [x0|e|e] eqn:En; [|done..]. intros Hc%bool_decide_eq_true. destruct (calls cs (x0, [])) as [s|] eqn:Ec; [|done]. cbn [mbind option_bind].
    destruct ((excel_save demo_clock demo_faults "a.xlsx" s.1 ∅).2) as [|e|e] eqn:Es; [done| |done]. intros [= ->] _. exists x0, s. split; [eexists; split; [apply lookup_singleton|done]|]. done. }
  destruct (Hgo (demo_env Checked) value_hashes (@with_parts [("xl/styles.xml", "")] (@demo_parts (demo_env Checked) value_hashes true)) [CGet "sheet1"]) as (x0 & s & H1 & H2 & H3 & H4 & H5).
  { vm_compute. reflexivity. } { vm_compute. reflexivity. } { vm_compute. reflexivity. } { vm_compute. reflexivity. }
  exists (demo_env Checked), value_hashes. eexists _, ∅, _, x0, _, s, demo_clock, demo_faults. split; [exact H1|]. split; [exact H2|]. split; [exact H3|]. split; [exact H4|]. split; [|exact H5].
  split; [by left|]. split; [reflexivity|exact Logic.I].
Qed.

Print Assumptions C64_made.
Print Assumptions C64_new.
Print Assumptions C64_opened.
Print Assumptions C64_document.
Print Assumptions C64_types_refuted.
Print Assumptions C64_empty_refuted.
