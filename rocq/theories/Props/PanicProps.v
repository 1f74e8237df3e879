(** C65: which calls end a program. *)
From Verif.Model Require Import Excel.
From Verif.Spec Require Import XmlSpec XmlRepr PackageSpec ColumnSpec RelSpec SheetSpec StyleSpec SessionSpec WellSpec SaveOkSpec PanicSpec DemoEnv.
From Verif.Proofs Require Import BaseFacts FrameFacts SessionFacts KeepFacts WellFacts SaveOkFacts PanicFacts.
From Verif.Props Require Import KeepProps FlowProps WellProps SaveOkProps.
Open Scope N_scope.

(** C65, release builds, new workbooks. No sequence of calls ends the program, whatever the arguments. *)
Theorem C65_release_new : forall (E : Env) (HH : Hashes) (fs0 : filesys) (x0 : excel) (cs : list call),
  env_mode = Wrapping -> excel_new None fs0 = Ok x0 -> exists s, calls cs (x0, []) = Some s.
Proof.
  intros E HH fs0 x0 cs Hm Hnew. destruct (calls cs (x0, [])) as [s|] eqn:Ec; [by exists s|]. exfalso. destruct (new_session _ _ Hnew) as [_ I].
  assert (OwnerFolder (rl_path (wb_rels (x_book x0))) "xl/") as Hf. { pose proof (bs_rels _ (si_book _ _ I)) as Hb. cbn [fst] in Hb. rewrite Hb. apply (Own_dir "xl" "/workbook.xml.rels"). by intros [|? [|? [|? ?]]] b. }
  destruct (sessions_end "xl/" cs (x0, []) Hf) as [H _]; [congruence|]. destruct (H Ec) as (cs1 & c & cs2 & s1 & -> & H1 & [H2|[H2 _]]); [|congruence].
  apply (SessionFacts.calls_inv _ _ _ _ I) in H1. by eapply new_not_root.
Qed.

(** C65, release builds, opened workbooks. The calls end the program exactly if one of them asks for a
    sheet whose part is in no folder of the package, while nobody works on it, unless the part is stored and
    cannot be read. *)
Theorem C65_release_opened : forall (E : Env) (HH : Hashes) (fs0 : filesys) (file folder : string) (x0 : excel) (cs : list call),
  env_mode = Wrapping -> excel_new (Some file) fs0 = Ok x0 -> OwnerFolder (rl_path (wb_rels (x_book x0))) folder ->
  calls cs (x0, []) = None <-> Reaches cs (x0, []) (AtRoot folder).
Proof.
  intros E HH fs0 file folder x0 cs Hm Hnew Hf. destruct (sessions_end folder cs (x0, []) Hf) as [H1 H2]; [congruence|]. split.
  - intros H. apply H1 in H. revert H. apply reaches_imp. intros cs1 c cs2 s1 _ _ [H|[H _]]; [done|congruence].
  - intros H. apply H2. revert H. apply reaches_imp. by left.
Qed.

(** C65, debug builds. The cell references given are letters and a row number, the column references
    begin with letters. If the calls end the program, one of them either counts beyond a [u16], or asks for a
    sheet whose part is in no folder, or asks for one whose part has a cell beyond the columns of a [u16].
    In the first two cases they do end it. *)
Theorem C65_debug : forall (E : Env) (HH : Hashes) (fs0 : filesys) (file : option string) (folder : string) (x0 : excel) (cs : list call),
  env_mode = Checked -> excel_new file fs0 = Ok x0 -> OwnerFolder (rl_path (wb_rels (x_book x0))) folder -> Forall Addressed cs ->
  (calls cs (x0, []) = None -> Reaches cs (x0, []) (fun c s => Overruns c s \/ AtRoot folder c s \/ BadCell folder c s))
  /\ (Reaches cs (x0, []) (fun c s => Overruns c s \/ AtRoot folder c s) -> calls cs (x0, []) = None).
Proof.
  intros E HH fs0 file folder x0 cs Hm Hnew Hf Ha. destruct (sessions_end folder cs (x0, []) Hf) as [H1 H2]; [done|]. split.
  - intros H. apply H1 in H. revert H. apply reaches_imp. tauto.
  - intros H. apply H2. revert H. apply reaches_imp. tauto.
Qed.

(** C65, saving. Saving a new workbook never ends the program, nor does saving an opened one as described in C64. *)
Theorem C65_save_new : forall (E : Env) (HH : Hashes) (fs0 fs : filesys) (path : string) (x0 : excel) (cs : list call) (s : session) (t : clock) (f : faults) (m : string),
  excel_new None fs0 = Ok x0 -> calls cs (x0, []) = Some s -> (excel_save t f path s.1 fs).2 <> Panic m.
Proof.
  intros E HH fs0 fs path x0 cs s t f m Hnew Hcs. assert (NoPanic (excel_save t f path s.1 fs).2) as H.
  { apply saves_quietly. intros g p l. by eapply C64_new. }
  intros Hp. by rewrite Hp in H.
Qed.
Theorem C65_save_opened : forall (E : Env) (HH : Hashes) (fs0 fs : filesys) (file path : string) (l0 : list (string * string)) (x0 : excel) (cs : list call) (s : session) (t : clock) (f : faults) (m : string),
  Stored fs0 file l0 -> Forall (fun nd => Ordinary nd.2) l0 -> excel_new (Some file) fs0 = Ok x0 ->
  content_types_name ∉ own_parts (x_book x0) ++ DocsIn (x_suite x0) -> calls cs (x0, []) = Some s -> (excel_save t f path s.1 fs).2 <> Panic m.
Proof.
  intros E HH fs0 fs file path l0 x0 cs s t f m Hst Ho Hnew Hc Hcs. assert (NoPanic (excel_save t f path s.1 fs).2) as H.
  { apply saves_quietly. intros g p l. by eapply C64_opened. }
  intros Hp. by rewrite Hp in H.
Qed.

(** Calls with senseless arguments: a release build takes them, a debug build ends at the first of them. *)
Definition txt : cell := mkCell None (Some "x") TShared None None None None.
Definition wild_calls : list call :=
  [CAdd (Some "Two"); CRow 0 1 0 [txt]; CRow 0 0 65535 [txt; txt; txt]; CRowRef 0 "ZZZZZZ3" [txt]; CColRef 0 "ZZZZ" None; CRow 5 1 1 []; CGet "none"; CDrop 0; CGet "Two"; CDelete 1].
Definition ends_at `{Env} `{Hashes} (file : option string) (fs0 : filesys) (cs : list call) : option (list bool) :=
  match excel_new file fs0 with
  | Ok x0 => Some (map (fun k => match calls (take k cs) (x0, []) with Some _ => true | None => false end) (seq 0 (S (length cs))))
  | _ => None end.
Example C65_example :
  @ends_at (demo_env Wrapping) value_hashes None ∅ wild_calls = Some (repeat true 11)
  /\ @ends_at (demo_env Checked) value_hashes None ∅ [CAdd None; CRow 0 1 0 [txt]] = Some [true; true; false]
  /\ @ends_at (demo_env Checked) value_hashes None ∅ [CAdd None; CRow 0 0 65534 [txt; txt]; CRow 0 0 65534 [txt; txt; txt]] = Some [true; true; true; false]
  /\ @ends_at (demo_env Checked) value_hashes None ∅ [CAdd None; CRowRef 0 "ZZZZ3" [txt]] = Some [true; true; false]
  /\ @ends_at (demo_env Checked) value_hashes None ∅ [CAdd None; CColRef 0 "ZZZZ" None] = Some [true; true; false].
Proof. vm_compute. repeat split. Qed.
(** A file whose first sheet is at the root of the package; one with a cell far to the right. *)
Definition flat_rels : string :=
  "<Relationships><Relationship Id=""rId5"" Type=""http://schemas.openxmlformats.org/officeDocument/2006/relationships/worksheet"" Target=""/sheet1.xml""/><Relationship Id=""rId6"" Type=""http://schemas.openxmlformats.org/officeDocument/2006/relationships/worksheet"" Target=""worksheets/sheet2.xml""/></Relationships>".
Definition flat_parts `{Env} `{Hashes} : list (string * string) := with_parts [("xl/_rels/workbook.xml.rels", flat_rels)] (demo_parts true).
Definition far_parts `{Env} `{Hashes} : list (string * string) := two_parts "<worksheet><sheetData><row r=""1""><c r=""CRXP1""/></row></sheetData></worksheet>".
Definition near_parts `{Env} `{Hashes} : list (string * string) := two_parts "<worksheet><sheetData><row r=""1""><c r=""CRXO1""/></row></sheetData></worksheet>".
Definition opened_ends `{Env} `{Hashes} (l0 : list (string * string)) (cs : list call) : option (list bool) := ends_at (Some "in") {["in" := env_zip l0]} cs.
Example C65_opened_example :
  (forall m, let E := demo_env m in let HH := value_hashes in opened_ends flat_parts [CGet "Two"; CGet "sheet1"] = Some [true; true; false])
  /\ @opened_ends (demo_env Wrapping) value_hashes (@far_parts (demo_env Wrapping) value_hashes) [CGet "Two"; CDrop 0] = Some [true; true; true]
  /\ @opened_ends (demo_env Checked) value_hashes (@near_parts (demo_env Checked) value_hashes) [CGet "Two"; CDrop 0] = Some [true; true; true]
  /\ @opened_ends (demo_env Checked) value_hashes (@far_parts (demo_env Checked) value_hashes) [CGet "Two"; CDrop 0] = Some [true; false; false].
Proof. split; [intros []; vm_compute; reflexivity|]. vm_compute. repeat split. Qed.

(** C65, what does not hold: that opening a file never ends the program, nor saving it. In the first file the
    workbook is at the root of the package; in the second one the part with the properties is empty. *)
Definition main_rels (book : string) : string :=
  "<Relationships><Relationship Id=""rId1"" Type=""http://schemas.openxmlformats.org/package/2006/relationships/metadata/core-properties"" Target=""/docProps/core.xml""/><Relationship Id=""rId2"" Type=""http://schemas.openxmlformats.org/officeDocument/2006/relationships/officeDocument"" Target=""" +:+ book +:+ """/></Relationships>".
Definition panics {A} (r : res A) : bool := match r with Panic _ => true | _ => false end.
Definition open_panics `{Env} (l0 : list (string * string)) : bool := panics (excel_new (Some "in") {["in" := env_zip l0]}).
Definition save_ends `{Env} `{Hashes} (l0 : list (string * string)) (cs : list call) : bool :=
  match excel_new (Some "in") {["in" := env_zip l0]} with
  | Ok x0 => match calls cs (x0, []) with Some s => panics (excel_save demo_clock demo_faults "a.xlsx" s.1 ∅).2 | None => false end
  | _ => false end.
Theorem C65_open_refuted : forall m : mode, exists (E : Env) (fs0 : filesys) (l0 : list (string * string)) (msg : string),
  @env_mode E = m /\ Stored fs0 "in" l0 /\ excel_new (Some "in") fs0 = Panic msg.
Proof.
  assert (forall (E : Env) l0, match env_unzip (env_zip l0) with Some l1 => bool_decide (l1 = l0) | None => false end = true -> open_panics l0 = true ->
    exists fs0 msg, Stored fs0 "in" l0 /\ excel_new (Some "in") fs0 = Panic msg) as Hgo.
  { intros E l0 Hu. destruct (env_unzip (env_zip l0)) as [l1|] eqn:Eu; [|done]. apply bool_decide_eq_true in Hu. subst l1. unfold open_panics.
    destruct (excel_new _ _) as [x|e|e] eqn:En; [done..|]. intros _. eexists _, e. split; [|exact En]. eexists. split; [apply lookup_singleton|done]. }
  intros m. exists (demo_env m). set (l0 := @with_parts [("_rels/.rels", main_rels "/workbook.xml")] (@demo_parts (demo_env m) value_hashes true)).
  destruct (Hgo (demo_env m) l0) as (fs0 & msg & H1 & H2); [destruct m; vm_compute; reflexivity..|]. exists fs0, l0, msg. done.
Qed.
Theorem C65_save_refuted : forall m : mode, exists (E : Env) (HH : Hashes) (fs0 fs : filesys) (l0 : list (string * string)) (x0 : excel) (cs : list call) (s : session) (t : clock) (f : faults) (msg : string),
  @env_mode E = m /\ Stored fs0 "in" l0 /\ excel_new (Some "in") fs0 = Ok x0 /\ calls cs (x0, []) = Some s /\ (excel_save t f "a.xlsx" s.1 fs).2 = Panic msg.
Proof.
  assert (forall (E : Env) (HH : Hashes) l0 cs, match env_unzip (env_zip l0) with Some l1 => bool_decide (l1 = l0) | None => false end = true -> save_ends l0 cs = true ->
    exists fs0 x0 s msg, Stored fs0 "in" l0 /\ excel_new (Some "in") fs0 = Ok x0 /\ calls cs (x0, []) = Some s /\ (excel_save demo_clock demo_faults "a.xlsx" s.1 ∅).2 = Panic msg) as Hgo.
  { intros E HH l0 cs Hu. destruct (env_unzip (env_zip l0)) as [l1|] eqn:Eu; [|done]. apply bool_decide_eq_true in Hu. subst l1. unfold save_ends.
    destruct (excel_new _ _) as [x|e|e] eqn:En; [|done..]. destruct (calls cs (x, [])) as [s|] eqn:Ec; [|done]. destruct (excel_save _ _ _ _ _).2 as [u|e|e] eqn:Es; [done..|].
    intros _. eexists _, x, s, e. split; [|split; [exact En|split; [exact Ec|exact Es]]]. eexists. split; [apply lookup_singleton|done]. }
  intros m. exists (demo_env m), value_hashes. set (l0 := @with_parts [("docProps/core.xml", "")] (@demo_parts (demo_env m) value_hashes true)).
  destruct (Hgo (demo_env m) value_hashes l0 [CGet "sheet1"]) as (fs0 & x0 & s & msg & H1 & H2 & H3 & H4); [destruct m; vm_compute; reflexivity..|].
  exists fs0, ∅, l0, x0, [CGet "sheet1"], s, demo_clock, demo_faults, msg. split; [done|]. split; [exact H1|]. split; [exact H2|]. split; [exact H3|exact H4].
Qed.

Print Assumptions C65_release_new.
Print Assumptions C65_release_opened.
Print Assumptions C65_debug.
Print Assumptions C65_save_new.
Print Assumptions C65_save_opened.
Print Assumptions C65_open_refuted.
Print Assumptions C65_save_refuted.
