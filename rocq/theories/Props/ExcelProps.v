(** C34, C35: whole sessions, from a new workbook to the saved file. *)
From Verif.Model Require Import Excel.
From Verif.Spec Require Import XmlSpec PackageSpec SheetSpec StyleSpec SessionSpec DemoEnv.
From Verif.Proofs Require Import BaseFacts SheetFacts SheetDocFacts SheetCycleFacts FrameFacts SaveFacts SessionFacts ExcelFacts.
Open Scope N_scope.

(** C34, what one would want and what never happens: whatever is done to a workbook made by the
    library (sheets, cells, styles, settings, failing calls included), and whichever handles are
    still held, if the save succeeds then the file cannot be opened by the library. *)
Theorem C34_reopen_refuted : forall (E : Env) (Hs : Hashes) (fs0 fs fs' : filesys) (x0 : excel) (cs : list call) (s : session)
    (t : clock) (f : faults) (path : string) (tr : list filesys),
  excel_new None fs0 = Ok x0 -> calls cs (x0, []) = Some s ->
  excel_save t f path s.1 fs = (tr, Ok tt) -> last tr = Some fs' ->
  ~ exists x', excel_new (Some path) fs' = Ok x'.
Proof.
  intros E Hs fs0 fs fs' x0 cs s t f path tr Hnew Hcs Hsave Hl [x' Hx']. destruct (new_session fs0 x0 Hnew) as [N I].
  destruct (calls_inv _ cs _ _ I Hcs) as [I1 I2 I3 _ I5]. cbn [fst snd] in *.
  eapply saved_not_reopened; [exact I1|exact I2|exact I3|by eapply new_parts_same|exact Hsave|exact Hl|exact Hx'].
Qed.

(** C35, held sheets: the saved sheet parts do not depend on what was written through handles that
    are still held. Cells, row and column settings given after [s] and not released before the save
    leave every part but the workbook's own as it would have been without them. *)
Theorem C35_held_refuted : forall (E : Env) (Hs : Hashes) (fs0 fs fs1 fs2 : filesys) (x0 : excel) (cs ws : list call) (s s2 : session)
    (t : clock) (f : faults) (path : string) (tr1 tr2 : list filesys),
  excel_new None fs0 = Ok x0 -> calls cs (x0, []) = Some s ->
  Forall writes_only ws -> calls ws s = Some s2 ->
  excel_save t f path s.1 fs = (tr1, Ok tt) -> last tr1 = Some fs1 ->
  excel_save t f path s2.1 fs = (tr2, Ok tt) -> last tr2 = Some fs2 ->
  exists l1 l2, Stored fs1 path l1 /\ Stored fs2 path l2
  /\ forall q data, q ∉ book_parts -> (q, data) ∈ l1 <-> (q, data) ∈ l2.
Proof.
  intros E Hs fs0 fs fs1 fs2 x0 cs ws s s2 t f path tr1 tr2 Hnew Hcs Hws Hcalls S1 L1 S2 L2. destruct (new_session fs0 x0 Hnew) as [_ I].
  pose proof (calls_inv _ cs _ _ I Hcs) as J1. pose proof (calls_inv _ ws _ _ J1 Hcalls) as J2.
  destruct J1 as [A1 A2 A3 _ _], J2 as [B1 B2 B3 _ _].
  destruct (save_other _ _ _ _ _ _ _ A1 A2 A3 S1 L1) as (l1 & T1 & H1). destruct (save_other _ _ _ _ _ _ _ B1 B2 B3 S2 L2) as (l2 & T2 & H2).
  exists l1, l2. split; [done|]. split; [done|]. intros q data Hq. rewrite H1, H2 by done. unfold x_office. by rewrite (writes_suite ws s s2 Hws Hcalls).
Qed.

(** C35, released sheets: at any moment of a session a sheet with a new name is added, written to,
    and released. The file of a later save has a part for it that holds exactly the cells written,
    each with the last value given. In between, other held handles may be written to. *)
Theorem C35_released : forall (E : Env) (Hs : Hashes) (fs0 fs fs' : filesys) (x0 : excel) (cs ws : list call) (s s1 s2 s3 : session)
    (name : option string) (ops : list sheet_op) (t : clock) (f : faults) (path : string) (tr : list filesys),
  excel_new None fs0 = Ok x0 -> calls cs (x0, []) = Some s ->
  (forall n, name = Some n -> n ∉ list_sheet_names (x_book s.1)) ->
  call_step (CAdd name) s = (s1, Ok tt) ->
  Forall in_range ops -> Forall op_typed ops -> calls (map (op_call (length s.2)) ops) s1 = Some s2 ->
  Forall writes_only ws -> calls (CDrop (length s.2) :: ws) s2 = Some s3 ->
  excel_save t f path s3.1 fs = (tr, Ok tt) -> last tr = Some fs' ->
  exists k l text root nsl data rows w', let part := "xl/worksheets/sheet" +:+ show_N k +:+ ".xml" in
  Stored fs' path l /\ (forall b, (part, b) ∈ l <-> b = prolog +:+ text)
  /\ Renders (Some nsl) root text /\ only_child "sheetData" root data /\ RowsWritten w' data rows
  /\ (forall r c x, LastWrite r c ops (Some x) -> exists y, cell_at w' r c = Some y /\ CellStored (ss_strings (wb_sst (x_book s2.1))) x y)
  /\ (forall r c, LastWrite r c ops None -> cell_at w' r c = None).
Proof.
  intros E Hs fs0 fs fs' x0 cs ws s s1 s2 s3 name ops t f path tr Hnew Hcs Hname Hadd Hrange Htyped Hops Hws Hdrop Hsave Hl.
  destruct (new_session fs0 x0 Hnew) as [_ I]. pose proof (calls_inv _ cs _ _ I Hcs) as J.
  pose proof (call_inv _ (CAdd name) _ J) as J1. rewrite Hadd in J1. cbn [fst] in J1.
  pose proof (calls_inv _ _ _ _ J1 Hops) as J2. pose proof (calls_inv _ _ _ _ J2 Hdrop) as J3.
  cbn [call_step] in Hadd. unfold give, on_book, add_sheet, x_state in Hadd. cbn [fst snd] in Hadd.
  destruct (ws_new name (wb_sheets (x_book s.1), (wb_rels (x_book s.1), x_office s.1))) as [[sheets [rels o1]] [w|e|e]] eqn:Ew; [|done..].
  injection Hadd as <-.
  match type of Ew with ws_new _ ?a = (?b, _) => destruct (new_sheet_open name a b w) as (k & rl & Hw & Hopen & Hne); [| |exact Ew|]; cbn [fst snd] in * end.
  { intros n x Hn Hx <-. apply (Hname _ Hn). apply elem_of_list_fmap. by exists x. } { apply shape_relative, J. }
  set (h := length s.2) in *. match type of Hops with calls _ ?x = _ => set (s1 := x) in * end.
  assert (handle h s1 = Some w) as Hh. { unfold handle, s1. cbn [snd]. by rewrite (list_lookup_middle s.2 [] (Some w) h eq_refl). }
  destruct (run_sheet_ops_spec ops w (table s1) Hrange) as (w' & t' & Hrun & _ & (F1 & F2 & F3 & F4 & F5) & C1 & C2 & _).
  destruct (ops_run h ops s1 w w' t' Hh Hrun) as (s2' & Hs2 & Hh2 & Ht2 & Hx2). rewrite Hops in Hs2. injection Hs2 as <-.
  assert (sheet_typed w /\ DimInv w) as [Ty Di]. { rewrite Hw. split; [apply fresh_typed|apply fresh_inv]. }
  destruct (sheet_typed_ops ops w (table s1) w' t' Hrange Htyped Ty Di Hrun) as [Ty' _].
  assert (ws_path w' = sheet_path sheet_dir k) as Hpath by (by rewrite F1, Hw).
  assert (SheetOpen (x_office s2.1) (ws_path w')) as Hopen2. { unfold x_office. rewrite Hx2, F1. exact Hopen. }
  destruct (drop_written (x_office s2.1) w' Hopen2 Ty') as (e & root & nsl & text & D1 & _ & D3 & D4). { rewrite F1, F3, Hw. cbn. by rewrite Hw in Hne. }
  destruct (ops_data ops w (table s1) w' t') as [m Hm]; [by rewrite Hw|exact Hrun|]. destruct (D4 m Hm) as [D5 D6].
  assert (x_office s3.1 = ws_drop w' (x_office s2.1)) as Ho3.
  { cbn [calls call_step] in Hdrop. unfold spend in Hdrop. rewrite Hh2 in Hdrop. cbn in Hdrop. unfold x_office at 1. by rewrite (writes_suite ws _ _ Hws Hdrop). }
  destruct J3 as [B1 B2 B3 _ _]. destruct (save_other _ _ _ _ _ _ _ B1 B2 B3 Hsave Hl) as (l & Hst & Hin).
  exists k, l, text, root, nsl, (data_tree m), (row_list m), w'. cbn zeta.
  assert ("xl/worksheets/sheet" +:+ show_N k +:+ ".xml" = ws_path w') as ->. { rewrite Hpath. unfold sheet_path, sheet_file. by rewrite <- !app_assoc_s. }
  split; [done|]. split; [|split; [done|split; [done|split; [done|split]]]].
  - intros b. rewrite Hin, Ho3, D1. { split; [by intros [= <-]|by intros ->]. } rewrite Hpath. unfold book_parts. rewrite !not_elem_of_cons. repeat split; try done. apply not_elem_of_nil.
  - intros r c x Hx. destruct (C1 r c x Hx) as (y & Y1 & Y2). exists y. split; [done|]. fold (table s2). by rewrite Ht2.
  - intros r c Hx. rewrite (C2 r c Hx), Hw. unfold cell_at. cbn. by rewrite lookup_empty.
Qed.
(** A session as in these theorems: it starts, its calls and its save succeed, and the file holds
    the text written to the released sheet but not the text of the held one. *)
Definition demo_text (v : string) : cell := mkCell None (Some v) TInline None None None None.
Definition demo_calls : list call := [CAdd (Some "Held"); CRow 0 1 1 [demo_text "first"]; CRename "Held" "Kept"; CHide "sheet1"].
Definition demo_ops : list sheet_op := [SWrite 2 1 [demo_text "old"; demo_text "b"]; SWrite 2 1 [demo_text "new"]].
Definition demo_writes : list call := [CRow 0 3 1 [demo_text "late"]].
Definition demo_clock : clock := mkClock "1" "2" "3" "4".
Fixpoint contains (sub s : string) : bool :=
  starts_with sub s || match s with String _ s' => contains sub s' | EmptyString => false end.
Definition demo_session `{Env} `{Hashes} : option (session * session * session * session) :=
  match excel_new None ∅ with
  | Ok x0 => s ← calls demo_calls (x0, []); 
      s1 ← (match call_step (CAdd (Some "Data")) s with (s1, Ok _) => Some s1 | _ => None end);
      s2 ← calls (map (op_call (length s.2)) demo_ops) s1;
      s3 ← calls (CDrop (length s.2) :: demo_writes) s2;
      Some (s, s1, s2, s3)
  | _ => None
  end.
Definition demo_file `{Env} (x : excel) : option (list (string * string)) :=
  let '(tr, r) := excel_save demo_clock (mkFaults false false None []) "a.xlsx" x ∅ in
  match r, last tr with
  | Ok _, Some fs => match fs !! "a.xlsx" with Some b => match env_unzip b with Some l => Some l | _ => None end | None => None end
  | _, _ => None
  end.
Definition demo_part (name : string) (l : list (string * string)) : string :=
  default "" (snd <$> List.find (fun x => seqb x.1 name) l).
Definition demo_check `{Env} `{Hashes} : bool :=
  match demo_session with
  | Some (s, s1, s2, s3) =>
      match demo_file s.1, demo_file s2.1, demo_file s3.1 with
      | Some l, Some l2, Some l3 =>
          (* the released sheet has its cells *)
          contains "<t >new</t>" (demo_part "xl/worksheets/sheet3.xml" l3)
          && negb (contains "old" (demo_part "xl/worksheets/sheet3.xml" l3))
          (* before its release it had none *)
          && negb (contains "new" (demo_part "xl/worksheets/sheet3.xml" l2))
          && contains "<worksheet" (demo_part "xl/worksheets/sheet3.xml" l2)
          (* the held sheet has none, and the same text in every save *)
          && negb (contains "first" (demo_part "xl/worksheets/sheet2.xml" l3))
          && seqb (demo_part "xl/worksheets/sheet2.xml" l3) (demo_part "xl/worksheets/sheet2.xml" l)
          && contains "<worksheet" (demo_part "xl/worksheets/sheet2.xml" l)
      | _, _, _ => false
      end
  | None => false
  end.
Example C34_C35_example : @demo_check (demo_env Checked) value_hashes = true.
Proof. vm_compute. reflexivity. Qed.
Example C35_example_range : let E := demo_env Checked in
  Forall in_range demo_ops /\ Forall op_typed demo_ops /\ Forall writes_only demo_writes.
Proof.
  cbn zeta. split; [|split]; repeat (apply Forall_cons; split); try apply Forall_nil; cbn; try done.
  all: split; [done|repeat (apply Forall_cons; split); try apply Forall_nil; done].
Qed.

Print Assumptions C34_reopen_refuted.
Print Assumptions C35_held_refuted.
Print Assumptions C35_released.
