(** [rs/src/spreadsheet/spreadsheet_2007/excel.rs], [document_2007/word.rs] and
    [presentation_2007/power_point.rs] *)
From Verif.Model Require Export Workbook CoreProperties.
Open Scope mon_scope.
Open Scope N_scope.

(** ** A package with its root relationships and its document properties *)
(** word.rs 11-16, power_point.rs 11-16; the first three fields of excel.rs 16-22. *)
Record suite := mkSuite { su_office : office; su_root : relations; su_core : string }.
(** word.rs 29-50, power_point.rs 29-50 and excel.rs 48-61. The in-memory flag is not used by the
    code below it. *)
Definition suite_new `{Env} (file : option string) (fs : filesys) : res suite :=
  rbind (office_new file fs) (fun o =>
  match rels_new "_rels/.rels" o with
  | (o1, Ok root) =>
      match core_new (root, o1) with
      | ((root1, o2), Ok core) => Ok (mkSuite o2 root1 core)
      | (_, Err e) => Err e
      | (_, Panic e) => Panic e
      end
  | (_, Err e) => Err e
  | (_, Panic e) => Panic e
  end).
(** The readings of the clock during a save: two while closing the properties, two while their
    owner is dropped (core_properties.rs 19-24, xml_parts.rs 8-13). *)
Record clock := mkClock { ck_1 : string; ck_2 : string; ck_3 : string; ck_4 : string }.
(** core_properties.rs 43-87 under xml_parts.rs 8-13 *)
Definition core_flush `{Env} (t : clock) (path : string) : M office unit := fun o =>
  let '(o1, r) := core_close (ck_1 t) (ck_2 t) path o in
  ((core_close (ck_3 t) (ck_4 t) path o1).1, r).
(** word.rs 53-64, power_point.rs 53-64 and excel.rs 157-168. The value is consumed; what is left
    is the file system. *)
Definition suite_save `{Env} (t : clock) (f : faults) (path : string) (s : suite) (fs : filesys)
  : list filesys * res unit :=
  match (core_flush t (su_core s) ;;; rels_close (su_root s)) (su_office s) with
  | (o, Ok _) => (office_save f path o fs).2
  | (_, Err e) => ([], Err e)
  | (_, Panic e) => ([], Panic e)
  end.

(** ** Workbooks *)
(** excel.rs 16-22 *)
Record excel := mkExcel { x_suite : suite; x_book : workbook }.
Definition x_office (x : excel) : office := su_office (x_suite x).
Definition set_x_office (x : excel) (o : office) : excel :=
  mkExcel (mkSuite o (su_root (x_suite x)) (su_core (x_suite x))) (x_book x).
Definition set_x (x : excel) (s : wb_state) : excel :=
  mkExcel (mkSuite s.2 (su_root (x_suite x)) (su_core (x_suite x))) s.1.
Definition x_state (x : excel) : wb_state := (x_book x, x_office x).
(** A call on the workbook part, excel.rs 89-151. *)
Definition on_book {A} (m : M wb_state A) : M excel A := fun x =>
  let '(s, r) := m (x_state x) in (set_x x s, r).
Definition pure_book {A} (m : M workbook A) : M wb_state A := fun s =>
  let '(b, r) := m s.1 in ((b, s.2), r).
(** excel.rs 42-86. For a new file a sheet is added and its handle dropped at once. *)
Definition excel_new `{Env} (file : option string) (fs : filesys) : res excel :=
  rbind (suite_new file fs) (fun s =>
  match workbook_new (su_root s, su_office s) with
  | ((root, o), Ok b) =>
      let x := mkExcel (mkSuite o root (su_core s)) b in
      match file with
      | Some _ => Ok x
      | None =>
          match on_book (add_sheet None) x with
          | (x1, Ok w) => Ok (set_x_office x1 (ws_drop w (x_office x1)))
          | (_, Err e) => Err e
          | (_, Panic e) => Panic e
          end
      end
  | (_, Err e) => Err e
  | (_, Panic e) => Panic e
  end).
(** excel.rs 154-172 *)
Definition excel_save `{Env} (t : clock) (f : faults) (path : string) (x : excel) (fs : filesys)
  : list filesys * res unit :=
  match wb_flush (x_book x) (x_office x) with
  | (o, Ok _) => suite_save t f path (mkSuite o (su_root (x_suite x)) (su_core (x_suite x))) fs
  | (_, Err e) => ([], Err e)
  | (_, Panic e) => ([], Panic e)
  end.

(** ** Sessions: a workbook and the sheet handles its user holds *)
(** A handle is named by the position at which it was given out; [None] once it is released. *)
Notation session := (excel * list (option worksheet))%type.
(** The calls of excel.rs 89-151 and worksheet.rs 1129-1381 (public methods of both types). *)
Inductive call :=
  | CAdd (name : option string)
  | CGet (name : string)
  | CRename (old new : string)
  | CActive (name : string)
  | CHide (name : string)
  | CVisible (b : bool)
  | CMinimize (b : bool)
  | CTabs (b : bool)
  | CVScroll (b : bool)
  | CHScroll (b : bool)
  | CStyle (s : setting)
  | CRow (h : nat) (r c : N) (cs : list cell)
  | CRowRef (h : nat) (ref : string) (cs : list cell)
  | CRowProps (h : nat) (r : N) (p : row_props)
  | CCol (h : nat) (c : N) (p : option col_props)
  | CColRef (h : nat) (ref : string) (p : option col_props)
  | CDrop (h : nat)
  | CFlush (h : nat)
  | CDelete (h : nat).
Definition handle (h : nat) (s : session) : option worksheet := (s.2 !! h) ≫= id.
Definition on_excel {A} (m : M excel A) : M session A := fun s =>
  let '(x, r) := m s.1 in ((x, s.2), r).
(** A handle is given out. *)
Definition give (m : M excel worksheet) : M session unit := fun s =>
  match m s.1 with
  | (x, Ok w) => ((x, s.2 ++ [Some w]), Ok tt)
  | (x, Err e) => ((x, s.2), Err e)
  | (x, Panic e) => ((x, s.2), Panic e)
  end.
(** A call on a handle; without the handle there is no such call. The shared strings belong to the
    workbook. *)
Definition use (h : nat) (m : M (worksheet * list string) unit) : M session unit := fun s =>
  match handle h s with
  | None => (s, Ok tt)
  | Some w =>
      let '((w1, table), r) := m (w, ss_strings (wb_sst (x_book s.1))) in
      ((mkExcel (x_suite s.1) (set_wb_strings (x_book s.1) table), <[h := Some w1]> s.2), r)
  end.
Definition on_handle {T} (m : M worksheet unit) : M (worksheet * T) unit := fun s =>
  let '(w, r) := m s.1 in ((w, s.2), r).
(** A call that consumes a handle. *)
Definition spend (h : nat) (m : worksheet -> M wb_state unit) : M session unit := fun s =>
  match handle h s with
  | None => (s, Ok tt)
  | Some w => let '(x, r) := on_book (m w) s.1 in ((x, <[h := None]> s.2), r)
  end.
Definition call_step `{Env} `{Hashes} (c : call) : M session unit :=
  match c with
  | CAdd name => give (on_book (add_sheet name))
  | CGet name => give (on_book (get_worksheet name))
  | CRename old new => on_excel (on_book (pure_book (rename_sheet old new)))
  | CActive n => on_excel (on_book (pure_book (set_active_sheet n)))
  | CHide n => on_excel (on_book (pure_book (hide_sheet n)))
  | CVisible b => on_excel (on_book (pure_book (set_visibility b)))
  | CMinimize b => on_excel (on_book (pure_book (minimize_workbook b)))
  | CTabs b => on_excel (on_book (pure_book (hide_sheet_tabs b)))
  | CVScroll b => on_excel (on_book (pure_book (hide_vertical_scroll b)))
  | CHScroll b => on_excel (on_book (pure_book (hide_horizontal_scroll b)))
  | CStyle s => on_excel (on_book (pure_book (wb_style_id s ;;; ret tt)))
  | CRow h r c cs => use h (set_row_value r c cs)
  | CRowRef h ref cs => use h (set_row_value_ref ref cs)
  | CRowProps h r p => use h (on_handle (set_row_props r p))
  | CCol h c p => use h (on_handle (set_column_index c p))
  | CColRef h ref p => use h (on_handle (set_column_ref ref p))
  | CDrop h => spend h (fun w s => ((s.1, ws_drop w s.2), Ok tt))
  | CFlush h => spend h (fun w => on_wb_office (ws_flush w))
  | CDelete h => spend h wb_delete_sheet
  end.
(** A user goes on after an error; a panic ends the session. *)
Fixpoint calls `{Env} `{Hashes} (cs : list call) (s : session) : option session :=
  match cs with
  | [] => Some s
  | c :: cs =>
      match call_step c s with
      | (_, Panic _) => None
      | (s1, _) => calls cs s1
      end
  end.
