(** Terms for statements about whole sessions. *)
From Verif.Model Require Import Excel.
From Verif.Spec Require Import SheetSpec.
Open Scope N_scope.

(** Calls that only set cells, rows or columns through a sheet handle. *)
Definition writes_only (c : call) : Prop :=
  match c with CRow _ _ _ _ | CRowRef _ _ _ | CRowProps _ _ _ | CCol _ _ _ | CColRef _ _ _ => True | _ => False end.
(** The calls that carry out a history of one sheet. *)
Definition op_call (h : nat) (op : sheet_op) : call :=
  match op with SWrite r c cs => CRow h r c cs | SProps r p => CRowProps h r p end.
(** The parts of a package made by [Excel::new] that are not sheets. *)
Definition book_parts : list string :=
  ["[Content_Types].xml"; "_rels/.rels"; "docProps/core.xml"; "xl/workbook.xml"; "xl/_rels/workbook.xml.rels";
   "xl/theme/theme1.xml"; "xl/sharedStrings.xml"; "xl/calcChain.xml"; "xl/styles.xml"].

(** ** Parts kept or lost *)
(** The calls that open the part of a sheet. *)
Definition opens (c : call) : Prop := match c with CAdd _ | CGet _ => True | _ => False end.
(** A part is in the package: somebody works on it, or it is stored. *)
Definition Present (o : office) (q : string) : Prop := is_Some (of_open o !! q) \/ is_Some (of_archive o !! q).
(** It is stored, and what is stored cannot be read as XML. *)
Definition Unreadable `{Env} (o : office) (q : string) : Prop :=
  of_open o !! q = None /\ exists e, of_archive o !! q = Some e /\
  forall c data d, en_content e = Some c -> env_gunzip c = Some data -> read_doc data <> Ok d.
(** The calls [cs] contain one that opens a sheet, fails, and finds [P] to hold before it. *)
Definition FailedOpen `{Env} `{Hashes} (cs : list call) (s : session) (P : session -> Prop) : Prop :=
  exists cs1 c cs2 s1 e, cs = cs1 ++ c :: cs2 /\ calls cs1 s = Some s1 /\ opens c /\ P s1 /\ (call_step c s1).2 = Err e.
(** After some of the calls [cs] the part [q] is open. *)
Definition WasOpen `{Env} `{Hashes} (cs : list call) (s : session) (q : string) : Prop :=
  exists cs1 cs2 s1, cs = cs1 ++ cs2 /\ calls cs1 s = Some s1 /\ is_Some (of_open (x_office s1.1) !! q).
