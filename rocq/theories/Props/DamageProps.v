(** C75: asking for a sheet that cannot be loaded damages it. *)
From Verif.Model Require Import Excel.
From Verif.Spec Require Import XmlSpec PackageSpec SheetSpec StyleSpec SessionSpec FlowSpec OpenSpec GrowSpec DemoEnv.
From Verif.Proofs Require Import BaseFacts DocBuild SaveFacts FrameFacts KeepFacts DamageFacts.
From Verif.Props Require Import KeepProps FlowProps ReopenProps.
Open Scope N_scope.

(** C75. A sheet of the file opened, not asked for before, and a call that asks for it and fails: whatever is called later, the part of the sheet is saved again
    without the elements taken out before the failure. That are none only if relationships are there beside the part, and the cells are spared only if the sheet
    has columns set. *)
Theorem C75_damaged : forall (E : Env) (HH : Hashes) (file path q data0 n e : string) (fs0 fs fs' : filesys) (l0 : list (string * string)) (root : tree) (ns : gmap string string)
    (x0 : excel) (pre cs : list call) (c0 : call) (s s1 s2 : session) (t : clock) (f : faults) (tr : list filesys),
  Stored fs0 file l0 -> (q, data0) ∈ l0 -> q <> content_types_name -> ~ rels_name q -> ReadsIn data0 root ns ->
  excel_new (Some file) fs0 = Ok x0 -> of_open (x_office x0) !! q = None -> calls pre (x0, []) = Some s -> ~ Reopens pre (x0, []) q ->
  NoDup (list_sheet_names (x_book s.1)) -> LeadsTo s n q -> asks c0 (Some n) -> call_step c0 s = (s1, Err e) ->
  calls cs s1 = Some s2 -> excel_save t f path s2.1 fs = (tr, Ok tt) -> last tr = Some fs' ->
  exists l text nsl lost, Stored fs' path l /\ (forall b, (q, b) ∈ l <-> b = prolog +:+ text) /\ NsKept ns nsl
  /\ lost ∈ [[]; ["dimension"; "cols"]; ["dimension"; "cols"; "sheetData"]; ["dimension"; "cols"; "sheetData"; "sheetViews"]]
  /\ (lost = [] -> exists r, Beside q r /\ Present (x_office s.1) r)
  /\ (lost = ["dimension"; "cols"] -> exists x, x ∈ t_children root /\ t_tag x = "cols")
  /\ Renders (Some nsl) (Node (t_tag root) (t_attrs root) (t_value root) (others lost root)) text.
Proof.
  intros E HH file path q data0 n e fs0 fs fs' l0 root ns x0 pre cs c0 s s1 s2 t f tr Hst Hin Hct Hnr Hrd Hx Hcl Hpre Hre Hnd Hlead Ha Hc0 Hcs Hs Hl.
  destruct (failed_saved _ _ _ _ _ _ _ _ _ _ _ _ _ _ cs s2 t f path fs tr fs' Hst Hin Hct Hnr Hrd Hx Hcl Hpre Hre Hnd Hlead Ha Hc0 Hcs) as [_ H].
  destruct (H Hs Hl) as (l & text & nsl & lost & H1 & H2 & H3 & H4 & H5 & H6 & H7). exists l, text, nsl, lost. split; [done|]. split; [done|]. split; [done|]. split; [|done].
  rewrite elem_of_cons. exact H4.
Qed.
(** C75. A sheet without columns set and without relationships: the saved part has no cells, though the call failed and no sheet was handed out. *)
Theorem C75_cells : forall (E : Env) (HH : Hashes) (file path q data0 n e : string) (fs0 fs fs' : filesys) (l0 : list (string * string)) (root : tree) (ns : gmap string string)
    (x0 : excel) (pre cs : list call) (c0 : call) (s s1 s2 : session) (t : clock) (f : faults) (tr : list filesys),
  Stored fs0 file l0 -> (q, data0) ∈ l0 -> q <> content_types_name -> ~ rels_name q -> ReadsIn data0 root ns ->
  (forall x, x ∈ t_children root -> t_tag x <> "cols") ->
  excel_new (Some file) fs0 = Ok x0 -> of_open (x_office x0) !! q = None -> calls pre (x0, []) = Some s -> ~ Reopens pre (x0, []) q ->
  (forall r, Beside q r -> ~ Present (x_office s.1) r) ->
  NoDup (list_sheet_names (x_book s.1)) -> LeadsTo s n q -> asks c0 (Some n) -> call_step c0 s = (s1, Err e) ->
  calls cs s1 = Some s2 -> excel_save t f path s2.1 fs = (tr, Ok tt) -> last tr = Some fs' ->
  exists l text nsl root', Stored fs' path l /\ (forall b, (q, b) ∈ l <-> b = prolog +:+ text) /\ Renders (Some nsl) root' text
  /\ forall x, x ∈ t_children root' -> t_tag x ∉ ["dimension"; "cols"; "sheetData"].
Proof.
  intros E HH file path q data0 n e fs0 fs fs' l0 root ns x0 pre cs c0 s s1 s2 t f tr Hst Hin Hct Hnr Hrd Hco Hx Hcl Hpre Hre Hb Hnd Hlead Ha Hc0 Hcs Hs Hl.
  destruct (C75_damaged E HH _ _ _ _ _ _ _ _ _ _ _ _ _ _ _ _ _ _ _ _ _ _ Hst Hin Hct Hnr Hrd Hx Hcl Hpre Hre Hnd Hlead Ha Hc0 Hcs Hs Hl) as (l & text & nsl & lost & H1 & H2 & _ & H4 & H5 & H6 & H7).
  exists l, text, nsl. eexists. split; [done|]. split; [done|]. split; [exact H7|]. cbn [t_children]. intros x Hx1. unfold others in Hx1. apply elem_of_list_filter in Hx1 as [Hx1 _].
  rewrite !elem_of_cons, elem_of_nil in H4. destruct H4 as [->|[->|[->|[->|[]]]]].
  - destruct (H5 eq_refl) as (r & R1 & R2). by destruct (Hb r).
  - destruct (H6 eq_refl) as (y & Y1 & Y2). by destruct (Hco y).
  - done.
  - intros Hi. apply Hx1. rewrite !elem_of_cons in *. tauto.
Qed.
(** C75. After the failure the sheet cannot be had any more: every call that asks for it fails, whatever was called in between. *)
Theorem C75_never : forall (E : Env) (HH : Hashes) (file q data0 n m e : string) (fs0 : filesys) (l0 : list (string * string)) (root : tree) (ns : gmap string string)
    (x0 : excel) (pre cs : list call) (c0 c : call) (s s1 s2 : session),
  Stored fs0 file l0 -> (q, data0) ∈ l0 -> q <> content_types_name -> ~ rels_name q -> ReadsIn data0 root ns ->
  excel_new (Some file) fs0 = Ok x0 -> of_open (x_office x0) !! q = None -> calls pre (x0, []) = Some s -> ~ Reopens pre (x0, []) q ->
  NoDup (list_sheet_names (x_book s.1)) -> LeadsTo s n q -> asks c0 (Some n) -> call_step c0 s = (s1, Err e) ->
  calls cs s1 = Some s2 -> NoDup (list_sheet_names (x_book s2.1)) -> LeadsTo s2 m q -> asks c (Some m) -> exists e', (call_step c s2).2 = Err e'.
Proof.
  intros E HH file q data0 n m e fs0 l0 root ns x0 pre cs c0 c s s1 s2 Hst Hin Hct Hnr Hrd Hx Hcl Hpre Hre Hnd Hlead Ha Hc0 Hcs Hnd2 Hlead2 Hc.
  destruct (failed_saved _ _ _ _ _ _ _ _ _ _ _ _ _ _ cs s2 demo_clock demo_faults "" ∅ [] ∅ Hst Hin Hct Hnr Hrd Hx Hcl Hpre Hre Hnd Hlead Ha Hc0 Hcs) as [H _]. by apply (open_refused s2 m q).
Qed.

(** A sheet with a cell that does not say where it is: got, the call fails, and the part saved has lost the cells; not asked for, it is saved as it was. A sheet
    with columns that cannot be read loses those and keeps the cells. *)
Definition bad_cell : string := "<worksheet><sheetData><row r=""1""><c r=""A1""><v>5</v></c><c><v>7</v></c></row></sheetData><pageMargins left=""1""/></worksheet>".
Definition bad_column : string := "<worksheet><cols><col max=""x""/></cols><sheetData><row r=""1""><c r=""A1""><v>5</v></c></row></sheetData></worksheet>".
Definition damage `{Env} `{Hashes} (sheet : string) (cs : list call) : option (list bool * option string) :=
  match excel_new (Some "in") {["in" := env_zip (with_parts [("xl/worksheets/sheet2.xml", sheet)] sound_parts)]} with
  | Ok x0 => s ← calls cs (x0, []); l ← saved_parts (excel_save demo_clock demo_faults "a.xlsx" s.1 ∅);
      Some (map (fun c => match (call_step c s).2 with Ok _ => true | _ => false end) [CGet "Two"; CAdd (Some "Two")], part_of "xl/worksheets/sheet2.xml" l)
  | _ => None end.
Definition damages `{Env} `{Hashes} := (damage bad_cell [CGet "Two"; CAdd (Some "New")], damage bad_cell [CAdd (Some "New")], damage bad_column [CGet "Two"]).
Example C75_example : @damages (demo_env Checked) value_hashes =
  (Some ([false; false], Some ("<?xml version=""1.0"" encoding=""utf-8""?><worksheet   ><pageMargins left=""1"" /></worksheet>")),
   Some ([false; false], Some bad_cell),
   Some ([false; false], Some ("<?xml version=""1.0"" encoding=""utf-8""?><worksheet   ><sheetData  ><row r=""1"" ><c r=""A1"" ><v  >5</v></c></row></sheetData></worksheet>"))).
Proof. vm_compute. reflexivity. Qed.

Print Assumptions C75_damaged.
Print Assumptions C75_cells.
Print Assumptions C75_never.
Print Assumptions C75_example.
