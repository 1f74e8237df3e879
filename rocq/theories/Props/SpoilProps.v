(** C76: one cell put into column 0 costs all cells of the sheet. *)
From Verif.Model Require Import Excel.
From Verif.Spec Require Import XmlSpec PackageSpec ColumnSpec SheetSpec StyleSpec SessionSpec FlowSpec OpenSpec PanicSpec AnswerSpec DemoEnv.
From Verif.Proofs Require Import BaseFacts DocBuild XmlReadFacts XmlWriteFacts SaveFacts SheetDocFacts FrameFacts KeepFacts OwnFacts OpenMoreFacts FlowFacts FlowSaveFacts OpenBookFacts PanicFacts AnswerFacts OnceFacts HeldFacts SpoilFacts.
From Verif.Props Require Import KeepProps FlowProps ReopenProps.
Open Scope N_scope.

(** C76. A workbook, new or opened, a sheet held, and a call that puts cells into it of which one falls on column 0: whatever is called later, through the handle or not,
    the handle given back or not, the part of the sheet is saved without cells, columns, views and dimension. *)
Theorem C76_lost : forall (E : Env) (HH : Hashes) (from : option string) (fs0 fs fs' : filesys) (x0 : excel) (pre cs : list call) (c0 : call) (s s2 : session) (h : nat) (w : worksheet)
    (col : N) (cells : list cell) (t : clock) (f : faults) (path : string) (tr : list filesys),
  excel_new from fs0 = Ok x0 -> calls pre (x0, []) = Some s -> handle h s = Some w -> Puts h c0 col cells -> Given c0 -> reaches_0 col cells = true ->
  calls (c0 :: cs) s = Some s2 -> excel_save t f path s2.1 fs = (tr, Ok tt) -> last tr = Some fs' ->
  exists l text, Stored fs' path l /\ (forall b, (ws_path w, b) ∈ l <-> b = prolog +:+ text)
  /\ (text = "" \/ exists root nsl, Renders (Some nsl) root text
      /\ forall x, x ∈ t_children root -> t_tag x ∉ ["dimension"; "cols"; "sheetData"; "sheetViews"]).
Proof.
  intros E HH from fs0 fs fs' x0 pre cs c0 s s2 h w col cells t f path tr Hn Hpre Hh Hput Hg H0 Hcs Hs Hl. destruct (new_linv _ _ _ Hn) as [I0 _]. destruct (calls_effect _ _ _ I0 Hpre) as (I & _).
  destruct (held_emptied pre (x0, []) s I0) with (h := h) (w := w) as (p & Hp & He); [|done|done|].
  { intros k v Hk. unfold handle in Hk. cbn in Hk. by rewrite lookup_nil in Hk. }
  destruct (put_saved _ _ _ _ _ _ _ _ p t f path fs tr fs' I Hh Hput Hg H0 Hp Hcs Hs Hl) as (l & data & S1 & S2 & S3).
  destruct (write_emptied _ _ He S2) as (text & -> & Ht). by exists l, text.
Qed.
(** C76. A sheet of the file opened: its part is saved as it was in the file, without these elements. *)
Theorem C76_exact : forall (E : Env) (HH : Hashes) (file path q data0 : string) (fs0 fs fs' : filesys) (l0 : list (string * string)) (root : tree) (ns : gmap string string)
    (x0 : excel) (pre mid cs : list call) (c0 c1 : call) (name : option string) (s s1 s2 s3 : session) (w0 w : worksheet) (col : N) (cells : list cell) (t : clock) (f : faults) (tr : list filesys),
  Stored fs0 file l0 -> (q, data0) ∈ l0 -> q <> content_types_name -> ~ rels_name q -> ReadsIn data0 root ns ->
  excel_new (Some file) fs0 = Ok x0 -> of_open (x_office x0) !! q = None -> calls pre (x0, []) = Some s -> ~ Reopens pre (x0, []) q ->
  asks c0 name -> call_step c0 s = (s1, Ok tt) -> handle (length s.2) s1 = Some w0 -> ws_path w0 = q ->
  calls mid s1 = Some s2 -> handle (length s.2) s2 = Some w -> Puts (length s.2) c1 col cells -> Given c1 -> reaches_0 col cells = true ->
  calls (c1 :: cs) s2 = Some s3 -> excel_save t f path s3.1 fs = (tr, Ok tt) -> last tr = Some fs' ->
  exists l text nsl, Stored fs' path l /\ (forall b, (q, b) ∈ l <-> b = prolog +:+ text) /\ NsKept ns nsl
  /\ Renders (Some nsl) (Node (t_tag root) (t_attrs root) (t_value root) (others ["dimension"; "cols"; "sheetData"; "sheetViews"] root)) text.
Proof.
  intros E HH file path q data0 fs0 fs fs' l0 root ns x0 pre mid cs c0 c1 name s s1 s2 s3 w0 w col cells t f tr Hst Hin Hct Hnr Hrd Hx Hcl Hpre Hre Ha Hc0 Hh Hq Hmid Hw Hput Hg H0 Hcs Hs Hl.
  destruct (got_exact _ _ _ _ _ _ _ _ _ _ _ _ _ _ Hst Hin Hct Hnr Hrd Hx Hcl Hpre Hre Ha Hc0 Hh Hq) as (I1 & _ & _ & p & P1 & P2 & P3). rewrite <- Hq in P1.
  destruct (held_stays mid s1 s2 _ w0 w p I1 Hh P1 Hmid Hw) as [Q1 Q2]. destruct (calls_effect _ _ _ I1 Hmid) as (I2 & _). rewrite <- Q1 in Q2.
  destruct (put_saved _ _ _ _ _ _ _ _ p t f path fs tr fs' I2 Hw Hput Hg H0 Q2 Hcs Hs Hl) as (l & data & S1 & S2 & S3). rewrite (Doc_write _ _ P2), P3 in S2. injection S2 as <-.
  exists l. eexists. exists (hash_entries (written_ns ns)). split; [done|]. split; [rewrite <- Hq, <- Q1; exact S3|]. split; [apply ns_kept|]. exact (proj2 (render_renders_mut ns _)).
Qed.
(** C76. In a build for release no call says so but the one that stores the sheet with a result, and that one leaves nothing to put it right with: putting the cells
    succeeds, giving the handle back succeeds, and storing the sheet fails and takes the handle. *)
Theorem C76_silent : forall (E : Env) (HH : Hashes) (from : option string) (fs0 : filesys) (x0 : excel) (pre cs : list call) (c0 : call) (s s2 : session) (h : nat) (w w2 : worksheet) (col : N) (cells : list cell),
  env_mode = Wrapping -> excel_new from fs0 = Ok x0 -> calls pre (x0, []) = Some s -> handle h s = Some w -> Puts h c0 col cells -> Given c0 -> reaches_0 col cells = true ->
  (call_step c0 s).2 = Ok tt
  /\ (calls (c0 :: cs) s = Some s2 -> handle h s2 = Some w2 ->
      (call_step (CDrop h) s2).2 = Ok tt /\ (exists e, (call_step (CFlush h) s2).2 = Err e) /\ handle h (call_step (CFlush h) s2).1 = None).
Proof.
  intros E HH from fs0 x0 pre cs c0 s s2 h w w2 col cells Hm Hn Hpre Hh Hput Hg H0. destruct (new_linv _ _ _ Hn) as [I0 _]. destruct (calls_effect _ _ _ I0 Hpre) as (I & _).
  pose proof (put_quiet _ _ _ _ s Hm Hput Hg) as Hq. split; [by destruct (put_spoils _ _ _ _ _ _ Hput Hg Hh H0 Hq)|]. intros Hcs Hh2.
  split; [by apply drop_answers|]. split; [|apply spend_gone]. by apply (put_unstored c0 col cells cs s s2 h w w2).
Qed.

(** A number into column 0, and the cells of the file are gone: given back, and stored after running over the last column. Into column 1 instead, they are all there. *)
Definition spoil `{Env} `{Hashes} (cs : list call) : option (list bool * option string) :=
  match excel_new (Some "in") {["in" := env_zip (with_parts [("xl/worksheets/sheet2.xml", two_data)] sound_parts)]} with
  | Ok x0 => s ← calls cs (x0, []); l ← saved_parts (excel_save demo_clock demo_faults "a.xlsx" s.1 ∅); Some (answers cs (x0, []), part_of "xl/worksheets/sheet2.xml" l)
  | _ => None end.
Definition five : cell := mkCell None (Some "5") TNumber None None None None.
Definition spoils `{Env} `{Hashes} := map spoil [[CGet "Two"; CRow 0 7 0 [five]; CDrop 0]; [CGet "Two"; CRow 0 7 65535 [five; five]; CFlush 0]; [CGet "Two"; CRow 0 7 1 [five]; CFlush 0]].
Example C76_example : let p := @prolog (demo_env Wrapping) in @spoils (demo_env Wrapping) value_hashes =
  [Some ([true; true; true], Some (p +:+ "<worksheet xmlns:dvmo=""http://schemas.draviavemal.com/openxml-office""  />"));
   Some ([true; true; false], Some (p +:+ "<worksheet xmlns:dvmo=""http://schemas.draviavemal.com/openxml-office""  />"));
   Some ([true; true; true], Some (p +:+ "<worksheet xmlns:dvmo=""http://schemas.draviavemal.com/openxml-office""  ><dimension ref=""A1:C7"" /><sheetViews ><sheetView workbookViewId=""0"" /></sheetViews><sheetData ><row r=""1"" ><c r=""A1"" t=""s"" ><v >0</v></c><c r=""B1"" s=""3"" ><f >1+1</f><v >2</v></c></row><row customHeight=""1"" ht=""20"" r=""3"" ><c r=""C3"" t=""inlineStr"" ><is ><t >plain</t></is></c></row><row r=""7"" ><c r=""A7"" ><v >5</v></c></row></sheetData></worksheet>"))].
Proof. vm_compute. reflexivity. Qed.

Print Assumptions C76_lost.
Print Assumptions C76_exact.
Print Assumptions C76_silent.
Print Assumptions C76_example.
