(** C73: a sheet that is held when the workbook is saved loses its cells. *)
From Verif.Model Require Import Excel.
From Verif.Spec Require Import XmlSpec PackageSpec SheetSpec StyleSpec SessionSpec FlowSpec OpenSpec ReopenSpec GrowSpec DemoEnv.
From Verif.Proofs Require Import BaseFacts DocBuild XmlReadFacts XmlWriteFacts SaveFacts SheetDocFacts FrameFacts KeepFacts FlowOpenFacts OpenBookFacts GrowFacts OnceFacts HeldFacts.
From Verif.Props Require Import KeepProps FlowProps ReopenProps.
Open Scope N_scope.

(** C73. A workbook, new or opened, any calls, a save while a sheet is still held: the part of the sheet in the saved file has no cells, no columns, no views and
    no dimension, neither those of the file nor those given by the calls. *)
Theorem C73_held : forall (E : Env) (HH : Hashes) (from : option string) (fs0 fs fs' : filesys) (x0 : excel) (cs : list call) (s : session) (h : nat) (w : worksheet)
    (t : clock) (f : faults) (path : string) (tr : list filesys),
  excel_new from fs0 = Ok x0 -> calls cs (x0, []) = Some s -> handle h s = Some w ->
  excel_save t f path s.1 fs = (tr, Ok tt) -> last tr = Some fs' ->
  exists l text, Stored fs' path l /\ (forall b, (ws_path w, b) ∈ l <-> b = prolog +:+ text)
  /\ (text = "" \/ exists root nsl, Renders (Some nsl) root text
      /\ forall x, x ∈ t_children root -> t_tag x ∉ ["dimension"; "cols"; "sheetData"; "sheetViews"]).
Proof.
  intros E HH from fs0 fs fs' x0 cs s h w t f path tr Hn Hc Hh Hs Hl. destruct (new_linv _ _ _ Hn) as [I0 _]. destruct (calls_effect _ _ _ I0 Hc) as (I & _).
  destruct (held_emptied cs (x0, []) s I0) with (h := h) (w := w) as (p & Hp & He); [|done|done|].
  { intros k v Hk. unfold handle in Hk. cbn in Hk. by rewrite lookup_nil in Hk. }
  destruct (held_saved t f path s fs tr fs' h w p I Hh Hp Hs Hl) as (_ & l & data & S1 & S2 & S3). destruct (write_emptied _ _ He S2) as (text & -> & Ht). by exists l, text.
Qed.
(** C73. A sheet of the file opened that is got and not released: the saved part is the one of the file without these elements, whatever was called in
    between, through the handle or not. *)
Theorem C73_exact : forall (E : Env) (HH : Hashes) (file path q data0 : string) (fs0 fs fs' : filesys) (l0 : list (string * string)) (root : tree) (ns : gmap string string)
    (x0 : excel) (pre cs : list call) (c0 : call) (name : option string) (s s1 s2 : session) (w0 w : worksheet) (t : clock) (f : faults) (tr : list filesys),
  Stored fs0 file l0 -> (q, data0) ∈ l0 -> q <> content_types_name -> ~ rels_name q -> ReadsIn data0 root ns ->
  excel_new (Some file) fs0 = Ok x0 -> of_open (x_office x0) !! q = None -> calls pre (x0, []) = Some s -> ~ Reopens pre (x0, []) q ->
  asks c0 name -> call_step c0 s = (s1, Ok tt) -> handle (length s.2) s1 = Some w0 -> ws_path w0 = q ->
  calls cs s1 = Some s2 -> handle (length s.2) s2 = Some w -> excel_save t f path s2.1 fs = (tr, Ok tt) -> last tr = Some fs' ->
  exists l text nsl, Stored fs' path l /\ (forall b, (q, b) ∈ l <-> b = prolog +:+ text) /\ NsKept ns nsl
  /\ Renders (Some nsl) (Node (t_tag root) (t_attrs root) (t_value root) (others ["dimension"; "cols"; "sheetData"; "sheetViews"] root)) text.
Proof.
  intros E HH file path q data0 fs0 fs fs' l0 root ns x0 pre cs c0 name s s1 s2 w0 w t f tr Hst Hin Hct Hnr Hrd Hx Hcl Hpre Hre Ha Hc0 Hh Hq Hcs Hw Hs Hl.
  destruct (got_exact _ _ _ _ _ _ _ _ _ _ _ _ _ _ Hst Hin Hct Hnr Hrd Hx Hcl Hpre Hre Ha Hc0 Hh Hq) as (I1 & _ & _ & p & P1 & P2 & P3). rewrite <- Hq in P1.
  destruct (held_stays cs s1 s2 _ w0 w p I1 Hh P1 Hcs Hw) as [Q1 Q2]. destruct (calls_effect _ _ _ I1 Hcs) as (I2 & _). rewrite <- Q1 in Q2.
  destruct (held_saved t f path s2 fs tr fs' _ w p I2 Hw Q2 Hs Hl) as (_ & l & data & S1 & S2 & S3). rewrite (Doc_write _ _ P2), P3 in S2. injection S2 as <-.
  exists l. eexists. exists (hash_entries (written_ns ns)). split; [done|]. split; [rewrite <- Hq, <- Q1; exact S3|]. split; [apply ns_kept|]. exact (proj2 (render_renders_mut ns _)).
Qed.
(** C73. If the sheet had no other elements, then its part cannot be read any more: if the saved file can be opened, the first call that asks for this sheet fails. *)
Theorem C73_refused : forall (E : Env) (HH : Hashes) (file path q data0 n : string) (fs0 fs fs' : filesys) (l0 : list (string * string)) (root : tree) (ns : gmap string string)
    (x0 x1 : excel) (pre cs : list call) (c0 : call) (name : option string) (s s1 s2 : session) (w0 w : worksheet) (t : clock) (f : faults) (tr : list filesys),
  Stored fs0 file l0 -> (q, data0) ∈ l0 -> q <> content_types_name -> ~ rels_name q -> ReadsIn data0 root ns ->
  t_value root = None -> (forall x, x ∈ t_children root -> t_tag x ∈ ["dimension"; "cols"; "sheetData"; "sheetViews"]) ->
  excel_new (Some file) fs0 = Ok x0 -> of_open (x_office x0) !! q = None -> calls pre (x0, []) = Some s -> ~ Reopens pre (x0, []) q ->
  asks c0 name -> call_step c0 s = (s1, Ok tt) -> handle (length s.2) s1 = Some w0 -> ws_path w0 = q ->
  calls cs s1 = Some s2 -> handle (length s.2) s2 = Some w -> excel_save t f path s2.1 fs = (tr, Ok tt) -> last tr = Some fs' -> excel_new (Some path) fs' = Ok x1 ->
  n ∈ list_sheet_names (x_book x1) -> (forall p, LeadsTo (x1, []) n p -> p = q) ->
  (call_step (CGet n) (x1, [])).2 <> Ok tt.
Proof.
  intros E HH file path q data0 n fs0 fs fs' l0 root ns x0 x1 pre cs c0 name s s1 s2 w0 w t f tr Hst Hin Hct Hnr Hrd Hv Hall Hx Hcl Hpre Hre Ha Hc0 Hh Hq Hcs Hw Hs Hl Hx1 Hn Hone.
  destruct (got_exact _ _ _ _ _ _ _ _ _ _ _ _ _ _ Hst Hin Hct Hnr Hrd Hx Hcl Hpre Hre Ha Hc0 Hh Hq) as (I1 & N1 & N2 & p & P1 & P2 & P3). rewrite <- Hq in P1.
  destruct (held_stays cs s1 s2 _ w0 w p I1 Hh P1 Hcs Hw) as [Q1 Q2]. destruct (calls_effect _ _ _ I1 Hcs) as (I2 & _). rewrite <- Q1 in Q2.
  destruct (held_saved t f path s2 fs tr fs' _ w p I2 Hw Q2 Hs Hl) as (_ & l & data & S1 & S2 & S3). rewrite (Doc_write _ _ P2), P3 in S2. injection S2 as <-.
  assert (others sheet_tags root = []) as Ho.
  { unfold others. induction (t_children root) as [|x l' IH]; [done|]. rewrite filter_cons, decide_False; [apply IH; intros y Hy; apply Hall; by right|]. intros H. apply H, Hall. left. }
  rewrite Ho, Hv in *. destruct (read_empty_root ns _ _ N1 N2) as [m Hm]. eapply unread_refused; [exact S1|by apply S3|congruence|exact Hm|done|done|]. intros y Hy. rewrite Q1, Hq. by apply Hone.
Qed.

(** Rounds of opening a file, getting the sheet "Two", writing to it and saving: whether it was handed out, and its part in the file saved. Not released, the first
    save drops the cells of the file with the ones written; then the sheet is refused, and its part is not in the file any more. Released, the cells are there. *)
Definition held_parts `{Env} `{Hashes} : list (string * string) := with_parts [("xl/worksheets/sheet2.xml", two_data)] sound_parts.
Definition held_round `{Env} `{Hashes} (last : list call) (l0 : list (string * string)) : option (bool * option string * list (string * string)) :=
  match excel_new (Some "in") {["in" := env_zip l0]} with
  | Ok x0 => s ← calls ([CGet "Two"; CRow 0 1 1 [mkCell None (Some "v") TInline None None None None]] ++ last) (x0, []);
      l ← saved_parts (excel_save demo_clock demo_faults "a.xlsx" s.1 ∅);
      Some (match s.2 with [] => false | _ => true end && existsb (seqb "Two") (list_sheet_names (x_book x0)), part_of "xl/worksheets/sheet2.xml" l, l)
  | _ => None end.
Definition held_rounds `{Env} `{Hashes} : option (list (bool * option string)) :=
  a ← held_round [] held_parts; b ← held_round [] a.2; c ← held_round [CDrop 0] held_parts; Some [a.1; b.1; c.1].
Example C73_example : @held_rounds (demo_env Checked) value_hashes = Some
  [(true, Some ("<?xml version=""1.0"" encoding=""utf-8""?><worksheet   />"));
   (false, None);
   (true, Some ("<?xml version=""1.0"" encoding=""utf-8""?><worksheet   ><dimension ref=""A1:C3"" /><sheetViews ><sheetView workbookViewId=""0"" /></sheetViews><sheetData ><row r=""1"" ><c r=""A1"" t=""inlineStr"" ><is ><t >v</t></is></c><c r=""B1"" s=""3"" ><f >1+1</f><v >2</v></c></row><row customHeight=""1"" ht=""20"" r=""3"" ><c r=""C3"" t=""inlineStr"" ><is ><t >plain</t></is></c></row></sheetData></worksheet>"))].
Proof. vm_compute. reflexivity. Qed.

Print Assumptions C73_held.
Print Assumptions C73_exact.
Print Assumptions C73_refused.
Print Assumptions C73_example.
