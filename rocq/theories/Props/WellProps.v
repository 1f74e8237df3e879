(** C50: what is written is XML. *)
From Verif.Model Require Import Excel.
From Verif.Spec Require Import XmlSpec XmlRepr PackageSpec StyleSpec SessionSpec WellSpec DemoEnv.
From Verif.Proofs Require Import BaseFacts SaveFacts WellFacts.
Open Scope N_scope.

(** C50, new workbooks. Whatever calls are made, with whatever texts, names, formulas and
    references, failing calls included, every part of a file saved with success is well-formed. *)
Theorem C50_new : forall (E : Env) (Hs : Hashes) (fs0 fs fs' : filesys) (path : string) (x0 : excel) (cs : list call) (s : session)
    (t : clock) (f : faults) (tr : list filesys),
  excel_new None fs0 = Ok x0 -> calls cs (x0, []) = Some s -> excel_save t f path s.1 fs = (tr, Ok tt) -> last tr = Some fs' ->
  exists l, Stored fs' path l /\ Forall (fun nd => WellFormed nd.2) l.
Proof.
  intros E Hs fs0 fs fs' path x0 cs s t f tr Hnew Hcs Hsave Hl.
  assert (forall q data : string, False -> Ordinary data) as Hord by done.
  pose proof (excel_new_inv (fun _ _ => False) Hord None fs0 x0 I Hnew) as Ho. apply (calls_inv _ Hord cs (x0, []) s Ho) in Hcs.
  destruct (excel_save_inv _ t f path s.1 fs tr fs' Hcs Hsave Hl) as (l & H1 & H2). exists l. split; [done|].
  apply Forall_forall. intros [q data] Hin. destruct (H2 q data Hin) as [[]|H]. by apply fine_formed.
Qed.

(** C50, opened workbooks. If the parts of the file that can be read are ordinary, every part
    of the file written has the bytes it had or is well-formed. *)
Theorem C50_opened : forall (E : Env) (Hs : Hashes) (fs0 fs fs' : filesys) (file path : string) (l0 : list (string * string))
    (x0 : excel) (cs : list call) (s : session) (t : clock) (f : faults) (tr : list filesys),
  Stored fs0 file l0 -> Forall (fun nd => Ordinary nd.2) l0 ->
  excel_new (Some file) fs0 = Ok x0 -> calls cs (x0, []) = Some s -> excel_save t f path s.1 fs = (tr, Ok tt) -> last tr = Some fs' ->
  exists l, Stored fs' path l /\ Forall (fun nd => nd ∈ l0 \/ WellFormed nd.2) l.
Proof.
  intros E Hs fs0 fs fs' file path l0 x0 cs s t f tr Hst Hf Hnew Hcs Hsave Hl. rewrite Forall_forall in Hf.
  assert (forall q data : string, (q, data) ∈ l0 -> Ordinary data) as Hord by (intros q data Hq; apply (Hf (q, data) Hq)).
  pose proof (excel_new_inv _ Hord (Some file) fs0 x0 (fun o => opened_inv _ _ _ o Hst) Hnew) as Ho. apply (calls_inv _ Hord cs (x0, []) s Ho) in Hcs.
  destruct (excel_save_inv _ t f path s.1 fs tr fs' Hcs Hsave Hl) as (l & H1 & H2). exists l. split; [done|].
  apply Forall_forall. intros [q data] Hin. destruct (H2 q data Hin) as [H|H]; [by left|right; by apply fine_formed].
Qed.

(** C50, documents and presentations: new ones, and opened ones. *)
Theorem C50_document : forall (E : Env) (fs0 fs fs' : filesys) (file : option string) (path : string) (l0 : list (string * string))
    (x : suite) (t : clock) (f : faults) (tr : list filesys),
  match file with Some p => Stored fs0 p l0 | None => l0 = [] end -> Forall (fun nd => Ordinary nd.2) l0 ->
  suite_new file fs0 = Ok x -> suite_save t f path x fs = (tr, Ok tt) -> last tr = Some fs' ->
  exists l, Stored fs' path l /\ Forall (fun nd => nd ∈ l0 \/ WellFormed nd.2) l.
Proof.
  intros E fs0 fs fs' file path l0 x t f tr Hst Hf Hnew Hsave Hl. rewrite Forall_forall in Hf.
  assert (forall q data : string, (q, data) ∈ l0 -> Ordinary data) as Hord by (intros q data Hq; apply (Hf (q, data) Hq)).
  assert (match file with Some _ => forall o, office_new file fs0 = Ok o -> OInv (fun q data => (q, data) ∈ l0) o | None => True end) as Hi.
  { destruct file as [p|]; [|done]. intros o. by apply opened_inv. }
  pose proof (suite_new_inv _ Hord file fs0 x Hi Hnew) as Ho.
  destruct (suite_save_inv _ t f path x fs tr fs' Ho Hsave Hl) as (l & H1 & H2). exists l. split; [done|].
  apply Forall_forall. intros [q data] Hin. destruct (H2 q data Hin) as [H|H]; [by left|right; by apply fine_formed].
Qed.

(** A new workbook with markup in the name of a sheet, in a text and in a formula. *)
Definition demo_clock : clock := mkClock "1" "2" "3" "4".
Definition demo_faults : faults := mkFaults false false None [].
Definition saved_parts `{Env} (r : list filesys * res unit) : option (list (string * string)) :=
  match r.2, last r.1 with
  | Ok _, Some fs => b ← fs !! "a.xlsx"; env_unzip b
  | _, _ => None
  end.
Definition session_parts `{Env} `{Hashes} (file : option string) (fs : filesys) (cs : list call) : option (list (string * string)) :=
  match excel_new file fs with
  | Ok x0 => s ← calls cs (x0, []); saved_parts (excel_save demo_clock demo_faults "a.xlsx" s.1 ∅)
  | _ => None end.
Fixpoint has (p s : string) : bool :=
  starts_with p s || match s with String _ s => has p s | EmptyString => false end.
Definition part_has (q p : string) (l : list (string * string)) : bool := existsb (fun nd => seqb nd.1 q && has p nd.2) l.
Definition nasty_calls : list call :=
  [CAdd (Some "</sheets>&""'"); CRow 0 1 1 [mkCell None (Some "<v>") TInline None None None None; mkCell (Some "A1<B1") (Some "]]>") TShared None None None None]; CDrop 0].
Example C50_example : let E := demo_env Checked in let Hs := value_hashes in
  match session_parts None ∅ nasty_calls with
  | Some l => part_has "xl/workbook.xml" "<sheet name=""&lt;/sheets&gt;&amp;&quot;&apos;"" " l
      && part_has "xl/worksheets/sheet2.xml" "<f >A1&lt;B1</f>" l && part_has "xl/sharedStrings.xml" "<t >]]&gt;</t>" l && (11 <? length l)%nat
  | None => false end = true.
Proof. vm_compute. reflexivity. Qed.
(** The same file opened again, with the self-closed roots written out, and changed. *)
Definition nasty_parts `{Env} `{Hashes} : list (string * string) :=
  match session_parts None ∅ nasty_calls with
  | Some l => map (fun nd : string * string => if seqb nd.1 "xl/calcChain.xml" then (nd.1, "<calcChain></calcChain>")
      else if starts_with "xl/worksheets/_rels/" nd.1 then (nd.1, "<Relationships></Relationships>") else nd) l
  | None => [] end.
Lemma ordinary_list `{Env} l : forallb (fun nd : string * string => ordinaryb nd.2) l = true -> Forall (fun nd => Ordinary nd.2) l.
Proof. rewrite forallb_forall. intros Hb. apply Forall_forall. intros nd Hnd. apply ordinaryb_ok, Hb. by apply elem_of_list_In. Qed.
Example C50_ordinary_example : Forall (fun nd => @Ordinary (demo_env Checked) nd.2) (@nasty_parts (demo_env Checked) value_hashes).
Proof. apply ordinary_list. vm_compute. reflexivity. Qed.
Example C50_opened_example : let E := demo_env Checked in let Hs := value_hashes in
  match session_parts (Some "in") {["in" := env_zip nasty_parts]} [CGet "sheet1"; CRow 0 1 1 [mkCell None (Some "&") TInline None None None None]; CDrop 0] with
  | Some l => part_has "xl/worksheets/sheet1.xml" "<t >&amp;</t>" l && (11 <? length l)%nat
  | None => false end = true.
Proof. vm_compute. reflexivity. Qed.

(** C50, what one would want and what does not hold: whatever file was opened. A part declares a
    namespace in single quotes, with a double quote inside. The file written has the name between
    double quotes. *)
Lemma session_saved `{Env} `{Hashes} file fs cs l : session_parts file fs cs = Some l ->
  exists x0 s tr fs', excel_new file fs = Ok x0 /\ calls cs (x0, []) = Some s /\ excel_save demo_clock demo_faults "a.xlsx" s.1 ∅ = (tr, Ok tt)
  /\ last tr = Some fs' /\ Stored fs' "a.xlsx" l.
Proof.
  unfold session_parts. destruct (excel_new file fs) as [x0| |] eqn:En; [|done..]. destruct (calls cs _) as [s|] eqn:Ec; cbn [mbind option_bind]; [|done].
  unfold saved_parts. destruct (excel_save _ _ _ _ _) as [tr r] eqn:Ev. cbn [fst snd]. destruct r as [[]|r|r]; [|done..].
  destruct (last tr) as [fs'|] eqn:El; [|done]. destruct (fs' !! "a.xlsx") as [c|] eqn:Eb; cbn [mbind option_bind]; [|done]. intros Hu.
  exists x0, s, tr, fs'. do 4 (split; [done|]). by exists c.
Qed.
Definition quoted_parts `{Env} `{Hashes} : list (string * string) :=
  map (fun nd : string * string => if seqb nd.1 "xl/theme/theme1.xml" then (nd.1, "<a:theme xmlns:a='x""y'></a:theme>") else nd) nasty_parts.
Definition has_bad (bad : string -> bool) (l0 l : list (string * string)) : bool :=
  existsb (fun nd : string * string => negb (existsb (fun x : string * string => seqb x.2 nd.2) l0) && bad nd.2) l.
Lemma has_bad_in bad l0 l : has_bad bad l0 l = true -> exists nd, nd ∈ l /\ nd ∉ l0 /\ bad nd.2 = true.
Proof.
  unfold has_bad. intros Hb. apply existsb_exists in Hb as (x & H1 & H2). apply andb_true_iff in H2 as [H2 H3]. exists x.
  split; [by apply elem_of_list_In|]. split; [|done]. intros Hin. apply negb_true_iff in H2.
  assert (existsb (fun y : string * string => seqb y.2 x.2) l0 = true) as Ht; [|congruence]. apply existsb_exists. exists x. split; [by apply elem_of_list_In|apply String.eqb_refl].
Qed.
Definition bad_opened `{Env} `{Hashes} (bad : string -> bool) (l0 : list (string * string)) (cs : list call) : bool :=
  match env_unzip (env_zip l0), session_parts (Some "in") {["in" := env_zip l0]} cs with
  | Some l1, Some l => bool_decide (l1 = l0) && has_bad bad l0 l
  | _, _ => false end.
Lemma bad_opened_in `{Env} `{Hashes} bad l0 cs : bad_opened bad l0 cs = true -> exists l nd x0 s tr fs',
  Stored {["in" := env_zip l0]} "in" l0 /\ excel_new (Some "in") {["in" := env_zip l0]} = Ok x0 /\ calls cs (x0, []) = Some s
  /\ excel_save demo_clock demo_faults "a.xlsx" s.1 ∅ = (tr, Ok tt) /\ last tr = Some fs' /\ Stored fs' "a.xlsx" l /\ nd ∈ l /\ nd ∉ l0 /\ bad nd.2 = true.
Proof.
  unfold bad_opened. destruct (env_unzip (env_zip l0)) as [l1|] eqn:Eu; [|done]. destruct (session_parts _ _ _) as [l|] eqn:Es; [|done].
  rewrite andb_true_iff, bool_decide_eq_true. intros [-> Hb]. apply has_bad_in in Hb as (nd & H1 & H2 & H3).
  destruct (session_saved _ _ _ _ Es) as (x0 & s & tr & fs' & J1 & J2 & J3 & J4 & J5). exists l, nd, x0, s, tr, fs'.
  split; [exists (env_zip l0); by rewrite lookup_singleton|]. done.
Qed.
Definition bad_new `{Env} `{Hashes} (bad : string -> bool) (cs : list call) : bool :=
  match session_parts None ∅ cs with Some l => has_bad bad [] l | None => false end.
Lemma bad_new_in `{Env} `{Hashes} bad cs : bad_new bad cs = true -> exists l nd x0 s tr fs',
  excel_new None ∅ = Ok x0 /\ calls cs (x0, []) = Some s
  /\ excel_save demo_clock demo_faults "a.xlsx" s.1 ∅ = (tr, Ok tt) /\ last tr = Some fs' /\ Stored fs' "a.xlsx" l /\ nd ∈ l /\ bad nd.2 = true.
Proof.
  unfold bad_new. destruct (session_parts _ _ _) as [l|] eqn:Es; [|done]. intros Hb. apply has_bad_in in Hb as (nd & H1 & _ & H3).
  destruct (session_saved _ _ _ _ Es) as (x0 & s & tr & fs' & J1 & J2 & J3 & J4 & J5). by exists l, nd, x0, s, tr, fs'.
Qed.
Theorem C50_namespace_refuted : exists (E : Env) (Hs : Hashes) (fs0 fs' : filesys) (file path : string) (l0 l : list (string * string)) (nd : string * string)
    (x0 : excel) (s : session) (t : clock) (f : faults) (tr : list filesys),
  Stored fs0 file l0 /\ excel_new (Some file) fs0 = Ok x0 /\ calls [] (x0, []) = Some s /\ excel_save t f path s.1 ∅ = (tr, Ok tt) /\ last tr = Some fs'
  /\ Stored fs' path l /\ nd ∈ l /\ nd ∉ l0 /\ ~ WellFormed nd.2.
Proof.
  exists (demo_env Checked), value_hashes.
  assert (@bad_opened (demo_env Checked) value_hashes oddq (@quoted_parts (demo_env Checked) value_hashes) [] = true) as Hc by (vm_compute; reflexivity).
  destruct (@bad_opened_in (demo_env Checked) value_hashes _ _ _ Hc) as (l & nd & x0 & s & tr & fs' & H1 & H2 & H3 & H4 & H5 & H6 & H7 & H8 & H9).
  eexists _, fs', "in", "a.xlsx", _, l, nd, x0, s, _, _, tr. do 8 (split; [eassumption|]). clear - H9.
  intros Hw. apply formed_pairs in Hw. rewrite H9 in Hw. discriminate Hw.
Qed.
(** Nor is every character of what is written a character of XML: a control character given as
    text is written as it is. *)
Definition forbidden (a : ascii) : bool :=
  let c := N_of_ascii a in (c <? 32) && negb (c =? 9) && negb (c =? 10) && negb (c =? 13).
Definition control_calls : list call :=
  [CAdd None; CRow 0 1 1 [mkCell None (Some (String (ascii_of_N 1) "")) TInline None None None None]; CDrop 0].
Theorem C50_control_refuted : exists (E : Env) (Hs : Hashes) (fs' : filesys) (path : string) (l : list (string * string)) (nd : string * string)
    (x0 : excel) (cs : list call) (s : session) (t : clock) (f : faults) (tr : list filesys),
  excel_new None ∅ = Ok x0 /\ calls cs (x0, []) = Some s /\ excel_save t f path s.1 ∅ = (tr, Ok tt) /\ last tr = Some fs'
  /\ Stored fs' path l /\ nd ∈ l /\ sexists forbidden nd.2 = true.
Proof.
  exists (demo_env Checked), value_hashes.
  assert (@bad_new (demo_env Checked) value_hashes (sexists forbidden) control_calls = true) as Hc by (vm_compute; reflexivity).
  destruct (@bad_new_in (demo_env Checked) value_hashes _ _ Hc) as (l & nd & x0 & s & tr & fs' & H1 & H2 & H3 & H4 & H5 & H6 & H7).
  eexists fs', "a.xlsx", l, nd, x0, _, s, _, _, tr. do 6 (split; [eassumption|]). exact H7.
Qed.

Print Assumptions C50_new.
Print Assumptions C50_opened.
Print Assumptions C50_document.
Print Assumptions C50_example.
Print Assumptions C50_ordinary_example.
Print Assumptions C50_opened_example.
Print Assumptions C50_namespace_refuted.
Print Assumptions C50_control_refuted.
