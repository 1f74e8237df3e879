(** C48: the parts of a file that was opened, worked on and saved. *)
From Verif.Model Require Import Excel.
From Verif.Spec Require Import XmlSpec PackageSpec SheetSpec StyleSpec SessionSpec DemoEnv.
From Verif.Proofs Require Import BaseFacts SaveFacts KeepFacts.
Open Scope N_scope.

(** C48, workbooks. Open a file, make any calls, failing ones included, hold any handles, and save
    with success. Every part of the file opened is in the file written, or one of the calls was to
    open a sheet, failed, and found that part stored with content that is not XML. *)
Theorem C48_session : forall (E : Env) (Hs : Hashes) (fs0 fs fs' : filesys) (file path q : string) (l0 : list (string * string))
    (x0 : excel) (cs : list call) (s : session) (t : clock) (f : faults) (tr : list filesys),
  Stored fs0 file l0 -> excel_new (Some file) fs0 = Ok x0 -> calls cs (x0, []) = Some s ->
  excel_save t f path s.1 fs = (tr, Ok tt) -> last tr = Some fs' ->
  q <> content_types_name -> q ∈ l0.*1 ->
  (exists l, Stored fs' path l /\ q ∈ l.*1) \/ FailedOpen cs (x0, []) (fun s1 => Unreadable (x_office s1.1) q).
Proof.
  intros E Hs fs0 fs fs' file path q l0 x0 cs s t f tr Hst Hnew Hcs Hsave Hl Hq Hin.
  destruct (new_linv _ _ _ Hnew) as (I & o & Ho & [_ Hsafe] & _). destruct (reopened_file _ _ _ _ Hst Ho) as (_ & Hparts & _).
  apply elem_of_list_fmap in Hin as ([q' data] & -> & Hin). cbn [fst] in *. destruct (Hparts q' data Hq Hin) as (e & He & _).
  destruct (calls_effect cs _ _ I Hcs) as (I' & Hk & _). cbn [fst] in Hk.
  destruct (Hk q') as [Hp|Hp]; [apply Hsafe; right; by eexists| |by right]. left.
  destruct I' as [J1 J2 J3]. destruct (excel_kept t f path s.1 fs tr fs') as (l & L1 & L2 & _); [done| | |done|done|].
  { unfold held in J2. by apply NoDup_app in J2 as [J2 _]. }
  { intros p Hp'. apply J3. unfold held. rewrite elem_of_app. by left. }
  exists l. split; [done|]. by apply L2.
Qed.

(** C48, bytes. Under the same circumstances a part keeps its bytes, or at some time it was open,
    or a call that opens a sheet failed. *)
Theorem C48_bytes : forall (E : Env) (Hs : Hashes) (fs0 fs fs' : filesys) (file path q data : string) (l0 : list (string * string))
    (x0 : excel) (cs : list call) (s : session) (t : clock) (f : faults) (tr : list filesys),
  Stored fs0 file l0 -> excel_new (Some file) fs0 = Ok x0 -> calls cs (x0, []) = Some s ->
  excel_save t f path s.1 fs = (tr, Ok tt) -> last tr = Some fs' ->
  q <> content_types_name -> (q, data) ∈ l0 ->
  (exists l, Stored fs' path l /\ (q, data) ∈ l) \/ WasOpen cs (x0, []) q \/ FailedOpen cs (x0, []) (fun _ => True).
Proof.
  intros E Hs fs0 fs fs' file path q data l0 x0 cs s t f tr Hst Hnew Hcs Hsave Hl Hq Hin.
  destruct (new_linv _ _ _ Hnew) as (I & o & Ho & _ & Hopen). destruct (reopened_file _ _ _ _ Hst Ho) as (_ & Hparts & _).
  destruct (Hparts q data Hq Hin) as (e & He & Hb).
  destruct (Hopen q e He) as [[H1 H2]|[H1|H1]]; [|right; left; exists [], cs, (x0, []); done|done].
  destruct (calls_effect cs _ _ I Hcs) as (I' & _ & Hk). cbn [fst] in Hk.
  destruct (Hk q e H1 H2) as [[H3 H4]|[H3|H3]]; [|by right; left|by right; right]. left.
  destruct I' as [J1 J2 J3]. destruct (excel_kept t f path s.1 fs tr fs') as (l & L1 & _ & L2); [done| | |done|done|].
  { unfold held in J2. by apply NoDup_app in J2 as [J2 _]. }
  { intros p Hp'. apply J3. unfold held. rewrite elem_of_app. by left. }
  exists l. split; [done|]. apply (L2 q e); [done| |done|done|done].
  intros Hd. destruct (J3 q) as [p Hp]; [|by rewrite H3 in Hp]. unfold held. rewrite !elem_of_app. tauto.
Qed.

(** C48, documents and presentations. Open a file and save: no part is lost, and every part that
    opening the file left alone keeps its bytes. *)
Theorem C48_document : forall (E : Env) (fs0 fs fs' : filesys) (file path q data : string) (l0 : list (string * string))
    (x : suite) (t : clock) (f : faults) (tr : list filesys),
  Stored fs0 file l0 -> suite_new (Some file) fs0 = Ok x ->
  suite_save t f path x fs = (tr, Ok tt) -> last tr = Some fs' ->
  q <> content_types_name -> (q, data) ∈ l0 ->
  exists l data', Stored fs' path l /\ (q, data') ∈ l /\ (of_open (su_office x) !! q = None -> data' = data).
Proof.
  intros E fs0 fs fs' file path q data l0 x t f tr Hst Hnew Hsave Hl Hq Hin.
  destruct (opens_suite _ _ _ Hnew) as (o & Ho & He & O). destruct (reopened_file _ _ _ _ Hst Ho) as (_ & Hparts & _).
  destruct (Hparts q data Hq Hin) as (e & Hqe & Hb).
  destruct (suite_kept t f path x fs tr fs' (op_docs _ _ _ O) Hsave Hl) as (l & L1 & L2 & L3). exists l.
  destruct (of_open (su_office x) !! q) as [p|] eqn:Ep.
  - assert (q ∈ l.*1) as Hl1. { apply L2; [done|]. left. by eexists. }
    apply elem_of_list_fmap in Hl1 as ([q' d'] & -> & Hl1). exists d'. split; [done|]. split; [done|]. cbn [fst]. discriminate.
  - exists data. split; [done|]. split; [|done].
    assert (q ∉ DocsIn x) as Hd. { intros Hd. destruct (proj2 (op_open _ _ _ O q) (or_intror Hd)) as [? Hs]. by rewrite Ep in Hs. }
    apply (L3 q e); [done|done|done| |done]. by rewrite (op_rest _ _ _ O); [|done|rewrite He].
Qed.

(** The file of the examples: a workbook with two sheets as the library writes it and a picture.
    The library refuses self-closed roots (see C34), so these are written out, except, unless
    [all], those of the relationships of sheets. *)
Definition demo_clock : clock := mkClock "1" "2" "3" "4".
Definition demo_faults : faults := mkFaults false false None [].
Definition saved_parts `{Env} (r : list filesys * res unit) : option (list (string * string)) :=
  match r.2, last r.1 with
  | Ok _, Some fs => b ← fs !! "a.xlsx"; env_unzip b
  | _, _ => None
  end.
Definition demo_parts `{Env} `{Hashes} (all : bool) : list (string * string) :=
  match excel_new None ∅ with
  | Ok x0 => match calls [CAdd (Some "Two"); CDrop 0] (x0, []) with
    | Some s => match saved_parts (excel_save demo_clock demo_faults "a.xlsx" s.1 ∅) with
      | Some l => map (fun nd : string * string =>
            if seqb nd.1 "xl/calcChain.xml" then (nd.1, "<calcChain></calcChain>")
            else if seqb nd.1 "xl/sharedStrings.xml" then (nd.1, "<sst></sst>")
            else if starts_with "xl/worksheets/_rels/" nd.1 && all then (nd.1, "<Relationships></Relationships>") else nd) l
          ++ [("xl/media/image1.png", String (ascii_of_N 137) (String (ascii_of_N 0) "PNG"))]
      | None => [] end
    | None => [] end
  | _ => [] end.
Definition names (l : list (string * string)) : list string := map fst l.
Definition subset (a b : list string) : bool := forallb (fun x => existsb (seqb x) b) a.
Definition same_part (q : string) (a b : list (string * string)) : bool :=
  bool_decide (List.find (fun x => seqb x.1 q) a = List.find (fun x => seqb x.1 q) b).
(** What becomes of the parts in a session: the names and contents before and after, and whether
    the last of the calls failed. *)
Definition demo_session `{Env} `{Hashes} (all : bool) (cs : list call) : option (list (string * string) * list (string * string) * list bool) :=
  let l0 := demo_parts all in
  match excel_new (Some "in") {["in" := env_zip l0]} with
  | Ok x0 => s ← calls cs (x0, []);
      l ← saved_parts (excel_save demo_clock demo_faults "a.xlsx" s.1 ∅);
      let rs := map (fun k => match calls (take k cs) (x0, []) with
        | Some s1 => match nth_error cs k with Some c => match (call_step c s1).2 with Ok _ => true | _ => false end | None => true end
        | None => true end) (seq 0 (length cs)) in
      Some (l0, l, rs)
  | _ => None end.
(** All sheets are read, one is written to and released, the save succeeds: the parts are those
    of the file opened, and the picture keeps its bytes. *)
Example C48_example : let E := demo_env Checked in let Hs := value_hashes in
  match demo_session true [CGet "Two"; CGet "sheet1"; CRow 0 1 1 [mkCell None (Some "v") TInline None None None None]; CDrop 0] with
  | Some (l0, l, rs) => subset (names l0) (names l) && same_part "xl/media/image1.png" l0 l && negb (same_part "xl/worksheets/sheet2.xml" l0 l)
      && (12 <? length l0)%nat && forallb id rs
  | None => false end = true.
Proof. vm_compute. reflexivity. Qed.

(** A document with a part of its own, opened and saved. *)
Definition demo_document `{Env} : option (list (string * string) * list (string * string)) :=
  match suite_new None ∅ with
  | Ok x0 =>
      l0 ← saved_parts (suite_save demo_clock demo_faults "a.xlsx" x0 ∅);
      let l1 := l0 ++ [("word/document.xml", "<w:document/>")] in
      match suite_new (Some "in") {["in" := env_zip l1]} with
      | Ok x => l ← saved_parts (suite_save (mkClock "5" "6" "7" "8") demo_faults "a.xlsx" x ∅); Some (l1, l)
      | _ => None end
  | _ => None end.
Example C48_document_example : let E := demo_env Checked in
  match demo_document with
  | Some (l0, l) => subset (names l0) (names l) && same_part "word/document.xml" l0 l && negb (same_part "docProps/core.xml" l0 l)
  | None => false end = true.
Proof. vm_compute. reflexivity. Qed.

(** C48, what one would want and what does not hold: a part is never lost. The relationships of
    the second sheet are stored as the library writes them when there are none. Asking for that sheet
    fails. The save that follows succeeds and writes a file without them. *)
Definition lost_check `{Env} `{Hashes} (l0 : list (string * string)) (name q : string) : bool :=
  match env_unzip (env_zip l0) with
  | Some l1 =>
    match excel_new (Some "in") {["in" := env_zip l0]} with
    | Ok x0 =>
      match calls [CGet name] (x0, []), (call_step (CGet name) (x0, [])).2 with
      | Some s, Err _ =>
        match saved_parts (excel_save demo_clock demo_faults "a.xlsx" s.1 ∅) with
        | Some l => existsb (seqb q) (names l1) && negb (existsb (seqb q) (names l)) && existsb (seqb name) (list_sheet_names (x_book s.1))
        | None => false end
      | _, _ => false end
    | _ => false end
  | None => false end.
Theorem C48_failed_open_refuted : exists (E : Env) (Hs : Hashes) (fs0 fs fs' : filesys) (file path q name e : string) (l0 l : list (string * string))
    (x0 : excel) (s : session) (t : clock) (f : faults) (tr : list filesys),
  Stored fs0 file l0 /\ excel_new (Some file) fs0 = Ok x0 /\ call_step (CGet name) (x0, []) = (s, Err e)
  /\ excel_save t f path s.1 fs = (tr, Ok tt) /\ last tr = Some fs' /\ Stored fs' path l
  /\ q ∈ l0.*1 /\ q ∉ l.*1 /\ name ∈ list_sheet_names (x_book s.1).
Proof.
  exists (demo_env Checked), value_hashes.
  assert (@lost_check (demo_env Checked) value_hashes (@demo_parts (demo_env Checked) value_hashes false) "Two" "xl/worksheets/_rels/sheet2.xml.rels" = true) as Hc.
  { vm_compute. reflexivity. }
  revert Hc. generalize (demo_env Checked), value_hashes. intros E Hs. generalize (demo_parts false), "Two", "xl/worksheets/_rels/sheet2.xml.rels". intros l0 name q.
  unfold lost_check. destruct (env_unzip _) as [l1|] eqn:Eu; [|done]. destruct (excel_new _ _) as [x0| |] eqn:En; [|done..].
  destruct (calls _ _) as [s|] eqn:Ec; [|done]. cbn [calls] in Ec. destruct (call_step _ _) as [s1 r] eqn:Es. cbn [snd]. destruct r as [[]|e|e]; [done| |done].
  injection Ec as ->. unfold saved_parts. destruct (excel_save _ _ _ _ _) as [tr r] eqn:Ev. cbn [fst snd].
  destruct r as [[]|r|r]; [|done..]. destruct (last tr) as [fs'|] eqn:El; [|done].
  destruct (fs' !! "a.xlsx") as [b|] eqn:Eb; cbn; [|done]. destruct (env_unzip b) as [l|] eqn:Eub; [|done].
  rewrite !andb_true_iff, negb_true_iff. intros [[H1 H2] H3].
  assert (forall (x : string) k, existsb (seqb x) k = true <-> x ∈ k) as Hex.
  { intros x k. rewrite existsb_exists. setoid_rewrite <- elem_of_list_In. unfold seqb. split; [intros (y & Hy & Heq); by apply String.eqb_eq in Heq as ->|intros Hy; exists x; split; [done|apply String.eqb_refl]]. }
  exists {["in" := env_zip l0]}, ∅, fs', "in", "a.xlsx", q, name, e, l1, l, x0, s, demo_clock, demo_faults, tr.
  split. { exists (env_zip l0). by rewrite lookup_singleton. }
  do 4 (split; [done|]). split; [by exists b|]. split; [by apply Hex|]. split; [|by apply Hex].
  intros Hin. apply Hex in Hin. unfold names in H2. change (map fst l) with (l.*1) in H2. by rewrite Hin in H2.
Qed.

Print Assumptions C48_session.
Print Assumptions C48_bytes.
Print Assumptions C48_document.
Print Assumptions C48_example.
Print Assumptions C48_document_example.
Print Assumptions C48_failed_open_refuted.
