(** C71: which parts the file has that a workbook, opened from a file and worked on, is saved to. *)
From Verif.Model Require Import Excel.
From Verif.Spec Require Import XmlSpec PackageSpec SheetSpec StyleSpec SessionSpec FlowSpec ReopenSpec GrowSpec DemoEnv.
From Verif.Proofs Require Import BaseFacts SaveFacts KeepFacts InventoryFacts GrowFacts.
From Verif.Props Require Import KeepProps.
Open Scope N_scope.

(** C71. No name is in the saved file twice. Every part of it is the content types, a part of the file opened, one of the eight parts every
    workbook has, or the part of a sheet that one of the calls asked for or of its relationships. *)
Theorem C71_parts : forall (E : Env) (HH : Hashes) (fs0 fs fs' : filesys) (file path : string) (l0 : list (string * string)) (x0 : excel) (cs : list call) (s : session) (t : clock) (f : faults) (tr : list filesys),
  Stored fs0 file l0 -> excel_new (Some file) fs0 = Ok x0 -> calls cs (x0, []) = Some s -> excel_save t f path s.1 fs = (tr, Ok tt) -> last tr = Some fs' ->
  exists l, Stored fs' path l /\ NoDup l.*1 /\ content_types_name ∈ l.*1
    /\ forall q, q ∈ l.*1 -> q = content_types_name \/ q ∈ l0.*1 \/ q ∈ basic_parts x0 ++ other_parts x0 \/ exists p, AskedFor cs (x0, []) p /\ (q = p \/ Beside p q).
Proof.
  intros E HH fs0 fs fs' file path l0 x0 cs s t f tr Hst Hn Hc Hs Hl. destruct (opened_file_saved _ _ _ _ _ _ _ _ _ _ _ _ Hst Hn Hc Hs Hl) as (l & L1 & L2 & L3 & L4).
  destruct (opened_calls _ _ _ _ _ _ Hst Hn Hc) as (ps & P1 & _ & P3 & _). exists l. split_and!; [done..|]. intros q Hq. destruct (decide (q = content_types_name)) as [|Hne]; [by left|right].
  apply (L4 q Hne) in Hq. destruct (P1 q Hne Hq) as [|[|H]]; auto.
Qed.
(** C71. If no call that asks for a sheet fails, this is exact: with the sheets handed out in place of those asked for. *)
Theorem C71_exact : forall (E : Env) (HH : Hashes) (fs0 fs fs' : filesys) (file path : string) (l0 : list (string * string)) (x0 : excel) (cs : list call) (s : session) (t : clock) (f : faults) (tr : list filesys),
  Stored fs0 file l0 -> excel_new (Some file) fs0 = Ok x0 -> calls cs (x0, []) = Some s -> excel_save t f path s.1 fs = (tr, Ok tt) -> last tr = Some fs' ->
  ~ FailedOpen cs (x0, []) (fun _ => True) ->
  exists l, Stored fs' path l /\ NoDup l.*1
    /\ forall q, q ∈ l.*1 <-> q = content_types_name \/ q ∈ l0.*1 \/ q ∈ basic_parts x0 ++ other_parts x0 \/ exists w, HandedOut cs (x0, []) w /\ (q = ws_path w \/ Beside (ws_path w) q).
Proof.
  intros E HH fs0 fs fs' file path l0 x0 cs s t f tr Hst Hn Hc Hs Hl Hf. destruct (opened_file_saved _ _ _ _ _ _ _ _ _ _ _ _ Hst Hn Hc Hs Hl) as (l & L1 & L2 & L3 & L4).
  destruct (opened_calls _ _ _ _ _ _ Hst Hn Hc) as (ps & P1 & _ & _ & P4). exists l. split_and!; [done..|]. intros q. destruct (decide (q = content_types_name)) as [->|Hne]; [tauto|]. rewrite (L4 q Hne). split.
  - intros Hq. right. destruct (P1 q Hne Hq) as [|[|H]]; [tauto|tauto|]. right; right. by apply P4.
  - intros [|H]; [done|]. by apply (opened_kept _ _ _ _ _ _ _ Hst Hn Hc Hf Hne).
Qed.
(** C71. If the file opened has the parts every workbook has, and a sheet and its relationships for every sheet that is handed out, and no
    call that asks for a sheet fails, then the file saved has the same parts. *)
Theorem C71_same : forall (E : Env) (HH : Hashes) (fs0 fs fs' : filesys) (file path : string) (l0 : list (string * string)) (x0 : excel) (cs : list call) (s : session) (t : clock) (f : faults) (tr : list filesys),
  Stored fs0 file l0 -> excel_new (Some file) fs0 = Ok x0 -> calls cs (x0, []) = Some s -> excel_save t f path s.1 fs = (tr, Ok tt) -> last tr = Some fs' ->
  ~ FailedOpen cs (x0, []) (fun _ => True) -> NoDup l0.*1 -> content_types_name ∈ l0.*1 -> (forall q, q ∈ basic_parts x0 ++ other_parts x0 -> q ∈ l0.*1) ->
  (forall w q, HandedOut cs (x0, []) w -> q = ws_path w \/ Beside (ws_path w) q -> q ∈ l0.*1) ->
  exists l, Stored fs' path l /\ l.*1 ≡ₚ l0.*1.
Proof.
  intros E HH fs0 fs fs' file path l0 x0 cs s t f tr Hst Hn Hc Hs Hl Hf Hnd Hct Hown Hw. destruct (C71_exact E HH _ _ _ _ _ _ _ _ _ _ _ _ Hst Hn Hc Hs Hl Hf) as (l & L1 & L2 & L3).
  exists l. split; [done|]. apply NoDup_Permutation; [done|done|]. intros q. rewrite L3. split; [|tauto]. intros [->|[|[|(w & H1 & H2)]]]; [done|done|by apply Hown|by eapply Hw].
Qed.
(** C71. If no call asks for a sheet, the workbook adds nothing of its own but what every workbook has. *)
Theorem C71_quiet : forall (E : Env) (HH : Hashes) (fs0 fs fs' : filesys) (file path : string) (l0 : list (string * string)) (x0 : excel) (cs : list call) (s : session) (t : clock) (f : faults) (tr : list filesys),
  Stored fs0 file l0 -> excel_new (Some file) fs0 = Ok x0 -> calls cs (x0, []) = Some s -> excel_save t f path s.1 fs = (tr, Ok tt) -> last tr = Some fs' ->
  Forall (fun c => ~ opens c) cs ->
  exists l, Stored fs' path l /\ NoDup l.*1 /\ forall q, q ∈ l.*1 <-> q = content_types_name \/ q ∈ l0.*1 \/ q ∈ basic_parts x0 ++ other_parts x0.
Proof.
  intros E HH fs0 fs fs' file path l0 x0 cs s t f tr Hst Hn Hc Hs Hl Hq. assert (forall cs1 c cs2, cs = cs1 ++ c :: cs2 -> ~ opens c) as Hno. { intros cs1 c cs2 ->. by apply Forall_app in Hq as [_ [Hq _]%Forall_cons]. }
  destruct (C71_exact E HH _ _ _ _ _ _ _ _ _ _ _ _ Hst Hn Hc Hs Hl) as (l & L1 & L2 & L3). { intros (cs1 & c & cs2 & s1 & e & Hcs & _ & Ho & _). by eapply Hno. }
  exists l. split_and!; [done..|]. intros q. rewrite L3. split; [|tauto]. intros [|[|[|(w & (cs1 & c & cs2 & s1 & s2 & Hcs & _ & Ho & _) & _)]]]; [tauto..|]. by destruct (Hno _ _ _ Hcs).
Qed.
(** C71. A call that asks for a sheet adds two parts at most. *)
Theorem C71_count : forall (E : Env) (HH : Hashes) (fs0 fs fs' : filesys) (file path : string) (l0 : list (string * string)) (x0 : excel) (cs : list call) (s : session) (t : clock) (f : faults) (tr : list filesys),
  Stored fs0 file l0 -> excel_new (Some file) fs0 = Ok x0 -> calls cs (x0, []) = Some s -> excel_save t f path s.1 fs = (tr, Ok tt) -> last tr = Some fs' ->
  exists l, Stored fs' path l /\ (length l <= length l0 + 9 + 2 * asking cs)%nat.
Proof.
  intros E HH fs0 fs fs' file path l0 x0 cs s t f tr Hst Hn Hc Hs Hl. destruct (opened_file_saved _ _ _ _ _ _ _ _ _ _ _ _ Hst Hn Hc Hs Hl) as (l & L1 & L2 & L3 & L4).
  destruct (opened_calls _ _ _ _ _ _ Hst Hn Hc) as (ps & P1 & P2 & _). exists l. split; [done|].
  assert (l.*1 ⊆+ content_types_name :: l0.*1 ++ (basic_parts x0 ++ other_parts x0) ++ ps) as Hsub.
  { apply NoDup_submseteq; [done|]. intros q Hq. rewrite elem_of_cons, !(elem_of_app _ (_ ++ _)), elem_of_app. destruct (decide (q = content_types_name)) as [|Hne]; [by left|right]. apply (L4 q Hne) in Hq.
    rewrite !elem_of_app. destruct (P1 q Hne Hq) as [|[H|]]; [tauto| |tauto]. apply elem_of_app in H. tauto. }
  apply submseteq_length in Hsub. cbn [length] in Hsub. rewrite !app_length, !fmap_length in Hsub. cbn [basic_parts other_parts length] in Hsub. lia.
Qed.
(** C71, documents and presentations: they add the content types, the root relationships and the core properties, and nothing else. *)
Theorem C71_document : forall (E : Env) (fs0 fs fs' : filesys) (file path : string) (l0 : list (string * string)) (x : suite) (t : clock) (f : faults) (tr : list filesys),
  Stored fs0 file l0 -> suite_new (Some file) fs0 = Ok x -> suite_save t f path x fs = (tr, Ok tt) -> last tr = Some fs' ->
  exists l, Stored fs' path l /\ NoDup l.*1 /\ forall q, q ∈ l.*1 <-> q = content_types_name \/ q ∈ l0.*1 \/ q = root_part \/ q = su_core x.
Proof.
  intros E fs0 fs fs' file path l0 x t f tr Hst Hn Hs Hl. destruct (opens_suite _ _ _ Hn) as (o & Ho & He & O). destruct (opened_suite _ _ _ Hn) as (o' & Ho' & Hp). rewrite Ho in Ho'. injection Ho' as <-.
  destruct (suite_kept t f path x fs tr fs' (op_docs _ _ _ O) Hs Hl) as (l & L1 & L2 & _). exists l. split; [done|].
  destruct (suite_names _ _ _ _ _ _ _ _ (fun q Hq => proj2 (op_open _ _ _ O q) (or_intror Hq)) Hs Hl L1) as (N1 & N2 & N3). split; [done|]. intros q.
  destruct (decide (q = content_types_name)) as [->|Hne]; [tauto|]. specialize (Hp q). rewrite (stored_names _ _ _ _ _ Hst Ho Hne) in Hp. split.
  - intros Hq. destruct (N3 q Hq); tauto.
  - intros [|H]; [done|]. apply L2; [done|]. tauto.
Qed.

(** The file of the examples of C48 without the relationships of its second sheet. *)
Definition bare_parts `{Env} `{Hashes} : list (string * string) := List.filter (fun nd => negb (seqb nd.1 "xl/worksheets/_rels/sheet2.xml.rels")) (demo_parts true).
Definition grow_check `{Env} `{Hashes} (l0 : list (string * string)) (cs : list call) (extra : list string) : bool :=
  match env_unzip (env_zip l0) with
  | Some l1 =>
    match excel_new (Some "in") {["in" := env_zip l0]} with
    | Ok x0 =>
      match calls cs (x0, []) with
      | Some s =>
        match saved_parts (excel_save demo_clock demo_faults "a.xlsx" s.1 ∅) with
        | Some l => subset (names l) (names l1 ++ extra) && subset (names l1 ++ extra) (names l) && forallb (fun q => negb (existsb (seqb q) (names l1))) extra
            && subset (content_types_name :: basic_parts x0 ++ other_parts x0) (names l1)
        | None => false end
      | None => false end
    | _ => false end
  | None => false end.
(** A sheet of the file is worked on: no part is added if its relationships are there. Looking at the list of sheets and renaming one adds none.
    A new sheet adds two. *)
Example C71_example : let E := demo_env Checked in let HH := value_hashes in
  grow_check (demo_parts true) [CGet "Two"; CRow 0 1 1 [mkCell None (Some "v") TInline None None None None]; CDrop 0] []
  && grow_check bare_parts [CRename "Two" "Three"] []
  && grow_check bare_parts [CAdd None; CGet "nowhere"] ["xl/worksheets/sheet3.xml"; "xl/worksheets/_rels/sheet3.xml.rels"; "xl/worksheets/sheet4.xml"; "xl/worksheets/_rels/sheet4.xml.rels"] = true.
Proof. vm_compute. reflexivity. Qed.
Definition touch_check `{Env} `{Hashes} (l0 : list (string * string)) (name q : string) : bool :=
  match env_unzip (env_zip l0) with
  | Some l1 =>
    match excel_new (Some "in") {["in" := env_zip l0]} with
    | Ok x0 =>
      match call_step (CGet name) (x0, []) with
      | (s1, Ok _) =>
        match call_step (CDrop 0) s1 with
        | (s2, Ok _) =>
          match saved_parts (excel_save demo_clock demo_faults "a.xlsx" s2.1 ∅) with
          | Some l => existsb (seqb q) (names l) && negb (existsb (seqb q) (names l1)) && existsb (seqb name) (list_sheet_names (x_book x0))
              && subset (content_types_name :: basic_parts x0 ++ other_parts x0) (names l1)
          | None => false end
        | _ => false end
      | _ => false end
    | _ => false end
  | None => false end.
(** C71, what one would want and what does not hold: that releasing a sheet of the file again, unchanged, leaves the file with the same parts. The
    sheet has no relationships in the file opened; the file saved has a part for them. *)
Theorem C71_untouched_refuted : exists (E : Env) (HH : Hashes) (fs0 fs fs' : filesys) (file path q name : string) (l0 l : list (string * string)) (x0 : excel) (s1 s2 : session) (t : clock) (f : faults) (tr : list filesys),
  Stored fs0 file l0 /\ excel_new (Some file) fs0 = Ok x0 /\ name ∈ list_sheet_names (x_book x0)
  /\ call_step (CGet name) (x0, []) = (s1, Ok tt) /\ call_step (CDrop 0) s1 = (s2, Ok tt)
  /\ excel_save t f path s2.1 fs = (tr, Ok tt) /\ last tr = Some fs' /\ Stored fs' path l
  /\ q ∈ l.*1 /\ q ∉ l0.*1 /\ (forall p, p = content_types_name \/ p ∈ basic_parts x0 ++ other_parts x0 -> p ∈ l0.*1).
Proof.
  exists (demo_env Checked), value_hashes.
  assert (@touch_check (demo_env Checked) value_hashes (@bare_parts (demo_env Checked) value_hashes) "Two" "xl/worksheets/_rels/sheet2.xml.rels" = true) as Hc by (vm_compute; reflexivity).
  revert Hc. generalize (demo_env Checked), value_hashes. intros E HH. generalize bare_parts, "Two", "xl/worksheets/_rels/sheet2.xml.rels". intros l0 name q.
  unfold touch_check. destruct (env_unzip _) as [l1|] eqn:Eu; [|done]. destruct (excel_new _ _) as [x0| |] eqn:En; [|done..].
  destruct (call_step (CGet name) _) as [s1 [[]|e|e]] eqn:E1; [|done..]. destruct (call_step (CDrop 0) _) as [s2 [[]|e|e]] eqn:E2; [|done..].
  unfold saved_parts. destruct (excel_save _ _ _ _ _) as [tr r] eqn:Ev. cbn [fst snd].
  destruct r as [[]|r|r]; [|done..]. destruct (last tr) as [fs'|] eqn:El; [|done].
  destruct (fs' !! "a.xlsx") as [b|] eqn:Eb; cbn [mbind option_bind]; [|done]. destruct (env_unzip b) as [l|] eqn:Eub; [|done].
  rewrite !andb_true_iff, negb_true_iff. intros [[[H1 H2] H3] H4].
  assert (forall (x : string) k, existsb (seqb x) k = true <-> x ∈ k) as Hex.
  { intros x k. rewrite existsb_exists. setoid_rewrite <- elem_of_list_In. unfold seqb. split; [intros (y & Hy & Heq); by apply String.eqb_eq in Heq as ->|intros Hy; exists x; split; [done|apply String.eqb_refl]]. }
  exists {["in" := env_zip l0]}, ∅, fs', "in", "a.xlsx", q, name, l1, l, x0, s1, s2, demo_clock, demo_faults, tr.
  split. { exists (env_zip l0). by rewrite lookup_singleton. }
  split; [done|]. split; [by apply Hex|]. do 4 (split; [done|]). split; [by exists b|]. split; [by apply Hex|]. split.
  - intros Hin. apply Hex in Hin. unfold names in H2. change (map fst l1) with (l1.*1) in H2. by rewrite Hin in H2.
  - intros p Hp. unfold subset in H4. rewrite forallb_forall in H4. apply Hex, (H4 p), elem_of_list_In, elem_of_cons. exact Hp.
Qed.

Print Assumptions C71_parts.
Print Assumptions C71_exact.
Print Assumptions C71_same.
Print Assumptions C71_quiet.
Print Assumptions C71_count.
Print Assumptions C71_document.
Print Assumptions C71_example.
Print Assumptions C71_untouched_refuted.
