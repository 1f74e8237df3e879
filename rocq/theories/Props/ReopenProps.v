(** C63: a file that was opened, changed and saved can be opened again, round after round. *)
From Verif.Model Require Import Excel.
From Verif.Spec Require Import RelSpec XmlSpec XmlRepr XmlHistory ColumnSpec PackageSpec PartSpec SheetSpec StyleSpec SessionSpec FlowSpec BookSpec OpenSpec ReopenSpec DemoEnv.
From Verif.Proofs Require Import BaseFacts PackageFacts XmlTreeFacts SessionFacts ReadAnyFacts FrameFacts KeepFacts OwnFacts OpenMoreFacts FlowOpenFacts OpenBookFacts ReopenFacts ChainlessFacts.
From Verif.Props Require Import KeepProps FlowProps OpenProps OpenStyleProps OpenMoreProps.
Open Scope N_scope.

(** ** Theorems *)
(** C63. A file is in order and has a calculation chain. It is opened and goes through rounds of calls, saving, and
    opening what was saved; then through one more. If this one's save reports success then the saved file can be
    opened, too: the library finds its parts where they were in the first file, and the sheets, the settings of the
    window, the texts, the chain, the styles and the relationships are those of the workbook that was saved, up to
    the losses that each of them has. *)
Theorem C63_rounds : forall (E : Env) (HH : Hashes) (file : string) (fs0 fs fs1 fs2 : filesys) (l0 : list (string * string)) (x0 x : excel) (rs : list round) (r : round) (s : session),
  Stored fs0 file l0 -> excel_new (Some file) fs0 = Ok x0 -> Orderly l0 x0 -> cc_entries (wb_calc (x_book x0)) <> [] ->
  Rounds rs x0 fs x fs1 -> Worked r x fs1 s fs2 -> Sound r x s ->
  exists x1, excel_new (Some (ro_path r)) fs2 = Ok x1 /\ Reopened s.1 x1 /\ basic_parts x1 ++ other_parts x1 = basic_parts x0 ++ other_parts x0.
Proof.
  intros E HH file fs0 fs fs1 fs2 l0 x0 x rs r s H1 H2 H3 H4 H5 H6 H7.
  eapply (rounds_open rs r file fs0 x0 fs x fs1 s fs2); [done|by eapply fit_opened|apply H3|done..].
Qed.
(** One round. *)
Theorem C63_reopens : forall (E : Env) (HH : Hashes) (file path : string) (fs0 fs fs' : filesys) (l0 : list (string * string)) (x0 : excel) (cs : list call) (s : session) (t : clock) (f : faults) (tr : list filesys),
  Stored fs0 file l0 -> excel_new (Some file) fs0 = Ok x0 -> Orderly l0 x0 -> cc_entries (wb_calc (x_book x0)) <> [] ->
  calls cs (x0, []) = Some s -> Forall sized cs -> Spared x0 (deleted cs (x0, [])) -> ss_strings (wb_sst (x_book s.1)) <> [] ->
  excel_save t f path s.1 fs = (tr, Ok tt) -> last tr = Some fs' ->
  exists x1, excel_new (Some path) fs' = Ok x1 /\ Reopened s.1 x1.
Proof.
  intros E HH file path fs0 fs fs' l0 x0 cs s t f tr H1 H2 H3 H4 H5 H6 H7 H8 H9 H10.
  destruct (C63_rounds E HH file fs0 fs fs fs' l0 x0 x0 [] (mkRound cs t f path) s) as (x1 & A & B & _); [done..|constructor| |done|by exists x1].
  split; [done|]. by exists tr.
Qed.
(** What one would want, that every file can be opened again, is wrong for every file without formulas: a workbook
    that lists no calculation chain and has none at the usual place. It can be opened and saved, and whatever was
    called before, the save reports success (if it does); the saved file cannot be opened. *)
Theorem C63_chainless_refuted : forall (E : Env) (HH : Hashes) (file path folder : string) (fs0 fs fs' : filesys) (l0 : list (string * string)) (x0 : excel) (rels : list rel)
    (cs : list call) (s : session) (t : clock) (f : faults) (tr : list filesys),
  Stored fs0 file l0 -> excel_new (Some file) fs0 = Ok x0 ->
  (exists data, (root_part, data) ∈ l0 /\ Sturdy data) -> (exists data, (rl_path (wb_rels (x_book x0)), data) ∈ l0 /\ Sturdy data) ->
  rl_path (wb_rels (x_book x0)) <> content_types_name -> OwnerFolder (rl_path (wb_rels (x_book x0))) folder ->
  plain_text (su_core (x_suite x0)) -> plain_text (wb_path (x_book x0)) ->
  Lists l0 (rl_path (wb_rels (x_book x0))) rels -> Forall (fun y => r_type y <> rel_type "calcChain") rels -> "xl/calcChain.xml" ∉ l0.*1 ->
  calls cs (x0, []) = Some s -> Spared x0 (deleted cs (x0, [])) ->
  excel_save t f path s.1 fs = (tr, Ok tt) -> last tr = Some fs' ->
  ~ exists x1, excel_new (Some path) fs' = Ok x1.
Proof.
  intros E HH file path folder fs0 fs fs' l0 x0 rels cs s t f tr H1 H2 H3 H4 H5 H6 H7 H8 H9 H10 H11 H12 H13 H14 H15 [x1 Hx].
  pose proof (chainless_opened file fs0 l0 x0 rels folder H1 H2 H3 H4 H5 H6 H9 H10 H11) as C. destruct (new_linv _ _ _ H2) as [I _].
  destruct (calls_effect _ _ _ I H12) as [I' _]. pose proof (chainless_calls cs (x0, []) s I C H12 H13) as C'.
  destruct (own_stays _ _ _ I H12) as [Hown _]. destruct (docs_stay _ _ _ I H12) as (_ & Hcore & _). cbn [fst] in *. unfold own_parts in Hown. injection Hown as W1 _ _ _ _ _.
  apply (chainless_refused t f path s fs tr fs' x1 I' C'); [by rewrite Hcore|by rewrite W1|done|done|done].
Qed.

(** ** Examples *)
(** Rounds that are carried out. *)
Definition soundb `{Env} `{Hashes} (r : round) (x : excel) (s : session) : bool :=
  forallb (fun c => match c with CStyle y => se_size y <=? u8_max | _ => true end) (ro_calls r)
  && forallb (fun y => implb (existsb (seqb (r_type y)) own_types) (negb (existsb (seqb (r_target y)) (deleted (ro_calls r) (x, []))))) (rl_rels (wb_rels (x_book x)))
  && match ss_strings (wb_sst (x_book s.1)) with [] => false | _ => true end.
Lemma existsb_elem y l : existsb (seqb y) l = true <-> y ∈ l.
Proof. rewrite existsb_exists, elem_of_list_In. split; [intros (z & Hz & He%seqb_true); by subst|intros H; exists y; split; [done|by apply seqb_true]]. Qed.
Lemma soundb_ok `{Env} `{Hashes} r x s : soundb r x s = true -> Sound r x s.
Proof.
  unfold soundb. rewrite !andb_true_iff, !forallb_forall. intros [[H1 H2] H3]. split; [|split].
  - apply Forall_forall. intros c Hc. apply elem_of_list_In in Hc. specialize (H1 c Hc). destruct c; try done. by apply N.leb_le.
  - intros y Hy Ht Hd. apply elem_of_list_In in Hy. specialize (H2 y Hy). apply existsb_elem in Ht, Hd. by rewrite Ht, Hd in H2.
  - by destruct (ss_strings _).
Qed.
Fixpoint run_rounds `{Env} `{Hashes} (rs : list round) (x : excel) (fs : filesys) : option (excel * filesys) :=
  match rs with
  | [] => Some (x, fs)
  | r :: rs =>
    match calls (ro_calls r) (x, []) with
    | Some s => match excel_save (ro_clock r) (ro_faults r) (ro_path r) s.1 fs with
      | (tr, Ok tt) => match last tr with
        | Some fs1 => match excel_new (Some (ro_path r)) fs1 with Ok x1 => if soundb r x s then run_rounds rs x1 fs1 else None | _ => None end
        | None => None end
      | _ => None end
    | None => None end
  end.
Lemma run_rounds_ok `{Env} `{Hashes} rs : forall x fs x' fs', run_rounds rs x fs = Some (x', fs') -> Rounds rs x fs x' fs'.
Proof.
  induction rs as [|r rs IH]; intros x fs x' fs' Hr; [injection Hr as <- <-; constructor|]. cbn [run_rounds] in Hr. destruct (calls _ _) as [s|] eqn:Ec; [|done].
  destruct (excel_save _ _ _ _ _) as [tr [[]|e|e]] eqn:Es; [|done..]. destruct (last tr) as [fs1|] eqn:El; [|done]. destruct (excel_new _ _) as [x1|e|e] eqn:En; [|done..].
  destruct (soundb r x s) eqn:Eb; [|done]. eapply Rounds_more; [split; [exact Ec|]; by exists tr|by apply soundb_ok|exact En|by apply IH].
Qed.
(** A file that is in order. *)
Definition sturdyb `{Env} (data : string) : bool := match tree_read data with Some (Node _ _ None (_ :: _)) => true | _ => false end.
Lemma sturdyb_ok `{Env} data : sturdyb data = true -> Sturdy data.
Proof.
  unfold sturdyb. destruct (tree_read data) as [[g a v cs]|] eqn:Et; [|done]. destruct v; [done|]. destruct cs as [|c cs]; [done|]. intros _.
  destruct (tree_read_ok _ _ Et) as (d & it & H1 & H2 & H3 & H4). exists (Node g a None (c :: cs)), (d_ns d). split; [exists d, it; done|done].
Qed.
Definition orderlyb `{Env} (l : list (string * string)) (x : excel) : bool :=
  let parts := basic_parts x ++ other_parts x in
  forallb (fun q => negb (sexists is_special q)) parts && negb (existsb (seqb content_types_name) parts)
  && forallb (fun q => existsb (seqb q) (map fst l)) (basic_parts x)
  && forallb (fun p : string * string => implb (existsb (seqb p.1) parts) (sturdyb p.2)) l
  && forallb (fun p : string * string => implb (seqb p.1 (su_core (x_suite x))) (match tree_read p.2 with Some (Node g _ _ _) => seqb g "cp:coreProperties" | None => false end)) l
  && seqb (rl_path (wb_rels (x_book x))) "xl/_rels/workbook.xml.rels".
Lemma own_xl : OwnerFolder "xl/_rels/workbook.xml.rels" "xl/".
Proof. apply (Own_dir "xl" "/workbook.xml.rels"). intros a b Hab. apply (f_equal String.length) in Hab. rewrite !slength_app in Hab. cbn in Hab. lia. Qed.
Lemma orderlyb_ok `{Env} l x : orderlyb l x = true -> Orderly l x.
Proof.
  unfold orderlyb. cbv zeta. rewrite !andb_true_iff, !forallb_forall. intros [[[[[H1 H2] H3] H4] H5] H6]. constructor.
  - intros q Hq. apply elem_of_list_In in Hq. specialize (H1 q Hq). by apply negb_true_iff in H1.
  - intros Hq. apply existsb_elem in Hq. by rewrite Hq in H2.
  - intros q Hq. apply elem_of_list_In in Hq. specialize (H3 q Hq). by apply existsb_elem in H3.
  - intros q data Hq Hi. apply elem_of_list_In in Hi. specialize (H4 _ Hi). cbn [fst snd] in H4. apply existsb_elem in Hq. rewrite Hq in H4. by apply sturdyb_ok.
  - intros data root ns Hi (d & it & K1 & K2 & <- & _). apply elem_of_list_In in Hi. specialize (H5 _ Hi). cbn [fst snd] in H5. rewrite (proj2 (seqb_true _ _) eq_refl) in H5. cbn [implb] in H5.
    destruct (tree_read data) as [[g a v cs]|] eqn:Et; [|done]. apply seqb_true in H5 as ->. destruct (tree_read_ok _ _ Et) as (d' & it' & L1 & L2 & L3 & _). rewrite K1 in L1. injection L1 as <-.
    rewrite (Represents_inj _ _ _ K2 L2), L3. done.
  - apply seqb_true in H6. exists "xl/". rewrite H6. apply own_xl.
Qed.
(** The file of the demonstration with a chain and a text. *)
Definition sound_parts `{Env} `{Hashes} : list (string * string) := with_parts [("xl/calcChain.xml", chain_data); ("xl/sharedStrings.xml", two_table)] (demo_parts true).
Definition rounds_check `{Env} `{Hashes} (rs : list round) (P : excel -> bool) (l0 : list (string * string)) : bool :=
  match env_unzip (env_zip l0) with
  | Some l1 =>
    match excel_new (Some "in") {["in" := env_zip l0]} with
    | Ok x0 => orderlyb l1 x0 && match cc_entries (wb_calc (x_book x0)) with [] => false | _ => true end && match run_rounds rs x0 ∅ with Some (x, _) => P x | None => false end
    | _ => false end
  | None => false end.
Definition Lasts `{Env} `{Hashes} (rs : list round) (P : excel -> bool) : Prop :=
  exists (fs0 fs fs1 : filesys) (file : string) (l0 : list (string * string)) (x0 x : excel),
  Stored fs0 file l0 /\ excel_new (Some file) fs0 = Ok x0 /\ Orderly l0 x0 /\ cc_entries (wb_calc (x_book x0)) <> [] /\ Rounds rs x0 fs x fs1 /\ P x = true.
Lemma rounds_found `{Env} `{Hashes} rs P l0 : rounds_check rs P l0 = true -> Lasts rs P.
Proof.
  unfold rounds_check. destruct (env_unzip (env_zip l0)) as [l1|] eqn:Eu; [|done]. destruct (excel_new _ _) as [x0| |] eqn:En; [|done..]. rewrite !andb_true_iff. intros [[H1 H2] H3].
  destruct (run_rounds rs x0 ∅) as [[x fs1]|] eqn:Er; [|done]. exists {["in" := env_zip l0]}, ∅, fs1, "in", l1, x0, x.
  split. { exists (env_zip l0). by rewrite lookup_singleton. } split; [done|]. split; [by apply orderlyb_ok|]. split; [by destruct (cc_entries _)|]. split; [by apply run_rounds_ok|done].
Qed.
Definition three_rounds : list round :=
  [mkRound [CAdd (Some "A"); CDrop 0; CRename "Two" "Second"] demo_clock demo_faults "a.xlsx";
   mkRound [CGet "sheet1"; CDelete 0; CAdd None; CDrop 1] demo_clock demo_faults "b.xlsx"; mkRound [] demo_clock demo_faults "a.xlsx"].
Definition three_end (x : excel) : bool :=
  bool_decide (map sh_name (wb_sheets (x_book x)) = ["Second"; "A"; "sheet4"]) && bool_decide (ss_strings (wb_sst (x_book x)) = ["old text"]) && bool_decide (length (cc_entries (wb_calc (x_book x))) = 2%nat).
Example C63_example : @Lasts (demo_env Checked) value_hashes three_rounds three_end.
Proof.
  assert (@rounds_check (demo_env Checked) value_hashes three_rounds three_end (@sound_parts (demo_env Checked) value_hashes) = true) as Hc by (vm_compute; reflexivity).
  exact (@rounds_found (demo_env Checked) value_hashes _ _ _ Hc).
Qed.
(** The same file, with other relationships of the workbook and without chain. *)
Definition bare_parts `{Env} `{Hashes} : list (string * string) :=
  List.filter (fun p : string * string => negb (seqb p.1 "xl/calcChain.xml")) (with_parts [("xl/_rels/workbook.xml.rels", rels_data)] (demo_parts true)).
Definition bare_check `{Env} `{Hashes} (cs : list call) (l0 : list (string * string)) : bool :=
  match env_unzip (env_zip l0) with
  | Some l1 =>
    match excel_new (Some "in") {["in" := env_zip l0]} with
    | Ok x0 => match calls cs (x0, []) with
      | Some s => match excel_save demo_clock demo_faults "a.xlsx" s.1 ∅ with
        | (tr, Ok tt) => match last tr with
          | Some fs' => seqb (rl_path (wb_rels (x_book x0))) "xl/_rels/workbook.xml.rels" && negb (existsb (seqb "xl/calcChain.xml") (map fst l1))
            && negb (sexists is_special (su_core (x_suite x0))) && negb (sexists is_special (wb_path (x_book x0)))
            && match part_of root_part l1 with Some d => sturdyb d | None => false end
            && match part_of "xl/_rels/workbook.xml.rels" l1 with Some d => seqb d rels_data | None => false end
            && forallb (fun y => implb (existsb (seqb (r_type y)) own_types) (negb (existsb (seqb (r_target y)) (deleted cs (x0, []))))) (rl_rels (wb_rels (x_book x0)))
            && match excel_new (Some "a.xlsx") fs' with Ok _ => false | _ => true end
          | None => false end
        | _ => false end
      | None => false end
    | _ => false end
  | None => false end.
(** All the hypotheses of [C63_chainless_refuted]. *)
Definition Bare `{Env} `{Hashes} (cs : list call) : Prop :=
  exists (fs0 fs fs' : filesys) (file path folder : string) (l0 : list (string * string)) (x0 : excel) (rels : list rel) (s : session) (t : clock) (f : faults) (tr : list filesys),
  Stored fs0 file l0 /\ excel_new (Some file) fs0 = Ok x0
  /\ (exists data, (root_part, data) ∈ l0 /\ Sturdy data) /\ (exists data, (rl_path (wb_rels (x_book x0)), data) ∈ l0 /\ Sturdy data)
  /\ rl_path (wb_rels (x_book x0)) <> content_types_name /\ OwnerFolder (rl_path (wb_rels (x_book x0))) folder
  /\ plain_text (su_core (x_suite x0)) /\ plain_text (wb_path (x_book x0))
  /\ Lists l0 (rl_path (wb_rels (x_book x0))) rels /\ Forall (fun y => r_type y <> rel_type "calcChain") rels /\ "xl/calcChain.xml" ∉ l0.*1
  /\ calls cs (x0, []) = Some s /\ Spared x0 (deleted cs (x0, []))
  /\ excel_save t f path s.1 fs = (tr, Ok tt) /\ last tr = Some fs'.
Lemma bare_found `{Env} `{Hashes} cs l0 : ReadsIn rels_data rels_tree ∅ -> bare_check cs l0 = true -> Bare cs.
Proof.
  intros Hrd. unfold bare_check. destruct (env_unzip (env_zip l0)) as [l1|] eqn:Eu; [|done]. destruct (excel_new (Some "in") _) as [x0| |] eqn:En; [|done..].
  destruct (calls _ _) as [s|] eqn:Ec; [|done]. destruct (excel_save _ _ _ _ _) as [tr [[]|e|e]] eqn:Es; [|done..]. destruct (last tr) as [fs'|] eqn:El; [|done].
  rewrite !andb_true_iff, !negb_true_iff. intros [[[[[[[H1 H2] H3] H4] H5] H6] H7] _]. apply seqb_true in H1.
  destruct (part_of root_part l1) as [dr|] eqn:E1; [|done]. destruct (part_of "xl/_rels/workbook.xml.rels" l1) as [dw|] eqn:E2; [|done]. apply seqb_true in H6 as ->.
  exists {["in" := env_zip l0]}, ∅, fs', "in", "a.xlsx", "xl/", l1, x0, rels_read, s, demo_clock, demo_faults, tr. rewrite H1.
  split. { exists (env_zip l0). by rewrite lookup_singleton. } split; [done|]. split. { exists dr. split; [by apply part_of_in|by apply sturdyb_ok]. }
  split. { exists rels_data. split; [by apply part_of_in|]. exists rels_tree, ∅. done. } split; [done|]. split; [apply own_xl|]. split; [done|]. split; [done|].
  split. { exists rels_data, rels_tree, ∅. split; [by apply part_of_in|]. split; [done|]. unfold RelsSaid, rels_read. cbn [rels_tree t_children List.filter t_tag String.eqb]. repeat (constructor; [repeat split; by vm_compute|]). constructor. }
  split. { repeat constructor; by vm_compute. } split. { intros Hi. apply existsb_elem in Hi. change (l1.*1) with (map fst l1) in Hi. by rewrite Hi in H2. }
  split; [done|]. split; [|done]. rewrite forallb_forall in H7. intros y Hy Ht Hd. apply elem_of_list_In in Hy. specialize (H7 y Hy). apply existsb_elem in Ht, Hd. by rewrite Ht, Hd in H7.
Qed.
Example C63_chainless_example : @Bare (demo_env Checked) value_hashes [CGet "sheet1"; CDelete 0; CAdd (Some "Three"); CDrop 1].
Proof.
  assert (@bare_check (demo_env Checked) value_hashes [CGet "sheet1"; CDelete 0; CAdd (Some "Three"); CDrop 1] (@bare_parts (demo_env Checked) value_hashes) = true) as Hc by (vm_compute; reflexivity).
  exact (@bare_found (demo_env Checked) value_hashes _ _ (proj1 C54_reads) Hc).
Qed.

Print Assumptions C63_rounds.
Print Assumptions C63_reopens.
Print Assumptions C63_chainless_refuted.
