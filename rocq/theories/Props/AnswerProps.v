(** C66: what each call of a session on a new workbook answers. *)
From Verif.Model Require Import Excel.
From Verif.Spec Require Import ColumnSpec SheetSpec StyleSpec SessionSpec BookSpec FlowSpec PanicSpec AnswerSpec DemoEnv.
From Verif.Proofs Require Import BaseFacts BookFacts SessionFacts KeepFacts FlowSaveFacts AnswerFacts.
Open Scope N_scope.

(** C66. The answers of the calls are those of the machine of names and numbers; afterwards the workbook lists the
    sheets on the desk, and whoever asked for them holds the sheets handed out there. *)
Theorem C66_answers : forall (E : Env) (HH : Hashes) (fs : filesys) (x0 : excel) (cs : list call) (s : session),
  excel_new None fs = Ok x0 -> Forall Given cs -> calls cs (x0, []) = Some s ->
  exists k, Goes new_desk cs (answers cs (x0, [])) k /\ list_sheet_names (x_book s.1) = listed k
    /\ forall h, (fun w => (ws_name w, ws_path w)) <$> handle h s = (fun x => (hs_name x, "xl/worksheets/sheet" +:+ show_N (hs_number x) +:+ ".xml")) <$> hand k h.
Proof.
  intros E HH fs x0 cs s Hx Hg Hc. destruct (answers_new _ _ _ _ Hx Hg Hc) as (k & G & C). exists k. split; [done|]. split; [by apply listed_names|].
  intros h. pose proof (hand_of k s h (co_hands _ _ C)) as Hh. destruct (hand k h) as [x|], (handle h s) as [w|]; [|done..]. destruct Hh as (H1 & H2 & _). cbn. by rewrite H1, H2.
Qed.
(** C66. The machine leaves no choice. *)
Theorem C66_decided : forall (k k1 k2 : desk) (cs : list call) (bs1 bs2 : list bool), Goes k cs bs1 k1 -> Goes k cs bs2 k2 -> bs1 = bs2 /\ k1 = k2.
Proof. intros k k1 k2 cs bs1 bs2 G1 G2. by eapply goes_det. Qed.
(** C66. A sheet that is listed can never be had again. *)
Theorem C66_listed : forall (E : Env) (HH : Hashes) (fs : filesys) (x0 : excel) (cs : list call) (s : session) (c : call) (n : string),
  excel_new None fs = Ok x0 -> Forall Given cs -> calls cs (x0, []) = Some s -> asks c (Some n) -> n ∈ list_sheet_names (x_book s.1) -> succeeds (call_step c s).2 = false.
Proof.
  intros E HH fs x0 cs s c n Hx Hg Hc Ha Hn. destruct (answers_new _ _ _ _ Hx Hg Hc) as (k & G & C). pose proof (SessionFacts.calls_inv _ _ _ _ (proj2 (new_session _ _ Hx)) Hc) as I.
  change (list_sheet_names (x_book s.1)) with (BookSpec.names (wb_sheets (x_book s.1))) in Hn.
  rewrite (listed_names k s C) in Hn. destruct (ask_step c (Some n) k s _ Ha I C) as (k' & D & _).
  assert (call_step c s = give (Excel.on_book (add_sheet (Some n))) s) as Hcs by (by destruct Ha as [->|(y & [= ->] & ->)]). rewrite <- Hcs in D.
  destruct (succeeds (call_step c s).2); [exfalso|done]. remember true as b eqn:Eb. pose proof (kind_asks _ _ Ha) as Hk.
  destruct D; try done; try (by rewrite (asks_same _ _ _ H Ha) in H0; destruct (H0 n eq_refl)).
  - by apply kind_plain in H; congruence.
  - apply kind_through in H. lia.
  - apply kind_puts in H as [H _]. congruence.
  - apply kind_shapes in H as [H _]. congruence.
Qed.
(** C66. As long as no sheet was deleted, asking for one that is not listed succeeds. *)
Theorem C66_undeleted : forall (E : Env) (HH : Hashes) (fs : filesys) (x0 : excel) (cs : list call) (s : session) (c : call) (name : option string),
  excel_new None fs = Ok x0 -> Forall Given cs -> calls cs (x0, []) = Some s -> Forall (fun c => forall h, c <> CDelete h) cs ->
  asks c name -> (forall n, name = Some n -> n ∉ list_sheet_names (x_book s.1)) -> (call_step c s).2 = Ok tt.
Proof.
  intros E HH fs x0 cs s c name Hx Hg Hc Hd Ha Hn. destruct (answers_new _ _ _ _ Hx Hg Hc) as (k & G & C). pose proof (SessionFacts.calls_inv _ _ _ _ (proj2 (new_session _ _ Hx)) Hc) as I.
  assert (Plainly k) as P. { eapply plainly_goes; [|apply plainly_new|exact G]. eapply Forall_impl; [exact Hd|]. intros [] Hno; try done. by apply (Hno h). }
  destruct (ask_step c name k s _ Ha I C) as (k' & D & _).
  assert (call_step c s = give (Excel.on_book (add_sheet name)) s) as Hcs by (by destruct Ha as [->|(y & -> & ->)]). rewrite <- Hcs in D.
  assert (no_delete c) as Hnd by (destruct Ha as [->|(y & -> & ->)]; exact Logic.I). destruct (plainly_step _ _ _ _ P Hnd D) as [_ H]. specialize (H name Ha). destruct (call_step c s).2 as [[]|e|e]; [done|..].
  all: cbn in H; rewrite <- (listed_names k s C) in H; by specialize (H Hn).
Qed.

(** Two sheets are added, the first is deleted while the second is being worked on. Then another sheet gets the number of
    the second: the call fails, yet the workbook lists the sheet, which nobody can have. A cell in column 0 is accepted,
    and the sheet cannot be finished. *)
Definition answer_calls : list call :=
  let x := mkCell None (Some "x") TShared None None None None in
  [CAdd (Some "a"); CAdd (Some "b"); CRow 0 1 1 [x]; CDelete 0; CAdd (Some "c"); CGet "c"; CRename "b" "sheet1"; CRename "b" "d"; CAdd None;
   CRowRef 1 "B3" [x; x]; CRow 2 1 0 [x]; CFlush 1; CFlush 2; CFlush 2; CHide "none"].
Definition session_answers `{Env} `{Hashes} (cs : list call) : option (list bool * list string) :=
  match excel_new None ∅ with
  | Ok x0 => s ← calls cs (x0, []); Some (answers cs (x0, []), list_sheet_names (x_book s.1))
  | _ => None end.
Example C66_example : session_answers (H := demo_env Wrapping) (H0 := value_hashes) answer_calls
  = Some ([true; true; true; true; false; false; false; true; true; true; true; true; false; true; true], ["sheet1"; "d"; "c"; "sheet4"]).
Proof. vm_compute. reflexivity. Qed.
Example C66_example_given : let E := demo_env Wrapping in Forall Given answer_calls.
Proof.
  intros E. unfold answer_calls. set (x := mkCell _ _ _ _ _ _ _). assert (cell_typed x) as Hx by (split; exact I).
  assert (forall n, Forall cell_typed (repeat x n)) as Hxs by (induction n; constructor; done).
  repeat (apply List.Forall_cons); [exact I|exact I| |exact I|exact I|exact I|exact I|exact I|exact I| | |exact I|exact I|exact I|exact I|apply List.Forall_nil].
  - split; [by apply N.leb_le|]. split; [by apply N.leb_le|exact (Hxs 1%nat)].
  - split; [exact (Hxs 2%nat)|]. exists "B", 3. split; [reflexivity|]. split; [split; [done|reflexivity]|]. split; by apply N.leb_le.
  - split; [by apply N.leb_le|]. split; [by apply N.leb_le|exact (Hxs 1%nat)].
Qed.

(** C66, the general wish is refuted: a call that asks for a sheet not listed can fail, although only sheets were added
    and deleted. *)
Theorem C66_unlisted_refuted : ~ (forall (E : Env) (HH : Hashes) (fs : filesys) (x0 : excel) (cs : list call) (s : session) (n : string),
  excel_new None fs = Ok x0 -> calls cs (x0, []) = Some s -> n ∉ list_sheet_names (x_book s.1) -> (call_step (CAdd (Some n)) s).2 = Ok tt).
Proof.
  intros H. set (E := demo_env Wrapping). set (HH := value_hashes). set (cs := [CAdd (Some "a"); CAdd (Some "b"); CDelete 0]).
  assert (match excel_new None ∅ with Ok x0 => match calls cs (x0, []) with Some s => negb (existsb (String.eqb "c") (list_sheet_names (x_book s.1))) && negb (succeeds (call_step (CAdd (Some "c")) s).2) | None => false end | _ => false end = true) as Hc
    by (vm_compute; reflexivity).
  specialize (H E HH ∅). destruct (excel_new None ∅) as [x0|e|e]; [|done..]. specialize (H x0 cs). destruct (calls cs (x0, [])) as [s|]; [|done].
  specialize (H s "c" eq_refl eq_refl). apply andb_true_iff in Hc as [H1 H2]. rewrite H in H2; [done|]. intros Hin. apply negb_true_iff in H1. revert H1. apply not_false_iff_true.
  apply existsb_exists. exists "c". split; [by apply elem_of_list_In|done].
Qed.
Print Assumptions C66_answers.
Print Assumptions C66_decided.
Print Assumptions C66_listed.
Print Assumptions C66_undeleted.
Print Assumptions C66_unlisted_refuted.
