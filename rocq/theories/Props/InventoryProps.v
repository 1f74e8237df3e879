(** C67: which parts a saved new workbook consists of, and which of them its relationships lead to. *)
From Verif.Model Require Import Excel.
From Verif.Spec Require Import XmlSpec PackageSpec SheetSpec StyleSpec SessionSpec BookSpec FlowSpec LinkSpec AnswerSpec InventorySpec DemoEnv.
From Verif.Proofs Require Import BaseFacts BookFacts SessionFacts KeepFacts AnswerFacts InventoryFacts.
From Verif.Props Require Import KeepProps.
Open Scope N_scope.

(** C67. Besides the nine parts every workbook has, the saved file has two parts for every number the machine of names and
    numbers ever gave out, and nothing else; the relationships of the workbook are those of the machine. One leads to the
    texts exactly if some call put a text through a handle that was there. *)
Theorem C67_parts : forall (E : Env) (HH : Hashes) (fs fs1 fs' : filesys) (x0 : excel) (cs : list call) (s : session) (t : clock) (f : faults) (path : string) (tr : list filesys),
  excel_new None fs = Ok x0 -> Forall Given cs -> calls cs (x0, []) = Some s -> excel_save t f path s.1 fs1 = (tr, Ok tt) -> last tr = Some fs' ->
  exists l k text ns root texts, Stored fs' path l /\ Goes new_desk cs (answers cs (x0, [])) k
    /\ map fst l ≡ₚ book_parts ++ map sheet_part (elements (k_used k)) ++ map sheet_rels_part (elements (k_used k))
    /\ ("xl/_rels/workbook.xml.rels", prolog +:+ text) ∈ l /\ Renders (Some ns) root text
    /\ map told (relations_in root) = book_relations texts (k_links k) /\ (texts = true <-> SomeText new_desk cs).
Proof.
  intros E HH fs fs1 fs' x0 cs s t f path tr Hx Hg Hc Hs Hl. destruct (new_inventory _ _ _ _ _ _ _ _ _ _ Hx Hg Hc Hs Hl) as (l & k & Hst & G & C & Hnd & Hin).
  destruct (new_linv _ _ _ Hx) as [I0 _]. destruct (calls_effect _ _ _ I0 Hc) as [I _]. destruct (new_session _ _ Hx) as [N S0]. pose proof (SessionFacts.calls_inv _ _ _ _ S0 Hc) as SI.
  destruct (saved_relations _ _ _ _ _ _ _ _ _ _ I SI N C Hs Hl Hst) as (text & ns & root & R1 & R2 & R3).
  exists l, k, text, ns, root, (has_text s). split; [done|]. split; [done|]. split; [by apply inventory_list|]. split; [done|]. split; [done|]. split; [done|]. by eapply text_new.
Qed.
(** C67. The number of parts is eleven, and two more for every sheet ever handed out. *)
Theorem C67_count : forall (E : Env) (HH : Hashes) (fs fs1 fs' : filesys) (x0 : excel) (cs : list call) (s : session) (t : clock) (f : faults) (path : string) (tr : list filesys),
  excel_new None fs = Ok x0 -> Forall Given cs -> calls cs (x0, []) = Some s -> excel_save t f path s.1 fs1 = (tr, Ok tt) -> last tr = Some fs' ->
  exists l, Stored fs' path l /\ NoDup (map fst l) /\ length l = (11 + 2 * handed_out cs (answers cs (x0, [])))%nat.
Proof.
  intros E HH fs fs1 fs' x0 cs s t f path tr Hx Hg Hc Hs Hl. destruct (new_inventory _ _ _ _ _ _ _ _ _ _ Hx Hg Hc Hs Hl) as (l & k & Hst & G & C & Hnd & Hin).
  exists l. split; [done|]. split; [done|]. pose proof (inventory_list _ _ Hnd Hin) as Hp. apply Permutation_length in Hp. rewrite !app_length, !map_length in Hp. rewrite Hp.
  change (length (elements (k_used k))) with (size (k_used k)). rewrite (goes_used _ _ _ _ G). cbn [k_used new_desk]. rewrite size_singleton. cbn [book_parts length]. lia.
Qed.
(** C67. If no sheet was deleted, the sheets' parts are those numbered from 1 to the number of sheets. *)
Theorem C67_undeleted : forall (E : Env) (HH : Hashes) (fs fs1 fs' : filesys) (x0 : excel) (cs : list call) (s : session) (t : clock) (f : faults) (path : string) (tr : list filesys),
  excel_new None fs = Ok x0 -> Forall Given cs -> calls cs (x0, []) = Some s -> Forall (fun c => forall h, c <> CDelete h) cs ->
  excel_save t f path s.1 fs1 = (tr, Ok tt) -> last tr = Some fs' ->
  let ns := map N.of_nat (seq 1 (length (list_sheet_names (x_book s.1)))) in
  exists l, Stored fs' path l /\ map fst l ≡ₚ book_parts ++ map sheet_part ns ++ map sheet_rels_part ns.
Proof.
  intros E HH fs fs1 fs' x0 cs s t f path tr Hx Hg Hc Hd Hs Hl ns. destruct (new_inventory _ _ _ _ _ _ _ _ _ _ Hx Hg Hc Hs Hl) as (l & k & Hst & G & C & Hnd & Hin).
  assert (Plainly k) as P. { eapply plainly_goes; [|apply plainly_new|exact G]. eapply Forall_impl; [exact Hd|]. intros [] Hno; try done. by apply (Hno h). }
  exists l. split; [done|]. pose proof (inventory_list _ _ Hnd Hin) as Hp.
  assert (elements (k_used k) ≡ₚ ns) as Hns.
  { apply NoDup_Permutation; [apply NoDup_elements|apply NoDup_fmap_2; [intros a b; lia|apply NoDup_ListNoDup, seq_NoDup]|]. intros m. rewrite elem_of_elements, (pl_used _ P).
    change (list_sheet_names (x_book s.1)) with (BookSpec.names (wb_sheets (x_book s.1))) in ns. unfold ns. rewrite (listed_names k s C). unfold listed. rewrite map_length. split.
    - intros Hm. apply elem_of_list_fmap. exists (N.to_nat m). split; [lia|]. apply elem_of_list_In, in_seq. lia.
    - intros Hm. apply elem_of_list_fmap in Hm as (i & -> & Hi). apply elem_of_list_In, in_seq in Hi. lia. }
  rewrite Hp. by rewrite (Permutation_map sheet_part Hns), (Permutation_map sheet_rels_part Hns).
Qed.
(** C67. The part of the calculation chain is in the file, and no relationship of the workbook leads to it. *)
Theorem C67_chain_unreached : forall (E : Env) (HH : Hashes) (fs fs1 fs' : filesys) (x0 : excel) (cs : list call) (s : session) (t : clock) (f : faults) (path : string) (tr : list filesys),
  excel_new None fs = Ok x0 -> Forall Given cs -> calls cs (x0, []) = Some s -> excel_save t f path s.1 fs1 = (tr, Ok tt) -> last tr = Some fs' ->
  exists l text ns root, Stored fs' path l /\ "xl/calcChain.xml" ∈ map fst l
    /\ ("xl/_rels/workbook.xml.rels", prolog +:+ text) ∈ l /\ Renders (Some ns) root text
    /\ forall r, r ∈ relations_in root -> child_attr r "Target" <> Some "/xl/calcChain.xml".
Proof.
  intros E HH fs fs1 fs' x0 cs s t f path tr Hx Hg Hc Hs Hl. destruct (C67_parts E HH _ _ _ _ _ _ _ _ _ _ Hx Hg Hc Hs Hl) as (l & k & text & ns & root & texts & Hst & G & Hp & R1 & R2 & R3 & _).
  exists l, text, ns, root. split; [done|]. split; [|split; [done|]; split; [done|]].
  - rewrite Hp. apply elem_of_app. left. apply (bool_decide_unpack _). by vm_compute.
  - intros r Hr Ht. assert (told r ∈ book_relations texts (k_links k)) as Hin. { rewrite <- R3. apply elem_of_list_fmap. eauto. }
    unfold told in Hin. rewrite Ht in Hin. unfold book_relations in Hin. rewrite !elem_of_app in Hin. destruct Hin as [Hin|[Hin|[Hin|Hin]]].
    + apply elem_of_list_singleton in Hin. by injection Hin.
    + destruct texts; [|by apply elem_of_nil in Hin]. apply elem_of_list_singleton in Hin. by injection Hin.
    + apply elem_of_list_singleton in Hin. by injection Hin.
    + apply elem_of_list_fmap in Hin as (y & Hy & _). by injection Hy.
Qed.

(** Two sheets are added, one of them is deleted and a third is added: the file has the parts of all of them. *)
Definition inventory_calls : list call :=
  [CAdd (Some "a"); CAdd (Some "b"); CFlush 1; CDelete 0; CAdd None; CRow 2 1 1 [mkCell None (Some "x") TShared None None None None]; CGet "b"].
Definition session_parts `{Env} `{Hashes} (cs : list call) : option (list bool * list string * list string) :=
  match excel_new None ∅ with
  | Ok x0 => s ← calls cs (x0, []); l ← saved_parts (excel_save demo_clock demo_faults "a.xlsx" s.1 ∅); Some (answers cs (x0, []), list_sheet_names (x_book s.1), map fst l)
  | _ => None end.
Example C67_example : match session_parts (H := demo_env Wrapping) (H0 := value_hashes) inventory_calls with
  | Some (bs, ns, l) => (bs, ns, handed_out inventory_calls bs, length l, forallb (fun q => existsb (String.eqb q) l) (book_parts ++ map sheet_part [1; 2; 3; 4] ++ map sheet_rels_part [1; 2; 3; 4]))
      = ([true; true; true; true; true; true; false], ["sheet1"; "b"; "sheet4"], 3%nat, 17%nat, true)
  | None => False end.
Proof. vm_compute. reflexivity. Qed.
Example C67_example_given : let E := demo_env Wrapping in Forall Given inventory_calls.
Proof.
  intros E. unfold inventory_calls. repeat (apply List.Forall_cons); [exact I|exact I|exact I|exact I|exact I| |exact I|apply List.Forall_nil].
  split; [by apply N.leb_le|]. split; [by apply N.leb_le|]. apply List.Forall_cons; [split; exact I|apply List.Forall_nil].
Qed.
(** In the first session a text is put; without a cell that is such a text there is none. *)
Example C67_example_text : SomeText new_desk [CAdd (Some "a"); CRow 0 1 1 [mkCell None (Some "x") TAuto None None None None]].
Proof.
  assert (LeastFree (fun i => i ∈ k_stored new_desk) 2 2) as L1 by (split; [lia|]; split; [cbn; set_solver|lia]).
  assert (LeastFree (fun i => i ∈ map fst (k_links new_desk)) 6 6) as L2. { split; [lia|]. split; [cbn; rewrite elem_of_list_singleton; lia|lia]. }
  pose proof (Does_new new_desk (CAdd (Some "a")) (Some "a") 2 6 (or_introl eq_refl)) as D1. specialize (D1 ltac:(intros x [= <-]; cbn; rewrite elem_of_list_singleton; done) L1 L2 ltac:(cbn; set_solver)).
  cbv zeta in D1. eapply SomeText_later; [exact D1|]. apply SomeText_now. eexists 0%nat, _, _, _. split; [constructor|]. split; [reflexivity|]. vm_compute. reflexivity.
Qed.
Example C67_example_no_text : forall cs, Forall (fun c => match c with CRow _ _ _ l | CRowRef _ _ l => existsb shares l = false | _ => True end) cs -> forall k, ~ SomeText k cs.
Proof.
  induction cs as [|c cs IH]; intros H k Hs; inversion Hs as [? ? ? Hp|? ? b k1 ? D Hs1]; subst; apply Forall_cons in H as [H1 H]; [|by apply (IH H k1)].
  destruct Hp as (h & x & col & l & Hp & _ & He). destruct Hp; congruence.
Qed.
Lemma orphan_goes : exists k, Goes new_desk [CAdd (Some "a"); CDelete 0] [true; true] k /\ 2 ∈ k_used k /\ k_links k = [(5, 1)].
Proof.
  assert (LeastFree (fun i => i ∈ k_stored new_desk) 2 2) as L1 by (split; [lia|]; split; [cbn; set_solver|lia]).
  assert (LeastFree (fun i => i ∈ map fst (k_links new_desk)) 6 6) as L2. { split; [lia|]. split; [cbn; rewrite elem_of_list_singleton; lia|lia]. }
  pose proof (Does_new new_desk (CAdd (Some "a")) (Some "a") 2 6 (or_introl eq_refl)) as D1. specialize (D1 ltac:(intros x [= <-]; cbn; rewrite elem_of_list_singleton; done) L1 L2 ltac:(cbn; set_solver)).
  cbv zeta in D1. match type of D1 with Does _ _ _ ?k1 => set (k1' := k1) in D1 end.
  pose proof (Does_delete k1' 0 (mkHeld "a" 2 false) eq_refl) as D2.
  eexists. split; [exact (Goes_more _ _ _ _ _ _ _ D1 (Goes_more _ _ _ _ _ _ _ D2 (Goes_none _)))|]. split; [cbn; set_solver|reflexivity].
Qed.
(** C67, the general wish is refuted: a saved workbook can have a sheet's part that its relationships do not lead to. *)
Theorem C67_reached_refuted : ~ (forall (E : Env) (HH : Hashes) (fs fs1 fs' : filesys) (x0 : excel) (cs : list call) (s : session) (t : clock) (f : faults) (path : string) (tr : list filesys) (l : list (string * string)) (m : N) (text : string) (root : tree) ns,
  excel_new None fs = Ok x0 -> Forall Given cs -> calls cs (x0, []) = Some s -> excel_save t f path s.1 fs1 = (tr, Ok tt) -> last tr = Some fs' ->
  Stored fs' path l -> sheet_part m ∈ map fst l -> ("xl/_rels/workbook.xml.rels", prolog +:+ text) ∈ l -> Renders (Some ns) root text ->
  exists r, r ∈ relations_in root /\ child_attr r "Target" = Some ("/" +:+ sheet_part m)).
Proof.
  intros H. set (E := demo_env Wrapping). set (HH := value_hashes). set (cs := [CAdd (Some "a"); CDelete 0]).
  assert (Forall Given cs) as Hg by (repeat (apply List.Forall_cons; [exact I|]); apply List.Forall_nil).
  assert (match excel_new None ∅ with Ok x0 => match calls cs (x0, []) with Some s => match excel_save demo_clock demo_faults "a.xlsx" s.1 ∅ with (tr, Ok tt) => match last tr with Some _ => forallb (fun b => b) (answers cs (x0, [])) && Nat.eqb (length (answers cs (x0, []))) 2 | None => false end | _ => false end | None => false end | _ => false end = true) as Hc
    by (vm_compute; reflexivity).
  specialize (H E HH ∅ ∅). destruct (excel_new None ∅) as [x0|e|e] eqn:Ex; [|discriminate Hc..]. destruct (calls cs (x0, [])) as [s|] eqn:Ec; [|discriminate Hc].
  destruct (excel_save demo_clock demo_faults "a.xlsx" s.1 ∅) as [tr [[]|e|e]] eqn:Es; [|discriminate Hc..]. destruct (last tr) as [fs'|] eqn:El; [|discriminate Hc].
  destruct (C67_parts E HH _ _ _ _ _ _ _ _ _ _ Ex Hg Ec Es El) as (l & k & text & ns & root & texts & Hst & G & Hp & R1 & R2 & R3 & _).
  assert (answers cs (x0, []) = [true; true]) as Hb.
  { apply andb_true_iff in Hc as [H1 H2]. apply Nat.eqb_eq in H2. destruct (answers cs (x0, [])) as [|a [|b [|c rest]]]; [discriminate H2..| |discriminate H2]. cbn in H1. by destruct a, b. }
  rewrite Hb in G. clear Hc.
  destruct orphan_goes as (k' & G' & U & L). destruct (goes_det _ _ _ _ _ _ G G') as [_ ->]. clear G G'. rewrite L in R3.
  destruct (H fs' x0 cs s demo_clock demo_faults "a.xlsx" tr l 2 text root ns eq_refl Hg Ec Es El Hst) as (r & Hr & Ht); [|exact R1|exact R2|].
  - rewrite Hp. rewrite !elem_of_app. right. left. apply elem_of_list_fmap. exists 2. split; [done|]. by apply elem_of_elements.
  - assert (told r ∈ book_relations texts [(5, 1)]) as Hin. { rewrite <- R3. apply elem_of_list_fmap. eauto. }
    unfold told in Hin. rewrite Ht in Hin. unfold book_relations in Hin. rewrite !elem_of_app in Hin. destruct Hin as [Hin|[Hin|[Hin|Hin]]].
    + apply elem_of_list_singleton in Hin. by injection Hin.
    + destruct texts; [|by apply elem_of_nil in Hin]. apply elem_of_list_singleton in Hin. by injection Hin.
    + apply elem_of_list_singleton in Hin. by injection Hin.
    + apply elem_of_list_singleton in Hin. by injection Hin.
Qed.
Print Assumptions C67_parts.
Print Assumptions C67_count.
Print Assumptions C67_undeleted.
Print Assumptions C67_chain_unreached.
Print Assumptions C67_reached_refuted.
