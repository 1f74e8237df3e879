(** Parts nobody asks for stay as they are. *)
From Verif.Model Require Import Excel.
From Verif.Spec Require Import XmlSpec PackageSpec SessionSpec FlowSpec ReopenSpec PanicSpec GrowSpec CarrySpec.
From Verif.Proofs Require Import BaseFacts PackageFacts SaveFacts BookFacts SheetDocFacts SheetCycleFacts SessionFacts FrameFacts KeepFacts OwnFacts FlowFacts FlowSaveFacts AnswerFacts InventoryFacts PanicFacts ReopenFacts GrowFacts.
Open Scope N_scope.

Section with_env.
Context `{E : Env} `{HH : Hashes}.
(** One call. *)
Lemma apart_give c name s q : asks c name -> (forall p, AsksFor s c p -> q <> p /\ ~ Beside p q) -> SameAt (x_office s.1) (x_office (give (on_book (add_sheet name)) s).1.1) q.
Proof.
  intros Ha Hq. unfold give, on_book, x_state, add_sheet. cbn [fst snd].
  pose proof (fun path nm => asked_path name c s path nm Ha) as Hasked. set (st := (wb_sheets (x_book s.1), (wb_rels (x_book s.1), x_office s.1))) in *.
  assert (SameAt (x_office s.1) (ws_new name st).1.2.2 q) as K.
  { apply (ws_new_keeps name st q).
    - intros path nm rp H1 H2. destruct (Hq path) as [N1 N2]; [by eapply Hasked|]. split; [done|]. intros ->. apply N2. by apply beside_spec.
    - intros path nm H1. apply Hq. by eapply Hasked. }
  by destruct (ws_new name st) as [[l [r o]] [w|e|e]].
Qed.
Lemma apart_spend h s q (m : worksheet -> M wb_state unit) : LInv s -> of_open (x_office s.1) !! q = None ->
  (forall w b o, q <> ws_path w -> q <> rl_path (ws_rels w) -> SameAt o (m w (b, o)).1.2 q) -> SameAt (x_office s.1) (x_office (spend h m s).1.1) q.
Proof.
  intros I Hq Hm. unfold spend. destruct (handle h s) as [w|] eqn:Eh; [|done].
  assert (q ∉ [ws_path w; rl_path (ws_rels w)]) as Hout.
  { intros Hin. assert (is_Some (of_open (x_office s.1) !! q)) as [? Hs]; [|by rewrite Hq in Hs]. apply (li_open _ I). unfold held. apply handle_lookup in Eh.
    destruct (live_split _ _ _ Eh) as (a & b & L1 & _). rewrite L1, !elem_of_app. cbn [handle_parts]. tauto. }
  rewrite !not_elem_of_cons in Hout. destruct Hout as (H1 & H2 & _). specialize (Hm w (x_book s.1) (x_office s.1) H1 H2).
  unfold on_book, x_state. by destruct (m w (x_book s.1, x_office s.1)) as [[b1 o1] r].
Qed.
Theorem apart_call c s q : LInv s -> of_open (x_office s.1) !! q = None -> (forall p, AsksFor s c p -> q <> p /\ ~ Beside p q) -> SameAt (x_office s.1) (x_office (call_step c s).1.1) q.
Proof.
  intros I Hq Ha. assert (forall m, SameAt (x_office s.1) (x_office (on_excel (on_book (A := unit) (pure_book m)) s).1.1) q) as Hpure.
  { intros m. unfold on_excel, on_book, pure_book, x_state. cbn [fst snd]. by destruct (m (x_book s.1)). }
  assert (forall h m, SameAt (x_office s.1) (x_office (use h m s).1.1) q) as Huse.
  { intros h m. unfold use. destruct (handle h s) as [w|]; [|done]. by destruct (m _) as [[w1 t] r]. }
  destruct c; cbn [call_step]; try (by apply Hpure); try (by apply Huse).
  - eapply apart_give; [|exact Ha]. by left.
  - change (get_worksheet name) with (add_sheet (Some name)). eapply apart_give; [|exact Ha]. right. by eexists.
  - apply apart_spend; [done..|]. intros w b o H1 H2. cbn [fst snd]. by apply ws_drop_keeps.
  - apply apart_spend; [done..|]. intros w b o H1 H2. unfold on_wb_office. cbn [fst snd]. pose proof (ws_flush_keeps w o q H1 H2) as K. by destruct (ws_flush w o).
  - apply apart_spend; [done..|]. intros w b o H1 H2. by apply delete_keeps.
Qed.
(** All calls. *)
Theorem apart_calls cs : forall s s' q e, LInv s -> calls cs s = Some s' -> StoredAt s q e -> LeftOut cs s q -> StoredAt s' q e.
Proof.
  induction cs as [|c cs IH]; intros s s' q e I Hc Hq Ha; [by injection Hc as <-|]. apply calls_cons in Hc as [Hp Hc]. eapply IH; [|exact Hc| |].
  - by apply call_effect.
  - destruct Hq as [Q1 Q2]. destruct (apart_call c s q I Q1) as [S1 S2].
    + intros p Hasks. apply Ha. by exists [], c, cs, s.
    + unfold StoredAt. by rewrite S1, S2.
  - intros p Hasks. apply Ha. by apply asked_cons.
Qed.
(** Right after opening. *)
Lemma opened_closed file fs x q : excel_new (Some file) fs = Ok x -> q ∉ basic_parts x ++ other_parts x -> of_open (x_office x) !! q = None.
Proof.
  unfold excel_new. destruct (suite_new (Some file) fs) as [s|e|e] eqn:Es; cbn [rbind]; [|done..]. pose proof (suite_root _ _ _ Es) as Hroot.
  destruct (opens_suite _ _ _ Es) as (o & Ho & He & O1).
  destruct (workbook_new (su_root s, su_office s)) as [[root o1] [b|e|e]] eqn:Ew; [|done..].
  destruct (opens_workbook (su_root s, su_office s) _ _ (op_docs _ _ _ O1) Ew) as [O2 Hr]. cbn [fst snd] in *.
  pose proof (opens_trans _ _ _ _ _ O1 O2) as O. intros [= <-]. change (x_office _) with o1. unfold basic_parts, other_parts. cbn [x_suite x_book su_core app]. intros Hq.
  destruct (of_open o1 !! q) eqn:Eq; [|done]. exfalso. apply Hq. destruct (proj1 (op_open _ _ _ O q)) as [[? H]|H]; [by eexists|by rewrite He, lookup_empty in H|].
  revert H. unfold DocsIn, own_parts. rewrite Hroot, !elem_of_app, !elem_of_cons, !elem_of_nil. tauto.
Qed.
Lemma opened_stored file fs l x q data : Stored fs file l -> excel_new (Some file) fs = Ok x -> (q, data) ∈ l -> Foreign x q -> exists e, StoredAt (x, []) q e /\ part_bytes e = Ok data.
Proof.
  intros Hst Hx Hin [Hct Hq]. pose proof (opened_closed _ _ _ _ Hx Hq) as Hcl. destruct (new_linv _ _ _ Hx) as (I & o & Ho & _ & Hopen).
  destruct (reopened_file _ _ _ _ Hst Ho) as (_ & Hparts & _). destruct (Hparts q data Hct Hin) as (e & He & Hb). exists e. split; [|done].
  destruct (Hopen q e He) as [[H1 H2]|[[? H1]|H1]]; [done|by rewrite Hcl in H1|done].
Qed.
Theorem carried_saved file fs0 l0 x cs s t f path fs tr fs' q data : Stored fs0 file l0 -> (q, data) ∈ l0 -> excel_new (Some file) fs0 = Ok x -> Foreign x q -> LeftOut cs (x, []) q ->
  calls cs (x, []) = Some s -> excel_save t f path s.1 fs = (tr, Ok tt) -> last tr = Some fs' -> Carries fs' path q data.
Proof.
  intros Hst Hin Hx Hf Ha Hc Hs Hl. destruct (opened_stored _ _ _ _ _ _ Hst Hx Hin Hf) as (e & He & Hb). destruct (new_linv _ _ _ Hx) as [I _].
  pose proof (apart_calls _ _ _ _ _ I Hc He Ha) as He'. destruct (calls_effect _ _ _ I Hc) as [I' _]. destruct (flow_saved _ _ _ _ _ _ _ I' Hs Hl) as (l & L1 & L2 & _).
  exists l. split; [done|]. by apply (L2 q e).
Qed.
Theorem journey_carries q data rs a b : Journey q rs a b -> (exists l, Stored a.2 a.1 l /\ (q, data) ∈ l) -> (exists l, Stored b.2 b.1 l /\ (q, data) ∈ l) /\ (rs <> [] -> Carries b.2 b.1 q data).
Proof.
  induction 1 as [a|r rs file fs0 x fs s fs1 b Hx Hf Ha (Hc & tr & Hs & Hl) Hj IH]; intros (l & Hst & Hin); [split; [by exists l|done]|]. cbn [fst snd] in *.
  pose proof (carried_saved _ _ _ _ _ _ _ _ _ _ _ _ _ _ Hst Hin Hx Hf Ha Hc Hs Hl) as (l1 & C1 & C2).
  destruct IH as [IH1 IH2]. { exists l1. split; [done|]. by apply C2. } split; [done|]. intros _.
  destruct rs as [|r' rs]; [|by apply IH2]. inversion Hj; subst. by exists l1.
Qed.
(** Rounds on an orderly file: the parts of the workbook are the same in each. *)
Theorem rounds_journey q rs : forall file fs0 x0 fs x1 fs1 r s fs2, excel_new (Some file) fs0 = Ok x0 -> Fit x0 -> (forall p, p ∈ basic_parts x0 ++ other_parts x0 -> plain_text p) ->
  cc_entries (wb_calc (x_book x0)) <> [] -> Foreign x0 q -> Rounds rs x0 fs x1 fs1 -> Worked r x1 fs1 s fs2 ->
  (forall rs1 r1 rs2 x fs', rs ++ [r] = rs1 ++ r1 :: rs2 -> Rounds rs1 x0 fs x fs' -> LeftOut (ro_calls r1) (x, []) q) -> Journey q (rs ++ [r]) (file, fs0) (ro_path r, fs2).
Proof.
  induction rs as [|r0 rs IH]; intros file fs0 x0 fs x1 fs1 r s fs2 Hx HF Hpl Hcc Hq Hrs Hw Ha; inversion Hrs; subst.
  - eapply Journey_more; [exact Hx|done| |exact Hw|constructor]. eapply (Ha [] r []); [done|constructor].
  - match goal with Hw0 : Worked r0 _ _ ?s0 ?f0, Hs0 : ReopenSpec.Sound r0 _ _, Hn : excel_new _ _ = Ok ?x1, Hr : Rounds rs _ _ _ _ |- _ =>
      destruct (round_opens _ _ _ _ _ _ _ Hx HF Hpl Hcc Hw0 Hs0) as (x1' & K1 & K2 & K3 & K4 & K5); rewrite Hn in K1; injection K1 as <-; rename x1 into xm; rename Hw0 into W; rename Hs0 into S; rename Hn into N; rename Hr into R end.
    assert (basic_parts xm ++ other_parts xm = basic_parts x0 ++ other_parts x0) as Hp by (rewrite <- K4; apply (re_parts _ _ K2)).
    cbn [app]. eapply Journey_more; [exact Hx|done| |exact W|]. { eapply (Ha [] r0 (rs ++ [r])); [done|constructor]. }
    eapply IH; [exact N|done|by rewrite Hp| |unfold Foreign; by rewrite Hp|exact R|exact Hw|].
    + rewrite (re_chain _ _ K2), K5. by destruct (cc_entries (wb_calc (x_book x0))).
    + intros rs1 r1 rs2 x fs' Heq HR. eapply (Ha (r0 :: rs1) r1 rs2 x fs'); [cbn; by rewrite Heq|]. by eapply Rounds_more.
Qed.
(** When nobody asks for the part. *)
Lemma not_rels p dir k : p = dir +:+ "worksheets/sheet" +:+ k +:+ ".xml" -> ~ rels_name p.
Proof.
  intros -> (d & g & H). apply (f_equal srev) in H. rewrite !srev_app_dist, <- !app_assoc_s in H. discriminate.
Qed.
Theorem apart_unasked cs s s' q e : LInv s -> calls cs s = Some s' -> StoredAt s q e -> ~ Reopens cs s q ->
  (forall p, Beside p q -> ~ rels_name p /\ ~ Reopens cs s p /\ exists e', StoredAt s p e') -> LeftOut cs s q.
Proof.
  intros I Hc Hq Hr Hown p (cs1 & c & cs2 & s1 & -> & H1 & H2).
  assert (forall p' e', StoredAt s p' e' -> ~ rels_name p' -> ~ Reopens (cs1 ++ c :: cs2) s p' -> StoredAt s1 p' e') as Hstay.
  { intros p' e' S1 S2 S3. eapply stored_stays; [exact I|exact H1|exact S1|exact S2|]. intros (a & c' & b & s2 & n & -> & R1 & R2). apply S3.
    exists a, c', (b ++ c :: cs2), s2, n. split; [by rewrite <- app_assoc|done]. }
  destruct H2 as [(n & Ha & Hl)|(name & dir & m & Ha & Hno & Hp & Hnone)].
  - assert (Reopens (cs1 ++ c :: cs2) s p) as HR.
    { exists cs1, c, cs2, s1, n. split; [done|]. split; [done|]. split; [|done]. destruct Ha as [->|(n' & [= <-] & ->)]; auto. }
    split; [by intros ->|]. intros Hb. by destruct (Hown p Hb) as (_ & H & _).
  - split.
    + intros ->. destruct (Hstay p e Hq) as [_ H]; [by eapply not_rels|done|]. by rewrite Hnone in H.
    + intros Hb. destruct (Hown p Hb) as (N1 & N2 & e' & N3). destruct (Hstay p e' N3 N1 N2) as [_ H]. by rewrite Hnone in H.
Qed.
End with_env.
