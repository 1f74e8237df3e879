(** A file without calculation chain cannot be opened any more once the library has saved it. *)
From Verif.Model Require Import Excel.
From Verif.Spec Require Import RelSpec XmlSpec XmlRepr PackageSpec PartSpec SheetSpec StyleSpec SessionSpec FlowSpec.
From Verif.Proofs Require Import BaseFacts XmlNsFacts PackageFacts XmlTreeFacts XmlWriteFacts DocBuild XmlReadFacts PartFacts TypesFacts RelDocFacts SmallPartFacts AttrFacts StyleFacts StyleDocFacts SheetDocFacts
  BookFacts FrameFacts SaveFacts DocFacts SessionFacts RelFacts ExcelFacts XmlHistFacts SoundFacts KeepFacts ReadAnyFacts FlowFacts FlowSaveFacts FlowOpenFacts OwnFacts OpenBookFacts OpenRelFacts OpenStyleFacts FoundFacts OpenMoreFacts ReopenFacts.
From Verif.Spec Require Import BookSpec OpenSpec ReopenSpec.
Open Scope N_scope.

(** ** The relationships the library adds *)
Definition ChainRel (x : rel) : Prop := r_type x = c_type c_calc_chain -> r_target x = "/" +:+ calc_at.
Lemma added_chain x : rel_added x -> ChainRel x.
Proof.
  intros [[Hu|Hw] _] Ht; [|rewrite Hw in Ht; by vm_compute in Ht]. rewrite Ht in Hu. unfold usual_targets in Hu. rewrite !elem_of_cons, elem_of_nil in Hu.
  destruct Hu as [Hu|[Hu|[Hu|[Hu|[]]]]]; try (apply (f_equal fst) in Hu; by vm_compute in Hu). by injection Hu as ->.
Qed.
Lemma chain_evolved l gone r : Forall ChainRel l -> Evolved l gone r -> Forall ChainRel (rl_rels r).
Proof.
  intros Hl (new & -> & Hn & _). apply Forall_app. split; [|eapply Forall_impl; [exact Hn|exact added_chain]].
  rewrite Forall_forall in *. intros x Hx. apply elem_of_list_filter in Hx as [_ Hx]. by apply Hl.
Qed.
Section with_env.
Context `{E : Env} `{HH : Hashes}.

(** ** A workbook without calculation chain *)
Record Chainless (x : excel) : Prop := {
  cl_root : RelsOpen (x_office x) (rl_path (su_root (x_suite x)));
  cl_rels : RelsOpen (x_office x) (rl_path (wb_rels (x_book x)));
  cl_calc : wb_calc (x_book x) = mkCalc [] calc_at;
  cl_chain : ChainEmpty (x_office x);
  cl_list : Forall ChainRel (rl_rels (wb_rels (x_book x)));
  cl_ways : Ways x;
}.
Lemma ways_calls cs s s' : LInv s -> Ways s.1 -> calls cs s = Some s' -> Spared s.1 (deleted cs s) -> Ways s'.1.
Proof.
  intros I [Y1 Y2 Y3 Y4 Y5 Y6 Y7 Y8] Hc Hsp. destruct (own_stays _ _ _ I Hc) as [Hown _]. destruct (docs_stay _ _ _ I Hc) as (Hroot & Hcore & _). unfold own_parts in Hown. injection Hown as W1 W2 W3 W4 W5 W6.
  pose proof (calls_rels _ _ _ _ _ Hc (evolved_refl (wb_rels (x_book s.1)))) as Hev. cbn [app] in Hev.
  assert (forall c p, c_type c ∈ own_types -> Leads (wb_rels (x_book s.1)) c p -> Leads (wb_rels (x_book s'.1)) c p) as Hleads.
  { intros c p Hty Hl. eapply leads_evolved; [exact Hl|exact Hev|done|]. intros x Hx Hxt. apply Hsp; [done|by rewrite Hxt]. }
  assert (c_type c_theme ∈ own_types /\ c_type c_share_string ∈ own_types /\ c_type c_calc_chain ∈ own_types /\ c_type c_style ∈ own_types) as (T1 & T2 & T3 & T4).
  { unfold own_types. cbn [map]. rewrite !elem_of_cons. tauto. }
  constructor; rewrite ?Hroot, ?Hcore, ?W1, ?W2, ?W3, ?W4, ?W5, ?W6; auto.
Qed.
Lemma chainless_calls cs s s' : LInv s -> Chainless s.1 -> calls cs s = Some s' -> Spared s.1 (deleted cs s) -> Chainless s'.1.
Proof.
  intros I [C1 C2 C3 (p & C4 & C4') C5 C6] Hc Hsp. pose proof (ways_calls _ _ _ I C6 Hc Hsp) as Hw. destruct (own_stays _ _ _ I Hc) as [Hown Hopen]. destruct (docs_stay _ _ _ I Hc) as (Hroot & Hcore & Hdocs). pose proof (calls_calc _ _ _ Hc) as Hcalc.
  unfold own_parts in Hown. injection Hown as W1 W2 W3 W4 W5 W6. constructor.
  - rewrite Hroot. eapply PartOpen_at; [|exact C1]. apply Hdocs. by left.
  - rewrite W2. eapply PartOpen_at; [|exact C2]. apply Hopen, own_rels.
  - by rewrite Hcalc.
  - exists p. split; [|done]. rewrite Hopen; [done|]. pose proof (own_calc (x_book s.1)) as Ho. by rewrite C3 in Ho.
  - eapply chain_evolved; [exact C5|]. exact (calls_rels _ _ _ _ _ Hc (evolved_refl (wb_rels (x_book s.1)))).
  - done.
Qed.
Lemma chainless_opened file fs l x rels folder : Stored fs file l -> excel_new (Some file) fs = Ok x ->
  (exists data, (root_part, data) ∈ l /\ Sturdy data) -> (exists data, (rl_path (wb_rels (x_book x)), data) ∈ l /\ Sturdy data) -> rl_path (wb_rels (x_book x)) <> content_types_name ->
  OwnerFolder (rl_path (wb_rels (x_book x))) folder -> Lists l (rl_path (wb_rels (x_book x))) rels -> Forall (fun r => r_type r <> rel_type "calcChain") rels -> "xl/calcChain.xml" ∉ l.*1 -> Chainless x.
Proof.
  intros Hst Hx (dr & Hdr & Sdr) (dw & Hdw & Sdw) Hct Hf Hl Hno Hca. destruct (sources_opened _ _ _ Hx) as (o & Ho & S). destruct (sources_docs _ _ _ Hx) as (o' & Ho' & DS). rewrite Ho in Ho'. injection Ho' as <-.
  destruct (reopened_file _ _ _ _ Hst Ho) as (_ & Hparts & Hnone). pose proof (found_services _ _ _ _ _ Hst Hx Hct Hl folder Hf) as (_ & _ & Hcc & _).
  assert (cc_path (wb_calc (x_book x)) = calc_at) as Hcp.
  { destruct Hcc as [(l1 & r & l2 & -> & Hr & _)|[_ Hp]]; [|done]. apply Forall_app in Hno as [_ Hno]. by apply Forall_cons in Hno as [Hno _]. }
  destruct (so_calc _ _ _ S) as (p0 & d' & Hsc & Hlc & Hoc). rewrite Hcp in Hsc, Hoc.
  destruct Hsc as [[_ Hi]|(e & data & He & _)]; [|rewrite (Hnone calc_at Hca) in He; done].
  destruct (init_with_ns_spec c_calc_chain "calcChain") as (d & Hi' & Hd & Hns); [by vm_compute|]. unfold calc_init in Hi. rewrite Hi' in Hi. injection Hi as <-. cbn [op_doc] in Hlc.
  destruct (Doc_load_calc d _ _ _ _ Hd) as (d1 & Hl1 & Hd1 & Hns1). cbn [List.filter] in Hl1, Hd1. rewrite Hl1 in Hlc. injection Hlc as <- Hent.
  constructor.
  - destruct DS as [Dp (p & d2 & l' & new & Hs & Hld & Hop & _) _ _ _]. destruct (Hparts root_part _ ltac:(done) Hdr) as (e & He & Hb). destruct (sturdy_doc _ _ _ _ _ _ Hs He Hb Sdr) as (g & a & cs & H1 & H2 & H3 & _).
    destruct (Doc_load_relations _ _ _ _ _ H1) as (d3 & Hl3 & Hd3 & Hns3). rewrite Hld in Hl3. injection Hl3 as <- _.
    apply PartOpen_Doc. eexists _, _. split; [rewrite Dp; exact Hop|]. cbn [op_doc]. split; [exact Hd3|]. split; [by apply names_untagged|]. split; [by rewrite Hns3|]. split; [done|]. split; [done|]. apply untagged_none.
  - destruct (so_rels _ _ _ S) as (p & d2 & r & Hs & Hld & Hop & _). destruct (Hparts _ _ Hct Hdw) as (e & He & Hb). destruct (sturdy_doc _ _ _ _ _ _ Hs He Hb Sdw) as (g & a & cs & H1 & H2 & H3 & _).
    destruct (Doc_load_relations _ _ _ _ _ H1) as (d3 & Hl3 & Hd3 & Hns3). rewrite Hld in Hl3. injection Hl3 as <- _.
    apply PartOpen_Doc. eexists _, _. split; [exact Hop|]. cbn [op_doc]. split; [exact Hd3|]. split; [by apply names_untagged|]. split; [by rewrite Hns3|]. split; [done|]. split; [done|]. apply untagged_none.
  - destruct (wb_calc (x_book x)) as [es pp]. cbn in *. by subst.
  - eexists. split; [exact Hoc|]. cbn [op_doc]. split; [exact Hd1|]. rewrite Hns1, Hns. apply ns_ok_single. by vm_compute.
  - destruct (so_rels _ _ _ S) as (p & d2 & r & Hs & Hld & _ & (_ & (new & -> & Hn) & _)). apply Forall_app. split; [|eapply Forall_impl; [exact Hn|exact added_chain]].
    assert (rl_rels r = rels) as -> by (eapply lists_read; [|exact Hl|exact Hs|exact Hld]; intros data Hin; by apply Hparts).
    eapply Forall_impl; [exact Hno|]. intros y Hy Ht. by destruct Hy.
  - by eapply ways_opened.
Qed.

(** ** Saving it *)
Lemma emptied_some x : Ways x -> NoDup (own_parts (x_book x)) -> rl_rels (emptied (x_book x) (wb_rels (x_book x))) <> [].
Proof.
  intros [_ _ _ _ (r1 & F1 & R1) (r2 & F2 & R2) (r3 & F3 & R3) _] Hnd Hz. set (b := x_book x) in *. destruct (emptied_rels b _ _ _ (evolved_refl (wb_rels b))) as (new & He & _). rewrite Hz in He. cbn [app] in He.
  symmetry in He. apply app_eq_nil in He as [He _].
  assert (forall ty r, List.find (fun x => seqb (r_type x) ty) (rl_rels (wb_rels b)) = Some r -> r_target r ∈ unused b) as Hin.
  { intros ty r Hr. apply List.find_some in Hr as [Hr _]. destruct (decide (r_target r ∈ unused b)) as [Hy|Hn]; [done|]. apply elem_of_list_In in Hr.
    assert (r ∈ filter (fun x => r_target x ∉ unused b) (rl_rels (wb_rels b))) as Hc by (by apply elem_of_list_filter). rewrite He in Hc. by apply elem_of_nil in Hc. }
  apply Hin in F1, F2, F3. unfold own_parts in Hnd. rewrite !NoDup_cons, !not_elem_of_cons in Hnd. destruct_and! Hnd.
  assert (r_target r1 <> r_target r2 /\ r_target r1 <> r_target r3 /\ r_target r2 <> r_target r3) as (N1 & N2 & N3) by (split_and!; congruence).
  unfold unused in *. destruct (cc_entries _), (ss_strings _); cbn [app] in *; rewrite ?elem_of_cons, ?elem_of_nil in *; intuition congruence.
Qed.
Lemma unchained x : Chainless x -> NoChain (map escaped_rel (rl_rels (emptied (x_book x) (wb_rels (x_book x))))).
Proof.
  intros [_ _ Hc _ Hl _]. apply Forall_forall. intros y (r & -> & Hr)%elem_of_list_fmap. unfold escaped_rel. cbn [r_type]. intros Ht.
  assert (r_type r = c_type c_calc_chain) as Hty. { rewrite <- Ht. symmetry. apply escape_plain. rewrite Ht. by vm_compute. }
  destruct (emptied_rels (x_book x) _ _ _ (evolved_refl (wb_rels (x_book x)))) as (new & He & _). cbn [app] in He.
  assert (r ∈ rl_rels (delete_relationship calc_at (wb_rels (x_book x)))) as Hd.
  { unfold emptied in Hr. rewrite Hc in Hr. cbn in Hr. destruct (ss_strings _); [|done]. rewrite (delete_rels (ss_path _)) in Hr. apply elem_of_list_In, filter_In in Hr as [Hr _]. by apply elem_of_list_In. }
  rewrite delete_rels in Hd. apply elem_of_list_In, filter_In in Hd as [Hd Hne]. rewrite Forall_forall in Hl. apply elem_of_list_In in Hd. rewrite (Hl _ Hd Hty) in Hne. by vm_compute in Hne.
Qed.
Lemma flush_open b o : wb_calc b = mkCalc [] calc_at -> NoDup (own_parts b) -> chain_same_open o (wb_flush b o).1.
Proof.
  intros B4 Hnd. unfold wb_flush. unfold own_parts in Hnd. rewrite B4 in Hnd. cbn [cc_path] in Hnd. rewrite !NoDup_cons, !not_elem_of_cons in Hnd. destruct_and! Hnd.
  assert (forall r o, rl_path r = rl_path (wb_rels b) -> chain_same_open o (rels_close r o).1) as Hr.
  { intros r o0 Hr. apply rels_close_other. rewrite Hr. congruence. }
  assert (forall s, chain_same_open s.2 (calc_close (wb_calc b) s).1.2) as Hc. { rewrite B4. apply calc_empty_open. }
  assert (forall a b c, chain_same_open a b -> chain_same_open b c -> chain_same_open a c) as Ht. { unfold chain_same_open. congruence. }
  assert (forall o o', SameAt o o' calc_at -> chain_same_open o o') as Hs. { by intros ? ? []. }
  assert (forall v l o, chain_same_open o (book_part_close (wb_path b) v l o).1) as Hk. { intros v l o0. apply Hs, keep_book_part_close. congruence. }
  assert (calc_at <> wb_theme b /\ calc_at <> ss_path (wb_sst b) /\ calc_at <> sp_path (wb_style b)) as (Q1 & Q2 & Q3) by (split_and!; congruence).
  destruct (close_steps b chain_same_open calc_at Ht Hs Hc Hr Q1 Q2 Q3 Hk (b, o) (same_paths_refl b)) as [H1' R1].
  destruct (wb_close (b, o)) as [[b1 o1] r]. cbn [fst snd] in *. eapply Ht; [exact R1|].
  by apply (drop_steps b chain_same_open calc_at Ht Hs Hc Hr Q1 Q2 Q3 Hk).
Qed.
Lemma reopen_refused path fs o er el rootl l core book rp x' : office_new (Some path) fs = Ok o -> BadChain o ->
  Lies o root_part er -> RelsBack root_part rootl er -> Leads (mkRelations (map escaped_rel rootl) root_part) c_core core -> Leads (mkRelations (map escaped_rel rootl) root_part) c_workbook book ->
  book_rels_path book = Ok rp -> Lies o rp el -> RelsBack rp l el -> NoChain (map escaped_rel l) -> NoDup [root_part; core; book; rp; calc_at] -> excel_new (Some path) fs <> Ok x'.
Proof.
  intros Hn Hb C1 B1 L1 L2 Hrp C4 B4 Hl Hnd. rewrite !NoDup_cons, !not_elem_of_cons in Hnd. destruct_and! Hnd. unfold excel_new, suite_new. rewrite Hn. cbn [rbind]. change "_rels/.rels" with root_part.
  destruct (B1 o C1) as (o1 & -> & _ & S1). apply (lies_only _ _ _ _ _ S1) in C4; [|congruence].
  assert (forall q o o', Only q o o' -> q <> calc_at -> BadChain o -> BadChain o') as Hbad.
  { intros q x y [S S'] Hq. apply bad_same. split; [by apply S'; congruence|]. rewrite S. by rewrite lookup_delete_ne by congruence. }
  apply (Hbad _ _ _ S1) in Hb; [|congruence]. set (root := mkRelations _ root_part) in *.
  unfold core_new. unfold bind at 1, on_rels at 1. cbn [fst snd]. rewrite (leads_path _ _ None _ L1). unfold bind at 1, on_office at 1. cbn [fst snd].
  pose proof (keep_get_xml core_init core o1) as K2. unfold id in K2. destruct (get_xml_document core_init core o1) as [o2 [[]|e|e]]; [|done..]. cbn [fst snd] in *. unfold ret. cbn [rbind su_root su_office].
  apply (bad_same o1 o2) in Hb; [|apply K2; congruence].
  assert (forall x y, SameAt x y rp -> Lies x rp el -> Lies y rp el) as Hlie. { intros x y [S S'] [T1 T2]. split; [congruence|]. by rewrite S'. }
  apply (Hlie o1 o2) in C4; [|apply K2; congruence].
  unfold workbook_new. unfold bind at 1, on_rels at 1. cbn [fst snd]. rewrite (leads_path _ _ None _ L2). unfold bind at 1, on_office at 1. cbn [fst snd].
  pose proof (keep_get_xml workbook_init book o2) as K3. unfold id in K3. destruct (get_xml_document workbook_init book o2) as [o3 [[]|e|e]]; [|done..]. cbn [fst snd] in *.
  apply (bad_same o2 o3) in Hb; [|apply K3; congruence]. apply (Hlie o2 o3) in C4; [|apply K3; congruence].
  unfold bind at 1, lift at 1. rewrite Hrp. unfold bind at 1, on_office at 1. cbn [fst snd]. destruct (B4 o3 C4) as (o4 & -> & _ & S4). apply (Hbad _ _ _ S4) in Hb; [|congruence].
  unfold bind at 1, get at 1. cbn [fst snd].
  match goal with |- context [?m (mkRelations (map escaped_rel l) rp, o4)] => destruct (m (mkRelations (map escaped_rel l) rp, o4)) as [[rels5 o5] [v|e|e]] eqn:E5 end; [|done..].
  by apply services_bad in E5.
Qed.
Theorem chainless_refused t f path s fs tr fs' x' : LInv s -> Chainless s.1 -> plain_text (su_core (x_suite s.1)) -> plain_text (wb_path (x_book s.1)) ->
  excel_save t f path s.1 fs = (tr, Ok tt) -> last tr = Some fs' -> excel_new (Some path) fs' <> Ok x'.
Proof.
  intros I C P2 P3 Hsave Hlast. pose proof (unchained _ C) as Hno. destruct C as [C1 C2 C3 (p & C4 & C4' & C4'') C5 C6]. unfold excel_save in Hsave. set (x := s.1) in *. set (b := x_book x) in *.
  pose proof (li_nodup _ I) as Hnd. unfold KeepFacts.held in Hnd. fold x b in Hnd. apply NoDup_app in Hnd as (Hown & Hdis & Hnd2). apply NoDup_app in Hnd2 as (Hdocs & _ & _).
  pose proof (emptied_some _ C6 Hown) as Hsome. fold b in Hsome. destruct C6 as [Y1 Y2 Y3 Y4 Y5 Y6 Y7 Y8].
  pose proof (flush_keeps b (x_office x)) as Kf. pose proof (flush_open b (x_office x) C3 Hown) as Ch. unfold chain_same_open in Ch.
  destruct (wb_flush b (x_office x)) as [o0 [[]|e|e]] eqn:Ef; [|done..]. cbn [fst] in Kf, Ch. apply flushed in Ef; [|done].
  assert (forall q, q ∈ own_parts b -> q <> su_core (x_suite x) /\ q <> rl_path (su_root (x_suite x))) as Hne.
  { intros q Hq. specialize (Hdis _ Hq). rewrite elem_of_app in Hdis. assert (q ∉ DocsIn (x_suite x)) as Hd by tauto. unfold DocsIn in Hd. rewrite !not_elem_of_cons in Hd. tauto. }
  assert (forall q, q ∈ DocsIn (x_suite x) -> of_open o0 !! q = of_open (x_office x) !! q) as Hdoc.
  { intros q Hq. destruct (Kf q) as [K _]; [|done]. intros Hin. apply (Hdis _ Hin), elem_of_app. by left. }
  assert (su_core (x_suite x) <> rl_path (su_root (x_suite x))) as Hcr. { unfold DocsIn in Hdocs. rewrite !NoDup_cons, !not_elem_of_cons in Hdocs. destruct_and! Hdocs. congruence. }
  unfold suite_save in Hsave. unfold bind at 1 in Hsave. cbn [su_core su_root su_office] in Hsave.
  pose proof (keep_core_flush t (su_core (x_suite x)) o0) as Kc. unfold id in Kc. destruct (core_flush t (su_core (x_suite x)) o0) as [o1 [[]|e|e]]; [|done..]. cbn [fst] in Kc.
  destruct (rels_back o1 (su_root (x_suite x))) as (er & Hrf & Hrb).
  { eapply PartOpen_at; [|exact C1]. destruct (Kc (rl_path (su_root (x_suite x)))) as [-> _]; [congruence|]. apply Hdoc. by left. }
  { by eapply leads_some. }
  rewrite Hrf in Hsave. cbn iota in Hsave. match type of Hsave with context [office_save f path ?o fs] => set (o2 := o) in * end. destruct (office_save f path o2 fs) as [o3 [tr3 r3]] eqn:Ho. cbn [snd] in Hsave. injection Hsave as -> ->.
  assert (wb_path b ∈ own_parts b /\ rl_path (wb_rels b) ∈ own_parts b /\ calc_at ∈ own_parts b) as (M1 & M2 & M3).
  { split_and!; [unfold own_parts; rewrite !elem_of_cons; tauto..|]. pose proof (own_calc b) as Hc. by rewrite C3 in Hc. }
  destruct (written_closed _ _ _ _ (fl_rels _ _ _ Ef)) as (o4 & H4 & Hcl).
  assert (rl_path (emptied b (wb_rels b)) = rl_path (wb_rels b)) as Hep. { unfold emptied. by destruct (cc_entries _), (ss_strings _). }
  destruct (rels_back o4 (emptied b (wb_rels b))) as (el & Hw & Hlb); [rewrite Hep; by eapply PartOpen_at|done|]. rewrite Hep in Hw, Hlb. specialize (Hcl _ Hw).
  destruct (office_new (Some path) fs') as [p0|m|m] eqn:Hnew; [|by unfold excel_new, suite_new; rewrite Hnew..]. destruct (save_reopen _ _ _ _ _ _ _ _ Ho Hlast Hnew) as [Hop _].
  assert (forall q e, Closed o2 q e -> Lies p0 q e) as Hlies.
  { intros q e [H1 H2]. split; [by rewrite Hop, lookup_empty|]. eapply save_reopen_closed; [exact Ho|exact Hlast|exact Hnew| |done|done]. intros ->.
    destruct (saved_file _ _ _ _ _ _ _ Ho Hlast) as (l & _ & _ & _ & Hct). unfold part_data in Hct. rewrite H1, H2 in Hct. by destruct (part_bytes e). }
  destruct (Hne _ M2) as [N1 N2]. destruct (Hne _ M3) as [N3 N4]. destruct (Hne _ M1) as [N5 N6].
  destruct (save_reopen_open _ _ _ _ _ _ _ _ calc_at p Ho Hlast Hnew) as (ec & data & E1 & E2 & E3); [done| |].
  { unfold o2. cbn [of_open]. rewrite lookup_delete_ne by congruence. destruct (Kc calc_at) as [-> _]; [congruence|]. by rewrite Ch. }
  unfold own_parts in Hown. rewrite C3 in Hown. cbn [cc_path] in Hown. rewrite !NoDup_cons, !not_elem_of_cons in Hown. destruct_and! Hown.
  rewrite Y1 in *.
  eapply (reopen_refused path fs' p0 er el _ _ (su_core (x_suite x)) (wb_path b) (rl_path (wb_rels b))); [exact Hnew| | |exact Hrb| | |exact Y4| |exact Hlb|exact Hno|].
  - split; [rewrite Hop; apply lookup_empty|]. rewrite (Doc_write _ _ C4') in E3. injection E3 as <-.
    destruct (read_empty_root (d_ns (op_doc p)) "calcChain" (Some ∅)) as [m Hm]; [apply names_ok_node; split; [by vm_compute|split; [apply attrs_ok_empty|constructor]]|done|]. eauto 10.
  - rewrite <- Y1. apply Hlies. unfold o2. split; cbn; [apply lookup_delete|apply lookup_insert].
  - rewrite <- Y1. by apply leads_escaped; [by vm_compute|..].
  - rewrite <- Y1. by apply leads_escaped; [by vm_compute|..].
  - apply Hlies. destruct Hcl as [G1 G2]. unfold o2. destruct (Kc (rl_path (wb_rels b))) as [G3 G4]; [congruence|]. split; cbn [of_open of_archive]; [rewrite lookup_delete_ne by congruence; congruence|rewrite lookup_insert_ne by congruence; congruence].
  - rewrite !NoDup_cons, !not_elem_of_cons. split_and!; try congruence; try apply not_elem_of_nil; by constructor.
Qed.
End with_env.
