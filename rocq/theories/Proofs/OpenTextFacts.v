(** The table of strings, from the opened file to the saved one. *)
From Verif.Model Require Import Excel.
From Verif.Spec Require Import RelSpec XmlSpec XmlRepr PackageSpec PartSpec SheetSpec StyleSpec SessionSpec FlowSpec.
From Verif.Proofs Require Import BaseFacts PackageFacts XmlTreeFacts XmlWriteFacts DocBuild XmlReadFacts PartFacts RelDocFacts SmallPartFacts AttrFacts StyleFacts StyleDocFacts SheetDocFacts
  BookFacts FrameFacts SaveFacts SessionFacts RelFacts ExcelFacts XmlHistFacts SoundFacts KeepFacts ReadAnyFacts FlowFacts FlowSaveFacts FlowOpenFacts OwnFacts OpenBookFacts OpenRelFacts TypesFacts.
From Verif.Spec Require Import BookSpec OpenSpec OpenTextSpec.
Open Scope N_scope.

Lemma first_texts root texts : FirstTexts root texts -> omap si_text (List.filter (fun t => seqb (t_tag t) "si") (t_children root)) = texts.
Proof.
  unfold FirstTexts, items. change (fun t => String.eqb (t_tag t) "si") with (fun t => seqb (t_tag t) "si"). generalize (List.filter (fun t => seqb (t_tag t) "si") (t_children root)) as l.
  intros l Hl. induction Hl as [|x t xs ts (c & cs & Hc & _ & Hx) _ IH]; [done|]. cbn [omap list_omap]. unfold si_text at 1. rewrite Hc. by rewrite IH, Hx.
Qed.
Lemma distinct_dups l : Distinct l (N.of_nat (length (remove_dups l))).
Proof.
  induction l as [|x l IH]; [constructor|]. cbn [remove_dups]. destruct (decide_rel _ x l) as [Hin|Hin]; [by constructor|]. cbn [length].
  replace (N.of_nat (S (length (remove_dups l)))) with (N.of_nat (length (remove_dups l)) + 1) by lia. by constructor.
Qed.
Lemma items_trees l : List.filter (fun t => String.eqb (t_tag t) "si") (map si_tree l) = map si_tree l.
Proof. induction l as [|x l IH]; [done|]. cbn [map List.filter]. change (t_tag (si_tree x)) with "si". by rewrite String.eqb_refl, IH. Qed.
Lemma items_left cs l : Forall (fun t => t_tag t <> "si") cs -> List.filter (fun t => String.eqb (t_tag t) "si") (cs ++ map si_tree l) = map si_tree l.
Proof.
  intros Hf. rewrite List.filter_app, items_trees. assert (List.filter (fun t => String.eqb (t_tag t) "si") cs = []) as ->; [|done].
  apply filter_none. intros t Ht. rewrite Forall_forall in Hf. apply String.eqb_neq. by apply Hf.
Qed.
Section with_env.
Context `{E : Env} `{Hs : Hashes}.
Lemma table_written c o o' p g m cs : of_open o !! ss_path c = Some p -> Doc (op_doc p) (Node g (Some m) None cs) -> names_ok (Node g (Some m) None cs) -> ns_ok (d_ns (op_doc p)) ->
  Forall (fun t => t_tag t <> "si") cs -> ss_strings c <> [] -> table_close c o = (o', Ok tt) ->
  of_open o' !! ss_path c = None /\ exists e text nsl, of_archive o' !! ss_path c = Some e /\ part_bytes e = Ok (prolog +:+ text)
  /\ Renders (Some nsl) (Node g (Some (sst_attrs (ss_strings c) m)) None (cs ++ map si_tree (ss_strings c))) text /\ NsKept (d_ns (op_doc p)) nsl
  /\ ReadsAs (prolog +:+ text) (reread (Node g (Some (sst_attrs (ss_strings c) m)) None (cs ++ map si_tree (ss_strings c)))).
Proof.
  intros Hp Hd Hn Hns Hf Hne Hc. set (l := ss_strings c) in *.
  destruct (Doc_save_strings (op_doc p) _ _ _ _ l Hd) as (d1 & Hsv & Hd1 & Hns1).
  pose proof (with_doc_spec (ss_path c) (save_strings l) o p d1 _ Hp Hsv) as Hw. set (o1 := mkOffice _ _) in Hw.
  destruct (close_doc o1 (ss_path c) (mkOpen d1 (op_ct p) (op_ext p) (op_ext_type p)) (Node g (Some (sst_attrs l m)) None (cs ++ map si_tree l))) as (e & Hcl & _ & _ & _ & Hb).
  { unfold o1. cbn. by rewrite lookup_insert. } { done. }
  unfold table_close, bind in Hc. fold l in Hc. rewrite Hw in Hc. cbn [rmap rbind] in Hc. rewrite Hcl in Hc. injection Hc as <-. split; [cbn; apply lookup_delete|].
  exists e. do 2 eexists. split; [cbn; apply lookup_insert|]. split; [exact Hb|]. split; [apply render_renders_mut|]. split; [cbn [op_doc]; rewrite Hns1; apply ns_kept|].
  cbn [op_doc]. rewrite Hns1. apply names_ok_node in Hn as (N1 & N2 & N3).
  assert (names_ok (Node g (Some (sst_attrs l m)) None (cs ++ map si_tree l))) as Hn'.
  { apply names_ok_node. split; [done|]. split; [by apply sst_attrs_ok|]. apply Forall_app. split; [done|]. apply Forall_map_all, si_tree_ok. }
  destruct (Doc_read (d_ns (op_doc p)) _ Hn' Hns) as (d & Hr & Hdd & Hdn). { right. cbn. destruct cs; [by destruct l|done]. }
  destruct Hdd as (it & R1 & R2). exists d, it. split; [done|]. split; [by apply R1|]. split; [done|]. rewrite Hdn. apply ns_ok_written. done.
Qed.
Lemma own_sst b : ss_path (wb_sst b) ∈ own_parts b.
Proof. unfold own_parts. rewrite !elem_of_cons. tauto. Qed.
Lemma reread_texts cs l : Forall (fun t => t_tag t <> "si") cs -> forall g a, FirstTexts (reread (Node g a None (cs ++ map si_tree l))) (map trim l).
Proof.
  intros Hf g a. unfold FirstTexts, items. cbn [reread t_children]. rewrite map_app, List.filter_app.
  assert (List.filter (fun t => String.eqb (t_tag t) "si") (map reread cs) = []) as ->.
  { apply filter_none. intros t Ht. apply elem_of_list_fmap in Ht as (x & -> & Hx). rewrite tag_reread. rewrite Forall_forall in Hf. apply String.eqb_neq. by apply Hf. }
  cbn [app]. clear. induction l as [|x l IH]; [constructor|]. cbn [map List.filter]. rewrite tag_reread. change (t_tag (si_tree x)) with "si". rewrite String.eqb_refl. constructor; [|done].
  eexists _, []. split; [done|]. split; [done|]. cbn. by destruct (String.eqb_spec (trim x) "") as [->|].
Qed.
Theorem table_flow file fs0 l0 data root ns texts x0 cs s t f path fs tr fs' :
  Stored fs0 file l0 -> excel_new (Some file) fs0 = Ok x0 -> (ss_path (wb_sst (x_book x0)), data) ∈ l0 -> ss_path (wb_sst (x_book x0)) <> content_types_name ->
  ReadsIn data root ns -> t_value root = None -> FirstTexts root texts ->
  calls cs (x0, []) = Some s -> excel_save t f path s.1 fs = (tr, Ok tt) -> last tr = Some fs' ->
  exists l new, Stored fs' path l /\ ss_strings (wb_sst (x_book s.1)) = texts ++ new
  /\ (texts ++ new <> [] -> TableShown l (ss_path (wb_sst (x_book x0))) ns root (texts ++ new)
      /\ exists troot, PartReads l (ss_path (wb_sst (x_book x0))) troot /\ t_value troot = None /\ FirstTexts troot (map trim (texts ++ new))).
Proof.
  intros Hst Hx Hin Hct Hr Hv Hl Hcs Hsave Hlast. destruct (table_source _ _ _ Hx) as (o & Ho & p0 & d' & Hsrc & Hload & Hop). destruct (reopened_file _ _ _ _ Hst Ho) as (_ & Hparts & _).
  destruct (Hparts _ _ Hct Hin) as (e & He & Hb).
  destruct (reads_in _ _ _ Hr) as (d & Hrd & Hd & Hn & Ha & Hns & Hdn). pose proof (source_read _ _ _ _ _ _ _ Hsrc He Hb Hrd) as Hp0.
  destruct root as [g a v cs0]. cbn [t_value] in Hv. subst v. apply attrs_present_node in Ha as [Ha _]. destruct a as [m|]; [|done].
  destruct (Doc_load_strings d g (Some m) None cs0 Hd) as (d1 & Hl1 & Hd1 & Hns1). pose proof (first_texts _ _ Hl) as Htx. cbn [t_children] in Htx. rewrite Htx in Hl1.
  rewrite Hp0, Hl1 in Hload. injection Hload as <- Hes. unfold table in Hes. cbn [fst] in Hes.
  destruct (new_linv _ _ _ Hx) as [I0 _]. destruct (table_stays _ _ _ I0 Hcs) as ((new & T1) & T2 & T3). destruct (calls_effect _ _ _ I0 Hcs) as [I _]. unfold table in T1. cbn [fst] in *.
  rewrite <- Hes in T1.
  destruct (own_saved t f path s fs tr fs' I Hsave Hlast) as (o' & l & Hfl & Hstored & Hbytes). exists l, new. split; [done|]. split; [done|]. intros Hne. rewrite <- T1 in Hne.
  destruct (fl_sst _ _ _ Hfl Hne) as (o1 & o2 & W1 & W2 & W3). rewrite T2 in W1, W3. rewrite T3, Hop in W1.
  pose proof (untagged_none "si" cs0) as Hf.
  destruct (table_written (wb_sst (x_book s.1)) o1 o2 _ g m (untagged "si" cs0) ltac:(rewrite T2; exact W1)) as (C1 & e2 & text & nsl & C2 & C3 & C4 & C5 & C6); [done|by apply names_untagged|by cbn [op_doc]; rewrite Hns1, Hdn|done|done|done|].
  rewrite T2 in C1, C2. destruct (W3 C1) as [F1 F2]. rewrite T1 in C4, C6. cbn [op_doc] in C5. rewrite Hns1, Hdn in C5.
  assert (forall b, (ss_path (wb_sst (x_book x0)), b) ∈ l <-> b = prolog +:+ text) as Hby.
  { eapply Hbytes; [rewrite <- T2; apply own_sst|done|by rewrite F2|done]. }
  split.
  - exists text. eexists. exists nsl. split; [done|]. split; [exact C4|]. split; [done|]. split; [done|]. split; [|split; [|split; [|split]]].
    + unfold items. cbn [t_children]. rewrite items_left by done. clear. induction (texts ++ new) as [|x y IH]; cbn [map]; constructor; [constructor|done].
    + rewrite !others_one. cbn [t_children]. unfold untagged at 1. rewrite List.filter_app. fold (untagged "si" (untagged "si" cs0)). rewrite untagged_all by done.
      assert (List.filter (fun t => negb (seqb (t_tag t) "si")) (map si_tree (texts ++ new)) = []) as ->; [|apply app_nil_r].
      clear. induction (texts ++ new) as [|x y IH]; [done|]. cbn [map List.filter]. change (t_tag (si_tree x)) with "si". by rewrite (proj2 (seqb_true _ _) eq_refl).
    + unfold child_attr, sst_attrs. cbn [t_attrs]. rewrite lookup_insert_ne by done. apply lookup_insert.
    + exists (N.of_nat (length (remove_dups (texts ++ new)))). split; [apply distinct_dups|]. unfold child_attr, sst_attrs. cbn [t_attrs]. apply lookup_insert.
    + intros k K1 K2. unfold child_attr, sst_attrs. cbn [t_attrs]. by rewrite !lookup_insert_ne by congruence.
  - eexists. split; [|split; [|by apply (reread_texts _ (texts ++ new) Hf)]]; [|done]. exists (prolog +:+ text). split; [by apply Hby|exact C6].
Qed.
(** A text cell of a sheet that nobody asks for. *)
Theorem text_cell_flow file fs0 l0 q r c txt x0 cs s t f path fs tr fs' :
  Stored fs0 file l0 -> excel_new (Some file) fs0 = Ok x0 -> ss_path (wb_sst (x_book x0)) <> content_types_name -> q <> content_types_name ->
  TextCell l0 q (ss_path (wb_sst (x_book x0))) r c txt -> trim txt = txt ->
  of_open (x_office x0) !! q = None -> ~ rels_name q ->
  calls cs (x0, []) = Some s -> ~ Reopens cs (x0, []) q -> excel_save t f path s.1 fs = (tr, Ok tt) -> last tr = Some fs' ->
  exists l, Stored fs' path l /\ TextCell l q (ss_path (wb_sst (x_book x0))) r c txt.
Proof.
  intros Hst Hx Hct Hq (sroot & data & cell & v & i & troot & texts & (sd & S1 & S2) & S3 & S4 & S5 & S6 & S7 & S8 & (td & T1 & T2) & T3 & T4 & T5) Htrim Hcl Hn Hcs Hre Hsave Hlast.
  destruct T2 as (d & it & R1 & R2 & R3 & R4).
  destruct (table_flow file fs0 l0 td troot (d_ns d) texts x0 cs s t f path fs tr fs') as (l & new & L1 & L2 & L3); try done. { by exists d, it. }
  destruct L3 as (_ & troot' & P1 & P2 & P3). { intros Hnil. apply app_eq_nil in Hnil as [-> _]. by rewrite lookup_nil in T5. }
  exists l. split; [done|].
  destruct (new_linv _ _ _ Hx) as (I & o & Ho & _ & Hopen). destruct (reopened_file _ _ _ _ Hst Ho) as (_ & Hparts & _).
  destruct (Hparts q sd Hq S1) as (e & He & Hb). destruct (Hopen q e He) as [St|[[p H1]|H1]]; [|congruence|done].
  pose proof (stored_stays _ _ _ _ _ I Hcs St Hn Hre) as St'. destruct (calls_effect _ _ _ I Hcs) as [I' _].
  destruct (flow_saved t f path s fs tr fs' I' Hsave Hlast) as (l' & M1 & M2 & _). assert (l' = l) as ->.
  { destruct L1 as (z & Z1 & Z2), M1 as (z' & Z1' & Z2'). congruence. }
  exists sroot, data, cell, v, i, troot', (map trim (texts ++ new)). split; [exists sd; split; [by apply (M2 q e sd St' Hb)|done]|]. do 6 (split; [done|]). split; [done|]. split; [done|]. split; [done|].
  rewrite list_lookup_fmap, (lookup_app_l_Some _ _ _ _ T5). cbn. by rewrite Htrim.
Qed.
End with_env.
