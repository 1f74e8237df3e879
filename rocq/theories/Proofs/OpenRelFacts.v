(** The relationships of the workbook and its theme, from the opened file to the saved one. *)
From Verif.Model Require Import Excel.
From Verif.Spec Require Import RelSpec XmlSpec XmlRepr PackageSpec PartSpec SheetSpec SessionSpec FlowSpec.
From Verif.Proofs Require Import BaseFacts PackageFacts XmlTreeFacts XmlWriteFacts DocBuild XmlReadFacts RelDocFacts SmallPartFacts AttrFacts StyleDocFacts SheetDocFacts
  BookFacts FrameFacts SaveFacts SessionFacts RelFacts ExcelFacts XmlHistFacts SoundFacts KeepFacts ReadAnyFacts FlowFacts FlowSaveFacts FlowOpenFacts OwnFacts OpenBookFacts.
From Verif.Spec Require Import BookSpec OpenSpec.
Open Scope N_scope.

(** ** What is read, what is written *)
Lemma rel_said x t : RelSaid x t -> rel_of_attrs (t_attrs t) = Ok x.
Proof.
  intros (H1 & H2 & H3 & H4). unfold child_attr in *. destruct (t_attrs t) as [a|]; [|done]. cbn [mbind option_bind] in *.
  unfold rel_of_attrs, need_attr, attr_opt. cbn [mbind option_bind of_option]. rewrite H1, H2, H3, H4. cbn [of_option rbind]. by destruct x.
Qed.
Lemma rels_said l ts : Forall2 RelSaid l ts -> rmapM rel_of_attrs (map t_attrs ts) = Ok l.
Proof. induction 1 as [|x t l ts H1 _ IH]; [done|]. cbn [map rmapM]. rewrite (rel_said _ _ H1). cbn [rbind]. by rewrite IH. Qed.
Lemma rel_shown x : RelSaid x (rel_tree x).
Proof. destruct x as [i tg ty [m|]]; unfold RelSaid, child_attr; cbn; repeat split; by vm_compute. Qed.
Lemma others_one tag root : others [tag] root = untagged tag (t_children root).
Proof.
  unfold others, untagged. induction (t_children root) as [|t cs IH]; [done|]. rewrite filter_cons, IH. cbn [List.filter].
  destruct (decide (t_tag t ∉ [tag])) as [Hn|Hn].
  - rewrite elem_of_list_singleton in Hn. by rewrite (proj2 (seqb_false _ _) Hn).
  - apply dec_stable, elem_of_list_singleton in Hn. by rewrite (proj2 (seqb_true _ _) Hn).
Qed.
Section with_env.
Context `{E : Env} `{Hs : Hashes}.
Lemma rels_written r o o' p root : of_open o !! rl_path r = Some p -> Doc (op_doc p) root -> t_value root = None -> Forall (fun t => t_tag t <> "Relationship") (t_children root) ->
  rl_rels r <> [] -> rels_close r o = (o', Ok tt) -> of_open o' !! rl_path r = None /\ exists e text root' nsl, of_archive o' !! rl_path r = Some e /\ part_bytes e = Ok (prolog +:+ text)
  /\ Renders (Some nsl) root' text /\ NsKept (d_ns (op_doc p)) nsl /\ t_tag root' = t_tag root /\ t_attrs root' = t_attrs root /\ RelsSaid root' (rl_rels r)
  /\ others ["Relationship"] root' = t_children root.
Proof.
  intros Hp Hd Hv Hf Hne Hc. destruct root as [g a v cs]. cbn [t_value t_children t_tag t_attrs] in *. subst v. set (l := rl_rels r) in *.
  destruct (Doc_save_relationships (op_doc p) _ _ _ _ l Hd) as (d1 & Hsv & Hd1 & Hns1).
  assert (Nat.ltb 0 (length cs) || Nat.ltb 0 (length l) = true) as Htrue. { destruct l; [done|]. apply Bool.orb_true_r. } rewrite Htrue in Hsv.
  pose proof (with_doc_spec (rl_path r) (save_relationships l) o p d1 (Ok true) Hp Hsv) as Hw. set (o1 := mkOffice _ _) in Hw.
  destruct (close_doc o1 (rl_path r) (mkOpen d1 (op_ct p) (op_ext p) (op_ext_type p)) (Node g a None (cs ++ map rel_tree l))) as (e & Hcl & He1 & He2 & He3 & Hb).
  { unfold o1. cbn. by rewrite lookup_insert. } { done. }
  unfold rels_close, bind in Hc. fold l in Hc. rewrite Hw in Hc. cbn [rmap rbind] in Hc. rewrite Hcl in Hc. injection Hc as <-. split; [cbn; apply lookup_delete|].
  exists e. eexists. exists (Node g a None (cs ++ map rel_tree l)). eexists. split; [cbn; apply lookup_insert|]. split; [exact Hb|]. split; [apply render_renders_mut|].
  split; [cbn [op_doc]; rewrite Hns1; apply ns_kept|]. split; [done|]. split; [done|]. split.
  - unfold RelsSaid. cbn [t_children]. rewrite List.filter_app. assert (List.filter (fun t => String.eqb (t_tag t) "Relationship") cs = []) as ->.
    { apply filter_none. intros t Ht. rewrite Forall_forall in Hf. apply String.eqb_neq. by apply Hf. }
    cbn [app]. clear. induction l as [|x l IH]; [constructor|]. cbn [map List.filter]. change (t_tag (rel_tree x)) with "Relationship". rewrite String.eqb_refl. constructor; [apply rel_shown|done].
  - rewrite others_one. cbn [t_children]. unfold untagged. rewrite List.filter_app. fold (untagged "Relationship" cs). rewrite untagged_all by done.
    assert (List.filter (fun t => negb (seqb (t_tag t) "Relationship")) (map rel_tree l) = []) as ->; [|apply app_nil_r].
    clear. induction l as [|x l IH]; [done|]. cbn [map List.filter]. change (t_tag (rel_tree x)) with "Relationship". by rewrite (proj2 (seqb_true _ _) eq_refl).
Qed.

(** ** The list of relationships in a session *)
Definition Evolved (l : list rel) (gone : list string) (r : relations) : Prop :=
  exists new, rl_rels r = filter (fun x => r_target x ∉ gone) l ++ new /\ Forall rel_added new /\ (NoDup (map r_id l) -> NoDup (rel_ids r)).
Lemma evolved_same l gone r r' : rl_rels r' = rl_rels r -> Evolved l gone r -> Evolved l gone r'.
Proof. intros Hr (new & H1 & H2 & H3). exists new. unfold rel_ids. by rewrite Hr. Qed.
Lemma evolved_delete l gone r p : Evolved l gone r -> Evolved l (gone ++ [absolute p]) (delete_relationship p r).
Proof.
  intros (new & H1 & H2 & H3). exists (filter (fun x => r_target x <> absolute p) new). rewrite delete_rels, filter_ne, H1, filter_app. split; [|split].
  - f_equal. rewrite list_filter_filter. apply list_filter_iff. intros x. rewrite elem_of_app, elem_of_list_singleton. tauto.
  - apply Forall_forall. intros x Hx. apply elem_of_list_filter in Hx as [_ Hx]. rewrite Forall_forall in H2. by apply H2.
  - intros Hn. exact (run_rels_nodup [RDelete p] r (H3 Hn)).
Qed.
Lemma evolved_add l gone r path name : Evolved l gone r -> Evolved l gone (set_new_relationship c_worksheet path name r).1.
Proof.
  intros (new & H1 & H2 & H3). assert (NoDup (map r_id l) -> NoDup (rel_ids (set_new_relationship c_worksheet path name r).1)) as H4 by (intros Hn; by apply add_nodup, H3).
  eexists (new ++ [_]). cbn [set_new_relationship fst set_rels rl_rels]. rewrite H1, <- app_assoc. split; [done|]. split.
  - apply Forall_app. split; [done|]. apply Forall_singleton. split; [|done]. right. by vm_compute.
  - intros Hn. specialize (H4 Hn). cbn [set_new_relationship fst] in H4. by rewrite H1, <- app_assoc in H4.
Qed.
Lemma add_rels name b o : wb_rels (add_sheet name (b, o)).1.1 = wb_rels b
  \/ exists path nm, wb_rels (add_sheet name (b, o)).1.1 = (set_new_relationship c_worksheet path nm (wb_rels b)).1.
Proof.
  unfold add_sheet. cbn [fst snd]. pose proof (ws_new_list name (wb_sheets b, (wb_rels b, o))) as (_ & L2 & _).
  destruct (ws_new name _) as [[l [r o1]] x]. cbn [fst snd] in *. change (wb_rels (set_wb_rels (set_wb_sheets b l) r)) with r. rewrite L2. clear L2.
  unfold get_sheet_file_name, bind, get, lift, put, ret. cbn [fst snd]. destruct (name ≫= _) as [y|].
  - left. destruct (get_target_by_id _ (sh_rel y)) as [[p|]|e|e]; done.
  - destruct (get_relative_path (wb_rels b)) as [rp|e|e]; [|by left..]. destruct (free_number _ _ _ _) as [n|e|e]; [|by left..]. right. eexists _, _. done.
Qed.
Lemma call_rels c s l gone : Evolved l gone (wb_rels (x_book s.1)) -> Evolved l (gone ++ option_list (deleted_of s c)) (wb_rels (x_book (call_step c s).1.1)).
Proof.
  intros Hev.
  assert (forall b', wb_rels b' = wb_rels (x_book s.1) -> Evolved l (gone ++ option_list None) (wb_rels b')) as H0 by (intros b' ->; cbn; by rewrite app_nil_r).
  assert (forall h m, wb_rels (x_book (use h m s).1.1) = wb_rels (x_book s.1)) as Hu by (intros h m; by destruct (book_use h m s) as (_ & _ & B)).
  assert (forall name, Evolved l (gone ++ option_list None) (wb_rels (add_sheet name (x_book s.1, x_office s.1)).1.1)) as Ha.
  { intros name. cbn. rewrite app_nil_r. destruct (add_rels name (x_book s.1) (x_office s.1)) as [->|(pth & nm & ->)]; [done|]. by apply evolved_add. }
  destruct c; cbn [call_step deleted_of]; try (by apply H0, Hu); unfold get_worksheet; rewrite ?book_give, ?book_pure, ?book_spend; try (by apply Ha); try (by apply H0).
  - apply H0. unfold rename_sheet. destruct (existsb _ _); [done|]. by destruct (rename_first _ _ _).
  - apply H0. unfold bind, wb_style_id. by destruct (get_style_id _ _) as [st [r|r|r]].
  - apply H0. by destruct (handle h s).
  - apply H0. destruct (handle h s) as [w|]; [|done]. unfold on_wb_office. cbn [fst snd]. by destruct (ws_flush w _).
  - destruct (handle h s) as [w|]; cbn [fmap option_fmap option_map]; [|by apply H0]. destruct (delete_list w (x_book s.1) (x_office s.1)) as [_ ->]. cbn [option_list]. by apply evolved_delete.
Qed.
Lemma calls_rels cs : forall s s' l gone, calls cs s = Some s' -> Evolved l gone (wb_rels (x_book s.1)) -> Evolved l (gone ++ deleted cs s) (wb_rels (x_book s'.1)).
Proof.
  induction cs as [|c cs IH]; intros s s' l gone Hc Hev; [injection Hc as <-; by rewrite app_nil_r|]. apply calls_cons in Hc as [_ Hc]. cbn [deleted]. rewrite app_assoc.
  eapply IH; [done|]. by apply call_rels.
Qed.
Lemma emptied_rels b l gone r : Evolved l gone r -> Evolved l (gone ++ unused b) (emptied b r).
Proof.
  intros Hev. unfold unused, emptied. rewrite app_assoc.
  assert (Evolved l (gone ++ match cc_entries (wb_calc b) with [] => [absolute (cc_path (wb_calc b))] | _ => [] end)
    (match cc_entries (wb_calc b) with [] => delete_relationship (cc_path (wb_calc b)) r | _ => r end)) as H1.
  { destruct (cc_entries _); [by apply evolved_delete|by rewrite app_nil_r]. }
  cbn zeta. destruct (ss_strings _); [by apply evolved_delete|by rewrite app_nil_r].
Qed.

(** ** From file to file *)
Lemma own_rels b : rl_path (wb_rels b) ∈ own_parts b.
Proof. unfold own_parts. rewrite !elem_of_cons. tauto. Qed.
Lemma own_theme b : wb_theme b ∈ own_parts b.
Proof. unfold own_parts. rewrite !elem_of_cons. tauto. Qed.
Theorem rels_flow_now file fs0 l0 data root ns rels x0 cs s t f path fs tr fs' :
  Stored fs0 file l0 -> excel_new (Some file) fs0 = Ok x0 -> (rl_path (wb_rels (x_book x0)), data) ∈ l0 -> rl_path (wb_rels (x_book x0)) <> content_types_name ->
  ReadsIn data root ns -> t_value root = None -> RelsSaid root rels ->
  calls cs (x0, []) = Some s -> excel_save t f path s.1 fs = (tr, Ok tt) -> last tr = Some fs' ->
  exists l kept new, Stored fs' path l /\ (kept ++ new <> [] -> RelsShown l (rl_path (wb_rels (x_book x0))) ns root (kept ++ new))
  /\ kept = filter (fun x => r_target x ∉ deleted cs (x0, []) ++ unused (x_book s.1)) rels
  /\ Forall rel_added new /\ (NoDup (map r_id rels) -> NoDup (map r_id (kept ++ new)))
  /\ rl_rels (emptied (x_book s.1) (wb_rels (x_book s.1))) = kept ++ new.
Proof.
  intros Hst Hx Hin Hct Hr Hv Hl Hcs Hsave Hlast. destruct (sources_opened _ _ _ Hx) as (o & Ho & S). destruct (reopened_file _ _ _ _ Hst Ho) as (_ & Hparts & _).
  destruct (Hparts _ _ Hct Hin) as (e & He & Hb). destruct (so_rels _ _ _ S) as (p0 & d' & r0 & Hsrc & Hload & Hop & Hg).
  destruct (reads_in _ _ _ Hr) as (d & Hrd & Hd & Hn & Ha & Hns & Hdn). pose proof (source_read _ _ _ _ _ _ _ Hsrc He Hb Hrd) as Hp0.
  destruct root as [g a v cs0]. cbn [t_value] in Hv. subst v.
  destruct (Doc_load_relations d g a None cs0 Hd) as (d1 & Hl1 & Hd1 & Hns1). unfold RelsSaid in Hl. cbn [t_children] in Hl. unfold seqb in Hl1. rewrite (rels_said _ _ Hl) in Hl1.
  rewrite Hp0, Hl1 in Hload. injection Hload as <- Hr0.
  destruct (new_linv _ _ _ Hx) as [I0 _]. destruct (own_stays _ _ _ I0 Hcs) as [Hown Hopen]. destruct (calls_effect _ _ _ I0 Hcs) as [I _]. cbn [fst] in *.
  destruct (own_saved t f path s fs tr fs' I Hsave Hlast) as (o' & l & Hfl & Hstored & Hbytes). exists l.
  assert (rl_path (wb_rels (x_book s.1)) = rl_path (wb_rels (x_book x0))) as Hpath. { pose proof Hown as Hq. unfold own_parts in Hq. by injection Hq. }
  assert (Evolved rels [] (wb_rels (x_book x0))) as Hev.
  { destruct Hg as (_ & (new & G1 & G2) & G3). exists new. rewrite G1, <- Hr0. split; [|split; [done|]].
    - f_equal. clear. induction rels as [|x l IH]; [done|]. rewrite filter_cons_True; [by f_equal|]. by apply not_elem_of_nil.
    - intros Hnd. apply G3. unfold rel_ids. by rewrite <- Hr0. }
  apply (calls_rels cs (x0, []) s _ _ Hcs) in Hev. cbn [app] in Hev. apply (emptied_rels (x_book s.1)) in Hev. destruct Hev as (new & V1 & V2 & V3).
  eexists _, new. split; [done|]. split; [|split; [done|split; [done|split; [|exact V1]]]].
  - intros Hne. destruct (fl_rels _ _ _ Hfl) as (o1 & o2 & W1 & W2 & W3). set (r' := emptied (x_book s.1) (wb_rels (x_book s.1))) in *.
    assert (rl_path r' = rl_path (wb_rels (x_book x0))) as Hr'. { unfold r', emptied. rewrite <- Hpath. by destruct (cc_entries _), (ss_strings _). }
    rewrite Hpath in W1, W3. rewrite (Hopen _ (own_rels _)), Hop, <- Hr' in W1. rewrite <- V1 in Hne. rewrite <- Hr' in W3.
    assert (Forall (fun t => t_tag t <> "Relationship") (t_children (Node g a None (untagged "Relationship" cs0)))) as Hf.
    { cbn [t_children]. apply Forall_forall. intros t0 Ht. apply elem_of_list_In, filter_In in Ht as [_ Ht]. apply negb_true_iff in Ht. by apply seqb_false. }
    destruct (rels_written _ _ _ _ _ W1 Hd1 eq_refl Hf Hne W2) as (C1 & e2 & text & root' & nsl & C2 & C3 & C4 & CN & C5 & C6 & C7 & C8).
    destruct (W3 C1) as [F1 F2]. exists text, root', nsl. split.
    { rewrite <- Hr'. eapply Hbytes; [rewrite Hr', <- Hpath; apply own_rels|done|by rewrite F2|done]. }
    split; [done|]. cbn [op_doc] in CN. rewrite Hns1, Hdn in CN. split; [done|]. split; [done|]. split; [done|]. split; [by rewrite <- V1|].
    rewrite C8. cbn [t_children]. by rewrite others_one.
  - intros Hnd. specialize (V3 Hnd). unfold rel_ids in V3. by rewrite V1 in V3.
Qed.
Theorem rels_flow file fs0 l0 data root ns rels x0 cs s t f path fs tr fs' :
  Stored fs0 file l0 -> excel_new (Some file) fs0 = Ok x0 -> (rl_path (wb_rels (x_book x0)), data) ∈ l0 -> rl_path (wb_rels (x_book x0)) <> content_types_name ->
  ReadsIn data root ns -> t_value root = None -> RelsSaid root rels ->
  calls cs (x0, []) = Some s -> excel_save t f path s.1 fs = (tr, Ok tt) -> last tr = Some fs' ->
  exists l kept new, Stored fs' path l /\ (kept ++ new <> [] -> RelsShown l (rl_path (wb_rels (x_book x0))) ns root (kept ++ new))
  /\ kept = filter (fun x => r_target x ∉ deleted cs (x0, []) ++ unused (x_book s.1)) rels
  /\ Forall rel_added new /\ (NoDup (map r_id rels) -> NoDup (map r_id (kept ++ new))).
Proof.
  intros Hst Hx Hin Hct Hr Hv Hl Hcs Hsave Hlast.
  destruct (rels_flow_now _ _ _ _ _ _ _ _ _ _ _ _ _ _ _ _ Hst Hx Hin Hct Hr Hv Hl Hcs Hsave Hlast) as (l & kept & new & H1 & H2 & H3 & H4 & H5 & _). exists l, kept, new. done.
Qed.
Theorem theme_flow file fs0 l0 data root ns x0 cs s t f path fs tr fs' :
  Stored fs0 file l0 -> excel_new (Some file) fs0 = Ok x0 -> (wb_theme (x_book x0), data) ∈ l0 -> wb_theme (x_book x0) <> content_types_name ->
  ReadsIn data root ns -> calls cs (x0, []) = Some s -> excel_save t f path s.1 fs = (tr, Ok tt) -> last tr = Some fs' ->
  exists l, Stored fs' path l /\ PartSame l (wb_theme (x_book x0)) ns root.
Proof.
  intros Hst Hx Hin Hct Hr Hcs Hsave Hlast. destruct (sources_opened _ _ _ Hx) as (o & Ho & S). destruct (reopened_file _ _ _ _ Hst Ho) as (_ & Hparts & _).
  destruct (Hparts _ _ Hct Hin) as (e & He & Hb). destruct (so_theme _ _ _ S) as (p0 & Hsrc & Hop).
  destruct (reads_in _ _ _ Hr) as (d & Hrd & Hd & Hn & Ha & Hns & Hdn). pose proof (source_read _ _ _ _ _ _ _ Hsrc He Hb Hrd) as Hp0.
  destruct (new_linv _ _ _ Hx) as [I0 _]. destruct (own_stays _ _ _ I0 Hcs) as [Hown Hopen]. destruct (calls_effect _ _ _ I0 Hcs) as [I _]. cbn [fst] in *.
  destruct (own_saved t f path s fs tr fs' I Hsave Hlast) as (o' & l & Hfl & Hstored & Hbytes). exists l. split; [done|].
  assert (wb_theme (x_book s.1) = wb_theme (x_book x0)) as Hpath. { pose proof Hown as Hq. unfold own_parts in Hq. by injection Hq. }
  destruct (fl_theme _ _ _ Hfl) as (o1 & o2 & W1 & W2 & W3). rewrite Hpath in *. rewrite (Hopen _ (own_theme _)), Hop in W1.
  rewrite <- Hp0 in Hd. destruct (close_doc o1 _ p0 root W1 Hd) as (e2 & Hcl & _ & _ & _ & Hb2). unfold theme_close in W2. rewrite Hcl in W2. injection W2 as <-. cbn in W3.
  destruct (W3 (lookup_delete _ _)) as [F1 F2]. rewrite lookup_insert in F2. eexists. eexists. split.
  { eapply Hbytes; [rewrite Hown; apply own_theme|exact F1|exact F2|exact Hb2]. }
  split; [apply render_renders_mut|]. rewrite Hp0, Hdn. apply ns_kept.
Qed.
End with_env.
