(** The workbook part, from the opened file to the saved one. *)
From Verif.Model Require Import Excel.
From Verif.Spec Require Import RelSpec XmlSpec XmlRepr PackageSpec PartSpec SheetSpec SessionSpec FlowSpec.
From Verif.Proofs Require Import BaseFacts PackageFacts XmlTreeFacts XmlWriteFacts DocBuild XmlReadFacts RelDocFacts SmallPartFacts AttrFacts StyleDocFacts SheetDocFacts
  BookFacts FrameFacts SaveFacts SessionFacts RelFacts ExcelFacts XmlHistFacts SoundFacts KeepFacts ReadAnyFacts FlowFacts FlowSaveFacts FlowOpenFacts OwnFacts OrderFacts.
From Verif.Spec Require Import BookSpec OpenSpec.
Open Scope N_scope.

(** ** What is read *)
Lemma sheet_said x t : SheetSaid x t -> sheet_of_tree t = Ok (Some x).
Proof.
  intros (H1 & H2 & H3 & H4). unfold child_attr in *. unfold sheet_of_tree. destruct (t_attrs t) as [a|]; [|done]. cbn [mbind option_bind] in *.
  unfold sheet_of_attrs. rewrite H1, H2. cbn [of_option rbind rmap]. destruct x as [n r act hid]. cbn in *. subst act. do 3 f_equal.
  destruct (a !! "state") as [s|]; [|destruct hid; [|done]; specialize (proj1 H3 eq_refl); congruence].
  destruct (decide (s = "hidden")) as [->|Hn]; [rewrite (proj2 H3 eq_refl); by apply seqb_true|].
  destruct hid; [|by apply seqb_false]. destruct Hn. specialize (proj1 H3 eq_refl). congruence.
Qed.
Lemma sheets_said l ts : Forall2 SheetSaid l ts -> rmap (omap id) (rmapM sheet_of_tree ts) = Ok l.
Proof.
  intros Hf. assert (rmapM sheet_of_tree ts = Ok (map Some l)) as ->.
  { induction Hf as [|x t l ts H1 _ IH]; [done|]. cbn [rmapM map]. rewrite (sheet_said _ _ H1). cbn [rbind]. by rewrite IH. }
  cbn [rmap rbind]. f_equal. clear Hf. induction l as [|x l IH]; [done|]. cbn. by rewrite IH.
Qed.
Lemma switch_read b0 (a : gmap string string) k b : Switch b0 (a !! k) b -> default b0 (normalize_bool <$> a !! k) = b.
Proof. intros [[-> ->]|[[[->| ->] ->]|[[->| ->] ->]]]; reflexivity. Qed.
Lemma switch_negated (a : gmap string string) k b : Switch true (a !! k) (negb b) -> default false ((fun s => negb (normalize_bool s)) <$> a !! k) = b.
Proof. intros [[-> Hb]|[[[->| ->] Hb]|[[->| ->] Hb]]]; destruct b; first [done|reflexivity]. Qed.
Lemma view_said t (a : gmap string string) v : t_attrs t = Some a -> ViewSays t v -> book_view_of a = Ok v.
Proof.
  intros Ha [H1 H2 H3 H4 H5 H6 H7 H8 H9 [H10 H11]]. assert (forall k, child_attr t k = a !! k) as Hk by (intros k; unfold child_attr; by rewrite Ha). rewrite Hk in *.
  unfold book_view_of. unfold parse_attr. rewrite H8. assert (forall z, bv_ratio v = Some z -> parse_i16 (show_Z z) = Some z) as Hz.
  { intros z Hr. apply parse_i16_show. unfold ratio_typed in H9. by rewrite Hr in H9. }
  rewrite H1, H2, H3, H10. rewrite (switch_read _ _ _ _ H4), (switch_read _ _ _ _ H7), (switch_negated _ _ _ H5), (switch_negated _ _ _ H6).
  destruct v as [va vf vv vm vh vw vt vr vg]. cbn in *. subst vg. destruct vr as [z|]; cbn [fmap option_fmap option_map].
  - rewrite (Hz z eq_refl). done.
  - done.
Qed.
Lemma others_rest root : others book_tags root = book_rest (t_children root).
Proof.
  unfold others, book_rest, untagged. induction (t_children root) as [|t cs IH]; [done|]. rewrite filter_cons, IH. cbn [List.filter].
  destruct (decide (t_tag t ∉ book_tags)) as [Hn|Hn].
  - unfold book_tags in Hn. rewrite !not_elem_of_cons in Hn. destruct Hn as (N1 & N2 & _). rewrite (proj2 (seqb_false _ _) N1). cbn [negb List.filter].
    rewrite (proj2 (seqb_false _ _) N2). done.
  - apply dec_stable in Hn. unfold book_tags in Hn. rewrite !elem_of_cons in Hn. destruct Hn as [Hn|[Hn|Hn]]; [| |by apply elem_of_nil in Hn].
    + by rewrite (proj2 (seqb_true _ _) Hn).
    + destruct (seqb (t_tag t) "bookViews"); [done|]. cbn [negb List.filter]. by rewrite (proj2 (seqb_true _ _) Hn).
Qed.
Section with_env.
Context `{E : Env} `{Hs : Hashes}.
Lemma book_said d root l view : Doc d root -> attrs_present root -> ListSaid root l -> ViewSaid root view ->
  exists d', load_book d = (d', Ok (l, view)) /\ Doc d' (Node (t_tag root) (t_attrs root) (t_value root) (others book_tags root)) /\ d_ns d' = d_ns d.
Proof.
  intros Hd Hap Hl Hv. destruct root as [g a v cs]. rewrite others_rest. cbn [t_tag t_attrs t_value t_children]. apply load_book_doc; [done|..].
  - destruct Hv as [[Hn ->]|(ts & t & w & Ho & Hc & Hw & ->)]; unfold no_child, only_child in *; cbn [t_children] in *; unfold tagged, seqb.
    + by rewrite Hn.
    + rewrite Ho. cbn [some_list last_of last]. rewrite Hc. cbn [book_views_of].
      assert (exists at', t_attrs t = Some at') as [at' Hat].
      { assert (ts ∈ cs) as Hts. { apply elem_of_list_In. apply (filter_In (fun x => String.eqb (t_tag x) "bookViews")). rewrite Ho. by left. }
        apply attrs_present_node in Hap as [_ Hap]. rewrite Forall_forall in Hap. specialize (Hap _ Hts). destruct ts as [g1 a1 v1 cs1]. apply attrs_present_node in Hap as [_ Hap].
        cbn in Hc. subst cs1. apply Forall_inv in Hap. destruct t as [g2 a2 v2 cs2]. apply attrs_present_node in Hap as [Hap _]. destruct a2 as [a'|]; [by exists a'|done]. }
      rewrite Hat. rewrite (view_said _ _ _ Hat Hw). done.
  - destruct Hl as [[Hn ->]|(ts & Ho & Hf)]; unfold no_child, only_child in *; cbn [t_children] in *; unfold tagged, seqb.
    + by rewrite Hn.
    + rewrite Ho. cbn [some_list last_of last]. by apply sheets_said.
Qed.

(** ** What is written *)
Lemma ns_kept ns : NsKept ns (hash_entries (written_ns ns)).
Proof.
  intros k v Hk. rewrite hash_entries_lookup. unfold written_ns. destruct env_mode; [done|]. by rewrite lookup_insert_ne.
Qed.
Lemma reads_in data root ns : ReadsIn data root ns -> exists d, read_doc data = Ok d /\ Doc d root /\ names_ok root /\ attrs_present root /\ ns_ok ns /\ d_ns d = ns.
Proof.
  intros (d & it & H1 & H2 & H3 & <- & H5). destruct (reads_doc data root) as (d' & K1 & K2 & K3 & K4 & K5); [by exists d, it|].
  rewrite H1 in K1. injection K1 as <-. by exists d.
Qed.
Lemma source_read o e init path p0 data d : Source o init path p0 -> of_archive o !! path = Some e -> part_bytes e = Ok data -> read_doc data = Ok d -> op_doc p0 = d.
Proof. intros Hsrc He Hb Hr. destruct Hsrc as [[Hq _]|(e' & data' & Q1 & Q2 & Q3)]; [congruence|]. rewrite He in Q1. injection Q1 as <-. rewrite Hb in Q2. injection Q2 as <-. congruence. Qed.
Lemma book_sheets_entry l : SheetsEntry l (book_sheets_tree l).
Proof.
  split; [done|]. cbn [t_children book_sheets_tree].
  assert (forall l n, length (book_sheet_trees n l) = length l /\ forall i s, l !! i = Some s ->
    exists c, book_sheet_trees n l !! i = Some c /\ t_tag c = "sheet" /\ t_attrs c = Some (book_sheet_attrs (n + N.of_nat i) s)) as Hx.
  { clear. induction l as [|s l IH]; intros n; [done|]. destruct (IH (n + 1)) as [IH1 IH2]. cbn [book_sheet_trees length]. split; [by rewrite IH1|].
    intros [|i] s' Hi; [injection Hi as <-; eexists; split; [done|]; split; [done|]; by rewrite N.add_0_r|].
    destruct (IH2 i s' Hi) as (c & Hc & Ht & Ha). exists c. split; [done|]. split; [done|]. rewrite Ha. do 2 f_equal. lia. }
  destruct (Hx l 1) as [Hs1 Hs2]. split; [done|]. intros i s Hi. destruct (Hs2 i s Hi) as (c & Hc1 & Hc2 & Hc3). exists c. split; [done|].
  assert (forall k, child_attr c k = book_sheet_attrs (N.of_nat i + 1) s !! k) as Hk by (intros k; unfold child_attr; rewrite Hc3; do 2 f_equal; lia).
  unfold SheetEntry. rewrite !Hk. split; [done|]. unfold book_sheet_attrs. rewrite !AttrFacts.opt_attrs_lookup by done. by destruct (sh_hidden s).
Qed.
Lemma book_view_entry v : ViewEntry v (book_views_tree v).
Proof.
  split; [done|]. eexists. split; [done|]. split; [done|].
  unfold child_attr. cbn [t_attrs]. unfold book_view_attrs. rewrite !AttrFacts.opt_attrs_lookup by done.
  split_and!; [done|done|done|by destruct (bv_min v)|by destruct (bv_no_tabs v)|by destruct (bv_no_vscroll v)|by destruct (bv_no_hscroll v)|done| |].
  - by intros ->.
  - intros gr ->. by destruct gr.
Qed.
Lemma others_none root : Forall (fun t => t_tag t ∉ book_tags) (others book_tags root).
Proof. apply Forall_forall. intros t Ht. by apply elem_of_list_filter in Ht as [Ht _]. Qed.
Lemma book_written path view l o o' p root : of_open o !! path = Some p -> Doc (op_doc p) root -> t_value root = None -> Forall (fun t => t_tag t ∉ book_tags) (t_children root) ->
  book_part_close path view l o = (o', Ok tt) -> of_open o' !! path = None /\ exists e text root' nsl ts, of_archive o' !! path = Some e /\ part_bytes e = Ok (prolog +:+ text)
  /\ Renders (Some nsl) root' text /\ NsKept (d_ns (op_doc p)) nsl /\ t_tag root' = t_tag root /\ t_attrs root' = t_attrs root /\ only_child "sheets" root' ts /\ SheetsEntry l ts
  /\ match view with Some v => exists tv, only_child "bookViews" root' tv /\ ViewEntry v tv | None => no_child "bookViews" root' end
  /\ (forall root0, t_children root = others book_tags root0 -> RestKept book_tags root0 root' /\ Ordered book_schema [] root0 root').
Proof.
  intros Hp Hd Hv Hf Hc. destruct root as [g a v cs]. cbn [t_value t_children t_tag t_attrs] in *. subst v.
  destruct (save_book_doc _ _ _ _ _ view l Hd) as (d1 & cs' & Hsv & Hd1 & Hns1 & Hperm & Hord & Hla).
  pose proof (with_doc_spec path (save_book view l) o p d1 (Ok tt) Hp Hsv) as Hw. set (o1 := mkOffice _ _) in Hw.
  destruct (close_doc o1 path (mkOpen d1 (op_ct p) (op_ext p) (op_ext_type p)) (Node g a None cs')) as (e & Hcl & He1 & He2 & He3 & Hb).
  { unfold o1. cbn. by rewrite lookup_insert. } { done. }
  unfold book_part_close, bind in Hc. rewrite Hw in Hc. cbn [rmap rbind] in Hc. rewrite Hcl in Hc. injection Hc as <-. split; [cbn; apply lookup_delete|].
  exists e. eexists. exists (Node g a None cs'). eexists. exists (book_sheets_tree l). split; [cbn; apply lookup_insert|]. split; [exact Hb|]. split; [apply render_renders_mut|]. split; [cbn [op_doc]; rewrite Hns1; apply ns_kept|].
  destruct (book_tagged view l cs cs' Hf Hperm) as [T1 T2]. split; [done|]. split; [done|]. split; [exact T2|]. split; [apply book_sheets_entry|]. split.
  - destruct view as [w|]; [exists (book_views_tree w); split; [exact T1|apply book_view_entry]|exact T1].
  - intros root0 ->. split.
    + eapply rest_kept; [exact Hla|exact Hperm|]. unfold book_trees, book_tags. destruct view; repeat constructor; cbn; rewrite !elem_of_cons; tauto.
    + eapply ordered; [|exact Hla|exact Hord]. by vm_compute.
Qed.

(** ** The calls of a session *)
Lemma book_use h m s : let b := x_book (use h m s).1.1 in wb_sheets b = wb_sheets (x_book s.1) /\ wb_view b = wb_view (x_book s.1) /\ wb_rels b = wb_rels (x_book s.1).
Proof. cbn zeta. unfold use. destruct (handle h s) as [w|]; [|done]. by destruct (m _) as [[w1 t1] r]. Qed.
Lemma book_pure m s : x_book (on_excel (Excel.on_book (A := unit) (pure_book m)) s).1.1 = (m (x_book s.1)).1.
Proof. unfold on_excel, Excel.on_book, pure_book, x_state. cbn [fst snd]. by destruct (m (x_book s.1)) as [b r]. Qed.
Lemma book_give name s : x_book (give (Excel.on_book (add_sheet name)) s).1.1 = (add_sheet name (x_book s.1, x_office s.1)).1.1.
Proof. unfold give, Excel.on_book, x_state. destruct (add_sheet name _) as [[b o] [w|e|e]]; done. Qed.
Lemma book_spend h m s : x_book (spend h m s).1.1 = match handle h s with Some w => (m w (x_book s.1, x_office s.1)).1.1 | None => x_book s.1 end.
Proof. unfold spend. destruct (handle h s) as [w|]; [|done]. unfold Excel.on_book, x_state. by destruct (m w _) as [[b o] r]. Qed.
Lemma add_view name s : wb_view (add_sheet name s).1.1 = wb_view s.1.
Proof. unfold add_sheet. by destruct (ws_new name _) as [[l [r o]] x]. Qed.
Lemma delete_view w s : wb_view (wb_delete_sheet w s).1.1 = wb_view s.1.
Proof. unfold wb_delete_sheet. by destruct (delete_sheet w _) as [[l [r o]] x]. Qed.
Lemma call_list c s rp : get_relative_path (wb_rels (x_book s.1)) = Ok rp -> let b := x_book (call_step c s).1.1 in
  ListHistory (option_list (list_op_of s c)) (wb_sheets (x_book s.1)) (wb_sheets b) /\ get_relative_path (wb_rels b) = Ok rp.
Proof.
  intros Hrp. cbn zeta.
  assert (forall op b', ListStep op (wb_sheets (x_book s.1)) (wb_sheets b') /\ get_relative_path (wb_rels b') = Ok rp ->
    ListHistory (option_list (Some op)) (wb_sheets (x_book s.1)) (wb_sheets b') /\ get_relative_path (wb_rels b') = Ok rp) as H1.
  { intros op b' [A B]. split; [|done]. cbn. econstructor; [exact A|constructor]. }
  assert (forall b', wb_sheets b' = wb_sheets (x_book s.1) /\ wb_rels b' = wb_rels (x_book s.1) -> ListHistory (option_list None) (wb_sheets (x_book s.1)) (wb_sheets b') /\ get_relative_path (wb_rels b') = Ok rp) as H0.
  { intros b' [-> ->]. split; [constructor|done]. }
  pose proof (fun op => run_list_step op (x_book s.1, x_office s.1) rp Hrp) as Hst.
  assert (forall h m, wb_sheets (x_book (use h m s).1.1) = wb_sheets (x_book s.1) /\ wb_rels (x_book (use h m s).1.1) = wb_rels (x_book s.1)) as Hu.
  { intros h m. destruct (book_use h m s) as (A & _ & B). done. }
  destruct c; cbn [call_step list_op_of]; try (apply H0, Hu); unfold get_worksheet; rewrite ?book_give, ?book_pure, ?book_spend.
  - apply H1. exact (Hst (LAdd name)).
  - apply H1. exact (Hst (LGet name)).
  - apply H1. exact (Hst (LRename old new)).
  - apply H1. exact (Hst (LActive name)).
  - apply H1. exact (Hst (LHide name)).
  - by apply H0.
  - by apply H0.
  - by apply H0.
  - by apply H0.
  - by apply H0.
  - apply H0. unfold bind, wb_style_id. by destruct (get_style_id _ _) as [st [r|r|r]].
  - apply H0. by destruct (handle h s).
  - apply H0. destruct (handle h s) as [w|]; [|done]. unfold on_wb_office. cbn [fst snd]. by destruct (ws_flush w _).
  - destruct (handle h s) as [w|]; cbn [fmap option_fmap option_map]; [|by apply H0]. apply H1. exact (Hst (LDelete w)).
Qed.
Lemma list_history_app a b l l1 l2 : ListHistory a l l1 -> ListHistory b l1 l2 -> ListHistory (a ++ b) l l2.
Proof. induction 1; [done|]. intros Hb. cbn. econstructor; [done|]. by apply IHListHistory. Qed.
Lemma calls_list cs : forall s s' rp, get_relative_path (wb_rels (x_book s.1)) = Ok rp -> calls cs s = Some s' ->
  ListHistory (list_ops cs s) (wb_sheets (x_book s.1)) (wb_sheets (x_book s'.1)).
Proof.
  induction cs as [|c cs IH]; intros s s' rp Hrp Hc; [injection Hc as <-; constructor|]. apply calls_cons in Hc as [_ Hc]. cbn [list_ops].
  destruct (call_list c s rp Hrp) as [H1 H2]. eapply list_history_app; [exact H1|]. by eapply IH.
Qed.
Lemma call_view c s : wb_view (x_book (call_step c s).1.1) = match view_op_of c with Some op => wb_view (run_view op (x_book s.1)) | None => wb_view (x_book s.1) end.
Proof.
  assert (forall h m, wb_view (x_book (use h m s).1.1) = wb_view (x_book s.1)) as Hu. { intros h m. destruct (book_use h m s) as (_ & B & _). done. }
  destruct c; cbn [call_step view_op_of]; try (apply Hu); unfold get_worksheet; rewrite ?book_give, ?book_pure, ?book_spend; try done.
  - apply (add_view name (x_book s.1, x_office s.1)).
  - apply (add_view (Some name) (x_book s.1, x_office s.1)).
  - unfold rename_sheet. destruct (existsb _ _); [done|]. by destruct (rename_first _ _ _).
  - unfold bind, wb_style_id. by destruct (get_style_id _ _) as [st [r|r|r]].
  - by destruct (handle h s).
  - destruct (handle h s) as [w|]; [|done]. unfold on_wb_office. cbn [fst snd]. by destruct (ws_flush w _).
  - destruct (handle h s) as [w|]; [|done]. apply (delete_view w (x_book s.1, x_office s.1)).
Qed.
Lemma run_views_view ops : forall b b', wb_view b = wb_view b' -> wb_view (run_views ops b) = wb_view (run_views ops b').
Proof.
  induction ops as [|op ops IH]; intros b b' Hb; [done|]. cbn [run_views]. apply IH. destruct op; cbn; by rewrite Hb.
Qed.
Lemma calls_view cs : forall s s', calls cs s = Some s' -> ViewAfter (omap view_op_of cs) (wb_view (x_book s.1)) (wb_view (x_book s'.1)).
Proof.
  assert (forall cs s s', calls cs s = Some s' -> wb_view (x_book s'.1) = wb_view (run_views (omap view_op_of cs) (x_book s.1))) as Hv.
  { clear. induction cs as [|c cs IH]; intros s s' Hc; [by injection Hc as <-|]. apply calls_cons in Hc as [_ Hc]. rewrite (IH _ _ Hc). pose proof (call_view c s) as Hw. cbn [omap list_omap].
    destruct (view_op_of c) as [op|]; [cbn [run_views]|]; by apply run_views_view. }
  intros s s' Hc. specialize (Hv _ _ _ Hc). destruct (omap view_op_of cs) as [|op ops] eqn:Eo; [by left|]. right. split; [done|].
  destruct (view_history (op :: ops) (x_book s.1)) as (v & Hr & Hrest); [done|]. exists v. rewrite Hr in Hv. split; [exact Hv|]. exact Hrest.
Qed.

(** ** From file to file *)
Lemma no_rels_dir dir file : no_rels (dir +:+ "/" +:+ file) -> no_rels dir.
Proof. intros H a b ->. apply (H a (b +:+ "/" +:+ file)). by rewrite <- !app_assoc_s. Qed.
Lemma own_book b : wb_path b ∈ own_parts b.
Proof. unfold own_parts. rewrite elem_of_cons. tauto. Qed.
Theorem book_flow file fs0 l0 data root ns sheets view x0 cs s t f path fs tr fs' :
  Stored fs0 file l0 -> excel_new (Some file) fs0 = Ok x0 -> (wb_path (x_book x0), data) ∈ l0 -> wb_path (x_book x0) <> content_types_name ->
  ReadsIn data root ns -> t_value root = None -> ListSaid root sheets -> ViewSaid root view ->
  wb_sheets (x_book x0) = sheets /\ wb_view (x_book x0) = view
  /\ (calls cs (x0, []) = Some s -> excel_save t f path s.1 fs = (tr, Ok tt) -> last tr = Some fs' ->
      exists l, Stored fs' path l /\ BookShown l (wb_path (x_book x0)) ns root (wb_sheets (x_book s.1)) (wb_view (x_book s.1))
        /\ ViewAfter (omap view_op_of cs) view (wb_view (x_book s.1))
        /\ (no_rels (wb_path (x_book x0)) -> ListHistory (list_ops cs (x0, [])) sheets (wb_sheets (x_book s.1)))).
Proof.
  intros Hst Hx Hin Hct Hr Hv Hl Hw. destruct (sources_opened _ _ _ Hx) as (o & Ho & S). destruct (reopened_file _ _ _ _ Hst Ho) as (_ & Hparts & _).
  destruct (Hparts _ _ Hct Hin) as (e & He & Hb). destruct (so_book _ _ _ S) as (p0 & d' & Hsrc & Hload & Hop).
  destruct (reads_in _ _ _ Hr) as (d & Hrd & Hd & Hn & Ha & Hns & Hdn). pose proof (source_read _ _ _ _ _ _ _ Hsrc He Hb Hrd) as Hp0.
  destruct (book_said d root sheets view Hd Ha Hl Hw) as (d1 & Hl1 & Hd1 & Hns1). rewrite Hp0, Hl1 in Hload. injection Hload as <- -> ->.
  split; [done|]. split; [done|]. intros Hcs Hsave Hlast. destruct (new_linv _ _ _ Hx) as [I0 _].
  destruct (own_stays _ _ _ I0 Hcs) as [Hown Hopen]. destruct (calls_effect _ _ _ I0 Hcs) as [I _]. cbn [fst] in *.
  destruct (own_saved t f path s fs tr fs' I Hsave Hlast) as (o' & l & Hfl & Hstored & Hbytes). exists l. split; [done|].
  assert (wb_path (x_book s.1) = wb_path (x_book x0)) as Hpath. { pose proof Hown as Hq. unfold own_parts in Hq. by injection Hq. }
  split; [|split].
  - destruct (fl_book _ _ _ Hfl) as (o1 & o2 & W1 & W2 & W3). rewrite Hpath in W1, W2, W3. rewrite (Hopen _ (own_book _)), Hop in W1.
    destruct (book_written _ _ _ _ _ _ _ W1 Hd1 Hv (others_none root) W2) as (C1 & e2 & text & root' & nsl & ts & C2 & C3 & C4 & CN & C5 & C6 & C7 & C8 & C9 & C10).
    destruct (C10 root eq_refl) as [C11 C12].
    cbn [op_doc] in CN. rewrite Hns1, Hdn in CN.
    destruct (W3 C1) as [F1 F2]. exists text, root', nsl, ts. split.
    { rewrite <- Hpath. eapply Hbytes; [apply own_book|by rewrite Hpath|rewrite Hpath; by rewrite F2|done]. }
    done.
  - apply (calls_view cs (x0, []) s Hcs).
  - intros Hnr. destruct (so_folder _ _ _ S) as (dir & fl & D1 & D2). apply (calls_list cs (x0, []) s (dir +:+ "/")); [|done].
    apply relative_path. cbn [fst]. rewrite D2. change (dir +:+ "/_rels/workbook.xml.rels") with (dir +:+ "/_rels" +:+ "/workbook.xml.rels"). constructor.
    rewrite D1 in Hnr. by eapply no_rels_dir.
Qed.
End with_env.
