(** Sheets over saving and opening: what a user sees. *)
From Verif.Model Require Import Worksheet.
From Verif.Spec Require Import RelSpec XmlSpec XmlRepr PackageSpec PartSpec ColumnSpec SheetSpec.
From Verif.Proofs Require Import BaseFacts ConverterFacts XmlWriteFacts XmlReadFacts XmlTreeFacts XmlHistFacts XmlNsFacts DocBuild PartFacts
  PackageFacts TypesFacts RelDocFacts ReadAnyFacts SmallPartFacts AttrFacts SheetFacts SheetDocFacts.

(** ** Types are kept *)
Lemma store_cell_typed x t : cell_typed x -> cell_typed (store_cell x t).2.
Proof.
  intros Hx. unfold store_cell. destruct (ce_value x) as [v|]; [|done]. destruct (ce_type x); try done.
  - destruct (f64_parses v); [done|]. destruct (seqb v "true"); [done|]. destruct (seqb v "false"); [done|].
    by destruct (get_string_id v t).
  - by destruct (get_string_id v t).
Qed.
Lemma store_cells_typed cs : forall t, Forall cell_typed cs -> Forall cell_typed (store_cells cs t).2.
Proof.
  induction cs as [|c cs IH]; intros t Hf; [constructor|]. apply Forall_cons in Hf as [Hc Hf]. cbn [store_cells].
  pose proof (store_cell_typed c t Hc) as H1. destruct (store_cell c t) as [t1 c1]. specialize (IH t1 Hf).
  destruct (store_cells cs t1) as [t2 cs1]. by constructor.
Qed.
Ltac keys := lazy; reflexivity.
Ltac found := lazy [find_attr List.find String.eqb Ascii.eqb Bool.eqb fst snd]; reflexivity.
Section with_env.
Context `{E : Env}.
Definition data_ok (w : worksheet) : Prop := forall m, ws_data w = Some m -> data_typed m.
Lemma data_ok_at w : data_ok w -> forall r c x, cell_at w r c = Some x -> 1 <= c <= u16_max /\ cell_typed x.
Proof.
  intros Hd r c x. unfold cell_at. destruct (ws_data w) as [m|] eqn:Em; [|done]. destruct (m !! r) as [y|] eqn:Er; [|done].
  destruct (rd_cells y) as [cs|] eqn:Ecs; [|done]. intros Hx. destruct (Hd m Em r y Er) as (_ & _ & H). by eapply H.
Qed.
Lemma data_ok_op op w t w' t' : in_range op -> op_typed op -> data_ok w -> run_sheet_op op (w, t) = ((w', t'), Ok tt) -> data_ok w'.
Proof.
  intros Hr Ht Hd Hrun m' Hm'.
  destruct op as [r c cs|r p]; cbn [run_sheet_op] in Hrun.
  - destruct Hr as [Hc Hlen], Ht as [Hru Hcs]. unfold set_row_value in Hrun. rewrite u16_sub_one in Hrun by done.
    pose proof (store_cells_typed cs t Hcs) as Hst. destruct (store_cells cs t) as [t1 cs1] eqn:Es. cbn [snd] in Hst.
    assert (length cs1 = length cs) as Hl. { apply store_cells_spec in Es as [Hf _]. by apply Forall2_length in Hf. }
    set (old := match default ∅ (ws_data w) !! r with Some x => x | None => mkRowData row_default None end) in *.
    destruct (place_cells_spec env_mode cs1 (c - 1) (ws_dim w) (default ∅ (rd_cells old))) as (dim' & cells' & Hp & Hin & Hout & _); [lia|].
    rewrite Hp in Hrun. injection Hrun as <- <-. cbn [ws_data set_ws_data] in Hm'. injection Hm' as <-.
    assert (forall r0 y, default ∅ (ws_data w) !! r0 = Some y -> r0 <= u32_max /\ row_typed (rd_row y)
      /\ forall cs, rd_cells y = Some cs -> forall c y, cs !! c = Some y -> 1 <= c <= u16_max /\ cell_typed y) as Hold.
    { intros r0 y Hy. destruct (ws_data w) as [m|] eqn:Em; [|cbn in Hy; by rewrite lookup_empty in Hy]. by apply (Hd m Em). }
    intros r0 x0. destruct (decide (r0 = r)) as [->|Hne]; [|rewrite lookup_insert_ne by done; apply Hold].
    rewrite lookup_insert. intros [= <-]. cbn [rd_row rd_cells]. split; [done|].
    assert (row_typed (rd_row old) /\ forall c y, default ∅ (rd_cells old) !! c = Some y -> 1 <= c <= u16_max /\ cell_typed y) as [Ho1 Ho2].
    { unfold old. destruct (default ∅ (ws_data w) !! r) as [y|] eqn:Ey.
      - destruct (Hold r y Ey) as (_ & H1 & H2). split; [done|]. intros c0 y0. destruct (rd_cells y) as [cs0|]; [by apply H2|]. cbn. by rewrite lookup_empty.
      - split; [done|]. intros c0 y0. cbn. by rewrite lookup_empty. }
    split; [done|]. intros cs0 [= <-] c0 y0 Hy0. destruct (decide (c0 <= c - 1 \/ c - 1 + N.of_nat (length cs1) < c0)) as [Hc0|Hc0].
    + rewrite Hout in Hy0 by done. by eapply Ho2.
    + assert (N.to_nat (c0 - c) < length cs1)%nat as Hlt by lia. apply lookup_lt_is_Some in Hlt as (z & Hz).
      pose proof (Hin _ _ Hz) as Hz'. replace (c - 1 + 1 + N.of_nat (N.to_nat (c0 - c))) with c0 in Hz' by lia.
      assert (y0 = z) as -> by congruence. split; [change u16_max with 65535; lia|]. rewrite Forall_forall in Hst. apply Hst. by eapply elem_of_list_lookup_2.
  - destruct Ht as [Hru Hp]. injection Hrun as <- <-. cbn [ws_data set_ws_data] in Hm'. injection Hm' as <-.
    assert (forall r0 y, default ∅ (ws_data w) !! r0 = Some y -> r0 <= u32_max /\ row_typed (rd_row y)
      /\ forall cs, rd_cells y = Some cs -> forall c y, cs !! c = Some y -> 1 <= c <= u16_max /\ cell_typed y) as Hold.
    { intros r0 y Hy. destruct (ws_data w) as [m|] eqn:Em; [|cbn in Hy; by rewrite lookup_empty in Hy]. by apply (Hd m Em). }
    intros r0 x0. destruct (decide (r0 = r)) as [->|Hne]; [|rewrite lookup_insert_ne by done; apply Hold].
    rewrite lookup_insert. intros [= <-]. cbn [rd_row rd_cells]. split; [done|]. split; [done|].
    destruct (default ∅ (ws_data w) !! r) as [y|] eqn:Ey; [|done]. by apply (Hold r y Ey).
Qed.
Lemma data_ok_ops ops : forall w t w' t', Forall in_range ops -> Forall op_typed ops -> data_ok w ->
  run_sheet_ops ops (w, t) = ((w', t'), Ok tt) -> data_ok w'.
Proof.
  induction ops as [|op ops IH]; intros w t w' t' Hr Ht Hd; cbn [run_sheet_ops]; [by intros [= <- <-]|].
  apply Forall_cons in Hr as [Hop Hr]. apply Forall_cons in Ht as [Hot Ht]. unfold bind.
  destruct (run_sheet_op op (w, t)) as [[w1 t1] [[]| |]] eqn:E1; [|done|done]. apply IH; [done|done|]. by eapply data_ok_op.
Qed.
Lemma dim_typed w : DimInv w -> data_ok w -> 1 <= dm_start (ws_dim w) <= u16_max /\ 1 <= dm_end (ws_dim w) <= u16_max.
Proof.
  intros [_ Hs He] Hd. split.
  - destruct Hs as [->|[r [x Hx]]]; [by vm_compute|]. by apply (data_ok_at w Hd) in Hx as [? _].
  - destruct He as [->|[r [x Hx]]]; [by vm_compute|]. by apply (data_ok_at w Hd) in Hx as [? _].
Qed.
Lemma sheet_typed_ops ops w t w' t' : Forall in_range ops -> Forall op_typed ops -> sheet_typed w -> DimInv w ->
  run_sheet_ops ops (w, t) = ((w', t'), Ok tt) -> sheet_typed w' /\ DimInv w'.
Proof.
  intros Hr Ht [Hc Hv Hd _] Hi Hrun. pose proof (DimInv_ops ops w t w' t' Hr Hi Hrun) as Hi'.
  pose proof (data_ok_ops ops w t w' t' Hr Ht Hd Hrun) as Hd'.
  destruct (run_sheet_ops_spec ops w t Hr) as (w2 & t2 & E2 & _ & (_ & _ & _ & Fc & Fv) & _). rewrite E2 in Hrun. injection Hrun as -> ->.
  split; [|done]. split; [by rewrite Fc|by rewrite Fv|done|by apply dim_typed].
Qed.
Lemma fresh_inv path nm rp : DimInv (fresh_sheet path nm rp).
Proof. split; [|by left|by left]. intros r c. unfold cell_at. cbn. rewrite lookup_empty. by intros []. Qed.
Lemma fresh_typed path nm rp : sheet_typed (fresh_sheet path nm rp).
Proof.
  split; [done| | |by vm_compute].
  - apply Forall_singleton. done.
  - intros m [= <-] r x. by rewrite lookup_empty.
Qed.

(** ** What comes back *)
Definition back_sheet (path nm : string) (rp : relations) (w : worksheet) : worksheet :=
  mkWs path nm rp (back_dim (ws_data w)) (back_views (ws_views w)) (back_cols (ws_cols w)) (back_data (ws_data w)).
Lemma back_cell_at path nm rp w r c : cell_at (back_sheet path nm rp w) r c = back_cell <$> cell_at w r c.
Proof.
  unfold cell_at. cbn [ws_data back_sheet]. unfold back_data. destruct (ws_data w) as [m|]; [|done]. rewrite lookup_fmap.
  destruct (m !! r) as [x|]; [|done]. cbn [fmap option_fmap option_map]. unfold back_row, back_cells. cbn [rd_cells].
  destruct (rd_cells x) as [cs|]; [|done]. case_decide as Hcs; [by rewrite Hcs, lookup_empty|]. by rewrite lookup_fmap.
Qed.
Lemma back_props_at path nm rp w r : props_at (back_sheet path nm rp w) r = back_props <$> props_at w r.
Proof.
  unfold props_at. cbn [ws_data back_sheet]. unfold back_data. destruct (ws_data w) as [m|]; [|done]. rewrite lookup_fmap.
  by destruct (m !! r).
Qed.
Lemma dim_adds l : forall d, let d' := foldl dim_add d l in
  (forall c, c ∈ l -> dm_start d' <= c <= dm_end d') /\ dm_start d' <= dm_start d /\ dm_end d <= dm_end d'
  /\ (dm_start d' = dm_start d \/ dm_start d' ∈ l) /\ (dm_end d' = dm_end d \/ dm_end d' ∈ l).
Proof.
  induction l as [|c l IH]; intros d; cbn [foldl].
  - cbn. split; [intros c Hc; by apply elem_of_nil in Hc|]. split; [lia|]. split; [lia|]. tauto.
  - destruct (IH (dim_add d c)) as (H1 & H2 & H3 & H4 & H5). cbn [dim_add dm_start dm_end] in *. set (d' := foldl dim_add _ l) in *.
    split; [|split; [|split; [|split]]].
    + intros c' [->|Hc]%elem_of_cons; [lia|by apply H1].
    + lia. + lia.
    + destruct H4 as [H4|H4]; [|right; by right]. destruct (N.min_spec (dm_start d) c) as [[_ Hm]|[_ Hm]]; rewrite Hm in H4; [by left|right; rewrite H4; left].
    + destruct H5 as [H5|H5]; [|right; by right]. destruct (N.max_spec (dm_end d) c) as [[_ Hm]|[_ Hm]]; rewrite Hm in H5; [right; rewrite H5; left|by left].
Qed.
Lemma row_cols_elem x c : c ∈ row_cols x <-> exists cs y, rd_cells x = Some cs /\ cs !! c = Some y.
Proof.
  unfold row_cols. destruct (rd_cells x) as [cs|]; [|rewrite elem_of_nil; split; [done|by intros (? & ? & ? & _)]].
  rewrite elem_of_list_fmap. split.
  - intros ([c' y] & -> & Hin%btree_entries_lookup). eauto.
  - intros (cs' & y & [= <-] & Hy). exists (c, y). split; [done|]. by apply btree_entries_lookup.
Qed.
Lemma data_cols_elem w m c : ws_data w = Some m -> c ∈ data_cols m <-> exists r, is_Some (cell_at w r c).
Proof.
  intros Hm. unfold data_cols. rewrite elem_of_list_In, in_concat. unfold cell_at. rewrite Hm. split.
  - intros (l & (ir & <- & Hir)%in_map_iff & Hc). destruct ir as [r x]. apply elem_of_list_In, btree_entries_lookup in Hir.
    apply elem_of_list_In, row_cols_elem in Hc as (cs & y & H1 & H2). cbn [snd] in H1. exists r. rewrite Hir, H1, H2. eauto.
  - intros (r & y & Hy). destruct (m !! r) as [x|] eqn:Er; [|done]. destruct (rd_cells x) as [cs|] eqn:Ecs; [|done].
    exists (row_cols x). split; [apply in_map_iff; exists (r, x); split; [done|]; by apply elem_of_list_In, btree_entries_lookup|].
    apply elem_of_list_In, row_cols_elem. eauto.
Qed.
Lemma back_inv path nm rp w : DimInv (back_sheet path nm rp w).
Proof.
  assert (forall c, (exists r, is_Some (cell_at (back_sheet path nm rp w) r c)) <-> exists r, is_Some (cell_at w r c)) as Heq.
  { intros c. split; intros (r & Hr); exists r; rewrite back_cell_at, fmap_is_Some in *; done. }
  destruct (ws_data w) as [m|] eqn:Em.
  - assert (ws_dim (back_sheet path nm rp w) = foldl dim_add dim_default (data_cols m)) as Hdim.
    { cbn [ws_dim back_sheet]. by rewrite Em. }
    destruct (dim_adds (data_cols m) dim_default) as (H1 & _ & _ & H4 & H5). rewrite <- Hdim in *.
    split.
    + intros r c Hc. apply H1. rewrite (data_cols_elem w m c Em). apply Heq. eauto.
    + destruct H4 as [H4|H4]; [by left|right]. apply Heq. by apply (data_cols_elem w m _ Em).
    + destruct H5 as [H5|H5]; [by left|right]. apply Heq. by apply (data_cols_elem w m _ Em).
  - split.
    + intros r c (x & Hx). rewrite back_cell_at in Hx. unfold cell_at in Hx. by rewrite Em in Hx.
    + left. cbn. by rewrite Em. + left. cbn. by rewrite Em.
Qed.
Lemma plain_flag o : o <> Some false -> set_flag o = o.
Proof. by destruct o as [[]|]. Qed.
Lemma plain_opt (o : option string) : (forall s, o = Some s -> plain_text s) -> spec_escape <$> o = o.
Proof. destruct o as [s|]; [|done]. intros H. cbn. f_equal. by apply spec_escape_fixed, H. Qed.
Lemma back_cell_plain c : plain_cell c -> back_cell c = c.
Proof.
  intros (H1 & H2 & H3 & H4 & H5). destruct c as [f v t st me co ph]. unfold back_cell. cbn [ce_formula ce_value ce_type ce_style ce_meta ce_comment ce_ph] in *.
  rewrite H1, H2, plain_opt, plain_flag by done. f_equal. destruct t; try done. symmetry. by apply H3.
Qed.
Lemma back_props_plain p : plain_props p -> back_props p = p.
Proof.
  intros (H1 & H2 & H3 & H4 & H5 & H6 & H7). destruct p. unfold back_props. cbn in *. rewrite !plain_flag, plain_opt by done. f_equal.
  destruct ro_level as [[|n]|]; [done|done|done].
Qed.
Lemma back_col_plain p : plain_col p -> back_col p = p.
Proof. intros (H1 & H2 & H3 & H4). destruct p. unfold back_col. cbn in *. by rewrite !plain_flag, H3, H4 by done. Qed.
Lemma back_typed path nm rp w : sheet_typed w -> sheet_typed (back_sheet path nm rp w).
Proof.
  intros [Hc Hv Hd _]. assert (data_ok (back_sheet path nm rp w)) as Hd'.
  { intros m' Hm'. cbn [ws_data back_sheet] in Hm'. unfold back_data in Hm'. destruct (ws_data w) as [m|] eqn:Em; [|done].
    injection Hm' as <-. specialize (Hd m eq_refl). intros r x Hx. rewrite lookup_fmap in Hx. destruct (m !! r) as [y|] eqn:Er; [|done].
    injection Hx as <-. destruct (Hd r y Er) as (H1 & (Hs & Hh & Hl) & H3). split; [done|]. split.
    - split; [done|]. split; [done|]. cbn. destruct (ro_level (rd_row y)) as [n|]; [|done]. destruct (0 <? n); done.
    - intros cs Hcs c z Hz. cbn in Hcs. unfold back_cells in Hcs. destruct (rd_cells y) as [cs0|] eqn:Ecs; [|done].
      case_decide; [done|]. injection Hcs as <-. rewrite lookup_fmap in Hz. destruct (cs0 !! c) as [z0|] eqn:Ez; [|done].
      injection Hz as <-. exact (H3 cs0 eq_refl c z0 Ez). }
  split; [| |done|apply dim_typed; [apply back_inv|done]].
  - intros l Hl. cbn in Hl. unfold back_cols in Hl. destruct (ws_cols w) as [[|c0 l0]|]; [done| |done]. injection Hl as <-.
    specialize (Hc _ eq_refl). change (back_col c0 :: map back_col l0) with (back_col <$> (c0 :: l0)). apply Forall_fmap. eapply Forall_impl; [exact Hc|].
    intros p (H1 & H2 & H3 & H4). done.
  - cbn. constructor; [done|]. change (map back_view (rev (ws_views w))) with (back_view <$> rev (ws_views w)). apply Forall_fmap.
    rewrite <- (Permutation_rev (ws_views w)). eapply Forall_impl; [exact Hv|]. intros v Hvv. exact Hvv.
Qed.

(** ** The written rows *)
Lemma entries_lt {V} (m : gmap N V) : StronglySorted N.lt (btree_entries m).*1.
Proof.
  pose proof (btree_entries_sorted m) as Hs. pose proof (btree_entries_NoDup m) as Hn. revert Hn.
  induction Hs as [|x l Hs IH Hx]; intros Hn; [constructor|].
  cbn in *. apply NoDup_cons in Hn as [Hn1 Hn]. constructor; [by apply IH|]. apply Forall_fmap. rewrite Forall_forall in Hx |- *. intros y Hy.
  pose proof (Hx y Hy) as Hle. unfold nkey_le in Hle. assert (x.1 <> y.1). { intros Heq. apply Hn1. rewrite Heq. by apply elem_of_list_fmap_1. } cbn. lia.
Qed.
Definition row_list (m : gmap N row_data) : list (N * list N) := map (fun ir : N * row_data => (ir.1, row_cols ir.2)) (btree_entries m).
Lemma row_list_fst m : (row_list m).*1 = (btree_entries m).*1.
Proof. unfold row_list. change (map ?f ?l) with (f <$> l). by rewrite <- list_fmap_compose. Qed.
Lemma row_list_elem m r cs : (r, cs) ∈ row_list m <-> exists x, m !! r = Some x /\ cs = row_cols x.
Proof.
  unfold row_list. rewrite elem_of_list_fmap. split.
  - intros ([r' x] & [= -> ->] & Hx%btree_entries_lookup). eauto.
  - intros (x & Hx & ->). exists (r, x). split; [done|]. by apply btree_entries_lookup.
Qed.
Lemma cell_ref c r : 1 <= c -> exists name, ColumnName c name /\ cell_name c r = name +:+ show_N r.
Proof.
  intros Hc. destruct (get_column_ref_spec c) as (n & G1 & G2 & G3 & G4); [lia|]. exists n. split; [done|]. unfold cell_name. by rewrite G1.
Qed.
Lemma cell_shows ref y : CellShows y (cell_tree ref y).
Proof.
  unfold CellShows, child_attr, cell_tree. cbn [t_attrs t_children]. unfold cell_attrs. rewrite !opt_attrs_lookup by keys.
  split; [destruct (ce_type y); by found|]. do 3 (split; [by found|]). unfold cell_content. destruct (ce_type y); eauto.
Qed.
Lemma row_shows r x : RowShows (rd_row x) (row_tree r x).
Proof.
  unfold RowShows, child_attr, row_tree. cbn [t_attrs fst snd]. unfold row_attrs. rewrite !opt_attrs_lookup by keys.
  do 7 (split; [by found|]). by found.
Qed.
Lemma rows_written w m : ws_data w = Some m -> data_typed m -> RowsWritten w (data_tree m) (row_list m).
Proof.
  intros Hm Ht. split.
  - done.
  - unfold data_tree, row_list. cbn [t_children]. change (map ?f ?l) with (f <$> l). rewrite Forall2_fmap. apply Forall_Forall2_diag, Forall_forall.
    intros [r x] Hx. apply btree_entries_lookup in Hx. destruct (Ht r x Hx) as (_ & _ & Hc). split; [done|]. split; [|split].
    + unfold child_attr, row_tree. cbn [t_attrs fst snd]. unfold row_attrs. rewrite opt_attrs_lookup; [by found|by keys].
    + cbn [fst snd]. unfold row_cols, row_tree. cbn [t_children]. destruct (rd_cells x) as [cs|] eqn:Ecs; [|constructor]. change (map ?f ?l) with (f <$> l).
      rewrite Forall2_fmap. apply Forall_Forall2_diag, Forall_forall. intros [c y] Hy. apply btree_entries_lookup in Hy.
      destruct (Hc cs eq_refl c y Hy) as [H1 _]. split; [done|]. split.
      * destruct (cell_ref c r) as (n & Hn & He); [lia|]. exists n. split; [done|].
        cbn [fst snd]. unfold child_attr, cell_tree. cbn [t_attrs]. unfold cell_attrs. rewrite opt_attrs_lookup; [|by keys]. rewrite He. by found.
      * exists y. split; [unfold cell_at; cbn [fst snd]; by rewrite Hm, Hx, Ecs|]. cbn [fst snd]. apply cell_shows.
    + exists (rd_row x). split; [unfold props_at; cbn [fst snd]; by rewrite Hm, Hx|]. cbn [fst snd]. apply row_shows.
  - rewrite row_list_fst. apply entries_lt.
  - apply Forall_forall. intros cs Hcs. apply elem_of_list_fmap in Hcs as ([r cs'] & -> & Hin). apply row_list_elem in Hin as (x & _ & ->).
    cbn [snd]. unfold row_cols. destruct (rd_cells x); [apply entries_lt|constructor].
  - intros r. rewrite row_list_fst. unfold has_row, props_at. rewrite Hm, fmap_is_Some, elem_of_list_fmap. split.
    + intros ([r' x] & -> & Hx%btree_entries_lookup). eauto.
    + intros (x & Hx). exists (r, x). split; [done|]. by apply btree_entries_lookup.
  - intros r c. unfold cell_at. rewrite Hm. split.
    + intros (cs & Hcs & Hc). apply row_list_elem in Hcs as (x & Hx & ->). apply row_cols_elem in Hc as (cs & y & H1 & H2). rewrite Hx, H1, H2. eauto.
    + intros (y & Hy). destruct (m !! r) as [x|] eqn:Er; [|done]. destruct (rd_cells x) as [cs|] eqn:Ecs; [|done].
      exists (row_cols x). split; [apply row_list_elem; eauto|]. apply row_cols_elem. eauto.
Qed.

(** ** The part of a new sheet *)
Definition sheet_path (dir : string) (n : N) : string := dir +:+ "/" +:+ sheet_file n +:+ "." +:+ c_ext c_worksheet.
Lemma sheet_path_inj dir a b : sheet_path dir a = sheet_path dir b -> a = b.
Proof.
  unfold sheet_path, sheet_file. intros H. apply app_inj_l in H. apply app_inj_l in H. rewrite <- !app_assoc_s in H. apply app_inj_l in H.
  apply app_inj_r in H. by apply show_N_inj.
Qed.
Lemma free_number_cases fuel o dir : forall n,
  (exists k, free_number fuel o dir n = Ok k /\ n <= k /\ of_archive o !! sheet_path dir k = None
     /\ forall j, n <= j < k -> is_Some (of_archive o !! sheet_path dir j))
  \/ (forall j, n <= j < n + N.of_nat fuel -> is_Some (of_archive o !! sheet_path dir j)).
Proof.
  induction fuel as [|fuel IH]; intros n; [right; lia|]. cbn [free_number]. unfold check_file_exist. fold (sheet_path dir n).
  destruct (of_archive o !! sheet_path dir n) as [e|] eqn:En.
  - destruct (IH (n + 1)) as [(k & H1 & H2 & H3 & H4)|Hall].
    + left. exists k. split; [done|]. split; [lia|]. split; [done|]. intros j Hj. destruct (decide (j = n)) as [->|]; [eauto|]. apply H4. lia.
    + right. intros j Hj. destruct (decide (j = n)) as [->|]; [eauto|]. apply Hall. lia.
  - left. exists n. split; [done|]. split; [lia|]. split; [done|]. lia.
Qed.
Lemma free_number_total o dir n : exists k, free_number (S (size (of_archive o))) o dir n = Ok k /\ n <= k /\ of_archive o !! sheet_path dir k = None
     /\ forall j, n <= j < k -> is_Some (of_archive o !! sheet_path dir j).
Proof.
  destruct (free_number_cases (S (size (of_archive o))) o dir n) as [?|Hall]; [done|]. exfalso.
  set (l := (fun i => sheet_path dir (n + N.of_nat i)) <$> seq 0 (S (size (of_archive o)))).
  assert (NoDup l) as Hn. { apply NoDup_fmap_2; [|apply NoDup_seq]. intros a b Hab. apply sheet_path_inj in Hab. lia. }
  assert (l ⊆ (map_to_list (of_archive o)).*1) as Hs.
  { intros p Hp. apply elem_of_list_fmap in Hp as (i & -> & Hi). apply elem_of_seq in Hi. destruct (Hall (n + N.of_nat i)) as (e & He); [lia|].
    apply elem_of_list_fmap. exists (sheet_path dir (n + N.of_nat i), e). split; [done|]. by apply elem_of_map_to_list. }
  pose proof (submseteq_length _ _ (NoDup_submseteq _ _ Hn Hs)) as Hlen. unfold l in Hlen. rewrite !fmap_length, seq_length in Hlen.
  change (length (map_to_list (of_archive o))) with (map_size (of_archive o)) in Hlen. unfold size in Hlen. lia.
Qed.
Lemma file_name_new name sheets rels o rp : (forall n x, name = Some n -> x ∈ sheets -> sh_name x <> n) -> get_relative_path rels = Ok rp ->
  exists k, let path := sheet_path (rp +:+ c_path c_worksheet) k in
  let nm := default (sheet_file k) name in
  let id := get_next_relationship_id rels in
  get_sheet_file_name name (sheets, (rels, o)) =
    ((sheets ++ [mkSheet nm id false false], (set_rels rels (rl_rels rels ++ [mkRel id ("/" +:+ path) (c_type c_worksheet) None]), o)), Ok (path, nm))
  /\ N.of_nat (length sheets) < k /\ of_archive o !! path = None
  /\ (forall j, N.of_nat (length sheets) < j < k -> is_Some (of_archive o !! sheet_path (rp +:+ c_path c_worksheet) j)).
Proof.
  intros Hname Hrp. destruct (free_number_total o (rp +:+ c_path c_worksheet) (N.of_nat (length sheets) + 1)) as (k & H1 & H2 & H3 & H4).
  exists k. cbn zeta. split; [|split; [lia|split; [done|intros j Hj; apply H4; lia]]].
  unfold get_sheet_file_name, bind, get. assert (name ≫= (fun n => List.find (fun x => seqb (sh_name x) n) sheets) = None) as ->.
  { destruct name as [n|]; [|done]. cbn. destruct (List.find _ sheets) as [x|] eqn:Ef; [|done]. apply find_some in Ef as [Hx Heq].
    apply seqb_true in Heq. exfalso. eapply Hname; [done| |exact Heq]. by apply elem_of_list_In. }
  unfold lift. rewrite Hrp. rewrite H1. done.
Qed.

Lemma sheet_cycle o w : SheetOpen o (ws_path w) -> sheet_typed w ->
  exists e root nsl ref, ws_close (w, o) = ((handed w, mkOffice (delete (ws_path w) (of_open o)) (<[ws_path w := e]> (of_archive o))), Ok tt)
  /\ (exists text, part_bytes e = Ok (prolog +:+ text) /\ Renders (Some nsl) root text)
  /\ dim_ref (ws_dim w) (ws_data w) = Ok ref /\ only_child "dimension" root (dim_tree ref)
  /\ (forall m, ws_data w = Some m -> only_child "sheetData" root (data_tree m))
  /\ only_child "sheetViews" root (views_tree (ws_views w))
  /\ in_order (t_children root)
  /\ (forall name s s1 nm rp rl, get_sheet_file_name name s = (s1, Ok (ws_path w, nm)) -> rels_beside (ws_path w) = Ok rp ->
        holds s1.2.2 (ws_path w) e -> RelsReadable s1.2.2 rp rl ->
        exists o3, ws_new name s = ((s1.1, (s1.2.1, o3)), Ok (back_sheet (ws_path w) nm (mkRelations rl rp) w))
        /\ SheetOpen o3 (ws_path w) /\ RelsOpen o3 rp
        /\ (forall q, q <> ws_path w -> q <> rp -> of_open o3 !! q = of_open s1.2.2 !! q /\ of_archive o3 !! q = of_archive s1.2.2 !! q)).
Proof.
  intros Ho Hw. destruct (sheet_close o w Ho Hw) as (e & p & ref & g & a & cs & cs' & Hp & Hc & Href & Hb & _ & _ & _ & Hperm & Hord & Hf & Hn & Hns & _).
  destruct (sheet_tagged w ref cs cs' Hf Hperm) as (T1 & T2 & T3 & T4).
  exists e, (Node g a None cs'). eexists. exists ref. split; [exact Hc|]. split.
  { eexists. split; [exact Hb|]. apply render_renders_mut. }
  split; [done|]. split; [exact T1|]. split; [intros m Hm; unfold only_child; cbn [t_children]; unfold tagged in T3; by rewrite Hm in T3|].
  split; [exact T4|]. split; [exact Hord|].
  intros name s s1 nm rp rl H1 H2 (H3 & e2 & H4 & H5) H6. rewrite Hb in H5.
  eapply (ws_new_back name s s1 (ws_path w) nm rp rl e2 (d_ns (op_doc p)) g a cs cs' w ref); done.
Qed.
Lemma Reopened_back w w' : Reopened w w' -> sheet_typed w' /\ exists nm rels, w' = back_sheet (ws_path w) nm rels w.
Proof.
  intros (o & w1 & o1 & e & name & s & s1 & nm & rp & rl & s' & H1 & H2 & H3 & H4 & H5 & H6 & H7 & H8 & H9).
  destruct (sheet_cycle o w H1 H2) as (e' & root & nsl & ref & Hc & _ & _ & _ & _ & _ & _ & Hre). rewrite Hc in H3. injection H3 as <- <-.
  cbn [of_archive] in H4. rewrite lookup_insert in H4. injection H4 as <-.
  destruct (Hre name s s1 nm rp rl H5 H6 H7 H8) as (o3 & Hn & _). rewrite Hn in H9. injection H9 as _ <-. split; [by apply back_typed|eauto].
Qed.
Lemma cycles_views n w w' : Cycles n w w' -> length (ws_views w') = (length (ws_views w) + n)%nat.
Proof.
  induction 1 as [w|n w w1 w2 Hc IH Hr]; [lia|]. apply Reopened_back in Hr as (_ & nm & rels & ->). cbn [ws_views back_sheet].
  unfold back_views. cbn [length]. rewrite map_length, rev_length, IH. lia.
Qed.
End with_env.
