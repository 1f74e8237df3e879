(** Worksheets in their part: writing and reading back. *)
From Verif.Model Require Import Worksheet.
From Verif.Spec Require Import RelSpec XmlSpec XmlRepr PackageSpec PartSpec ColumnSpec SheetSpec.
From Verif.Proofs Require Import BaseFacts ConverterFacts XmlWriteFacts XmlReadFacts XmlTreeFacts XmlHistFacts XmlNsFacts DocBuild PartFacts
  PackageFacts TypesFacts RelDocFacts ReadAnyFacts SmallPartFacts AttrFacts SheetFacts.

Section with_env.
Context `{E : Env}.
Ltac keys := lazy; reflexivity.
Ltac found := lazy [find_attr List.find String.eqb Ascii.eqb Bool.eqb fst snd]; reflexivity.

(** ** Columns *)
Lemma col_attrs_ok c : attrs_ok (Some (col_attrs c)).
Proof. apply opt_attrs_ok. keys. Qed.
Lemma col_tree_ok c : names_ok (col_tree c).
Proof. apply names_ok_node. split; [keys|]. split; [apply col_attrs_ok|constructor]. Qed.
Lemma cols_tree_ok l : names_ok (cols_tree l).
Proof. apply names_ok_node. split; [keys|]. split; [done|]. apply Forall_map_all, col_tree_ok. Qed.
Lemma f32_plain s : env_f32 s = Some s -> plain_text s.
Proof. intros Hs. eapply plain_forall; [|by eapply env_f32_bytes]. intros [[] [] [] [] [] [] [] []]; by vm_compute. Qed.
Lemma f32_back o : is_f32 o -> forall x, o = Some x -> env_f32 (spec_escape x) = Some x.
Proof. intros Ho x ->. cbn in Ho. by rewrite spec_escape_fixed by (by apply f32_plain). Qed.
Lemma num_back max n : n <= max -> parse_uint max (spec_escape (show_N n)) = Some n.
Proof. intros Hn. rewrite escape_show_N. by apply parse_uint_show. Qed.
Lemma below_back max o : below max o -> forall x, o = Some x -> parse_uint max (spec_escape (show_N x)) = Some x.
Proof. intros Ho x ->. by apply num_back. Qed.
Lemma col_back c : col_typed c -> col_of_tree (reread (col_tree c)) = Ok (back_col c).
Proof.
  intros (H1 & H2 & H3 & H4). unfold col_of_tree, col_tree. cbn [reread attrs_req t_attrs of_option rbind default].
  change (@id (gmap string string)) with (fun x : gmap string string => x). cbv beta. unfold attrs_req. cbn [t_attrs of_option rbind].
  unfold col_attrs. set (l := [_; _; _; _; _; _; _]).
  assert (fresh_keys l = true) as Hl by keys.
  unfold num_attr. rewrite (parse_attr_back _ show_N l "min" (Some (co_min c)) Hl); [|found|intros x [= <-]; by apply num_back].
  rewrite (parse_attr_back _ show_N l "max" (Some (co_max c)) Hl); [|found|intros x [= <-]; by apply num_back].
  rewrite (parse_attr_back _ show_N l "style" (co_style c) Hl); [|found|by apply below_back].
  rewrite (parse_attr_back _ show_N l "outlineLevel" None Hl); [|found|done].
  cbn [rbind]. rewrite !opt_attrs_escaped by done.
  assert (find_attr l "customWidth" = one_if (co_width c)) as -> by found.
  assert (find_attr l "width" = co_width c) as -> by found.
  rewrite (one_attr_back l "hidden" (co_hidden c) Hl) by found.
  rewrite (one_attr_back l "bestFit" (co_best c) Hl) by found.
  rewrite (one_attr_back l "collapsed" (@None bool) Hl) by found.
  pose proof (f32_back _ H4) as Hf. unfold back_col. destruct (co_width c) as [x|]; [|done].
  cbn [one_if fmap option_fmap option_map]. change (seqb (spec_escape "1") "1") with true. cbv iota. cbn [of_option rbind].
  rewrite (Hf x eq_refl). done.
Qed.

(** ** Views *)
Lemma view_tree_ok v : names_ok (view_tree v).
Proof. apply names_ok_node. split; [keys|]. split; [apply opt_attrs_ok; keys|constructor]. Qed.
Lemma views_tree_ok l : names_ok (views_tree l).
Proof. apply names_ok_node. split; [keys|]. split; [done|]. apply Forall_map_all, view_tree_ok. Qed.
Lemma i16_back o : is_i16 o -> forall x, o = Some x -> parse_i16 (spec_escape (show_Z x)) = Some x.
Proof. intros Ho x ->. rewrite escape_show_Z. by apply parse_i16_show. Qed.
Lemma view_back v : view_typed v -> view_of_tree (reread (view_tree v)) = Ok (back_view v).
Proof.
  intros (H1 & H2 & H3 & H4). unfold view_of_tree, view_tree. cbn [reread t_tag]. change (seqb "sheetView" "sheetView") with true. cbv iota.
  unfold attrs_req. cbn [t_attrs of_option rbind default]. unfold id. unfold view_attrs. cbv zeta.
  set (l := cons _ _).
  assert (fresh_keys l = true) as Hl by keys. unfold view_of_attrs.
  rewrite (parse_attr_back _ show_Z l "zoomScale" (vw_zoom v) Hl); [|found|by apply i16_back].
  rewrite (parse_attr_back _ show_Z l "zoomScaleNormal" (vw_zoom_normal v) Hl); [|found|by apply i16_back].
  rewrite (parse_attr_back _ show_Z l "zoomScaleSheetLayoutView" (vw_zoom_sheet v) Hl); [|found|by apply i16_back].
  rewrite (parse_attr_back _ show_Z l "zoomScalePageLayoutView" (vw_zoom_page v) Hl); [|found|by apply i16_back].
  rewrite !opt_attrs_escaped by done.
  assert (find_attr l "workbookViewId" = Some (vw_id v)) as -> by found.
  assert (find_attr l "topLeftCell" = vw_top_left v) as -> by found.
  assert (find_attr l "view" = vw_view v) as -> by found.
  cbn [fmap option_fmap option_map of_option rbind].
  rewrite (bool_attr_back l "defaultGridColor" (vw_grid_color v) Hl) by found.
  rewrite (bool_attr_back l "rightToLeft" (vw_rtl v) Hl) by found.
  rewrite (bool_attr_back l "showFormulas" (vw_formula v) Hl) by found.
  rewrite (bool_attr_back l "showGridLines" (vw_grid_line v) Hl) by found.
  rewrite (bool_attr_back l "showOutlineSymbols" (vw_outline v) Hl) by found.
  rewrite (bool_attr_back l "showRowColHeaders" (vw_header v) Hl) by found.
  rewrite (bool_attr_back l "showRuler" (vw_ruler v) Hl) by found.
  rewrite (bool_attr_back l "showWhiteSpace" (vw_white v) Hl) by found.
  rewrite (bool_attr_back l "showZeros" (vw_zero v) Hl) by found.
  rewrite (bool_attr_back l "tabSelected" (vw_tab v) Hl) by found.
  rewrite (bool_attr_back l "windowProtection" (vw_protection v) Hl) by found.
  done.
Qed.

(** ** Cells *)
Definition cell_name (c r : N) : string := match get_column_ref c with Ok s => s +:+ show_N r | _ => "" end.
Lemma cell_content_ok c : Forall names_ok (cell_content c).
Proof. unfold cell_content. destruct (ce_type c), (ce_formula c); cbn; repeat constructor; keys. Qed.
Lemma cell_tree_ok ref c : names_ok (cell_tree ref c).
Proof. apply names_ok_node. split; [keys|]. split; [apply opt_attrs_ok; keys|apply cell_content_ok]. Qed.
Lemma cell_name_back c r : 1 <= c <= u16_max -> get_column_index (spec_escape (cell_name c r)) = Ok c.
Proof.
  intros [H1 H2]. unfold cell_name. destruct (get_column_ref_spec c) as (s & -> & Hu & Hw & Hv); [lia|].
  rewrite spec_escape_fixed; [|apply plain_app; [by apply plain_upper|apply plain_show_N]].
  rewrite get_column_index_exact; [by rewrite Hv|done|apply ends_word_digits, show_N_digits|unfold u16_max in *; lia].
Qed.
Lemma type_back t : (match (if is_number t then None else Some (type_string t)) with Some s => type_enum (spec_escape s) | None => TNumber end) = t.
Proof. by destruct t. Qed.
Lemma visible_default o : visible (Some (default "" o)) = visible o.
Proof. by destruct o. Qed.
Lemma cell_content_back c c0 : ce_formula c0 = None -> ce_value c0 = None ->
  cell_children c0 (map reread (cell_content c)) =
    Ok (mkCell (match ce_type c with TInline => None | _ => visible (ce_formula c) end) (visible (ce_value c))
          (ce_type c0) (ce_style c0) (ce_meta c0) (ce_comment c0) (ce_ph c0)).
Proof.
  intros H1 H2. rewrite <- (visible_default (ce_value c)). unfold cell_content.
  assert (forall s, visible (Some s) = if String.eqb (trim s) "" then None else Some (trim s)) as Hv by done.
  destruct (ce_type c); try (destruct (ce_formula c) as [f|]; cbn [app map reread cell_children]; unfold cell_child;
    cbn [t_tag t_value t_children]; change (seqb "f" "v") with false; change (seqb "f" "f") with true; change (seqb "v" "v") with true;
    cbv iota; cbn [rbind ce_formula ce_value ce_type ce_style ce_meta ce_comment ce_ph t_value]; rewrite ?Hv, ?H1; done).
Qed.
Lemma cell_back i r c : 1 <= i <= u16_max -> cell_typed c -> cell_of_tree (reread (cell_tree (cell_name i r) c)) = Ok (i, back_cell c).
Proof.
  intros Hi (H1 & H2). unfold cell_of_tree, cell_tree. cbn [reread]. unfold attrs_req. cbn [t_attrs t_children of_option rbind default]. unfold id.
  unfold cell_attrs. set (l := cons _ _). assert (fresh_keys l = true) as Hl by keys. unfold cell_of_attrs, num_attr.
  rewrite (parse_attr_back _ show_N l "s" (ce_style c) Hl); [|found|by apply below_back].
  rewrite (parse_attr_back _ show_N l "cm" (ce_comment c) Hl); [|found|by apply below_back].
  rewrite !opt_attrs_escaped by done.
  assert (find_attr l "r" = Some (cell_name i r)) as -> by found.
  assert (find_attr l "vm" = ce_meta c) as -> by found.
  assert (find_attr l "t" = if is_number (ce_type c) then None else Some (type_string (ce_type c))) as -> by found.
  rewrite (one_attr_back l "ph" (ce_ph c) Hl) by found.
  cbn [fmap option_fmap option_map of_option rbind]. rewrite cell_name_back by done. cbn [rbind].
  rewrite cell_content_back by done. cbn [rmap rbind ce_type ce_style ce_meta ce_comment ce_ph]. unfold back_cell, set_flag. do 3 f_equal.
  rewrite <- (type_back (ce_type c)) at 3. by destruct (is_number (ce_type c)).
Qed.

(** ** Rows *)
Definition row_tree (r : N) (x : row_data) : tree :=
  Node "row" (Some (row_attrs r (rd_row x))) None
    (match rd_cells x with None => [] | Some cs => map (fun ic : N * cell => cell_tree (cell_name ic.1 r) ic.2) (btree_entries cs) end).
Definition data_tree (m : gmap N row_data) : tree :=
  Node "sheetData" None None (map (fun ir : N * row_data => row_tree ir.1 ir.2) (btree_entries m)).
Lemma row_tree_ok r x : names_ok (row_tree r x).
Proof.
  apply names_ok_node. split; [keys|]. split; [apply opt_attrs_ok; keys|]. destruct (rd_cells x); [|constructor].
  apply Forall_map_all. intros ic. apply cell_tree_ok.
Qed.
Lemma data_tree_ok m : names_ok (data_tree m).
Proof. apply names_ok_node. split; [keys|]. split; [done|]. apply Forall_map_all. intros ir. apply row_tree_ok. Qed.
Definition cells_typed (cs : gmap N cell) : Prop := forall c y, cs !! c = Some y -> 1 <= c <= u16_max /\ cell_typed y.
Lemma iterM_ext {S A} (f g : A -> M S unit) l : (forall x, x ∈ l -> forall s, f x s = g x s) -> forall s, iterM f l s = iterM g l s.
Proof.
  induction l as [|x l IH]; intros Hf s; [done|]. cbn [iterM]. unfold bind. rewrite (Hf x (elem_of_list_here _ _)).
  destruct (g x s) as [s1 [[]| |]]; [|done|done]. apply IH. intros y Hy. apply Hf. by right.
Qed.
Lemma iterM_map {S A B} (f : B -> M S unit) (g : A -> B) l : forall s, iterM f (map g l) s = iterM (fun x => f (g x)) l s.
Proof.
  induction l as [|x l IH]; intros s; [done|]. cbn [map iterM]. unfold bind. destruct (f (g x) s) as [s1 [[]| |]]; [apply IH|done|done].
Qed.
Lemma save_cell_tree id r i y : 1 <= i -> forall d, save_cell id r (i, y) d = add_tree id (cell_tree (cell_name i r) y) d.
Proof.
  intros Hi d. unfold save_cell, add_tree, cell_name, bind. cbn [t_tag cell_tree fst snd].
  destruct (get_column_ref_spec i) as (s & Hs & _); [lia|]. rewrite Hs. cbn [lift].
  destruct (append_child "c" (Some id) d) as [d1 [n| |]]; done.
Qed.
Lemma save_row_tree id r x : (forall cs, rd_cells x = Some cs -> cells_typed cs) ->
  forall d, save_row id (r, x) d = add_tree id (row_tree r x) d.
Proof.
  intros Hx d. unfold save_row, add_tree, row_tree, bind. cbn [t_tag fst snd].
  destruct (append_child "row" (Some id) d) as [d1 [n| |]]; [|done|done]. rewrite fill_unfold. unfold bind.
  destruct (set_attributes n (row_attrs r (rd_row x)) d1) as [d2 [[]| |]]; [|done|done]. cbn [ret].
  rewrite fill_list_iter. destruct (rd_cells x) as [cs|]; [|done]. unfold add_trees. rewrite iterM_map.
  apply iterM_ext. intros [i y] Hin s. apply btree_entries_lookup in Hin. apply save_cell_tree. apply (Hx cs eq_refl) in Hin as [[? _] _]. done.
Qed.
Lemma save_data_tree m : data_typed m -> forall d, save_data (Some m) d = insert_tree_after "cols" (data_tree m) d.
Proof.
  intros Hm d. unfold save_data, insert_tree_after, data_tree, bind. cbn [t_tag].
  destruct (insert_after "sheetData" "cols" None d) as [d1 [n| |]]; [|done|done]. rewrite fill_unfold. unfold bind. cbn [ret].
  rewrite fill_list_iter. unfold add_trees. rewrite iterM_map.
  apply iterM_ext. intros [r x] Hin s. apply btree_entries_lookup in Hin. apply save_row_tree. intros cs Hcs.
  apply Hm in Hin as (_ & _ & Hin). intros c y Hy. by eapply Hin.
Qed.
Lemma row_attrs_back r p : r <= u32_max -> row_typed p -> row_of_attrs (spec_escape <$> row_attrs r p) = Ok (r, back_props p).
Proof.
  intros Hr (H1 & H2 & H3). unfold row_attrs, row_of_attrs, num_attr. set (l := cons _ _). assert (fresh_keys l = true) as Hl by keys.
  rewrite (parse_attr_back _ show_N l "outlineLevel" (ro_level p) Hl); [|found|by apply below_back].
  rewrite !opt_attrs_escaped by done.
  assert (find_attr l "r" = Some (show_N r)) as -> by found.
  assert (find_attr l "s" = show_N <$> ro_style p) as -> by found.
  assert (find_attr l "customFormat" = one_if (ro_style p)) as -> by found.
  assert (find_attr l "ht" = ro_height p) as -> by found.
  assert (find_attr l "customHeight" = one_if (ro_height p)) as -> by found.
  assert (find_attr l "spans" = ro_span p) as -> by found.
  rewrite (one_attr_back l "hidden" (ro_hidden p) Hl) by found.
  rewrite (one_attr_back l "thickTop" (ro_top p) Hl) by found.
  rewrite (one_attr_back l "thickBot" (ro_bottom p) Hl) by found.
  rewrite (one_attr_back l "collapsed" (ro_collapsed p) Hl) by found.
  rewrite (one_attr_back l "ph" (ro_ph p) Hl) by found.
  cbn [fmap option_fmap option_map of_option rbind]. rewrite num_back by done. cbn [of_option rbind].
  pose proof (below_back _ _ H1) as Hs. pose proof (f32_back _ H2) as Hh.
  unfold back_props, set_flag. destruct (ro_style p) as [st|]; cbn [one_if fmap option_fmap option_map]; change (seqb (spec_escape "1") "1") with true;
    cbv iota; rewrite ?(Hs _ eq_refl); cbn [of_option rmap rbind];
    (destruct (ro_height p) as [ht|]; cbn [one_if fmap option_fmap option_map]; change (seqb (spec_escape "1") "1") with true;
     cbv iota; rewrite ?(Hh _ eq_refl); cbn [of_option rmap rbind]; reflexivity).
Qed.
Definition back_cells (o : option (gmap N cell)) : option (gmap N cell) :=
  match o with Some cs => if decide (cs = ∅) then None else Some (back_cell <$> cs) | None => None end.
Definition back_row (x : row_data) : row_data := mkRowData (back_props (rd_row x)) (back_cells (rd_cells x)).
Definition row_cols (x : row_data) : list N := match rd_cells x with Some cs => (btree_entries cs).*1 | None => [] end.
Lemma map_inserts_lookup {V} (l : list (N * V)) : NoDup l.*1 -> forall m k,
  map_inserts l m !! k = match List.find (fun kv : N * V => kv.1 =? k) l with Some kv => Some kv.2 | None => m !! k end.
Proof.
  unfold map_inserts. induction l as [|[k0 v0] l IH]; intros Hnd m k; [done|]. cbn [foldl List.find fst snd].
  cbn in Hnd. apply NoDup_cons in Hnd as [Hn Hnd]. rewrite IH by done. destruct (N.eqb_spec k0 k) as [->|Hne].
  - destruct (List.find _ l) as [[k1 v1]|] eqn:Ef; [|by rewrite lookup_insert]. exfalso. apply find_some in Ef as [Hin He].
    apply N.eqb_eq in He. cbn in He. subst k1. apply Hn. apply elem_of_list_fmap. exists (k, v1). split; [done|]. by apply elem_of_list_In.
  - destruct (List.find _ l); [done|]. by rewrite lookup_insert_ne.
Qed.
Lemma map_inserts_btree {V W} (f : V -> W) (m : gmap N V) :
  map_inserts (map (fun kv : N * V => (kv.1, f kv.2)) (btree_entries m)) ∅ = f <$> m.
Proof.
  apply map_eq. intros k. rewrite map_inserts_lookup.
  - rewrite lookup_fmap, lookup_empty. destruct (m !! k) as [v|] eqn:Ek.
    + apply btree_entries_lookup in Ek. pose proof (btree_entries_NoDup m) as Hnd. induction (btree_entries m) as [|[k0 v0] l IH]; [by apply elem_of_nil in Ek|].
      cbn [map List.find fst]. cbn in Hnd. apply NoDup_cons in Hnd as [Hn Hnd]. destruct (N.eqb_spec k0 k) as [->|Hne].
      * apply elem_of_cons in Ek as [[= ->]|Ek]; [done|]. exfalso. apply Hn. apply elem_of_list_fmap. by exists (k, v).
      * apply elem_of_cons in Ek as [[= -> ->]|Ek]; [done|]. by apply IH.
    + destruct (List.find _ _) as [[k0 w]|] eqn:Ef; [|done]. exfalso. apply find_some in Ef as [Hin He]. apply N.eqb_eq in He. cbn in He. subst k0.
      apply in_map_iff in Hin as ([k1 v1] & [= -> _] & Hin). apply elem_of_list_In, btree_entries_lookup in Hin. congruence.
  - pose proof (btree_entries_NoDup m) as Hnd. by rewrite <- list_fmap_compose.
Qed.
Lemma btree_nil {V} (m : gmap N V) : btree_entries m = [] <-> m = ∅.
Proof.
  split; [|intros ->; by vm_compute]. intros Hb. apply map_eq. intros k. rewrite lookup_empty. destruct (m !! k) as [v|] eqn:Ek; [|done].
  apply btree_entries_lookup in Ek. rewrite Hb in Ek. by apply elem_of_nil in Ek.
Qed.
Lemma row_back r x : r <= u32_max -> row_typed (rd_row x) -> (forall cs, rd_cells x = Some cs -> cells_typed cs) ->
  row_of_tree (reread (row_tree r x)) = Ok (r, back_row x, row_cols x).
Proof.
  intros Hr Hp Hc. unfold row_of_tree, row_tree. cbn [reread]. unfold attrs_req. cbn [t_attrs t_children of_option rbind default]. unfold id.
  rewrite row_attrs_back by done. cbn [rbind]. unfold back_row, row_cols, back_cells. destruct (rd_cells x) as [cs|]; [|done].
  specialize (Hc cs eq_refl). rewrite map_map.
  rewrite (rmapM_map_ok _ _ (fun ic : N * cell => (ic.1, back_cell ic.2))).
  2:{ intros [i y] Hin. apply btree_entries_lookup in Hin. apply Hc in Hin as [? ?]. by apply cell_back. }
  cbn [rbind]. rewrite <- list_fmap_compose. f_equal. f_equal. f_equal. f_equal. destruct (decide (cs = ∅)) as [->|Hne]; [by vm_compute|].
  rewrite <- map_inserts_btree. destruct (btree_entries cs) eqn:Eb; [|done]. by apply btree_nil in Eb.
Qed.
Definition data_cols (m : gmap N row_data) : list N := List.concat (map (fun ir : N * row_data => row_cols ir.2) (btree_entries m)).
Lemma data_back m : data_typed m -> load_data (Some [reread (data_tree m)]) =
  Ok (Some (back_row <$> m), foldl dim_add dim_default (data_cols m)).
Proof.
  intros Hm. unfold load_data, data_tree. cbn [last_of last reread t_children]. rewrite map_map.
  rewrite (rmapM_map_ok _ _ (fun ir : N * row_data => (ir.1, back_row ir.2, row_cols ir.2))).
  2:{ intros [r x] Hin. apply btree_entries_lookup in Hin. apply Hm in Hin as (H1 & H2 & H3). apply row_back; [done|done|].
      intros cs Hcs c y Hy. by eapply H3. }
  cbv beta iota delta [rmap rbind]. rewrite <- !list_fmap_compose. unfold data_cols. f_equal. f_equal. f_equal.
  by rewrite <- map_inserts_btree.
Qed.

(** ** The whole part *)
Definition tagged (tag : string) (cs : list tree) : list tree := List.filter (fun t => seqb (t_tag t) tag) cs.
Lemma ins_after_filter p find t cs : p t = false -> List.filter p (ins_after find t cs) = List.filter p cs.
Proof.
  intros Ht. unfold ins_after. destruct (ins_after_found find t cs) as [r|] eqn:Er.
  - revert r Er. induction cs as [|c cs IH]; intros r; cbn [ins_after_found]; [done|]. destruct (ins_after_found find t cs) as [r'|].
    + intros [= <-]. cbn [List.filter]. by rewrite (IH r' eq_refl).
    + destruct (seqb (t_tag c) find); [|done]. intros [= <-]. cbn [List.filter]. by rewrite Ht.
  - rewrite List.filter_app. cbn [List.filter]. by rewrite Ht, app_nil_r.
Qed.
(** The elements for which [p] holds are left alone: they share one place in the order, and none of
    the elements that are added is among them. *)
Definition left_alone (order tags : list string) (cs cs' : list tree) : Prop :=
  forall p : tree -> bool, (forall x y, p x = true -> p y = true -> order_index order (t_tag x) = order_index order (t_tag y)) ->
  (forall t, t_tag t ∈ tags -> p t = false) -> List.filter p cs' = List.filter p cs.
Lemma ins_after_perm find t cs : Permutation (ins_after find t cs) (t :: cs).
Proof.
  unfold ins_after. destruct (ins_after_found find t cs) as [r|] eqn:Er; [|by rewrite <- Permutation_cons_append].
  revert r Er. induction cs as [|c cs IH]; intros r; cbn; [done|]. destruct (ins_after_found find t cs) as [r'|].
  - intros [= <-]. rewrite (IH r' eq_refl). constructor.
  - destruct (seqb (t_tag c) find); [|done]. intros [= <-]. constructor.
Qed.
Definition cols_trees (o : option (list col_props)) : list tree := match o with None | Some [] => [] | Some l => [cols_tree l] end.
Definition data_trees (o : option (gmap N row_data)) : list tree := match o with None => [] | Some m => [data_tree m] end.
Definition sheet_trees (w : worksheet) (ref : string) : list tree :=
  data_trees (ws_data w) ++ [views_tree (ws_views w)] ++ cols_trees (ws_cols w) ++ [dim_tree ref].
Lemma dim_tree_ok ref : names_ok (dim_tree ref).
Proof. by apply leaf_ok; vm_compute. Qed.
Lemma sheet_trees_ok w ref : Forall names_ok (sheet_trees w ref).
Proof.
  unfold sheet_trees, data_trees, cols_trees. repeat apply Forall_app_2.
  - destruct (ws_data w); [|constructor]. apply Forall_singleton, data_tree_ok.
  - apply Forall_singleton, views_tree_ok.
  - destruct (ws_cols w) as [[|c l]|]; [constructor| |constructor]. apply Forall_singleton, cols_tree_ok.
  - apply Forall_singleton, dim_tree_ok.
Qed.
Lemma dim_ref_ok w : sheet_typed w -> exists ref, dim_ref (ws_dim w) (ws_data w) = Ok ref.
Proof.
  intros [_ _ _ [Hs He]]. unfold dim_ref. destruct (ws_data w) as [m|]; [|by eexists]. destruct (btree_entries m); [by eexists|].
  destruct (get_column_ref_spec (dm_start (ws_dim w))) as (s & -> & _); [lia|].
  destruct (get_column_ref_spec (dm_end (ws_dim w))) as (e & -> & _); [lia|]. by eexists.
Qed.
Definition handed (w : worksheet) : worksheet := mkWs (ws_path w) (ws_name w) (ws_rels w) (ws_dim w) [] None None.
Definition in_order (cs : list tree) : Prop :=
  StronglySorted (fun x y => order_index worksheet_order (t_tag x) <= order_index worksheet_order (t_tag y)) cs.
Lemma ws_save_doc w d g a v cs : Doc d (Node g a v cs) -> sheet_typed w ->
  exists d' ref cs', ws_save (w, d) = ((handed w, d'), Ok tt) /\ dim_ref (ws_dim w) (ws_data w) = Ok ref
  /\ Doc d' (Node g a v cs') /\ d_ns d' = d_ns d /\ Permutation cs' (sheet_trees w ref ++ cs) /\ in_order cs' /\ left_alone worksheet_order sheet_tags cs cs'.
Proof.
  intros Hd Hw. destruct (dim_ref_ok w Hw) as (ref & Href). unfold ws_save, bind, get, on_doc, on_ws. cbn [fst snd]. rewrite Href. cbn [lift].
  destruct (Doc_add_tree d g a v cs (dim_tree ref) Hd (dim_tree_ok ref)) as (d1 & E1 & Hd1 & Hn1). cbn [fst snd]. rewrite E1. cbn [fst snd].
  assert (exists d2 cs2, save_cols (ws_cols w) d1 = (d2, Ok tt) /\ Doc d2 (Node g a v cs2) /\ d_ns d2 = d_ns d1
    /\ Permutation cs2 (cols_trees (ws_cols w) ++ cs ++ [dim_tree ref])
    /\ (forall p, (forall t, t_tag t ∈ sheet_tags -> p t = false) -> List.filter p cs2 = List.filter p (cs ++ [dim_tree ref]))) as (d2 & cs2 & E2 & Hd2 & Hn2 & Hp2 & Hf2).
  { unfold save_cols, cols_trees. destruct (ws_cols w) as [[|c l]|]; [exists d1, (cs ++ [dim_tree ref]); done| |exists d1, (cs ++ [dim_tree ref]); done].
    destruct (Doc_insert_after d1 g a v _ "sheetFormatPr" (cols_tree (c :: l)) Hd1 (cols_tree_ok _)) as (d2 & E2 & Hd2 & Hn2).
    eexists d2, _. split; [exact E2|]. split; [exact Hd2|]. split; [done|]. split; [by rewrite ins_after_perm|].
    intros p Hp. apply ins_after_filter, Hp. unfold sheet_tags. cbn. rewrite !elem_of_cons. tauto. }
  rewrite E2. cbn [fst snd].
  destruct (Doc_insert_after d2 g a v cs2 "dimension" (views_tree (ws_views w)) Hd2 (views_tree_ok _)) as (d3 & E3 & Hd3 & Hn3).
  cbn [fst snd]. rewrite E3. cbn [fst snd].
  assert (exists d4 cs4, save_data (ws_data w) d3 = (d4, Ok tt) /\ Doc d4 (Node g a v cs4) /\ d_ns d4 = d_ns d3
    /\ Permutation cs4 (data_trees (ws_data w) ++ ins_after "dimension" (views_tree (ws_views w)) cs2)
    /\ (forall p, (forall t, t_tag t ∈ sheet_tags -> p t = false) -> List.filter p cs4 = List.filter p (ins_after "dimension" (views_tree (ws_views w)) cs2)))
    as (d4 & cs4 & E4 & Hd4 & Hn4 & Hp4 & Hf4).
  { unfold data_trees. destruct (ws_data w) as [m|] eqn:Em; [|eexists d3, _; split; [done|]; split; [exact Hd3|]; done].
    rewrite save_data_tree by (by apply (st_data w Hw)).
    destruct (Doc_insert_after d3 g a v _ "cols" (data_tree m) Hd3 (data_tree_ok _)) as (d4 & E4 & Hd4 & Hn4).
    eexists d4, _. split; [exact E4|]. split; [exact Hd4|]. split; [done|]. split; [by rewrite ins_after_perm|].
    intros p Hp. apply ins_after_filter, Hp. unfold sheet_tags. cbn. rewrite !elem_of_cons. tauto. }
  rewrite E4. cbn [fst snd].
  destruct (Doc_order d4 g a v cs4 worksheet_order Hd4) as (d5 & E5 & Hd5 & Hn5); [done|]. rewrite E5. cbn [fst snd].
  eexists d5, ref, _. split; [done|]. split; [done|]. split; [exact Hd5|]. split; [congruence|]. split.
  - rewrite sort_by_perm, Hp4, ins_after_perm, Hp2. unfold sheet_trees. rewrite <- !app_assoc. apply Permutation_app_head.
    cbn [app]. constructor. apply Permutation_app_head. by rewrite <- Permutation_cons_append.
  - split; [apply sort_by_sorted|]. intros p Hsame Hp. rewrite sort_by_stable by done. rewrite Hf4, ins_after_filter, Hf2; [|done| |done].
    + rewrite List.filter_app. cbn [List.filter]. rewrite Hp; [by rewrite app_nil_r|]. unfold sheet_tags. cbn. rewrite !elem_of_cons. tauto.
    + apply Hp. unfold sheet_tags. cbn. rewrite !elem_of_cons. tauto.
Qed.
Definition untagged (tag : string) (cs : list tree) : list tree := List.filter (fun t => negb (seqb (t_tag t) tag)) cs.
Lemma tagged_untagged a b cs : a <> b -> tagged a (untagged b cs) = tagged a cs.
Proof.
  intros Hab. unfold tagged, untagged. induction cs as [|t cs IH]; [done|]. cbn. destruct (seqb (t_tag t) b) eqn:Eb; cbn.
  - apply seqb_true in Eb. rewrite IH. assert (seqb (t_tag t) a = false) as ->; [|done]. apply seqb_false. congruence.
  - by rewrite IH.
Qed.
Definition rest_of (cs : list tree) : list tree := untagged "sheetViews" (untagged "sheetData" (untagged "cols" (untagged "dimension" cs))).
Lemma rest_of_elem t cs : t ∈ rest_of cs <-> t ∈ cs /\ t_tag t ∉ sheet_tags.
Proof.
  assert (forall l (x : tree), x ∈ l <-> In x l) as He by (intros; apply elem_of_list_In).
  unfold rest_of, untagged. rewrite !He, !filter_In, !negb_true_iff, !seqb_false. unfold sheet_tags.
  rewrite !not_elem_of_cons. pose proof (not_elem_of_nil (t_tag t)). tauto.
Qed.
Lemma Doc_take_tagged d g a v cs tag : Doc d (Node g a v cs) ->
  exists d', take_subtrees tag d = (d', Ok (some_list (tagged tag cs))) /\ Doc d' (Node g a v (untagged tag cs)) /\ d_ns d' = d_ns d.
Proof. apply Doc_take. Qed.
Lemma ws_load_doc d g a v cs cols data views dim : Doc d (Node g a v cs) ->
  load_cols (some_list (tagged "cols" cs)) = Ok cols -> load_data (some_list (tagged "sheetData" cs)) = Ok (data, dim) ->
  load_views (some_list (tagged "sheetViews" cs)) = Ok views ->
  exists d', ws_load d = (d', Ok (cols, data, views, dim)) /\ Doc d' (Node g a v (rest_of cs)) /\ d_ns d' = d_ns d.
Proof.
  intros Hd Hc Hda Hv. unfold ws_load, bind.
  destruct (Doc_take_tagged d g a v cs "dimension" Hd) as (d1 & -> & Hd1 & Hn1).
  destruct (Doc_take_tagged d1 g a v _ "cols" Hd1) as (d2 & -> & Hd2 & Hn2). cbn [lift]. rewrite tagged_untagged, Hc by done.
  destruct (Doc_take_tagged d2 g a v _ "sheetData" Hd2) as (d3 & -> & Hd3 & Hn3). cbn [lift]. rewrite !tagged_untagged, Hda by done.
  destruct (Doc_take_tagged d3 g a v _ "sheetViews" Hd3) as (d4 & -> & Hd4 & Hn4). cbn [lift]. rewrite !tagged_untagged, Hv by done.
  exists d4. split; [done|]. split; [exact Hd4|]. congruence.
Qed.
Lemma SheetOpen_Doc o path : SheetOpen o path <-> exists p t, of_open o !! path = Some p /\ Doc (op_doc p) t
  /\ names_ok t /\ ns_ok (d_ns (op_doc p)) /\ t_value t = None /\ t_attrs t <> None
  /\ Forall (fun t => t_tag t ∉ sheet_tags) (t_children t).
Proof.
  split.
  - intros (p & it & Hp & Hr & Hb & H1 & H2 & H3 & H4 & H5). exists p, (erase it). split; [done|]. split; [by exists it|]. done.
  - intros (p & t & Hp & (it & [Hr Hb] & <-) & H1 & H2 & H3 & H4). exists p, it. done.
Qed.
(** What is read back. *)
Definition back_data (o : option (gmap N row_data)) : option (gmap N row_data) := match o with Some m => Some (back_row <$> m) | None => None end.
Definition back_dim (o : option (gmap N row_data)) : dimension :=
  match o with Some m => foldl dim_add dim_default (data_cols m) | None => dim_default end.
Definition back_views (l : list sheet_view) : list sheet_view := view_default :: map back_view (rev l).
Lemma tagged_none tag cs : Forall (fun t => t_tag t ∉ sheet_tags) cs -> tag ∈ sheet_tags -> tagged tag cs = [].
Proof.
  intros Hf Hin. apply filter_none. intros t Ht. apply seqb_false. intros Heq. rewrite Forall_forall in Hf. apply (Hf t Ht). by rewrite Heq.
Qed.
Lemma tagged_reread tag cs : tagged tag (map reread cs) = map reread (tagged tag cs).
Proof. unfold tagged. rewrite filter_map_comm. f_equal. apply filter_ext. intros t. by rewrite tag_reread. Qed.
Lemma tagged_perm tag cs cs' : Permutation cs cs' -> (length (tagged tag cs') <= 1)%nat -> tagged tag cs = tagged tag cs'.
Proof.
  intros Hp Hl. pose proof (filter_perm (fun t => seqb (t_tag t) tag) _ _ Hp) as Hf. fold (tagged tag cs) (tagged tag cs') in Hf.
  destruct (tagged tag cs') as [|x [|y l]]; [by apply Permutation_nil_r in Hf|by apply Permutation_singleton_r in Hf|cbn in Hl; lia].
Qed.
Lemma sheet_tagged w ref cs cs' : Forall (fun t => t_tag t ∉ sheet_tags) cs -> Permutation cs' (sheet_trees w ref ++ cs) ->
  tagged "dimension" cs' = [dim_tree ref] /\ tagged "cols" cs' = cols_trees (ws_cols w)
  /\ tagged "sheetData" cs' = data_trees (ws_data w) /\ tagged "sheetViews" cs' = [views_tree (ws_views w)].
Proof.
  intros Hf Hp.
  assert (forall tag, tag ∈ sheet_tags -> tagged tag (sheet_trees w ref ++ cs) = tagged tag (sheet_trees w ref)) as Hx.
  { intros tag Ht. unfold tagged. rewrite List.filter_app. fold (tagged tag cs). rewrite tagged_none by done. by rewrite app_nil_r. }
  assert (forall tag l, tag ∈ sheet_tags -> tagged tag (sheet_trees w ref) = l -> (length l <= 1)%nat -> tagged tag cs' = l) as Hy.
  { intros tag l Ht Hl Hlen. rewrite (tagged_perm tag _ _ Hp); rewrite Hx by done; [done|by rewrite Hl]. }
  unfold sheet_trees, data_trees, cols_trees in *.
  split; [|split; [|split]]; apply Hy;
    (by unfold sheet_tags; rewrite ?elem_of_cons; tauto) || (destruct (ws_data w), (ws_cols w) as [[|c l]|]; cbn; lia) || idtac;
    destruct (ws_data w), (ws_cols w) as [[|c l]|]; done.
Qed.

Lemma sheet_close o w : SheetOpen o (ws_path w) -> sheet_typed w ->
  exists e p ref g a cs cs', of_open o !! ws_path w = Some p
  /\ ws_close (w, o) = ((handed w, mkOffice (delete (ws_path w) (of_open o)) (<[ws_path w := e]> (of_archive o))), Ok tt)
  /\ dim_ref (ws_dim w) (ws_data w) = Ok ref
  /\ part_bytes e = Ok (prolog +:+ render_root (d_ns (op_doc p)) (Node g a None cs'))
  /\ en_ct e = op_ct p /\ en_ext e = op_ext p /\ en_ext_type e = op_ext_type p
  /\ Permutation cs' (sheet_trees w ref ++ cs) /\ in_order cs' /\ Forall (fun t => t_tag t ∉ sheet_tags) cs
  /\ names_ok (Node g a None cs') /\ ns_ok (d_ns (op_doc p)) /\ a <> None.
Proof.
  intros Hso Hw. apply SheetOpen_Doc in Hso as (p & [g a v cs] & Hp & Hd & Hn & Hns & Hv & Hva & Hf). cbn in Hv, Hva, Hf. subst v.
  destruct (ws_save_doc w (op_doc p) g a None cs Hd Hw) as (d1 & ref & cs' & Hs & Href & Hd1 & Hns1 & Hperm & Hord & _).
  set (p1 := mkOpen d1 (op_ct p) (op_ext p) (op_ext_type p)). set (o1 := set_open o (<[ws_path w := p1]> (of_open o))).
  destruct (close_doc o1 (ws_path w) p1 (Node g a None cs')) as (e & Hcl & Hct & Hx & Ht & Hb).
  { unfold o1. cbn. apply lookup_insert. } { exact Hd1. }
  exists e, p, ref, g, a, cs, cs'. split; [done|]. split.
  { unfold ws_close. rewrite Hp, Hs. cbn [op_ct op_ext op_ext_type]. fold p1 o1. rewrite Hcl. unfold o1. cbn [set_open of_open of_archive].
    by rewrite delete_insert_delete. }
  split; [done|]. split; [rewrite Hb; unfold p1; cbn [op_doc]; by rewrite Hns1|].
  split; [done|]. split; [done|]. split; [done|]. split; [done|]. split; [done|]. split; [done|]. split; [|done].
  apply names_ok_node in Hn as (Hg & Ha & Hcs). apply names_ok_node. split; [done|]. split; [done|]. rewrite Hperm. apply Forall_app.
  split; [apply sheet_trees_ok|done].
Qed.
(** The same for a part that is known. *)
Lemma sheet_close_doc o w p g a cs : of_open o !! ws_path w = Some p -> Doc (op_doc p) (Node g a None cs) -> sheet_typed w ->
  exists e ref cs', ws_close (w, o) = ((handed w, mkOffice (delete (ws_path w) (of_open o)) (<[ws_path w := e]> (of_archive o))), Ok tt)
  /\ dim_ref (ws_dim w) (ws_data w) = Ok ref
  /\ part_bytes e = Ok (prolog +:+ render_root (d_ns (op_doc p)) (Node g a None cs'))
  /\ Permutation cs' (sheet_trees w ref ++ cs) /\ in_order cs' /\ left_alone worksheet_order sheet_tags cs cs'.
Proof.
  intros Hp Hd Hw.
  destruct (ws_save_doc w (op_doc p) g a None cs Hd Hw) as (d1 & ref & cs' & Hs & Href & Hd1 & Hns1 & Hperm & Hord & Hl).
  set (p1 := mkOpen d1 (op_ct p) (op_ext p) (op_ext_type p)). set (o1 := set_open o (<[ws_path w := p1]> (of_open o))).
  destruct (close_doc o1 (ws_path w) p1 (Node g a None cs')) as (e & Hcl & _ & _ & _ & Hb).
  { unfold o1. cbn. apply lookup_insert. } { exact Hd1. }
  exists e, ref, cs'. split.
  { unfold ws_close. rewrite Hp, Hs. cbn [op_ct op_ext op_ext_type]. fold p1 o1. rewrite Hcl. unfold o1. cbn [set_open of_open of_archive].
    by rewrite delete_insert_delete. }
  split; [done|]. split; [rewrite Hb; unfold p1; cbn [op_doc]; by rewrite Hns1|]. done.
Qed.
Lemma cols_back w : sheet_typed w -> load_cols (some_list (map reread (cols_trees (ws_cols w)))) = Ok (back_cols (ws_cols w)).
Proof.
  intros [Hc _ _ _]. unfold cols_trees, back_cols. destruct (ws_cols w) as [[|c l]|]; [done| |done].
  specialize (Hc _ eq_refl). generalize dependent (c :: l). clear. intros l Hc. cbn [map some_list]. unfold load_cols, cols_tree.
  cbn [last_of last reread t_children]. rewrite map_map, (rmapM_map_ok _ _ back_col); [done|]. intros x Hx. apply col_back.
  rewrite Forall_forall in Hc. by apply Hc.
Qed.
Lemma views_back w : sheet_typed w -> load_views (some_list (map reread [views_tree (ws_views w)])) = Ok (back_views (ws_views w)).
Proof.
  intros [_ Hv _ _]. unfold load_views, views_tree, back_views. cbn [map some_list last_of last reread t_children].
  rewrite map_map, (rmapM_map_ok _ _ back_view); [done|]. intros x Hx. apply view_back. rewrite Forall_forall in Hv. apply Hv.
  apply elem_of_list_In. apply elem_of_list_In in Hx. by apply in_rev.
Qed.
Lemma data_all_back w : sheet_typed w -> load_data (some_list (map reread (data_trees (ws_data w)))) = Ok (back_data (ws_data w), back_dim (ws_data w)).
Proof.
  intros [_ _ Hd _]. unfold data_trees, back_data, back_dim. destruct (ws_data w) as [m|]; [|done]. cbn [map some_list]. rewrite data_back; [done|]. by apply Hd.
Qed.
Lemma names_ok_elem g a v cs t : names_ok (Node g a v cs) -> t ∈ cs -> names_ok t.
Proof. intros (_ & _ & Hf)%names_ok_node. rewrite Forall_forall in Hf. apply Hf. Qed.
(** Open what [sheet_close] wrote. *)
Lemma sheet_open_doc o path e ns g a cs cs' w ref init :
  of_open o !! path = None -> of_archive o !! path = Some e ->
  part_bytes e = Ok (prolog +:+ render_root ns (Node g a None cs')) ->
  Permutation cs' (sheet_trees w ref ++ cs) -> Forall (fun t => t_tag t ∉ sheet_tags) cs ->
  names_ok (Node g a None cs') -> ns_ok ns -> sheet_typed w ->
  exists d d' t', get_xml_document init path o = (mkOffice (<[path := mkOpen d (en_ct e) (en_ext e) (en_ext_type e)]> (of_open o)) (delete path (of_archive o)), Ok tt)
  /\ ws_load d = (d', Ok (back_cols (ws_cols w), back_data (ws_data w), back_views (ws_views w), back_dim (ws_data w)))
  /\ Doc d' t' /\ names_ok t' /\ ns_ok (d_ns d') /\ t_value t' = None /\ t_attrs t' <> None
  /\ Forall (fun t => t_tag t ∉ sheet_tags) (t_children t').
Proof.
  intros Ho Ha Hb Hp Hf Hn Hns Hw.
  destruct (open_doc o path e ns (Node g a None cs') init Ho Ha Hb Hn Hns) as (d & Hg & Hd & Hns').
  { right. cbn. intros ->. apply Permutation_nil_l, (f_equal length) in Hp. unfold sheet_trees in Hp. rewrite !app_length in Hp. cbn in Hp. lia. }
  pose proof (names_ok_reread _ Hn) as Hn'. cbn [reread] in Hd, Hn'.
  destruct (sheet_tagged w ref cs cs' Hf Hp) as (_ & Tc & Td & Tv).
  destruct (ws_load_doc d _ _ _ _ (back_cols (ws_cols w)) (back_data (ws_data w)) (back_views (ws_views w)) (back_dim (ws_data w)) Hd) as (d' & Hl & Hd' & Hnd').
  { rewrite tagged_reread, Tc. by apply cols_back. }
  { rewrite tagged_reread, Td. by apply data_all_back. }
  { rewrite tagged_reread, Tv. by apply views_back. }
  exists d, d'. eexists. split; [exact Hg|]. split; [exact Hl|]. split; [exact Hd'|]. split; [|split; [|split; [done|split; [done|]]]].
  - assert (Hn2 := Hn'). apply names_ok_node in Hn2 as (H1 & H2 & _). apply names_ok_node. split; [done|]. split; [done|].
    apply Forall_forall. intros t Ht. apply rest_of_elem in Ht as [Ht _]. by eapply names_ok_elem.
  - rewrite Hnd', Hns'. by apply ns_ok_written.
  - cbn [t_children]. apply Forall_forall. intros t Ht. apply rest_of_elem in Ht as [_ Ht]. exact Ht.
Qed.
Lemma split_at_byte_app p s l b r : split_at_byte p s = Some (l, b, r) -> s = l +:+ String b r.
Proof.
  revert l b r. induction s as [|a s IH]; intros l b r; [done|]. cbn. destruct (p a); [by intros [= <- <- <-]|].
  destruct (split_at_byte p s) as [[[l' b'] r']|]; [|done]. intros [= <- -> ->]. cbn. f_equal. by apply IH.
Qed.
Lemma rsplit_at_byte_app p s l b r : rsplit_at_byte p s = Some (l, b, r) -> s = l +:+ String b r.
Proof.
  unfold rsplit_at_byte. destruct (split_at_byte p (srev s)) as [[[x y] z]|] eqn:E0; [|done]. intros [= <- <- <-].
  apply split_at_byte_app in E0. rewrite <- (srev_involutive s), E0, srev_app_dist, srev_cons, <- app_assoc_s. done.
Qed.
Lemma rels_beside_ne path rp : rels_beside path = Ok rp -> rp <> path.
Proof.
  unfold rels_beside. destruct (rsplit_at_byte _ path) as [[[dir b] file]|] eqn:Er; [|done]. intros [= <-] Heq.
  apply rsplit_at_byte_app in Er. rewrite Er in Heq. apply (f_equal String.length) in Heq.
  rewrite !slength_app in Heq. cbn in Heq. rewrite !slength_app in Heq. cbn in Heq. lia.
Qed.
(** The part of [ws_new] after the path is known. *)
Lemma ws_new_eq name s s1 path nm rp o1 o2 o3 rels p d' cols data views dim :
  get_sheet_file_name name s = (s1, Ok (path, nm)) -> rels_beside path = Ok rp ->
  get_xml_document ws_init path s1.2.2 = (o1, Ok tt) -> rels_new rp o1 = (o2, Ok rels) ->
  of_open o2 !! path = Some p -> ws_load (op_doc p) = (d', Ok (cols, data, views, dim)) ->
  o3 = mkOffice (<[path := mkOpen d' (op_ct p) (op_ext p) (op_ext_type p)]> (of_open o2)) (of_archive o2) ->
  ws_new name s = ((s1.1, (s1.2.1, o3)),
    Ok (mkWs path nm rels dim views cols data)).
Proof.
  intros H1 H2 H3 H4 H5 H6 ->. destruct s1 as [sheets [r o]]. cbn [fst snd] in *.
  unfold ws_new, bind, on_pkg, on_office, lift. rewrite H1. cbn [fst snd]. rewrite H3. cbn [fst snd]. rewrite H2. rewrite H4. cbn [fst snd].
  rewrite (with_doc_spec path ws_load o2 p d' _ H5 H6). done.
Qed.
Lemma with_doc_open o path p d' t : of_open o !! path = Some p -> Doc d' t -> names_ok t -> ns_ok (d_ns d') ->
  t_value t = None -> t_attrs t <> None -> Forall (fun t => t_tag t ∉ sheet_tags) (t_children t) ->
  SheetOpen (mkOffice (<[path := mkOpen d' (op_ct p) (op_ext p) (op_ext_type p)]> (of_open o)) (of_archive o)) path.
Proof.
  intros Hp Hd Hn Hns Hv Ha Hf. apply SheetOpen_Doc. eexists _, t. split; [cbn; apply lookup_insert|]. done.
Qed.
Lemma rels_absent o rp : of_open o !! rp = None -> of_archive o !! rp = None -> RelsReadable o rp [].
Proof.
  intros Ho Ha o' Ho' Ha'. rewrite Ho in Ho'. rewrite Ha in Ha'. destruct (rels_new_fresh o' rp Ho' Ha') as (o2 & H1 & H2 & H3 & H4).
  exists o2. split; [done|]. split; [done|]. intros q Hq. by rewrite H3, (H4 q Hq).
Qed.
Lemma rels_stored o r : RelsOpen o (rl_path r) -> rl_rels r <> [] ->
  exists e, rels_close r o = (mkOffice (delete (rl_path r) (of_open o)) (<[rl_path r := e]> (of_archive o)), Ok tt)
  /\ (forall o2 e2, of_open o2 !! rl_path r = None -> of_archive o2 !! rl_path r = Some e2 -> part_bytes e2 = part_bytes e ->
     RelsReadable o2 (rl_path r) (map escaped_rel (rl_rels r))).
Proof.
  intros Ho Hne. destruct (rels_roundtrip o r Ho Hne) as (e & Hc & Hr). exists e. split; [done|].
  intros o2 e2 H1 H2 H3 o' Ho' Ha'. rewrite H1 in Ho'. rewrite H2 in Ha'. destruct (Hr o' e2 Ho' Ha' H3) as (o3 & H4 & H5 & H6 & H7).
  exists o3. split; [done|]. split; [done|]. intros q Hq. split; [by apply H7|]. rewrite H6. by rewrite lookup_delete_ne.
Qed.
(** Obtaining again a sheet that was stored. *)
Lemma ws_new_back name s s1 path nm rp rl e ns g a cs cs' w ref :
  get_sheet_file_name name s = (s1, Ok (path, nm)) -> rels_beside path = Ok rp ->
  let o := s1.2.2 in
  of_open o !! path = None -> of_archive o !! path = Some e -> RelsReadable o rp rl ->
  part_bytes e = Ok (prolog +:+ render_root ns (Node g a None cs')) ->
  Permutation cs' (sheet_trees w ref ++ cs) -> Forall (fun t => t_tag t ∉ sheet_tags) cs ->
  names_ok (Node g a None cs') -> ns_ok ns -> sheet_typed w ->
  exists o3, ws_new name s = ((s1.1, (s1.2.1, o3)),
      Ok (mkWs path nm (mkRelations rl rp) (back_dim (ws_data w)) (back_views (ws_views w)) (back_cols (ws_cols w)) (back_data (ws_data w))))
    /\ SheetOpen o3 path /\ RelsOpen o3 rp
    /\ (forall q, q <> path -> q <> rp -> of_open o3 !! q = of_open o !! q /\ of_archive o3 !! q = of_archive o !! q).
Proof.
  intros Hg Hrp o Ho Ha Hrr Hb Hp Hf Hn Hns Hw. pose proof (rels_beside_ne _ _ Hrp) as Hne.
  destruct (sheet_open_doc o path e ns g a cs cs' w ref ws_init Ho Ha Hb Hp Hf Hn Hns Hw)
    as (d & d' & t' & Hx & Hl & Hd' & Hn' & Hns' & Hv' & Ha' & Hf').
  match type of Hx with _ = (?o1, _) => destruct (Hrr o1) as (o2 & Hr & Hro2 & Hfr) end.
  { cbn. by rewrite lookup_insert_ne. } { cbn. by rewrite lookup_delete_ne. }
  assert (of_open o2 !! path = Some (mkOpen d (en_ct e) (en_ext e) (en_ext_type e))) as Hop.
  { rewrite (proj1 (Hfr path (not_eq_sym Hne))). cbn. apply lookup_insert. }
  eexists. split; [eapply ws_new_eq; [done|done|exact Hx|exact Hr|exact Hop|exact Hl|reflexivity]|]. split; [|split].
  - by eapply with_doc_open.
  - destruct Hro2 as (p2 & it & Hp2 & Hrest). exists p2, it. split; [|done]. cbn. by rewrite lookup_insert_ne.
  - intros q Hq1 Hq2. cbn. rewrite lookup_insert_ne by done. destruct (Hfr q Hq2) as [-> ->]. cbn. by rewrite lookup_insert_ne, lookup_delete_ne.
Qed.
(** A new sheet. *)
Definition fresh_sheet (path nm : string) (rels : relations) : worksheet :=
  mkWs path nm rels dim_default [view_default] None (Some ∅).
Lemma ws_init_spec : exists d d' t', ws_init = Ok (mkOpen d (Some (c_content_type c_worksheet)) (c_ext c_worksheet) (c_ext_type c_worksheet))
  /\ ws_load d = (d', Ok (None, Some ∅, [view_default], dim_default))
  /\ Doc d' t' /\ names_ok t' /\ ns_ok (d_ns d') /\ t_value t' = None /\ t_attrs t' <> None /\ t_children t' = [].
Proof.
  destruct (template_read ws_template (fun d t => exists a b, t = Node "worksheet" (Some a) None [Node "sheetData" (Some b) None []]))
    as (d & t & Hr & Hd & Hn & Hat & Hns & a & b & ->).
  { by vm_compute. } { vm_compute. split; [done|]. eexists _, _. reflexivity. }
  destruct (ws_load_doc d _ _ _ _ None (Some ∅) [view_default] dim_default Hd) as (d' & Hl & Hd' & Hnd').
  { reflexivity. } { reflexivity. } { reflexivity. }
  exists d, d'. eexists. split; [unfold ws_init; by rewrite Hr|]. split; [exact Hl|]. split; [exact Hd'|].
  apply names_ok_node in Hn as (H1 & H2 & _). split; [apply names_ok_node; split; [done|split; [done|constructor]]|].
  split; [by rewrite Hnd'|]. done.
Qed.
Lemma ws_new_fresh name s s1 path nm rp rl :
  get_sheet_file_name name s = (s1, Ok (path, nm)) -> rels_beside path = Ok rp ->
  let o := s1.2.2 in
  of_open o !! path = None -> of_archive o !! path = None -> RelsReadable o rp rl ->
  exists o3, ws_new name s = ((s1.1, (s1.2.1, o3)), Ok (fresh_sheet path nm (mkRelations rl rp)))
    /\ SheetOpen o3 path /\ RelsOpen o3 rp
    /\ (forall q, q <> path -> q <> rp -> of_open o3 !! q = of_open o !! q /\ of_archive o3 !! q = of_archive o !! q).
Proof.
  intros Hg Hrp o Ho Ha Hrr. pose proof (rels_beside_ne _ _ Hrp) as Hne.
  destruct ws_init_spec as (d & d' & t' & Hi & Hl & Hd' & Hn' & Hns' & Hv' & Ha' & Hc').
  assert (get_xml_document ws_init path o = (set_open o (<[path := mkOpen d (Some (c_content_type c_worksheet)) (c_ext c_worksheet) (c_ext_type c_worksheet)]> (of_open o)), Ok tt)) as Hx.
  { unfold get_xml_document, get_xml_tree, bind. rewrite Ho, Ha. unfold lift. by rewrite Hi. }
  match type of Hx with _ = (?o1, _) => destruct (Hrr o1) as (o2 & Hr & Hro2 & Hfr) end.
  { cbn. by rewrite lookup_insert_ne. } { done. }
  assert (of_open o2 !! path = Some (mkOpen d (Some (c_content_type c_worksheet)) (c_ext c_worksheet) (c_ext_type c_worksheet))) as Hop.
  { rewrite (proj1 (Hfr path (not_eq_sym Hne))). cbn. apply lookup_insert. }
  eexists. split; [eapply ws_new_eq; [done|done|exact Hx|exact Hr|exact Hop|exact Hl|reflexivity]|]. split; [|split].
  - eapply with_doc_open; try done. rewrite Hc'. constructor.
  - destruct Hro2 as (p2 & it & Hp2 & Hrest). exists p2, it. split; [|done]. cbn. by rewrite lookup_insert_ne.
  - intros q Hq1 Hq2. cbn. rewrite lookup_insert_ne by done. destruct (Hfr q Hq2) as [-> ->]. cbn. by rewrite lookup_insert_ne.
Qed.
End with_env.
