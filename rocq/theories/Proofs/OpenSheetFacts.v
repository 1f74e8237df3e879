(** The part of a sheet, from the opened file to the saved one. *)
From Verif.Model Require Import Excel.
From Verif.Spec Require Import RelSpec XmlSpec XmlRepr PackageSpec PartSpec ColumnSpec SheetSpec SessionSpec FlowSpec.
From Verif.Proofs Require Import BaseFacts ConverterFacts PackageFacts XmlTreeFacts XmlWriteFacts DocBuild XmlReadFacts RelDocFacts SmallPartFacts AttrFacts SheetFacts SheetDocFacts SheetCycleFacts
  BookFacts FrameFacts SaveFacts SessionFacts ExcelFacts XmlHistFacts SoundFacts KeepFacts ReadAnyFacts FlowFacts FlowSaveFacts FlowOpenFacts OrderFacts OpenBookFacts.
From Verif.Spec Require Import OpenSpec OpenSheetSpec.
Open Scope N_scope.
Ltac keys := lazy; reflexivity.
Ltac found := lazy [find_attr List.find String.eqb Ascii.eqb Bool.eqb fst snd]; reflexivity.

(** ** What is read *)
Lemma toggle_said (a : gmap string string) k o : Toggle o (a !! k) -> bool_attr a k = o.
Proof. unfold bool_attr. intros [[-> ->]|[[-> [-> | ->]]|[-> [-> | ->]]]]; reflexivity. Qed.
Lemma zoom_said a k o z : parse_attr parse_i16 a k = Ok o -> a !! k = show_Z <$> z -> is_i16 z -> o = z.
Proof.
  unfold parse_attr. intros Ho Hk Hz. rewrite Hk in Ho. destruct z as [z|]; cbn [fmap option_fmap option_map] in Ho; [|congruence].
  rewrite parse_i16_show in Ho by done. by injection Ho as <-.
Qed.
Lemma view_said v t y : SheetViewSays v t -> view_of_tree t = Ok y -> y = v.
Proof.
  intros [V1 V2 V3 V4 V5 V6 V7 V8 V9 V10 V11 V12 V13 V14 V15 V16 V17 V18 (R1 & R2 & R3 & R4)] Hy. unfold view_of_tree in Hy. destruct (seqb _ _); [|done].
  apply rbind_ok in Hy as (a & Ha & Hy). pose proof (attrs_there _ _ Ha) as Hat. rewrite !Hat in *. unfold view_of_attrs in Hy. rewrite V1 in Hy. cbn [of_option rbind] in Hy.
  apply rbind_ok in Hy as (z1 & Z1 & (z2 & Z2 & (z3 & Z3 & (z4 & Z4 & Hy)%rbind_ok)%rbind_ok)%rbind_ok).
  apply (zoom_said _ _ _ _ Z1) in V15; [|done]. apply (zoom_said _ _ _ _ Z2) in V16; [|done]. apply (zoom_said _ _ _ _ Z4) in V17; [|done]. apply (zoom_said _ _ _ _ Z3) in V18; [|done].
  subst z1 z2 z3 z4. rewrite (toggle_said _ _ _ V2), (toggle_said _ _ _ V3), (toggle_said _ _ _ V4), (toggle_said _ _ _ V5), (toggle_said _ _ _ V6), (toggle_said _ _ _ V7),
    (toggle_said _ _ _ V8), (toggle_said _ _ _ V9), (toggle_said _ _ _ V10), (toggle_said _ _ _ V11), (toggle_said _ _ _ V12), V13, V14 in Hy.
  injection Hy as <-. by destruct v.
Qed.
Lemma forall2_det {A B C} (R : A -> B -> Prop) (f : B -> res C) (g : A -> C) l ts l' : (forall x t y, R x t -> f t = Ok y -> y = g x) -> Forall2 R l ts ->
  Forall2 (fun t y => f t = Ok y) ts l' -> l' = map g l.
Proof.
  intros Hd H. revert l'. induction H as [|x t l ts Hx _ IH]; intros l' Hl; inversion Hl as [|? y ? ys H1 H2]; subst; [done|].
  cbn. f_equal; [by eapply Hd|by apply IH].
Qed.
Section with_env.
Context `{E : Env}.
Lemma col_said x t y : ColSays x t -> col_of_tree t = Ok y -> y = x.
Proof.
  intros [C1 C2 C3 C4 C5 C6 C7 C8] Hy. unfold col_of_tree in Hy. apply rbind_ok in Hy as (a & Ha & Hy). pose proof (attrs_there _ _ Ha) as Hat. rewrite !Hat in *.
  apply rbind_ok in Hy as (mn & N1 & (mx & N2 & (st & N3 & (lv & N4 & (w & W & Hy)%rbind_ok)%rbind_ok)%rbind_ok)%rbind_ok).
  apply (num_said _ _ _ _ (Some (co_min x))) in N1; [|done]. apply (num_said _ _ _ _ (Some (co_max x))) in N2; [|done]. apply (num_said _ _ _ _ (co_style x)) in N3; [|done]. subst mn mx st.
  assert (default 0 lv = co_level x) as Hlv.
  { destruct C7 as [[H1 H2]|H1]; [apply (num_said _ _ _ _ None) in N4; [|done]|apply (num_said _ _ _ _ (Some (co_level x))) in N4; [|done]]; by subst lv. }
  assert (w = co_width x) as ->.
  { destruct C3 as [[H1 H2]|(v & H1 & H2 & H3 & H4)].
    - destruct (a !! "customWidth") as [s|]; [|congruence]. destruct (seqb s "1") eqn:Es; [|congruence]. apply seqb_true in Es. by subst s.
    - rewrite H4, H3 in W. change (seqb "1" "1") with true in W. cbv iota in W. cbn [of_option rbind] in W. cbn in H2. rewrite H2 in W. cbn in W. congruence. }
  rewrite Hlv, (flag_said _ _ _ C5), (flag_said _ _ _ C6), (flag_said _ _ _ C8) in Hy. injection Hy as <-. by destruct x.
Qed.
Lemma cols_said root cols o : ColsSaid root cols -> load_cols (some_list (tagged "cols" (t_children root))) = Ok o -> o = cols.
Proof.
  unfold ColsSaid, no_child, only_child, tagged, seqb. intros [[-> ->]|(ts & l & -> & Hf & ->)].
  - by intros [= <-].
  - cbn [some_list]. unfold load_cols. cbn [last_of last]. intros (x & Hx%rmapM_forall2 & ->)%rmap_ok. f_equal.
    rewrite <- (map_id l). eapply forall2_det; [|exact Hf|exact Hx]. intros. by eapply col_said.
Qed.
Lemma views_said root views o : ViewsSaid root views -> load_views (some_list (tagged "sheetViews" (t_children root))) = Ok o -> o = view_default :: views.
Proof.
  unfold ViewsSaid, no_child, only_child, tagged, seqb. intros [[-> ->]|(ts & -> & Hf)].
  - by intros [= <-].
  - cbn [some_list]. unfold load_views. cbn [last_of last]. intros (x & Hx%rmapM_forall2 & ->)%rmap_ok. f_equal.
    rewrite <- (map_id views). eapply forall2_det; [|exact Hf|exact Hx]. intros. by eapply view_said.
Qed.
(** Cells and rows as they are taken from any part: they are in their ranges. *)
Definition DimIn (w : worksheet) : Prop := forall r c, is_Some (cell_at w r c) -> dm_start (ws_dim w) <= c <= dm_end (ws_dim w).
Lemma inserts_in {V} (l : list (N * V)) : forall m k v, map_inserts l m !! k = Some v -> (k, v) ∈ l \/ m !! k = Some v.
Proof.
  unfold map_inserts. induction l as [|[k0 v0] l IH]; intros m k v; cbn [foldl]; [by right|]. intros [H|H]%IH; [left; by right|]. cbn [fst snd] in H.
  destruct (decide (k0 = k)) as [->|Hne]; [rewrite lookup_insert in H; injection H as ->; left; left|rewrite lookup_insert_ne in H by done; by right].
Qed.
Lemma cell_taken t z : cell_of_tree t = Ok z -> (exists name rest, is_word name /\ word_value name <= u16_max /\ sforall is_digit_byte rest = true /\ child_attr t "r" = Some (name +:+ rest)) ->
  1 <= z.1 <= u16_max /\ cell_typed z.2.
Proof.
  intros Hz (name & rest & Hw & Hm & Hr & Ha). unfold cell_of_tree in Hz. apply rbind_ok in Hz as (a & Hat & Hz). rewrite (attrs_there _ _ Hat) in Ha.
  apply rbind_ok in Hz as ([i c0] & Hi & Hz). unfold cell_of_attrs in Hi. rewrite Ha in Hi. cbn [of_option rbind] in Hi.
  rewrite get_column_index_exact in Hi; [|done|by apply ends_word_digits|exact Hm]. cbn [rbind] in Hi.
  apply rbind_ok in Hi as (st & H1 & (cm & H2 & Hi)%rbind_ok). pose proof (num_attr_max _ _ _ _ H1) as M1. pose proof (num_attr_max _ _ _ _ H2) as M2. injection Hi as <- <-.
  apply rmap_ok in Hz as (c & Hc & ->). cbn [fst snd]. split; [split; [by apply word_pos|done]|].
  assert (forall ts c c', cell_children c ts = Ok c' -> ce_style c' = ce_style c /\ ce_comment c' = ce_comment c) as Hk.
  { clear. induction ts as [|t ts IH]; intros c c'; cbn [cell_children]; [by intros [= <-]|]. intros (c1 & H1 & H2)%rbind_ok. apply IH in H2 as [-> ->].
    unfold cell_child in H1. destruct (seqb _ _); [by injection H1 as <-|]. destruct (seqb _ _); [by injection H1 as <-|]. destruct (seqb _ _); [|done]. destruct (t_children t); by injection H1 as <-. }
  apply Hk in Hc as [E1 E2]. unfold cell_typed. by rewrite E1, E2.
Qed.
Lemma row_taken t z : row_of_tree t = Ok z -> z.1.1 <= u32_max /\ row_typed (rd_row z.1.2)
  /\ exists cs, Forall2 (fun t z => cell_of_tree t = Ok z) (t_children t) cs /\ z.2 = cs.*1 /\ rd_cells z.1.2 = match cs with [] => None | _ => Some (map_inserts cs ∅) end.
Proof.
  unfold row_of_tree. intros (a & _ & ([i p] & Hi & (cs & Hcs%rmapM_forall2 & [= <-])%rbind_ok)%rbind_ok)%rbind_ok. cbn [fst snd rd_row rd_cells].
  unfold row_of_attrs in Hi. apply rbind_ok in Hi as (r & _ & (n & Hn & (st & Hst & (ht & Hht & (lv & Hlv & [= <- <-])%rbind_ok)%rbind_ok)%rbind_ok)%rbind_ok).
  split; [destruct (parse_uint u32_max r) as [m|] eqn:Em; [|done]; injection Hn as <-; by eapply parse_uint_max|]. split; [|by exists cs].
  unfold row_typed. cbn. split; [|split].
  - destruct (a !! "s") as [s|]; [|by injection Hst as <-]. destruct (a !! "customFormat") as [c|]; [|by injection Hst as <-]. destruct (seqb c "1"); [|by injection Hst as <-].
    apply rmap_ok in Hst as (m & Hm & ->). destruct (parse_uint u32_max s) as [m'|] eqn:Em; [|done]. injection Hm as <-. cbn. by eapply parse_uint_max.
  - destruct (a !! "ht") as [s|]; [|by injection Hht as <-]. destruct (a !! "customHeight") as [c|]; [|by injection Hht as <-]. destruct (seqb c "1"); [|by injection Hht as <-].
    by eapply f32_read.
  - pose proof (num_attr_max _ _ _ _ Hlv) as Hlv'. clear Hlv. destruct lv as [n'|]; [|done]. by destruct (0 <? n').
Qed.
Lemma data_taken data o dim : load_data (Some [data]) = Ok (o, dim) -> CellsPlaced data ->
  exists m, o = Some m /\ data_typed m /\ dim_ok dim
  /\ forall r x cs c y, m !! r = Some x -> rd_cells x = Some cs -> cs !! c = Some y -> dm_start dim <= c <= dm_end dim.
Proof.
  unfold load_data. cbn [last_of last]. intros (zs & Hz%rmapM_forall2 & [= -> ->])%rmap_ok Hp. eexists. split; [done|].
  assert (forall z, z ∈ zs -> z.1.1 <= u32_max /\ row_typed (rd_row z.1.2) /\ (forall c, c ∈ z.2 -> 1 <= c <= u16_max)
    /\ forall cs c y, rd_cells z.1.2 = Some cs -> cs !! c = Some y -> c ∈ z.2 /\ 1 <= c <= u16_max /\ cell_typed y) as Hall.
  { intros z Hin. destruct (forall2_from _ _ _ _ Hz Hin) as (t & Ht & Hzt). destruct (row_taken _ _ Hzt) as (H1 & H2 & cs & H3 & H4 & H5).
    assert (forall x : N * cell, x ∈ cs -> 1 <= x.1 <= u16_max /\ cell_typed x.2) as Hx.
    { intros x Hx. destruct (forall2_from _ _ _ _ H3 Hx) as (tc & Htc & Hc). apply (cell_taken tc); [done|]. by apply (Hp t tc). }
    split; [done|]. split; [done|]. split.
    - intros c Hc. rewrite H4 in Hc. apply elem_of_list_fmap in Hc as (x & -> & Hc). by apply Hx.
    - intros cs' c y Hcs' Hy. rewrite H5 in Hcs'. assert (cs' = map_inserts cs ∅) as -> by (destruct cs; congruence).
      apply inserts_in in Hy as [Hy|Hy]; [|by rewrite lookup_empty in Hy]. split; [rewrite H4; apply elem_of_list_fmap; by exists (c, y)|]. exact (Hx _ Hy). }
  assert (forall r x, (map_inserts zs.*1 ∅ : gmap N row_data) !! r = Some x -> exists l, (r, x, l) ∈ zs) as Hm.
  { intros r x Hx. apply inserts_in in Hx as [Hx|Hx]; [|by rewrite lookup_empty in Hx]. apply elem_of_list_fmap in Hx as ([y l] & -> & Hx). by exists l. }
  split; [|split].
  - intros r x (l & Hin)%Hm. destruct (Hall _ Hin) as (H1 & H2 & _ & H3). cbn [fst snd] in *. split; [done|]. split; [done|]. intros cs Hcs c y Hy. by apply (H3 cs c y).
  - apply dims_ok; [|by vm_compute]. apply Forall_forall. intros c Hc. apply elem_of_list_In, in_concat in Hc as (l & Hl & Hc). apply in_map_iff in Hl as (z & <- & Hl).
    apply elem_of_list_In in Hl, Hc. destruct (Hall _ Hl) as (_ & _ & H3 & _). by apply H3.
  - intros r x cs c y (l & Hin)%Hm Hcs Hy. destruct (Hall _ Hin) as (_ & _ & _ & H3). cbn [fst snd] in *. destruct (H3 cs c y Hcs Hy) as (H4 & _).
    destruct (dim_adds (List.concat zs.*2) dim_default) as (H5 & _). apply H5. apply elem_of_list_In, in_concat. exists l. split; [|by apply elem_of_list_In].
    apply in_map_iff. exists (r, x, l). split; [done|]. by apply elem_of_list_In.
Qed.
Lemma others_sheet root : others sheet_tags root = rest_of (t_children root).
Proof.
  unfold others, rest_of, untagged. induction (t_children root) as [|t cs IH]; [done|]. rewrite filter_cons, IH. cbn [List.filter].
  destruct (decide (t_tag t ∉ sheet_tags)) as [Hn|Hn].
  - unfold sheet_tags in Hn. rewrite !not_elem_of_cons in Hn. destruct_and! Hn.
    repeat (match goal with Hx : t_tag t <> ?g |- context [seqb (t_tag t) ?g] => rewrite (proj2 (seqb_false (t_tag t) g) Hx) end; cbn [negb List.filter]). done.
  - apply dec_stable in Hn. assert (forall g, g ∈ sheet_tags -> t_tag t = g -> seqb (t_tag t) g = true) as Hs by (intros g _ Hg; by apply seqb_true).
    destruct (seqb (t_tag t) "dimension") eqn:E1; cbn [negb List.filter]; [done|]. destruct (seqb (t_tag t) "cols") eqn:E2; cbn [negb List.filter]; [done|].
    destruct (seqb (t_tag t) "sheetData") eqn:E3; cbn [negb List.filter]; [done|]. destruct (seqb (t_tag t) "sheetViews") eqn:E4; cbn [negb List.filter]; [done|].
    exfalso. apply seqb_false in E1, E2, E3, E4. unfold sheet_tags in Hn. rewrite !elem_of_cons in Hn. destruct_or! Hn; try done. by apply elem_of_nil in Hn.
Qed.
Lemma opened_part name s s' w e data root ns sd cols views : ws_new name s = (s', Ok w) -> of_archive s.2.2 !! ws_path w = Some e -> part_bytes e = Ok data ->
  ReadsIn data root ns -> t_value root = None -> only_child "sheetData" root sd -> CellsPlaced sd -> ColsSaid root cols -> ViewsSaid root views ->
  SheetOpen s'.2.2 (ws_path w) /\ sheet_typed w /\ is_Some (ws_data w) /\ DimIn w /\ ws_cols w = cols /\ ws_views w = view_default :: views
  /\ (exists p, of_open s'.2.2 !! ws_path w = Some p /\ Doc (op_doc p) (Node (t_tag root) (t_attrs root) None (others sheet_tags root)) /\ d_ns (op_doc p) = ns)
  /\ forall rows, SheetSays sd rows -> (forall r c y, cell_at w r c = Some y <-> exists p cs, (r, p, cs) ∈ rows /\ (c, y) ∈ cs)
      /\ (forall r p, props_at w r = Some p <-> exists cs, (r, p, cs) ∈ rows).
Proof.
  intros Hnew He Hb Hrd Hv Hsd Hpl Hcols Hviews. destruct (ws_new_opened _ _ _ _ Hnew) as (s1 & nm & p0 & d' & _ & Hsrc & Hl & Hop).
  assert (read_doc data = Ok (op_doc p0)) as Hr. { destruct Hsrc as [[Hn _]|(e' & data' & He' & Hb' & Hr)]; congruence. }
  destruct (reads_in _ _ _ Hrd) as (d & Hr' & Hd & Hn & Ha & Hns & Hdn). assert (d = op_doc p0) as -> by congruence.
  rewrite others_sheet. destruct root as [g a v cs]. cbn in Hv. subst v. destruct (load_back _ _ _ _ _ _ _ _ _ _ Hd Hl) as (L1 & L2 & L3 & Hd' & Hns').
  pose proof (cols_said (Node g a None cs) _ _ Hcols L1) as E1. pose proof (views_said (Node g a None cs) _ _ Hviews L3) as E3.
  unfold only_child in Hsd. cbn [t_children] in Hsd. change (List.filter _ cs) with (tagged "sheetData" cs) in Hsd. rewrite Hsd in L2. cbn [some_list] in L2.
  destruct (data_taken _ _ _ L2 Hpl) as (m & Hm & Hty & Hdim & Hin).
  split; [|split; [|split; [rewrite Hm; by eexists|split; [|split; [done|split; [done|split]]]]]].
  - apply SheetOpen_Doc. eexists _, _. split; [exact Hop|]. cbn [op_doc]. split; [exact Hd'|]. split; [by apply names_rest|]. split; [by rewrite Hns', Hdn|]. split; [done|].
    apply attrs_present_node in Ha as [Ha _]. split; [done|]. apply rest_tags.
  - constructor.
    + intros l Hlc. rewrite Hlc in L1. by eapply cols_read.
    + by eapply views_read.
    + intros m' Hm'. assert (m' = m) as -> by congruence. done.
    + exact Hdim.
  - intros r c [y Hy]. unfold cell_at in Hy. rewrite Hm in Hy. destruct (m !! r) as [x|] eqn:Ex; [|done]. destruct (rd_cells x) as [cs'|] eqn:Ecs; [|done]. by eapply Hin.
  - eexists. split; [exact Hop|]. cbn [op_doc t_tag t_attrs t_children]. split; [exact Hd'|]. by rewrite Hns'.
  - intros rows Hrows. by eapply said_cell.
Qed.

(** ** What is written *)
Lemma col_shows x : ColShows x (col_tree x).
Proof.
  unfold ColShows, child_attr. cbn [t_tag t_children t_attrs col_tree mbind option_bind]. unfold col_attrs.
  split; [done|]. split; [done|]. repeat (rewrite opt_attrs_lookup by keys).
  assert (forall A (o : option A), one_if o = (fun _ => "1") <$> o) as Ho by (by intros A []).
  split_and!; try found; lazy [find_attr List.find String.eqb Ascii.eqb Bool.eqb fst snd]; apply Ho.
Qed.
Lemma toggle_shows o : Toggle o (bool_xml_flag <$> o).
Proof. destruct o as [[]|]; [right; left|right; right|left]; split; auto. Qed.
Lemma view_shows v : view_typed v -> SheetViewShows v (view_tree v).
Proof.
  intros Hv. split; [done|]. split; [done|].
  constructor; try done; unfold child_attr; cbn [t_attrs view_tree mbind option_bind]; unfold view_attrs; cbv zeta; rewrite opt_attrs_lookup by keys;
    lazy [find_attr List.find String.eqb Ascii.eqb Bool.eqb fst snd]; first [reflexivity|apply toggle_shows].
Qed.
Lemma views_shown views : Forall view_typed views -> ViewsShown (rev views) (views_tree (view_default :: views)).
Proof.
  intros Hv. unfold ViewsShown, views_tree. cbn [rev t_children]. rewrite map_app. exists (map view_tree (rev views)), (view_tree view_default).
  split; [done|]. split; [|split; [done|split; [|done]]].
  - assert (Forall view_typed (rev views)) as Hr. { apply Forall_forall. intros x Hx%elem_of_list_In. apply in_rev in Hx. rewrite Forall_forall in Hv. by apply Hv, elem_of_list_In. }
    clear Hv. induction Hr as [|x l Hx _ IH]; constructor; [by apply view_shows|done].
  - cbn [t_attrs view_tree]. f_equal.
Qed.
Lemma cols_shown w ref cs cs' g a : Forall (fun t => t_tag t ∉ sheet_tags) cs -> Permutation cs' (sheet_trees w ref ++ cs) ->
  match ws_cols w with None => no_child "cols" (Node g a None cs') | Some l => ColsShown (Node g a None cs') l end.
Proof.
  intros Hf Hp. destruct (sheet_tagged w ref cs cs' Hf Hp) as (_ & T & _). unfold tagged, seqb in T. unfold cols_trees in T.
  destruct (ws_cols w) as [[|x l]|]; [by left| |exact T]. right. exists (cols_tree (x :: l)). split; [exact T|]. split; [|done].
  clear. cbn [t_children cols_tree]. generalize (x :: l) as k. clear. induction k as [|x k IH]; constructor; [apply col_shows|exact IH].
Qed.
Lemma dim_shown w m ref : ws_data w = Some m -> data_typed m -> dim_ok (ws_dim w) -> DimIn w -> dim_ref (ws_dim w) (ws_data w) = Ok ref -> DimShown (data_tree m) (dim_tree ref).
Proof.
  intros Hm Hty [D1 D2] Hd Href. pose proof (rows_written w m Hm Hty) as Hw. unfold dim_ref in Href. rewrite Hm in Href.
  assert (forall r t, RowAt (data_tree m) r t -> is_Some (m !! r)) as Hrow.
  { intros r t Hr. destruct (row_elem _ _ _ Hw _ _ Hr) as (cs & Hx & _). assert (has_row w r) as Hh by (apply (rw_has _ _ _ Hw); apply elem_of_list_fmap; by exists (r, cs)).
    unfold has_row, props_at in Hh. rewrite Hm in Hh. by apply fmap_is_Some in Hh. }
  assert (forall r, is_Some (m !! r) -> exists t, RowAt (data_tree m) r t) as Hback.
  { intros r Hr. destruct (row_there _ _ _ Hw r) as (row & p & H1 & _); [unfold has_row, props_at; rewrite Hm; by apply fmap_is_Some|]. by exists row. }
  destruct (btree_entries m) as [|first rest] eqn:Eb.
  - left. injection Href as <-. split; [done|]. intros r t Hr. destruct (Hrow _ _ Hr) as [x Hx]. apply btree_entries_lookup in Hx. rewrite Eb in Hx. by apply elem_of_nil in Hx.
  - right. destruct (get_column_ref_spec (dm_start (ws_dim w))) as (n1 & G1 & G2 & G3 & G4); [lia|]. destruct (get_column_ref_spec (dm_end (ws_dim w))) as (n2 & G5 & G6 & G7 & G8); [lia|].
    rewrite G1, G5 in Href. cbn [rbind] in Href. injection Href as <-.
    pose proof (btree_entries_sorted m) as Hs. rewrite Eb in Hs. assert (forall k v, (k, v) ∈ first :: rest <-> m !! k = Some v) as Hmem by (intros k v; rewrite <- Eb; by rewrite btree_entries_lookup).
    set (lst := List.last (first :: rest) first). assert (lst ∈ first :: rest) as Hlast.
    { apply elem_of_list_In. unfold lst. rewrite (app_removelast_last first (l := first :: rest)) at 2 by done. apply in_or_app. right. by left. }
    assert (forall r, is_Some (m !! r) -> first.1 <= r <= lst.1) as Hbox.
    { intros r [x Hx]. apply Hmem in Hx. split.
      - apply StronglySorted_inv in Hs as [_ Hs]. apply elem_of_cons in Hx as [<-|Hx]; [done|]. rewrite Forall_forall in Hs. apply Hs in Hx. unfold nkey_le in Hx. cbn in Hx. lia.
      - rewrite (app_removelast_last first (l := first :: rest)) in Hs, Hx by done. fold lst in Hs, Hx. clearbody lst. clear -Hs Hx.
        induction (removelast (first :: rest)) as [|y l IH]; cbn [app] in *.
        + apply elem_of_list_singleton in Hx. subst lst. cbn [fst]. lia.
        + apply StronglySorted_inv in Hs as [Hs Hy]. apply elem_of_cons in Hx as [<-|Hx]; [|by apply IH]. rewrite Forall_forall in Hy. specialize (Hy lst).
          unfold nkey_le in Hy. cbn [fst] in *. apply Hy. apply elem_of_app. right. left. }
    exists first.1, (dm_start (ws_dim w)), lst.1, (dm_end (ws_dim w)), n1, n2. split; [done|]. split; [done|]. split; [done|].
    split; [|split; [|split]].
    + apply Hback. exists first.2. apply Hmem. destruct first. left.
    + apply Hback. exists lst.2. apply Hmem. by destruct lst.
    + intros r t Hr. apply Hbox. by eapply Hrow.
    + intros r c t Hc. destruct (cell_key _ _ _ Hw _ _ _ Hc) as (_ & _ & _ & _ & _ & _ & (_ & _ & x & Hx & _) & _). apply (Hd r c). by eexists.
Qed.
End with_env.

(** ** From the opened file to the saved one *)
Section sessions.
Context `{E : Env} `{Hs : Hashes}.
Definition ColsHeld (l0 : option (list col_props)) (hist : list (N * option col_props)) (l : option (list col_props)) : Prop :=
  match l0 with None => l = None | Some k0 => exists k, l = Some k /\ (ranges_ok k0 -> ColInv k0 hist k) end.
Record Held (w0 : worksheet) (p : open_part) (h : nat) (hist : list (N * option col_props)) (s : session) (w : worksheet) : Prop := {
  hd_handle : handle h s = Some w;
  hd_path : ws_path w = ws_path w0;
  hd_open : of_open (x_office s.1) !! ws_path w0 = Some p;
  hd_cols : ColsHeld (ws_cols w0) hist (ws_cols w);
  hd_views : ws_views w = ws_views w0;
  hd_dim : DimIn w;
}.
Lemma dim_in_op op w t w' t' : in_range op -> DimIn w -> run_sheet_op op (w, t) = ((w', t'), Ok tt) -> DimIn w'.
Proof.
  intros Hr Hin Hrun. destruct (run_sheet_op_spec op w t Hr) as (w2 & t2 & E2 & _ & _ & _ & H2 & _ & _ & _ & Hd). rewrite E2 in Hrun. injection Hrun as -> ->.
  intros r c Hsome. rewrite Hd. destruct (Writes_dec op r c) as [[x Hx]|Hn].
  - apply Writes_col in Hx as (c1 & cs1 & -> & Hc). destruct (N.eqb_spec (N.of_nat (length cs1)) 0); [lia|]. cbn. lia.
  - rewrite H2 in Hsome by done. apply Hin in Hsome. destruct op as [r0 c0 cs|]; [|done]. destruct (_ =? _); [done|]. cbn. lia.
Qed.
Lemma held_op w0 p h hist s w op : Held w0 p h hist s w -> in_range op -> exists w1, Held w0 p h hist (call_step (op_call h op) s).1 w1.
Proof.
  intros [F1 F2 F3 F4 F5 F6] Hr. destruct (run_sheet_op_spec op w (table s) Hr) as (w1 & t1 & Hrun & _ & (G1 & G2 & G3 & G4 & G5) & _). exists w1.
  rewrite (op_step h op s w w1 t1 (Ok tt) F1 Hrun). cbn [fst snd].
  constructor; [by eapply handle_insert|congruence|done|by rewrite G4|congruence|by eapply dim_in_op].
Qed.
Lemma held_col w0 p h hist s w c x : Held w0 p h hist s w -> exists w1, Held w0 p h (hist ++ [(c, x)]) (use h (on_handle (set_column_index c x)) s).1 w1.
Proof.
  intros [F1 F2 F3 F4 F5 F6]. unfold use. rewrite F1. cbn. eexists. constructor; [by eapply handle_insert|done|done| |done|exact F6]. cbn.
  unfold ColsHeld in *. destruct (ws_cols w0) as [k0|]; [|by rewrite F4]. destruct F4 as (k & -> & Hk). exists (new_cols c x k). split; [done|].
  intros Hok. by apply ColInv_step, Hk.
Qed.
Lemma col_set_other h c : through c <> Some h -> col_set h c = [].
Proof. destruct c; cbn; try done; intros Hne; destruct (Nat.eqb_spec h0 h) as [->|]; done. Qed.
Lemma held_step w0 p h hist s w c op : LInv s -> Held w0 p h hist s w -> Says h c op -> Forall in_range op -> exists w1, Held w0 p h (hist ++ col_set h c) (call_step c s).1 w1.
Proof.
  intros I F Hc Hr.
  assert (forall x, op = [x] -> col_set h c = [] -> exists w1, Held w0 p h (hist ++ col_set h c) (call_step c s).1 w1) as Hone.
  { intros x -> ->. rewrite (same_call h c x s Hc). rewrite Forall_singleton in Hr. rewrite app_nil_r. by eapply held_op. }
  inversion Hc; subst; try (by eapply Hone).
  - cbn [col_set]. rewrite Nat.eqb_refl. by eapply held_col.
  - cbn [col_set]. rewrite Nat.eqb_refl. cbn [call_step]. assert (set_column_ref name p0 = set_column_index (word_value name) p0) as ->; [|by eapply held_col].
    assert (get_column_index name = Ok (word_value name)) as Hi by (rewrite <- (app_nil_r_s name) at 1; rewrite get_column_index_exact; [done|done|done|unfold u16_max in *; lia]).
    unfold set_column_ref, bind, lift. by rewrite Hi.
  - exists w. rewrite col_set_other, app_nil_r by done. destruct (call_around c s I) as [_ _ A3 A4 _]. destruct F as [F1 F2 F3 F4 F5 F6].
    constructor; [by apply A3|done| |done..]. apply A4; [|done]. intros k w' Hk Hw'. apply (apart_handle s h k w); [done|congruence|done|done|]. rewrite <- F2. cbn. left.
Qed.
Lemma held_calls w0 p h cs : forall hist ops s s' w, LInv s -> Held w0 p h hist s w -> History h cs ops -> Forall in_range ops ->
  calls cs s = Some s' -> exists w', Held w0 p h (hist ++ col_sets h cs) s' w'.
Proof.
  induction cs as [|c cs IH]; intros hist ops s s' w I F Hh Hr; inversion Hh as [|? ? op ops1 Hc Hh']; subst; cbn [calls].
  - intros [= <-]. cbn. rewrite app_nil_r. eauto.
  - apply Forall_app in Hr as [Hr1 Hr2]. destruct (held_step w0 p h hist s w c op I F Hc Hr1) as (w1 & F1). unfold col_sets. cbn [flat_map]. rewrite app_assoc.
    pose proof (call_effect c s I) as Eff. destruct (call_step c s) as [s1 [[]|e|e]]; cbn [fst snd] in *; [| |done]; (eapply IH; [|exact F1|done..]); by apply Eff.
Qed.
Lemma released w0 h ops s w c p g a cs : LInv s -> Flow w0 h ops s w -> releases h c -> of_open (x_office s.1) !! ws_path w0 = Some p -> Doc (op_doc p) (Node g a None cs) ->
  (call_step c s).2 = Ok tt /\ table (call_step c s).1 = table s
  /\ exists e ref cs', StoredAt (call_step c s).1 (ws_path w0) e /\ dim_ref (ws_dim w) (ws_data w) = Ok ref
  /\ part_bytes e = Ok (prolog +:+ render_root (d_ns (op_doc p)) (Node g a None cs')) /\ Permutation cs' (sheet_trees w ref ++ cs) /\ in_order cs' /\ left_alone worksheet_order sheet_tags cs cs'.
Proof.
  intros I [F1 F2 F3 F4 F5 [m Hm] F8] Hc Hop Hd. rewrite <- F2 in Hop. destruct (sheet_close_doc _ w p g a cs Hop Hd F5) as (e & ref & cs' & Hcl & Hrest).
  assert (rl_path (ws_rels w) <> ws_path w) as Hne.
  { pose proof (li_nodup _ I) as Hnd. apply handle_lookup in F1. destruct (live_split _ _ _ F1) as (x & b & L & _). unfold held in Hnd. rewrite L in Hnd.
    apply NoDup_app in Hnd as (_ & _ & Hnd). apply NoDup_app in Hnd as (_ & _ & Hnd). apply NoDup_app in Hnd as (_ & _ & Hnd). apply NoDup_app in Hnd as (Hnd & _).
    cbn in Hnd. apply NoDup_cons in Hnd as [Hnd _]. apply not_elem_of_cons in Hnd as [Hnd _]. congruence. }
  set (o1 := mkOffice (delete (ws_path w) (of_open (x_office s.1))) (<[ws_path w := e]> (of_archive (x_office s.1)))) in *.
  pose proof (keep_rels_close (ws_rels w) o1 (ws_path w) (not_eq_sym Hne)) as [K1 K2]. unfold id in *.
  assert (of_open (rels_close (ws_rels w) o1).1 !! ws_path w = None /\ of_archive (rels_close (ws_rels w) o1).1 !! ws_path w = Some e) as [D1 D2].
  { rewrite K1, K2. cbn. by rewrite lookup_delete, lookup_insert. }
  assert (ws_drop w (x_office s.1) = (rels_close (ws_rels w) o1).1) as E1 by (unfold ws_drop; rewrite Hcl; by destruct w).
  assert (ws_flush w (x_office s.1) = ((rels_close (ws_rels w) o1).1, Ok tt)) as E2.
  { unfold ws_flush. rewrite Hcl. unfold ws_drop, ws_close. assert (ws_path (handed w) = ws_path w) as -> by (by destruct w).
    assert (of_open o1 !! ws_path w = None) as -> by (cbn; apply lookup_delete). by destruct w. }
  assert ((call_step c s).2 = Ok tt /\ table (call_step c s).1 = table s /\ x_office (call_step c s).1.1 = (rels_close (ws_rels w) o1).1) as (R1 & R2 & R3).
  { destruct Hc as [-> | ->]; cbn [call_step]; unfold spend; rewrite F1; unfold on_book, x_state, on_wb_office; cbn [fst snd].
    - by rewrite E1.
    - by rewrite E2. }
  split; [done|]. split; [done|]. exists e, ref, cs'. unfold StoredAt. rewrite R3, <- F2. by split.
Qed.
Lemma sheet_trees_in w ref : Forall (fun t => t_tag t ∈ sheet_tags) (sheet_trees w ref).
Proof.
  unfold sheet_trees, cols_trees, data_trees, sheet_tags. apply Forall_forall. intros t Ht. rewrite !elem_of_app in Ht. rewrite !elem_of_cons.
  destruct (ws_cols w) as [[|]|], (ws_data w); rewrite ?elem_of_list_singleton, ?elem_of_nil in Ht; destruct_or? Ht; try done; subst t; cbn; tauto.
Qed.
Lemma part_written ns root sd cols views w0 p h ops hist s w tb ref cs' :
  Flow w0 h ops s w -> Held w0 p h hist s w -> ws_cols w0 = cols -> ws_views w0 = view_default :: views -> is_Some (ws_data w0) -> Shows w0 w tb ops ->
  (forall rows, SheetSays sd rows -> (forall r c y, cell_at w0 r c = Some y <-> exists p cs, (r, p, cs) ∈ rows /\ (c, y) ∈ cs)
      /\ (forall r p, props_at w0 r = Some p <-> exists cs, (r, p, cs) ∈ rows)) ->
  dim_ref (ws_dim w) (ws_data w) = Ok ref ->
  Permutation cs' (sheet_trees w ref ++ others sheet_tags root) -> in_order cs' -> left_alone worksheet_order sheet_tags (others sheet_tags root) cs' ->
  SheetPart ns root sd cols views tb ops hist (hash_entries (written_ns ns)) (Node (t_tag root) (t_attrs root) None cs').
Proof.
  intros [F1 F2 F3 F4 [Y1 Y2 Y3 Y4] [m Hm] F8] [G1 G2 G3 G4 G5 G6] Hcols Hviews Hdat Hsh Hsay Href Hp Hord Hla.
  assert (Forall (fun t => t_tag t ∉ sheet_tags) (others sheet_tags root)) as Hf by (apply Forall_forall; by intros t [Ht _]%elem_of_list_filter).
  destruct (sheet_tagged w ref _ cs' Hf Hp) as (T1 & _ & T3 & T4). rewrite Hm in T3.
  pose proof (cols_shown w ref _ cs' (t_tag root) (t_attrs root) Hf Hp) as Hc. pose proof (rows_written w m Hm (Y3 _ Hm)) as Hrw.
  constructor.
  - done.
  - done.
  - apply ns_kept.
  - exists (data_tree m), (dim_tree ref). split; [exact T3|]. split; [exact T1|]. split; [by eapply dim_shown; [| |exact Y4|..]; eauto|].
    intros rows Hrows. destruct (Hsay rows Hrows) as [S1 S2]. eapply kept_shown; [exact Hdat|exact S1|exact S2|]. by eapply shown.
  - subst cols. unfold ColsHeld in G4. destruct (ws_cols w0) as [k0|]; [|by rewrite G4 in Hc].
    destruct G4 as (k & Hk & Hci). rewrite Hk in Hc. intros Hok. exists k. split; [done|]. destruct (Hci Hok) as [C1 C2 C3 C4 C5].
    constructor; [done|done| |done]. intros c x Hl Hx Hcov Hna. destruct (C4 c x Hl Hx Hcov Hna) as (y & Hy & Hyc & _ & He). by exists y.
  - rewrite G5, Hviews in T4. eexists. split; [exact T4|]. apply views_shown. rewrite G5, Hviews in Y2. by inversion Y2.
  - eapply rest_kept; [exact Hla|exact Hp|]. apply sheet_trees_in.
  - eapply ordered; [|exact Hla|exact Hord]. by vm_compute.
Qed.
Theorem sheet_kept file fs0 l0 q data0 root ns sd cols views x0 pre c0 name s s1 w0 cs ops c post s2 s3 t f path fs tr fs' :
  Stored fs0 file l0 -> (q, data0) ∈ l0 -> q <> content_types_name -> ~ rels_name q ->
  ReadsIn data0 root ns -> t_value root = None -> only_child "sheetData" root sd -> CellsPlaced sd -> ColsSaid root cols -> ViewsSaid root views ->
  excel_new (Some file) fs0 = Ok x0 -> of_open (x_office x0) !! q = None -> calls pre (x0, []) = Some s -> ~ Reopens pre (x0, []) q ->
  asks c0 name -> call_step c0 s = (s1, Ok tt) -> handle (length s.2) s1 = Some w0 -> ws_path w0 = q ->
  History (length s.2) cs ops -> Forall in_range ops -> Forall op_typed ops -> releases (length s.2) c ->
  calls (cs ++ [c]) s1 = Some s2 -> calls post s2 = Some s3 -> ~ Reopens post s2 q ->
  excel_save t f path s3.1 fs = (tr, Ok tt) -> last tr = Some fs' ->
  exists l text root' nsl, Stored fs' path l /\ (forall b, (q, b) ∈ l <-> b = prolog +:+ text) /\ Renders (Some nsl) root' text
  /\ SheetPart ns root sd cols views (table s3) ops (col_sets (length s.2) cs) nsl root'.
Proof.
  intros Hst Hin Hct Hnr Hrd Hv Hsd Hpl Hcols Hviews Hx Hcl Hpre Hre0 Ha Hc0 Hh Hq Hhist Hr Hty Hrel Hcs Hpost Hre Hsave Hl. subst q.
  destruct (new_linv _ _ _ Hx) as (I0 & o & Ho & _ & Hopen). destruct (reopened_file _ _ _ _ Hst Ho) as (_ & Hparts & _).
  destruct (Hparts _ _ Hct Hin) as (e & He & Hb). destruct (Hopen _ _ He) as [[H1 H2]|[[p' H1]|H1]]; [|congruence|done].
  destruct (calls_effect _ _ _ I0 Hpre) as [I _].
  destruct (stored_stays _ _ _ _ _ I0 Hpre (conj H1 H2) Hnr Hre0) as [St1 St2].
  assert (LInv s1) as I1. { pose proof (call_effect c0 s I) as Hce. rewrite Hc0 in Hce. by apply Hce. }
  destruct (asked_handle _ _ _ _ _ Ha Hc0 Hh) as (st & Hw & Hof).
  destruct (opened_part _ _ _ _ _ _ _ _ _ _ _ Hw St2 Hb Hrd Hv Hsd Hpl Hcols Hviews) as (N1 & N2 & N3 & N4 & N5 & N6 & (p & N7 & N8 & N9) & N10). rewrite <- Hof in N1, N7.
  rewrite calls_app in Hcs. destruct (calls cs s1) as [s1'|] eqn:E1; [|done]. cbn [mbind option_bind] in Hcs.
  destruct (flow_calls w0 (length s.2) cs [] ops s1 s1' w0) as (I1' & w1 & F1); [done| |done..|].
  { constructor; try done. apply shows_start. }
  destruct (held_calls w0 p (length s.2) cs [] ops s1 s1' w0) as (w1' & G1); [done| |done..|].
  { constructor; try done. unfold ColsHeld. destruct (ws_cols w0) as [k0|]; [|done]. exists k0. split; [done|]. apply ColInv_nil. }
  cbn [app] in F1, G1. assert (w1' = w1) as -> by (apply fw_handle in F1; apply hd_handle in G1; congruence).
  destruct (released _ _ _ _ _ _ p _ _ _ I1' F1 Hrel (hd_open _ _ _ _ _ _ G1) N8) as (R1 & R2 & e1 & ref & cs' & St & Href & Hb1 & Hp & Hord & Hla).
  assert (s2 = (call_step c s1').1) as ->. { cbn [calls] in Hcs. destruct (call_step c s1') as [y [[]|z|z]]; [by injection Hcs as <-|done..]. }
  assert (LInv (call_step c s1').1) as I2. { apply call_effect; [done|]. by rewrite R1. }
  pose proof (stored_stays _ _ _ _ _ I2 Hpost St Hnr Hre) as St3.
  destruct (calls_effect _ _ _ I2 Hpost) as [I3 _]. destruct (table_stays post _ _ I2 Hpost) as ((new & T3) & _ & _).
  destruct (flow_saved t f path s3 fs tr fs' I3 Hsave Hl) as (l & Hsto & Hpar & _).
  exists l. eexists. exists (Node (t_tag root) (t_attrs root) None cs'), (hash_entries (written_ns ns)). split; [done|]. split; [by apply (Hpar _ e1)|]. split.
  - rewrite N9. apply render_renders_mut.
  - eapply part_written; try done. rewrite T3, R2. apply shows_grow. by apply F1.
Qed.
End sessions.
