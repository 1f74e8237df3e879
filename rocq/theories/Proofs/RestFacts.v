(** What stays of a sheet whatever is done with it. *)
From Verif.Model Require Import Excel.
From Verif.Spec Require Import XmlSpec XmlRepr PackageSpec ColumnSpec SheetSpec SessionSpec FlowSpec OpenSpec GrowSpec RestSpec.
From Verif.Proofs Require Import BaseFacts ConverterFacts XmlHistFacts PackageFacts DocBuild XmlReadFacts XmlWriteFacts RelDocFacts TypesFacts XmlNsFacts SaveFacts BookFacts SheetDocFacts SheetCycleFacts SheetFacts SessionFacts FrameFacts KeepFacts OwnFacts OpenMoreFacts OrderFacts FlowFacts FlowSaveFacts FlowOpenFacts PanicFacts OpenBookFacts OpenSheetFacts ReopenFacts GrowFacts OnceFacts HeldFacts DamageFacts.
Open Scope N_scope.

(** ** Trees *)
Lemma others_reread tags g a cs : others tags (reread (Node g a None cs)) = map reread (others tags (Node g a None cs)).
Proof.
  unfold others. cbn [reread t_children]. induction cs as [|t cs IH]; [done|]. cbn [map]. rewrite !filter_cons, IH. destruct (decide (t_tag t ∉ tags)) as [Hn|Hn].
  - by rewrite decide_True by (by rewrite tag_reread).
  - by rewrite decide_False by (by rewrite tag_reread).
Qed.
Lemma tagged_reread_list tag cs : List.filter (fun t => String.eqb (t_tag t) tag) (map reread cs) = map reread (List.filter (fun t => String.eqb (t_tag t) tag) cs).
Proof. induction cs as [|t cs IH]; [done|]. cbn [map List.filter]. rewrite tag_reread. destruct (String.eqb _ _); cbn [map]; by rewrite IH. Qed.
Lemma rest_refl tags root : RestKept tags root root.
Proof. by split. Qed.
Lemma rest_trans tags r1 r2 r3 : RestKept tags r1 r2 -> RestKept tags r2 r3 -> RestKept tags r1 r3.
Proof. intros [A1 A2] [B1 B2]. split; [by rewrite B1|]. intros tag Ht. by rewrite B2, A2. Qed.
Lemma rest_reread tags r1 r2 : t_value r1 = None -> t_value r2 = None -> RestKept tags r1 r2 -> RestKept tags (reread r1) (reread r2).
Proof.
  destruct r1 as [g a v cs], r2 as [g' a' v' cs']. cbn [t_value]. intros -> -> [A1 A2]. split; [rewrite !others_reread; by apply Permutation_map|].
  intros tag Ht. cbn [reread t_children]. rewrite !tagged_reread_list. f_equal. by apply A2.
Qed.
Lemma filter_others tags tag root : tag ∉ tags -> List.filter (fun t => String.eqb (t_tag t) tag) (others tags root) = List.filter (fun t => String.eqb (t_tag t) tag) (t_children root).
Proof.
  intros Htag. unfold others. induction (t_children root) as [|t cs IH]; [done|]. rewrite filter_cons. cbn [List.filter]. destruct (decide (t_tag t ∉ tags)) as [Hn|Hn]; [cbn [List.filter]; by rewrite IH|].
  rewrite IH. apply dec_stable in Hn. destruct (String.eqb_spec (t_tag t) tag) as [E0|]; [|done]. by rewrite E0 in Hn.
Qed.
Lemma rest_lost tags lost g a v root : lost ⊆ tags -> RestKept tags root (Node g a v (others lost root)).
Proof.
  intros Hl. split.
  - unfold others. cbn [t_children]. rewrite list_filter_filter. induction (t_children root) as [|t cs IH]; [done|]. rewrite !filter_cons. destruct (decide (t_tag t ∉ tags)) as [Hn|Hn].
    + rewrite decide_True; [by rewrite IH|]. split; [done|]. intros H. by apply Hn, Hl.
    + rewrite decide_False; [done|]. by intros [H _].
  - intros tag Ht. cbn [t_children]. apply filter_others. intros H. by apply Ht, Hl.
Qed.
Lemma again_more n root : again (S n) root = reread (again n root).
Proof. done. Qed.
Lemma again_value n root : t_value root = None -> t_value (again n root) = None.
Proof. intros Hv. induction n as [|n IH]; [done|]. rewrite again_more. destruct (again n root) as [g a v cs]. cbn in *. by subst v. Qed.
Lemma again_tag n root : t_tag (again n root) = t_tag root.
Proof. induction n as [|n IH]; [done|]. rewrite again_more. by rewrite tag_reread. Qed.
Lemma endures_refl root : t_value root = None -> Endures 0 root root.
Proof. intros Hv. by constructor; [| | |apply rest_refl]. Qed.
Lemma endures_change n root r1 r2 : Endures n root r1 -> t_tag r2 = t_tag r1 -> t_attrs r2 = t_attrs r1 -> t_value r2 = None -> RestKept own_tags r1 r2 -> Endures n root r2.
Proof. intros [A1 A2 A3 A4] B1 B2 B3 B4. constructor; [congruence|congruence|done|]. by eapply rest_trans. Qed.
Lemma endures_reread n root r1 : t_value root = None -> Endures n root r1 -> Endures (S n) root (reread r1).
Proof.
  intros Hv [A1 A2 A3 A4]. pose proof (again_value n root Hv) as Hv'. constructor.
  - by rewrite tag_reread.
  - rewrite again_more. destruct r1 as [g a v cs], (again n root) as [g' a' v' cs']. cbn in *. by subst.
  - destruct r1 as [g a v cs]. cbn in *. by subst.
  - rewrite again_more. by apply rest_reread.
Qed.
Lemma again_add n m root : again n (again m root) = again (n + m) root.
Proof. induction n as [|n IH]; [done|]. cbn [Nat.add]. by rewrite !again_more, IH. Qed.
Lemma rest_again tags n r1 r2 : t_value r1 = None -> t_value r2 = None -> RestKept tags r1 r2 -> RestKept tags (again n r1) (again n r2).
Proof. intros H1 H2 H. induction n as [|n IH]; [done|]. rewrite !again_more. apply rest_reread; [by apply again_value..|done]. Qed.
Lemma attrs_reread r1 r2 : t_attrs r1 = t_attrs r2 -> t_attrs (reread r1) = t_attrs (reread r2).
Proof. destruct r1 as [g a v cs], r2 as [g' a' v' cs']. cbn. intros ->. by destruct v, v'. Qed.
Lemma endures_trans n m root r1 r2 : t_value root = None -> Endures n root r1 -> Endures m r1 r2 -> Endures (m + n) root r2.
Proof.
  intros Hv [A1 A2 A3 A4] [B1 B2 B3 B4]. constructor; [congruence| |done|].
  - rewrite B2, <- again_add. clear -A2. induction m as [|m IH]; [done|]. rewrite !again_more. by apply attrs_reread.
  - rewrite <- again_add. eapply rest_trans; [|exact B4]. apply rest_again; [by apply again_value|done|done].
Qed.
Lemma steady_reread t : Lasting t -> reread t = t.
Proof.
  induction t as [g a v cs IH] using tree_rect'. assert (forall m : gmap string string, map_Forall (fun _ x => plain_text x) m -> spec_escape <$> m = m) as Hm.
  { intros m Hm. apply map_eq. intros k. rewrite lookup_fmap. destruct (m !! k) as [x|] eqn:E; [|done]. cbn. f_equal. apply XmlNsFacts.spec_escape_fixed. by apply (Hm k). }
  inversion 1 as [? a0 s Ha Ht Hn|? a0 ? Ha Hc]; subst; cbn [reread default from_option id].
  - rewrite Hm, Ht by done. by destruct (String.eqb_spec s "").
  - rewrite Hm by done. f_equal. clear H. induction Hc as [|c cs Hc _ IHc]; [done|]. cbn [map]. inversion IH; subst. f_equal; [by auto|by apply IHc].
Qed.
Lemma steady_again n t : Lasting t -> again n t = t.
Proof. intros Hs. induction n as [|n IH]; [done|]. rewrite again_more, IH. by apply steady_reread. Qed.

Section with_env.
Context `{E : Env} `{HH : Hashes}.
(** ** Handles: no cell lies before the dimension *)
Definition Low (w : worksheet) : Prop := forall r c, is_Some (cell_at w r c) -> dm_start (ws_dim w) <= c.
Lemma low_loaded ts o dim p nm rels views cols : load_data ts = Ok (o, dim) -> Low (mkWs p nm rels dim views cols o).
Proof.
  unfold load_data. destruct (last_of ts) as [data|]; [|intros [= <- <-] r c [y Hy]; by unfold cell_at in Hy].
  intros (zs & Hz%rmapM_forall2 & [= -> ->])%rmap_ok r c [y Hy]. unfold cell_at in Hy. cbn [ws_data ws_dim] in *.
  destruct (map_inserts _ _ !! r) as [x|] eqn:Er; [|done]. destruct (rd_cells x) as [cs|] eqn:Ecs; [|done].
  apply inserts_in in Er as [Er|Er]; [|by rewrite lookup_empty in Er]. apply elem_of_list_fmap in Er as ([y0 l] & Hq0 & Hin). cbn [fst snd] in *. subst y0.
  destruct (forall2_from _ _ _ _ Hz Hin) as (t & Ht & Hzt). destruct (row_taken _ _ Hzt) as (_ & _ & cs0 & _ & H4 & H5). cbn [fst snd] in *. rewrite Ecs in H5.
  assert (cs = map_inserts cs0 ∅) as -> by (destruct cs0; congruence). apply inserts_in in Hy as [Hy|Hy]; [|by rewrite lookup_empty in Hy].
  destruct (dim_adds (List.concat zs.*2) dim_default) as (H6 & _). apply H6. apply elem_of_list_In, in_concat. exists l. split.
  - apply in_map_iff. eexists. split; [|by apply elem_of_list_In]. done.
  - apply elem_of_list_In. rewrite H4. apply elem_of_list_fmap. by exists (c, y).
Qed.
Lemma place_lowered m cs : forall col dim cells, (forall c, is_Some (cells !! c) -> dm_start dim <= c) ->
  let r := place_cells m col cs dim cells in (forall c, is_Some (r.1.2 !! c) -> dm_start r.1.1 <= c) /\ dm_start r.1.1 <= dm_start dim.
Proof.
  induction cs as [|x cs IH]; intros col dim cells Hc; cbn [place_cells]; [split; [done|cbn; lia]|]. destruct (u16_add m col 1) as [k|e|e]; [|split; [done|cbn; lia]..].
  destruct (IH k (dim_add dim k) (<[k := x]> cells)) as [H1 H2].
  { intros c Hs. cbn. destruct (decide (k = c)) as [->|Hne]; [lia|]. rewrite lookup_insert_ne in Hs by done. apply Hc in Hs. lia. }
  cbv zeta. split; [done|]. cbn in H2. cbn. lia.
Qed.
Lemma low_row r c cs w t : Low w -> Low (set_row_value r c cs (w, t)).1.1.
Proof.
  intros Hl. unfold set_row_value. destruct (u16_sub env_mode c 1) as [col|e|e]; [|done..]. destruct (store_cells cs t) as [t1 cs1].
  set (m := default ∅ (ws_data w)). set (old := match m !! r with Some x => x | None => mkRowData row_default None end).
  assert (forall k x, m !! k = Some x -> forall d y, rd_cells x = Some d -> forall i, d !! i = Some y -> dm_start (ws_dim w) <= i) as Hm.
  { intros k x Hk d y Hd i Hi. apply (Hl k). unfold cell_at. unfold m in Hk. destruct (ws_data w) as [m0|]; [|change ((∅ : gmap N row_data) !! k = Some x) in Hk; by rewrite lookup_empty in Hk]. change (m0 !! k = Some x) in Hk. rewrite Hk, Hd, Hi. by eexists. }
  pose proof (place_lowered env_mode cs1 col (ws_dim w) (default ∅ (rd_cells old))) as L. destruct (place_cells _ _ _ _ _) as [[dim cells] x]. cbn [fst snd] in L. cbv zeta in L. destruct L as [L1 L2].
  { assert (forall i y, (∅ : gmap N cell) !! i = Some y -> False) as Hno by (intros i y; by rewrite lookup_empty).
    intros i [y Hy]. unfold old in Hy. destruct (m !! r) as [x0|] eqn:Er; [|by apply Hno in Hy]. destruct (rd_cells x0) as [d|] eqn:Ed; [|by apply Hno in Hy]. by eapply (Hm r x0 Er d y Ed). }
  assert (Low (set_ws_dim w dim)) as Hj. { intros k i Hi. cbn. apply Hl in Hi. lia. }
  assert (Low (set_ws_data (set_ws_dim w dim) (Some (<[r := mkRowData (rd_row old) (Some cells)]> m)))) as Hi.
  { intros k i [y Hy]. unfold cell_at in Hy. cbn in *. destruct (decide (r = k)) as [->|Hne].
    - rewrite lookup_insert in Hy. cbn in Hy. apply L1. by eexists.
    - rewrite lookup_insert_ne in Hy by done. destruct (m !! k) as [x0|] eqn:Ek; [|done]. destruct (rd_cells x0) as [d|] eqn:Ed; [|done]. pose proof (Hm k x0 Ek d y Ed i Hy). lia. }
  destruct x as [[]|e|e]; cbn [fst]; [done|..]; by destruct (rd_cells old).
Qed.
Lemma low_use c h s w w' : through c = Some h -> handle h s = Some w -> Low w -> handle h (call_step c s).1 = Some w' -> Low w'.
Proof.
  intros Ht Hw Hs.
  assert (forall m, Low (m (w, ss_strings (wb_sst (x_book s.1)))).1.1 -> call_step c s = use h m s -> handle h (call_step c s).1 = Some w' -> Low w') as H.
  { intros m H1 ->. unfold use. rewrite Hw. destruct (m _) as [[w1 t1] r]. cbn [fst snd] in *. unfold handle. cbn [snd].
    apply handle_lookup in Hw. rewrite list_lookup_insert by (by eapply lookup_lt_Some). cbn. by intros [= <-]. }
  destruct c as [| | | | | | | | | | |k r c cs|k ref cs|k r p|k c p|k ref p|k|k|k]; try done; cbn [through] in Ht; injection Ht as ->.
  - apply (H (set_row_value r c cs)); [by apply low_row|done].
  - apply (H (set_row_value_ref ref cs)); [|done]. unfold set_row_value_ref, bind, lift. destruct (get_cell_index ref) as [[r c]|e|e]; [by apply low_row|done..].
  - apply (H (on_handle (set_row_props r p))); [|done]. intros k i [y Hy]. unfold cell_at in Hy. cbn in *. destruct (decide (r = k)) as [->|Hne].
    + rewrite lookup_insert in Hy. apply (Hs k). unfold cell_at. destruct (ws_data w) as [m0|]; cbn in Hy; [|by rewrite lookup_empty in Hy]. unfold id in Hy. destruct (m0 !! k) as [x0|]; [|done]. cbn in Hy. by rewrite Hy.
    + rewrite lookup_insert_ne in Hy by done. apply (Hs k). unfold cell_at. destruct (ws_data w) as [m0|]; cbn in Hy; [unfold id in Hy; by rewrite Hy|by rewrite lookup_empty in Hy].
  - apply (H (on_handle (set_column_index c p))); [|done]. exact Hs.
  - apply (H (on_handle (set_column_ref ref p))); [|done]. unfold on_handle, set_column_ref, bind, lift. cbn [fst snd]. destruct (get_column_index ref) as [c|e|e]; cbn [fst snd]; exact Hs.
  - cbn [call_step]. by rewrite spend_gone.
  - cbn [call_step]. by rewrite spend_gone.
  - cbn [call_step]. by rewrite spend_gone.
Qed.
Definition AllLow (s : session) : Prop := forall h w, handle h s = Some w -> Low w.
Lemma load_low d d' w : ws_load d = (d', Ok (ws_cols w, ws_data w, ws_views w, ws_dim w)) -> Low w.
Proof.
  intros Hl. assert (exists ts, load_data ts = Ok (ws_data w, ws_dim w)) as [ts Ht].
  { revert Hl. unfold ws_load, bind. destruct (take_subtrees _ _) as [d1 [x1|e|e]]; [|done..]. destruct (take_subtrees _ _) as [d2 [x2|e|e]]; [|done..]. unfold lift. destruct (load_cols x2) as [x3|e|e]; [|done..].
    destruct (take_subtrees _ _) as [d3 [x4|e|e]]; [|done..]. destruct (load_data x4) as [[x5 x6]|e|e] eqn:El; [|done..]. destruct (take_subtrees _ _) as [d4 [x7|e|e]]; [|done..]. destruct (load_views x7) as [x8|e|e]; [|done..].
    intros [= _ _ <- _ <-]. by eexists. }
  pose proof (low_loaded _ _ _ (ws_path w) (ws_name w) (ws_rels w) (ws_views w) (ws_cols w) Ht) as H. by destruct w.
Qed.
Lemma all_low_step c s : LInv s -> AllLow s -> AllLow (call_step c s).1.
Proof.
  intros I Ha h w' Hw'. destruct (call_handles _ _ _ _ Hw') as [(w & H1 & _ & _)|(H1 & H2 & ->)].
  - destruct (decide (through c = Some h)) as [Ht|Ht]; [by apply (low_use c h s w); [|done|by eapply Ha|]|]. destruct (call_around c s I) as [_ _ A _ _]. rewrite (A _ _ Ht H1) in Hw'. injection Hw' as <-. by eapply Ha.
  - destruct (call_step c s) as [s' x] eqn:Ec. cbn [fst snd] in *. subst x. destruct (call_asks c H1) as [name Hn]. destruct (asked_handle _ _ _ _ _ Hn Ec Hw') as (st & Hw & _).
    destruct (ws_new_opened _ _ _ _ Hw) as (s2 & nm & p0 & d' & _ & _ & Hl & _). by eapply load_low.
Qed.
(** ** Writing a sheet: not at all, or all of it *)
Lemma low_row_tree id r x : (forall cs, rd_cells x = Some cs -> forall c y, cs !! c = Some y -> 1 <= c) ->
  forall d, save_row id (r, x) d = add_tree id (row_tree r x) d.
Proof.
  intros Hx d. unfold save_row, add_tree, row_tree, bind. cbn [t_tag fst snd].
  destruct (append_child "row" (Some id) d) as [d1 [n| |]]; [|done|done]. rewrite fill_unfold. unfold bind.
  destruct (set_attributes n (row_attrs r (rd_row x)) d1) as [d2 [[]| |]]; [|done|done]. cbn [ret].
  rewrite fill_list_iter. destruct (rd_cells x) as [cs|]; [|done]. unfold add_trees. rewrite iterM_map.
  apply iterM_ext. intros [i y] Hin s. apply btree_entries_lookup in Hin. apply save_cell_tree. by apply (Hx cs eq_refl) in Hin.
Qed.
Lemma low_data_tree m : (forall r x cs c y, m !! r = Some x -> rd_cells x = Some cs -> cs !! c = Some y -> 1 <= c) -> forall d, save_data (Some m) d = insert_tree_after "cols" (data_tree m) d.
Proof.
  intros Hm d. unfold save_data, insert_tree_after, data_tree, bind. cbn [t_tag].
  destruct (insert_after "sheetData" "cols" None d) as [d1 [n| |]]; [|done|done]. rewrite fill_unfold. unfold bind. cbn [ret].
  rewrite fill_list_iter. unfold add_trees. rewrite iterM_map.
  apply iterM_ext. intros [r x] Hin s. apply btree_entries_lookup in Hin. apply low_row_tree. intros cs Hcs c y Hy. by eapply Hm.
Qed.
Lemma low_columns w ref m : Low w -> dim_ref (ws_dim w) (ws_data w) = Ok ref -> ws_data w = Some m -> forall r x cs c y, m !! r = Some x -> rd_cells x = Some cs -> cs !! c = Some y -> 1 <= c.
Proof.
  intros Hl Hr Hm r x cs c y Hx Hcs Hy. assert (dm_start (ws_dim w) <= c) as Hc. { apply (Hl r). unfold cell_at. rewrite Hm, Hx, Hcs, Hy. by eexists. }
  unfold dim_ref in Hr. rewrite Hm in Hr. destruct (btree_entries m) as [|z l] eqn:Eb.
  - apply btree_entries_lookup in Hx. rewrite Eb in Hx. by apply elem_of_nil in Hx.
  - destruct (N.eq_dec (dm_start (ws_dim w)) 0) as [H0|H0]; [rewrite H0 in Hr; by cbn in Hr|lia].
Qed.
Lemma low_save w d g a v cs : Doc d (Node g a v cs) -> Low w ->
  (exists r, ws_save (w, d) = ((w, d), r) /\ r <> Ok tt) \/ exists d' ref cs', ws_save (w, d) = ((handed w, d'), Ok tt)
  /\ Doc d' (Node g a v cs') /\ d_ns d' = d_ns d /\ Permutation cs' (sheet_trees w ref ++ cs) /\ left_alone worksheet_order sheet_tags cs cs'.
Proof.
  intros Hd Hw. destruct (dim_ref (ws_dim w) (ws_data w)) as [ref|e|e] eqn:Href.
  2-3: left; eexists; split; [unfold ws_save, bind, get; cbn [fst snd]; unfold lift; by rewrite Href|done].
  right. unfold ws_save, bind, get, on_doc, on_ws. cbn [fst snd]. rewrite Href. cbn [lift].
  destruct (Doc_add_tree d g a v cs (dim_tree ref) Hd (dim_tree_ok ref)) as (d1 & E1 & Hd1 & Hn1). cbn [fst snd]. rewrite E1. cbn [fst snd].
  assert (exists d2 cs2, save_cols (ws_cols w) d1 = (d2, Ok tt) /\ Doc d2 (Node g a v cs2) /\ d_ns d2 = d_ns d1
    /\ Permutation cs2 (cols_trees (ws_cols w) ++ cs ++ [dim_tree ref])
    /\ (forall p, (forall t, t_tag t ∈ sheet_tags -> p t = false) -> List.filter p cs2 = List.filter p (cs ++ [dim_tree ref]))) as (d2 & cs2 & E2 & Hd2 & Hn2 & Hp2 & Hf2).
  { unfold save_cols, cols_trees. destruct (ws_cols w) as [[|c l]|]; [exists d1, (cs ++ [dim_tree ref]); done| |exists d1, (cs ++ [dim_tree ref]); done].
    destruct (Doc_insert_after d1 g a v _ "sheetFormatPr" (cols_tree (c :: l)) Hd1 (cols_tree_ok _)) as (d2 & E2 & Hd2 & Hn2).
    eexists d2, _. split; [exact E2|]. split; [exact Hd2|]. split; [done|]. split; [by rewrite ins_after_perm|].
    intros p Hp. apply ins_after_filter, Hp. unfold sheet_tags. cbn. rewrite !elem_of_cons. tauto. }
  rewrite E2. cbn [fst snd].
  destruct (Doc_insert_after d2 g a v cs2 "dimension" (views_tree (ws_views w)) Hd2 (views_tree_ok _)) as (d3 & E3 & Hd3 & Hn3).
  cbn [fst snd]. rewrite E3. cbn [fst snd].
  assert (exists d4 cs4, save_data (ws_data w) d3 = (d4, Ok tt) /\ Doc d4 (Node g a v cs4) /\ d_ns d4 = d_ns d3
    /\ Permutation cs4 (data_trees (ws_data w) ++ ins_after "dimension" (views_tree (ws_views w)) cs2)
    /\ (forall p, (forall t, t_tag t ∈ sheet_tags -> p t = false) -> List.filter p cs4 = List.filter p (ins_after "dimension" (views_tree (ws_views w)) cs2)))
    as (d4 & cs4 & E4 & Hd4 & Hn4 & Hp4 & Hf4).
  { unfold data_trees. destruct (ws_data w) as [m|] eqn:Em; [|eexists d3, _; split; [done|]; split; [exact Hd3|]; done].
    rewrite low_data_tree; [|eapply low_columns; [exact Hw| |exact Em]; by rewrite Em].
    destruct (Doc_insert_after d3 g a v _ "cols" (data_tree m) Hd3 (data_tree_ok _)) as (d4 & E4 & Hd4 & Hn4).
    eexists d4, _. split; [exact E4|]. split; [exact Hd4|]. split; [done|]. split; [by rewrite ins_after_perm|].
    intros p Hp. apply ins_after_filter, Hp. unfold sheet_tags. cbn. rewrite !elem_of_cons. tauto. }
  rewrite E4. cbn [fst snd].
  destruct (Doc_order d4 g a v cs4 worksheet_order Hd4) as (d5 & E5 & Hd5 & Hn5); [done|]. rewrite E5. cbn [fst snd].
  eexists d5, ref, _. split; [done|]. split; [exact Hd5|]. split; [congruence|]. split.
  - rewrite sort_by_perm, Hp4, ins_after_perm, Hp2. unfold sheet_trees. rewrite <- !app_assoc. apply Permutation_app_head.
    cbn [app]. constructor. apply Permutation_app_head. by rewrite <- Permutation_cons_append.
  - intros p Hsame Hp. rewrite sort_by_stable by done. rewrite Hf4, ins_after_filter, Hf2; [|done| |done].
    + rewrite List.filter_app. cbn [List.filter]. rewrite Hp; [by rewrite app_nil_r|]. unfold sheet_tags. cbn. rewrite !elem_of_cons. tauto.
    + apply Hp. unfold sheet_tags. cbn. rewrite !elem_of_cons. tauto.
Qed.
(** ** The part of a sheet *)
(** Closing: the part stays open as it is, or it is stored with all the rest. *)
Definition Closed (p : open_part) (root : tree) (o' : office) (q : string) : Prop :=
  of_open o' !! q = Some p
  \/ exists e root', of_open o' !! q = None /\ of_archive o' !! q = Some e /\ part_bytes e = Ok (prolog +:+ render_root (d_ns (op_doc p)) root')
     /\ t_tag root' = t_tag root /\ t_attrs root' = t_attrs root /\ t_value root' = None /\ names_ok root' /\ t_children root' <> [] /\ RestKept own_tags root root'.
Lemma rest_added w ref g a cs cs' : Permutation cs' (sheet_trees w ref ++ cs) -> left_alone worksheet_order sheet_tags cs cs' -> RestKept own_tags (Node g a None cs) (Node g a None cs').
Proof.
  intros Hp Hl. change own_tags with sheet_tags. pose proof (sheet_trees_in w ref) as Hin. split.
  - unfold others. cbn [t_children]. rewrite Hp, filter_app. assert (filter (fun t => t_tag t ∉ sheet_tags) (sheet_trees w ref) = []) as ->; [|done].
    clear Hp Hl. induction Hin as [|t l H1 _ IH]; [done|]. rewrite filter_cons_False; [exact IH|]. intros Hn. by apply Hn.
  - intros tag Ht. cbn [t_children]. apply Hl; [intros x y Hx%String.eqb_eq Hy%String.eqb_eq; congruence|]. intros t Hin'. apply String.eqb_neq. by intros <-.
Qed.
Lemma low_close w o p root : of_open o !! ws_path w = Some p -> Doc (op_doc p) root -> t_value root = None -> names_ok root -> Low w ->
  (exists r, ws_close (w, o) = ((w, o), r)) \/ exists o', ws_close (w, o) = ((handed w, o'), Ok tt) /\ of_open o' !! ws_path w = None /\ Closed p root o' (ws_path w).
Proof.
  intros Hp Hd Hv Hn Hl. destruct root as [g a v cs]. cbn in Hv. subst v. unfold ws_close. rewrite Hp. destruct (low_save w _ _ _ _ _ Hd Hl) as [(r & Hs & Hr)|(d' & ref & cs' & Hs & Hd' & Hns & Hpm & Hla)].
  - left. rewrite Hs. assert (set_open o (<[ws_path w:=mkOpen (op_doc p) (op_ct p) (op_ext p) (op_ext_type p)]> (of_open o)) = o) as ->.
    { destruct o as [op ar]. unfold set_open. cbn in *. rewrite insert_id; [done|]. rewrite Hp. by destruct p. }
    destruct r as [[]|e|e]; [done|by eexists..].
  - right. rewrite Hs. set (o1 := set_open _ _). set (p1 := mkOpen d' (op_ct p) (op_ext p) (op_ext_type p)).
    destruct (close_doc o1 (ws_path w) p1 (Node g a None cs')) as (e & Hc & _ & _ & _ & Hb); [cbn; apply lookup_insert|done|]. rewrite Hc. eexists. split; [done|]. split; [cbn; apply lookup_delete|]. right. eexists e, _.
    split; [cbn; apply lookup_delete|]. split; [cbn; apply lookup_insert|]. split; [rewrite Hb; unfold p1; cbn [op_doc]; by rewrite Hns|]. do 3 (split; [done|]).
    apply names_ok_node in Hn as (N1 & N2 & N3). split.
    + apply names_ok_node. split; [done|]. split; [done|]. rewrite Hpm. apply Forall_app. split; [apply sheet_trees_ok|done].
    + split; [|by eapply rest_added]. cbn [t_children]. intros ->. apply Permutation_nil in Hpm. apply app_eq_nil in Hpm as [Hpm _]. unfold sheet_trees in Hpm. by destruct (data_trees (ws_data w)).
Qed.
Lemma reads_written ns t : names_ok t -> ns_ok ns -> t_children t <> [] -> ReadsIn (prolog +:+ render_root ns t) (reread t) (written_ns ns).
Proof.
  intros H1 H2 H3. destruct (Doc_read ns t H1 H2 (or_intror H3)) as (d & R1 & (it & R2 & R3) & R5). exists d, it. split; [done|]. split; [apply R2|]. split; [done|]. split; [done|]. by apply XmlReadFacts.written_ns_ok.
Qed.
Lemma same_written ns ns' : SameNs ns ns' -> SameNs ns (written_ns ns').
Proof. intros H k Hk. unfold written_ns. destruct env_mode; [by apply H|]. rewrite lookup_insert_ne by congruence. by apply H. Qed.
Lemma endures_children n root r : t_value root = None -> others own_tags root <> [] -> Endures n root r -> t_children r <> [].
Proof.
  intros Hv Ho [_ _ _ [Hp _]] Hc. unfold others in Hp at 1. rewrite Hc in Hp. apply Permutation_nil in Hp. revert Hp. clear -Hv Ho. induction n as [|n IH]; [done|].
  rewrite again_more. pose proof (again_value n root Hv) as Hv'. destruct (again n root) as [g a v cs]. cbn in Hv'. subst v. rewrite others_reread. intros H. apply IH. by apply map_eq_nil in H.
Qed.
Lemma closed_same p root o o' q : SameAt o o' q -> Closed p root o q -> Closed p root o' q.
Proof. intros [H1 H2]. unfold Closed. by rewrite H1, H2. Qed.
Lemma drop_closed w o p root : ws_path w <> rl_path (ws_rels w) -> of_open o !! ws_path w = Some p -> Doc (op_doc p) root -> t_value root = None -> names_ok root -> Low w ->
  Closed p root (ws_drop w o) (ws_path w).
Proof.
  intros Hne Hp Hd Hv Hn Hl. unfold ws_drop. destruct (low_close w o p root Hp Hd Hv Hn Hl) as [[r Hc]|(o' & Hc & _ & Hcl)]; rewrite Hc; cbn [handed ws_rels].
  - left. destruct (keep_rels_close (ws_rels w) o (ws_path w) Hne) as [K _]. unfold id in K. congruence.
  - destruct (keep_rels_close (ws_rels w) o' (ws_path w) Hne) as [K1 K2]. unfold id in *. by apply (closed_same _ _ o').
Qed.
Lemma flush_closed w o p root : ws_path w <> rl_path (ws_rels w) -> of_open o !! ws_path w = Some p -> Doc (op_doc p) root -> t_value root = None -> names_ok root -> Low w ->
  Closed p root (ws_flush w o).1 (ws_path w).
Proof.
  intros Hne Hp Hd Hv Hn Hl. unfold ws_flush. destruct (low_close w o p root Hp Hd Hv Hn Hl) as [[r Hc]|(o' & Hc & Ho & Hcl)]; rewrite Hc; cbn [fst].
  - by apply drop_closed.
  - unfold ws_drop, ws_close. change (ws_path (handed w)) with (ws_path w). rewrite Ho. change (ws_rels (handed w)) with (ws_rels w). destruct (keep_rels_close (ws_rels w) o' (ws_path w) Hne) as [K1 K2]. unfold id in *. by apply (closed_same _ _ o').
Qed.
Lemma spent c h s w p root : LInv s -> through c = Some h -> handle h s = Some w -> Low w -> of_open (x_office s.1) !! ws_path w = Some p -> Doc (op_doc p) root -> t_value root = None -> names_ok root ->
  handle h (call_step c s).1 = None -> Closed p root (x_office (call_step c s).1.1) (ws_path w).
Proof.
  intros I Ht Hw Hl Hp Hd Hv Hok Hn. assert (ws_path w <> rl_path (ws_rels w)) as Hne.
  { pose proof (li_nodup _ I) as Hnd. unfold held in Hnd. apply handle_lookup in Hw. destruct (live_split _ _ _ Hw) as (a & b & L1 & _). rewrite L1 in Hnd.
    apply NoDup_app in Hnd as (_ & _ & Hnd). apply NoDup_app in Hnd as (_ & _ & Hnd). apply NoDup_app in Hnd as (_ & _ & Hnd). apply NoDup_app in Hnd as (Hnd & _ & _). cbn [handle_parts] in Hnd.
    apply NoDup_cons in Hnd as [Hnd _]. intros Hq. apply Hnd. rewrite Hq. left. }
  assert (forall m, call_step c s = use h m s -> False) as Huse.
  { intros m Hm. rewrite Hm in Hn. unfold use in Hn. rewrite Hw in Hn. destruct (m _) as [[w1 t1] r]. unfold handle in Hn. cbn [fst snd] in Hn. apply handle_lookup in Hw. by rewrite list_lookup_insert in Hn by (by eapply lookup_lt_Some). }
  destruct c as [| | | | | | | | | | |k r c cs|k ref cs|k r p0|k c p0|k ref p0|k|k|k]; try done; cbn [through] in Ht; injection Ht as ->; try (by exfalso; eapply Huse); clear Huse; cbn [call_step]; unfold spend; rewrite Hw; unfold Excel.on_book, x_state; cbn [fst snd].
  - by apply drop_closed.
  - unfold on_wb_office. cbn [fst snd]. pose proof (flush_closed w (x_office s.1) p root Hne Hp Hd Hv Hok Hl) as K. by destruct (ws_flush w (x_office s.1)).
  - unfold wb_delete_sheet, delete_sheet, bind, on_sheets, on_pkg, on_rels, on_office, modify. cbn [fst snd]. unfold delete_document, modify. cbn [fst snd].
    match goal with |- context [ws_flush w ?x] => pose proof (flush_closed w x p root Hne Hp Hd Hv Hok Hl) as K; destruct (ws_flush w x) as [o1 r] end. exact K.
Qed.
(** Asking for a sheet. *)
Lemma asked_office c name s : asks c name -> let st := ws_new name (wb_sheets (x_book s.1), (wb_rels (x_book s.1), x_office s.1)) in
  x_office (call_step c s).1.1 = st.1.2.2 /\ (NoPanic (call_step c s).2 -> NoPanic st.2).
Proof.
  intros Ha. assert (call_step c s = give (Excel.on_book (add_sheet name)) s) as -> by (by destruct Ha as [->|(n & -> & ->)]). cbn zeta. unfold give, Excel.on_book, add_sheet, x_state. cbn [fst snd].
  destruct (ws_new name _) as [[sh [rl o2]] [w|m|m]]; done.
Qed.
Lemma lost_own lost : lost ∈ lost_tags -> lost ⊆ own_tags.
Proof. unfold lost_tags, own_tags. rewrite !elem_of_cons, elem_of_nil. intros [->|[->|[->|[]]]]; set_solver. Qed.
Lemma opening c s q en data root ns : opens c -> ~ rels_name q -> StoredAt s q en -> part_bytes en = Ok data -> ReadsIn data root ns -> NoPanic (call_step c s).2 ->
  SameAt (x_office s.1) (x_office (call_step c s).1.1) q
  \/ exists p lost, of_open (x_office (call_step c s).1.1) !! q = Some p /\ lost ⊆ own_tags
     /\ Doc (op_doc p) (Node (t_tag root) (t_attrs root) (t_value root) (others lost root)) /\ d_ns (op_doc p) = ns.
Proof.
  intros Hopens Hnr [Hcl Har] Hb Hrd Hnp. destruct (call_asks c Hopens) as [name Ha]. destruct (asked_office c name s Ha) as [Hof Hnp']. specialize (Hnp' Hnp). clear Hnp. rewrite Hof. clear Hof.
  set (st := (wb_sheets (x_book s.1), (wb_rels (x_book s.1), x_office s.1))) in *.
  assert ((exists nm, (get_sheet_file_name name st).2 = Ok (q, nm)) \/ forall path nm, (get_sheet_file_name name st).2 = Ok (path, nm) -> q <> path) as [[nm Hf]|Hf].
  { destruct (get_sheet_file_name name st) as [st1 [[path nm]|e|e]]; [|by right..]. cbn [snd]. destruct (decide (path = q)) as [->|Hne]; [left; by eexists|]. right. intros ? ? [= <- _]. congruence. }
  2: { left. apply (ws_new_keeps name st q); [|done]. intros path nm rp H1 H2. split; [by eapply Hf|]. intros ->. apply Hnr. by eapply rels_beside_name. }
  right. rewrite ws_new_after in *. pose proof (KeepFacts.file_name_office name st) as Ho. destruct (get_sheet_file_name name st) as [[l [r o]] x]. cbn [fst snd] in *. subst x o. subst st. cbn [fst snd] in *.
  destruct (reads_in _ _ _ Hrd) as (d & Hr & Hd & _ & _ & _ & Hdn).
  unfold after_name in *. unfold bind at 1, on_pkg at 1, on_office at 1. unfold bind at 1, on_pkg at 1, on_office at 1 in Hnp'. cbn [fst snd] in *.
  pose proof (get_closed_ok ws_init q (x_office s.1) _ _ _ _ Hd Hcl Har Hb Hr) as Hok. destruct (get_xml_document ws_init q (x_office s.1)) as [o1 x] eqn:Eg. cbn [snd] in Hok. subst x.
  destruct (get_source _ _ _ _ Eg) as (p0 & Hp0 & Hsrc). assert (d = op_doc p0) as ->. { destruct Hsrc as [[H _]|(en' & data' & H1 & H2 & H3)]; congruence. }
  unfold bind at 1, lift at 1. unfold bind at 1, lift at 1 in Hnp'. destruct (rels_beside q) as [rp|m|m] eqn:Erp; [| |done].
  2: { unfold rels_beside in Erp. by destruct (rsplit_at_byte _ q) as [[[? ?] ?]|]. }
  pose proof (rels_beside_ne _ _ Erp) as Hne. unfold bind at 1, on_pkg at 1, on_office at 1. unfold bind at 1, on_pkg at 1, on_office at 1 in Hnp'. cbn [fst snd] in *.
  pose proof (keep_rels_new rp o1 q (not_eq_sym Hne)) as [K _]. unfold id in K. assert (forall o2 r, rels_new rp o1 = (o2, Ok r) -> rl_path r = rp) as Hat by (intros o2 r0 H; by apply rels_was_closed in H as [_ ?]). destruct (rels_new rp o1) as [o2 [rels|m|m]] eqn:Enew; cbn [fst snd] in *; [| |done].
  2: { exists p0, []. rewrite K. split; [done|]. split; [set_solver|]. destruct root as [g a v cs]. cbn [t_tag t_attrs t_value]. by rewrite others_none. }
  rewrite Hp0 in K. unfold on_pkg, on_office, with_doc in *. cbn [fst snd] in *. rewrite K in *.
  destruct (ws_load (op_doc p0)) as [d' [[[[cs dt] vs] dm]|m|m]] eqn:El; cbn [fst snd rmap default] in *; [| |done].
  - exists (mkOpen d' (op_ct p0) (op_ext p0) (op_ext_type p0)), own_tags. split; [cbn [set_open of_open]; apply lookup_insert|]. split; [done|]. cbn [op_doc]. change own_tags with sheet_tags. rewrite others_sheet.
    destruct root as [g a v cs0]. destruct (load_back _ _ _ _ _ _ _ _ _ _ Hd El) as (_ & _ & _ & Hd' & Hns'). split; [done|congruence].
  - destruct (load_fails _ _ _ _ Hd El) as (lost & L1 & _ & L3 & L4).
    clear Hnp'. unfold rmap, rbind. cbn [fst snd]. set (o3 := set_open _ _) in *. pose proof (keep_rels_close rels o3 q) as [K2 _]. { rewrite (Hat _ _ eq_refl). congruence. } unfold id in K2.
    eexists _, lost. split; [rewrite K2; unfold o3; cbn [set_open of_open]; apply lookup_insert|]. cbn [op_doc]. split; [by apply lost_own|]. split; [done|congruence].
Qed.
(** ** The sheet through a session *)
(** The part is stored, having been written at most [k] times, or open. *)
Definition Rests (q : string) (root : tree) (ns : gmap string string) (k : nat) (s : session) : Prop := exists n root', Endures n root root' /\ names_ok root'
  /\ ((exists e data ns', StoredAt s q e /\ part_bytes e = Ok data /\ ReadsIn data root' ns' /\ SameNs ns ns' /\ (n <= k)%nat)
   \/ (exists p, of_open (x_office s.1) !! q = Some p /\ Doc (op_doc p) root' /\ ns_ok (d_ns (op_doc p)) /\ SameNs ns (d_ns (op_doc p)) /\ (n < k)%nat
       /\ forall h w, handle h s = Some w -> q ∈ handle_parts (Some w) -> ws_path w = q)).
Lemma names_others lost g a v cs : names_ok (Node g a v cs) -> names_ok (Node g a v (others lost (Node g a v cs))).
Proof.
  intros (H1 & H2 & H3)%names_ok_node. apply names_ok_node. split; [done|]. split; [done|]. rewrite Forall_forall in H3. apply Forall_forall.
  intros t Ht. apply H3. unfold others in Ht. by apply elem_of_list_filter in Ht as [_ ?].
Qed.
Lemma asks_one c : (asking [c] = 1)%nat /\ opens c \/ (asking [c] = 0)%nat /\ ~ opens c.
Proof. destruct c; (by left) || (right; split; [done|by intros []]). Qed.
Lemma rests_step c s q root ns k : t_value root = None -> ~ rels_name q -> LInv s -> AllLow s -> NoPanic (call_step c s).2 -> Rests q root ns k s -> Rests q root ns (k + asking [c]) (call_step c s).1.
Proof.
  intros Hv Hnr I Ha Hnp (n & r1 & He & Hn & [(e & data & ns' & Hst & Hb & Hrd & Hns & Hk)|(p & Hp & Hd & Hok & Hns & Hk & Hh)]).
  - assert (forall h w, handle h s = Some w -> q ∉ handle_parts (Some w)) as Hnh. { intros h w Hw Hq. destruct (li_open _ I q) as [y Hy]; [by eapply held_handle|]. destruct Hst. congruence. }
    assert (SameAt (x_office s.1) (x_office (call_step c s).1.1) q -> Rests q root ns (k + asking [c]) (call_step c s).1) as Hsame.
    { intros [S1 S2]. exists n, r1. split; [done|]. split; [done|]. left. exists e, data, ns'. destruct Hst as [T1 T2]. split; [split; congruence|]. do 3 (split; [done|]). lia. }
    destruct (asks_one c) as [[Hone Ho]|[Hone Ho]].
    + destruct (opening c s q e data r1 ns' Ho Hnr Hst Hb Hrd Hnp) as [S|(p & lost & P1 & P2 & P3 & P4)]; [by apply Hsame|].
      destruct (reads_in _ _ _ Hrd) as (_ & _ & _ & _ & _ & Hok & _). pose proof (su_value _ _ _ He) as Hv1.
      exists n. eexists. split; [|split; [|right; exists p; split; [done|]; split; [exact P3|]]].
      * eapply endures_change; [exact He|done|done|done|]. by apply rest_lost.
      * destruct r1 as [g a v cs]. by apply names_others.
      * rewrite P4. split; [done|]. split; [done|]. split; [lia|]. intros h w' Hw' Hq. destruct (call_handles _ _ _ _ Hw') as [(w & H1 & H2 & H3)|(H1 & H2 & ->)].
        -- exfalso. apply (Hnh _ _ H1). cbn [handle_parts] in *. by rewrite <- H2, <- H3.
        -- destruct (call_step c s) as [s' x] eqn:Ec. cbn [fst snd] in *. subst x. destruct (call_new _ _ _ _ I H1 Ec Hw') as [_ O2].
           cbn [handle_parts] in Hq. rewrite !elem_of_cons, elem_of_nil in Hq. destruct Hq as [->|[->|[]]]; [done|]. exfalso. apply Hnr. by eapply rels_beside_name.
    + apply Hsame. apply call_same; [done|]. intros h w _ Hw. by eapply Hnh.
  - assert (of_open (x_office (call_step c s).1.1) !! q = Some p -> Rests q root ns (k + asking [c]) (call_step c s).1) as Hstill.
    { intros Hp'. exists n, r1. split; [done|]. split; [done|]. right. exists p. do 4 (split; [done|]). split; [lia|]. intros h w' Hw' Hq. destruct (call_handles _ _ _ _ Hw') as [(w & H1 & H2 & H3)|(H1 & H2 & ->)].
      - rewrite H2. apply (Hh h); [done|]. cbn [handle_parts] in *. by rewrite <- H2, <- H3.
      - destruct (call_step c s) as [s' x] eqn:Ec. cbn [fst snd] in *. subst x. destruct (call_new _ _ _ _ I H1 Ec Hw') as [O1 _]. by rewrite (op_closed _ _ _ O1 q Hq) in Hp. }
    assert ((exists h w, through c = Some h /\ handle h s = Some w /\ q ∈ handle_parts (Some w)) \/ ~ (exists h w, through c = Some h /\ handle h s = Some w /\ q ∈ handle_parts (Some w))) as [(h & w & Ht & Hw & Hq)|Hno].
    { destruct (through c) as [h|]; [|right; naive_solver]. destruct (handle h s) as [w|] eqn:Ew; [|right; naive_solver]. destruct (decide (q ∈ handle_parts (Some w))); [left; by exists h, w|right; naive_solver]. }
    + pose proof (Hh h w Hw Hq) as Hwq. rewrite <- Hwq in *. destruct (handle h (call_step c s).1) as [w'|] eqn:Ew.
      * apply Hstill. by destruct (held_still c s h w w' p I Hw Ew Hp).
      * destruct (spent c h s w p r1 I Ht Hw (Ha _ _ Hw) Hp Hd (su_value _ _ _ He) Hn Ew) as [Hcl|(e & r2 & C1 & C2 & C3 & C4 & C5 & C6 & C7 & C8 & C9)]; [by apply Hstill|].
        exists (S n), (reread r2). split; [|split; [by apply RelDocFacts.names_ok_reread|]].
        -- apply endures_reread; [done|]. by eapply endures_change.
        -- left. eexists e, _, (written_ns (d_ns (op_doc p))). split; [by split|]. split; [exact C3|]. split; [by apply reads_written|]. split; [by apply same_written|lia].
    + apply Hstill. destruct (call_around c s I) as [_ _ _ A _]. apply A; [|done]. intros h w Ht Hw Hq. apply Hno. by exists h, w.
Qed.
Lemma rests_calls cs : forall s s' q root ns k, t_value root = None -> ~ rels_name q -> LInv s -> AllLow s -> Rests q root ns k s -> calls cs s = Some s' -> LInv s' /\ Rests q root ns (k + asking cs) s'.
Proof.
  induction cs as [|c cs IH]; intros s s' q root ns k Hv Hnr I Ha Hr Hc.
  - injection Hc as <-. split; [done|]. by rewrite Nat.add_0_r.
  - apply calls_cons in Hc as [Hn Hc]. destruct (call_effect c s I Hn) as [I1 _].
    assert (k + asking (c :: cs) = (k + asking [c]) + asking cs)%nat as ->. { unfold asking. cbn [List.filter]. destruct c; cbn [length]; lia. }
    apply (IH (call_step c s).1); [done|done|done|by apply all_low_step|by apply rests_step|done].
Qed.
Lemma rests_saved file fs0 l0 q data0 root ns x0 cs s t f path fs tr fs' :
  Stored fs0 file l0 -> (q, data0) ∈ l0 -> q <> content_types_name -> ~ rels_name q -> ReadsIn data0 root ns -> t_value root = None -> others own_tags root <> [] ->
  excel_new (Some file) fs0 = Ok x0 -> of_open (x_office x0) !! q = None -> calls cs (x0, []) = Some s -> excel_save t f path s.1 fs = (tr, Ok tt) -> last tr = Some fs' ->
  exists l b root' ns' n, Stored fs' path l /\ (forall b', (q, b') ∈ l <-> b' = b) /\ ReadsIn b root' ns' /\ SameNs ns ns' /\ (n <= asking cs)%nat /\ Endures n root root'.
Proof.
  intros Hst Hin Hct Hnr Hrd Hv Ho Hx Hcl Hcs Hs Hl.
  destruct (new_linv _ _ _ Hx) as (I0 & o & Hof & _ & Hopen). destruct (reopened_file _ _ _ _ Hst Hof) as (_ & Hparts & _).
  destruct (Hparts _ _ Hct Hin) as (en & He & Hb). destruct (Hopen _ _ He) as [[H1 H2]|[[p' H1]|H1]]; [|congruence|done].
  destruct (rests_calls cs (x0, []) s q root ns 0) as [I (n & r1 & He1 & Hn1 & [(e & data & ns' & Hst1 & Hb1 & Hrd1 & Hns & Hk)|(p & Hp & Hd & Hok & Hns & Hk & Hh)])]; [done|done|done|by intros h w ?| |done|..].
  { exists 0%nat, root. split; [by apply endures_refl|]. destruct (reads_in _ _ _ Hrd) as (_ & _ & _ & Hn & _). split; [done|]. left. exists en, data0, ns. split; [by split|]. do 2 (split; [done|]). split; [by intros k Hk|lia]. }
  - destruct (flow_saved t f path s fs tr fs' I Hs Hl) as (l & Hsto & Hpar & _). exists l, data, r1, ns', n. split; [done|]. split; [by apply (Hpar _ e)|]. done.
  - assert (q ∉ held (x0, [])) as Hnh. { intros H. destruct (li_open _ I0 q H) as [y Hy]. cbn [fst] in Hy. congruence. }
    destruct (own_stays _ _ _ I0 Hcs) as [Hown _]. destruct (docs_stay _ _ _ I0 Hcs) as (D1 & D2 & _).
    destruct (open_saved t f path s.1 fs tr fs' q p) as (_ & l & data & S1 & S2 & S3); [| |done|done|done|].
    { rewrite Hown. intros H. apply Hnh. unfold held. rewrite !elem_of_app. tauto. }
    { unfold DocsIn. rewrite D1, D2. intros H. apply Hnh. unfold held. rewrite !elem_of_app. unfold DocsIn. tauto. }
    rewrite (Doc_write _ _ Hd) in S2. injection S2 as <-. eexists l, _, (reread r1), (written_ns (d_ns (op_doc p))), (S n). split; [done|]. split; [exact S3|]. split; [|split; [by apply same_written|split; [lia|by apply endures_reread]]].
    apply reads_written; [done|done|]. by eapply endures_children.
Qed.
(** ** Any number of files *)
Lemma endures_others n root r : t_value root = None -> others own_tags root <> [] -> Endures n root r -> others own_tags r <> [].
Proof.
  intros Hv Ho [_ _ _ [Hp _]] Hc. rewrite Hc in Hp. apply Permutation_nil in Hp. revert Hp. clear -Hv Ho. induction n as [|n IH]; [done|].
  rewrite again_more. pose proof (again_value n root Hv) as Hv'. destruct (again n root) as [g a v cs]. cbn in Hv'. subst v. rewrite others_reread. intros H. apply IH. by apply map_eq_nil in H.
Qed.
Lemma same_trans ns1 ns2 ns3 : SameNs ns1 ns2 -> SameNs ns2 ns3 -> SameNs ns1 ns3.
Proof. intros H1 H2 k Hk. by rewrite (H2 k Hk), (H1 k Hk). Qed.
Lemma passes_kept q a css b : Passes q a css b -> forall l0 data0 root ns, Stored a.2 a.1 l0 -> (q, data0) ∈ l0 -> q <> content_types_name -> ~ rels_name q -> ReadsIn data0 root ns -> t_value root = None -> others own_tags root <> [] ->
  exists l data root' ns' n, Stored b.2 b.1 l /\ (q, data) ∈ l /\ ReadsIn data root' ns' /\ SameNs ns ns' /\ (n <= asking (concat css))%nat /\ Endures n root root'.
Proof.
  induction 1 as [p|file fs0 x0 cs s t f path fs tr fs' rest p Hx Hcl Hcs Hs Hl _ IH]; intros l0 data0 root ns Hst Hin Hct Hnr Hrd Hv Ho.
  - exists l0, data0, root, ns, 0%nat. do 3 (split; [done|]). split; [by intros k Hk|]. split; [lia|by apply endures_refl].
  - cbn [fst snd] in *. destruct (rests_saved _ _ _ _ _ _ _ _ _ _ _ _ _ _ _ _ Hst Hin Hct Hnr Hrd Hv Ho Hx Hcl Hcs Hs Hl) as (l & b & r1 & ns1 & n & S1 & S2 & S3 & S4 & S5 & S6).
    destruct (IH l b r1 ns1 S1) as (l2 & b2 & r2 & ns2 & m & T1 & T2 & T3 & T4 & T5 & T6); [by apply S2|done|done|done|by apply (su_value _ _ _ S6)|by eapply endures_others|].
    exists l2, b2, r2, ns2, (m + n)%nat. do 3 (split; [done|]). split; [by eapply same_trans|]. split; [|by eapply endures_trans].
    cbn [concat]. unfold asking in *. rewrite List.filter_app, app_length. lia.
Qed.
(** ** Elements that writing does not change *)
Lemma others_again tags n root : t_value root = None -> Forall Lasting (others tags root) -> others tags (again n root) = others tags root.
Proof.
  intros Hv Hl. induction n as [|n IH]; [done|]. rewrite again_more. pose proof (again_value n root Hv) as Hv'. transitivity (others tags (again n root)); [|exact IH]. rewrite <- IH in Hl. clear IH. destruct (again n root) as [g a v cs]. cbn in Hv'. subst v.
  rewrite others_reread. induction Hl as [|t l Ht _ IHl]; [done|]. cbn [map]. by rewrite IHl, steady_reread.
Qed.
Lemma lasting_kept n root root' : t_value root = None -> Forall Lasting (others own_tags root) -> Endures n root root' -> RestKept own_tags root root'.
Proof.
  intros Hv Hl [_ _ _ [H1 H2]]. pose proof (others_again own_tags n root Hv Hl) as Ho. split; [by rewrite <- Ho|]. intros tag Ht. by rewrite H2, <- !(filter_others own_tags), Ho.
Qed.
Lemma lasting_attrs n root root' a : t_attrs root = Some a -> map_Forall (fun _ x => plain_text x) a -> Endures n root root' -> t_attrs root' = Some a.
Proof.
  intros Ha Hp [_ H _ _]. rewrite H. clear H. induction n as [|n IH]; [done|]. rewrite again_more. destruct (again n root) as [g a' v cs]. cbn in IH. subst a'.
  assert (spec_escape <$> a = a) as Hm. { apply map_eq. intros k. rewrite lookup_fmap. destruct (a !! k) as [x|] eqn:E0; [|done]. cbn. f_equal. apply XmlNsFacts.spec_escape_fixed. by apply (Hp k). }
  cbn [reread]. unfold default, from_option, id. rewrite Hm. by destruct v.
Qed.
End with_env.
