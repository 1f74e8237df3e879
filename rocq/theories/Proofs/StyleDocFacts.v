(** The style part: writing and reading back. *)
From Verif.Model Require Import Style.
From Verif.Spec Require Import RelSpec XmlSpec XmlRepr PackageSpec PartSpec ColumnSpec SheetSpec StyleSpec.
From Verif.Proofs Require Import BaseFacts ConverterFacts XmlWriteFacts XmlReadFacts XmlTreeFacts XmlHistFacts XmlNsFacts DocBuild PartFacts
  PackageFacts TypesFacts RelDocFacts ReadAnyFacts SmallPartFacts AttrFacts SheetFacts SheetDocFacts.
Open Scope N_scope.

Section with_env.
Context `{E : Env}.
Ltac keys := lazy; reflexivity.
Ltac found := lazy [find_attr List.find String.eqb Ascii.eqb Bool.eqb fst snd]; reflexivity.

(** ** Entries *)
Lemma rmapM_map {A B C} (f : B -> res C) (g : A -> B) (h : A -> C) l : Forall (fun x => f (g x) = Ok (h x)) l -> rmapM f (map g l) = Ok (map h l).
Proof. induction 1 as [|x l Hx _ IH]; [done|]. cbn [map rmapM]. rewrite Hx, IH. done. Qed.
Lemma node_ok g a cs : is_valid_xml_name g = true -> attrs_ok a -> Forall names_ok cs -> names_ok (Node g a None cs).
Proof. intros. by apply names_ok_node. Qed.
Lemma count_ok {A} (l : list A) : attrs_ok (count_attr l).
Proof. by apply attrs_of_ok. Qed.

Lemma num_tree_ok n : names_ok (num_tree n). Proof. by apply leaf_ok; vm_compute. Qed.
Lemma num_tree_back n : nf_id n <= usize_max -> num_of_tree (reread (num_tree n)) = Ok (Some (back_num n)).
Proof.
  intros Hn. unfold num_of_tree, num_tree, leaf. cbn [reread t_attrs default]. change (@id (gmap string string)) with (fun x : gmap string string => x). cbv beta.
  change ((spec_escape <$> attrs_of [("numFmtId", show_N (nf_id n)); ("formatCode", nf_code n)]) !! "numFmtId") with (Some (spec_escape (show_N (nf_id n)))).
  change ((spec_escape <$> attrs_of [("numFmtId", show_N (nf_id n)); ("formatCode", nf_code n)]) !! "formatCode") with (Some (spec_escape (nf_code n))).
  cbn [of_option rbind]. by rewrite num_back.
Qed.
Lemma color_tree_ok tag c : is_valid_xml_name tag = true -> names_ok (color_tree tag c).
Proof. intros Ht. apply leaf_ok; [done|]. by destruct (cl_type c); vm_compute. Qed.
Lemma color_attrs_back tag c : match t_attrs (reread (color_tree tag c)) with Some a => color_of_attrs a | None => None end = Some (back_color c).
Proof. by destruct c as [[] v]. Qed.
Lemma color_tree_back tag c : color_of_tree (reread (color_tree tag c)) = Some (back_color c).
Proof. by destruct c as [[] v]. Qed.
Lemma val_back tag v : attr_of (reread (val_tree tag v)) "val" = Some (spec_escape v).
Proof. done. Qed.
Lemma val_tree_ok tag v : is_valid_xml_name tag = true -> names_ok (val_tree tag v).
Proof. intros. by apply leaf_ok. Qed.

Lemma child_sz f n : n <= u8_max -> font_child f (reread (val_tree "sz" (show_N n))) = Ok (set_font_size f n).
Proof.
  intros Hn. change (opt_set (Some (spec_escape (show_N n))) (parse_uint u8_max) f (set_font_size f) = Ok (set_font_size f n)).
  unfold opt_set. by rewrite num_back.
Qed.
Lemma child_family f n : n <= u32_max -> font_child f (reread (val_tree "family" (show_N n))) = Ok (set_font_family f n).
Proof.
  intros Hn. change (opt_set (Some (spec_escape (show_N n))) (parse_uint u32_max) f (set_font_family f) = Ok (set_font_family f n)).
  unfold opt_set. by rewrite num_back.
Qed.
Lemma child_name f s : font_child f (reread (val_tree "name" s)) = Ok (set_font_name f (spec_escape s)).
Proof. done. Qed.
Lemma child_scheme f s : font_child f (reread (val_tree "scheme" (scheme_string s))) = Ok (set_font_scheme f s).
Proof. by destruct s. Qed.
Lemma child_color f c : font_child f (reread (color_tree "color" c)) = Ok (set_font_color f (back_color c)).
Proof. by destruct c as [[] v]. Qed.
Lemma font_children_app l1 : forall f l2, font_children f (l1 ++ l2) = rbind (font_children f l1) (fun f => font_children f l2).
Proof. induction l1 as [|t l1 IH]; intros f l2; [done|]. cbn [app font_children]. destruct (font_child f t); cbn [rbind]; [apply IH|done|done]. Qed.
Lemma font_back f : fo_size f <= u8_max -> fo_family f <= u32_max -> font_of_tree (reread (font_tree f)) = Ok (back_font f).
Proof.
  intros Hs Hf. unfold font_of_tree, font_tree. cbn [reread t_children].
  rewrite !map_app, font_children_app.
  assert (font_children font_default (map reread (when (fo_bold f) (Node "b" None None [])))
    = Ok (if fo_bold f then set_font_bold font_default else font_default)) as -> by (by destruct (fo_bold f)).
  cbn [rbind]. set (f1 := if fo_bold f then _ else _). rewrite font_children_app.
  assert (font_children f1 (map reread (when (fo_italic f) (Node "i" None None []))) = Ok f1) as ->.
  { unfold f1. by destruct (fo_italic f), (fo_bold f). }
  cbn [rbind]. rewrite font_children_app. assert (font_children f1 (map reread (when (fo_underline f) (Node "u" None None []))) = Ok f1) as ->.
  { unfold f1. by destruct (fo_underline f), (fo_bold f). }
  cbn [rbind]. rewrite font_children_app. assert (font_children f1 (map reread (when (fo_double f) (val_tree "u" "double")))
    = Ok (if fo_double f then set_font_u f1 true else f1)) as -> by (by destruct (fo_double f)).
  cbn [rbind map font_children]. rewrite child_sz by done. cbn [rbind]. rewrite child_color. cbn [rbind]. rewrite child_name.
  cbn [rbind]. rewrite child_family by done. cbn [rbind]. rewrite child_scheme. cbn [rbind].
  unfold f1, back_font. by destruct (fo_bold f), (fo_double f).
Qed.
Lemma when_ok b t : names_ok t -> Forall names_ok (when b t).
Proof. destruct b; [by repeat constructor|constructor]. Qed.
Lemma bare_ok g : is_valid_xml_name g = true -> names_ok (Node g None None []).
Proof. intros. apply node_ok; [done|done|constructor]. Qed.
Lemma font_tree_ok f : names_ok (font_tree f).
Proof.
  apply node_ok; [done|done|]. rewrite !Forall_app.
  split_and!; try (apply when_ok; first [by apply bare_ok|by apply val_tree_ok]).
  repeat apply List.Forall_cons; try (by apply val_tree_ok); [by apply color_tree_ok|constructor].
Qed.
Lemma color_trees_ok tag o : is_valid_xml_name tag = true -> Forall names_ok (color_trees tag o).
Proof. intros. destruct o; [|constructor]. apply Forall_singleton. by apply color_tree_ok. Qed.
Lemma fill_tree_ok f : names_ok (fill_tree f).
Proof.
  apply node_ok; [done|done|]. apply Forall_singleton, node_ok; [done|by apply attrs_of_ok|].
  apply Forall_app. split; by apply color_trees_ok.
Qed.
Lemma fill_back f : fill_of_tree (reread (fill_tree f)) = Ok (back_fill f).
Proof.
  destruct f as [p bg fg]. unfold fill_of_tree, fill_tree. cbn [reread t_children map first_child fi_pattern fi_bg fi_fg].
  assert (forall cs, attr_of (Node "patternFill" (Some (spec_escape <$> default ∅ (Some (attrs_of [("patternType", pattern_string p)])))) None cs) "patternType"
    = Some (pattern_string p)) as Ha by (by destruct p).
  rewrite Ha. assert (pattern_enum (pattern_string p) = p) as -> by (by destruct p). unfold back_fill. cbn [fi_pattern fi_bg fi_fg t_children].
  destruct fg as [[[] v]|], bg as [[[] v']|]; done.
Qed.
Lemma side_tree_ok tag b : is_valid_xml_name tag = true -> names_ok (side_tree tag b).
Proof.
  intros Ht. unfold side_tree. destruct (is_none_line (bd_line b)); [by apply bare_ok|].
  apply node_ok; [done|by apply attrs_of_ok|by apply color_trees_ok].
Qed.
Lemma side_back tag b : side_of_tree side_default (reread (side_tree tag b)) = back_side b.
Proof. destruct b as [c l]. unfold side_tree, back_side. cbn [bd_color bd_line]. destruct l; try done; by destruct c as [[[] v]|]. Qed.
Lemma border_tree_ok b : names_ok (border_tree b).
Proof. apply node_ok; [done|done|]. repeat apply List.Forall_cons; try (by apply side_tree_ok). constructor. Qed.
Lemma side_tag tag b : t_tag (reread (side_tree tag b)) = tag.
Proof. unfold side_tree. by destruct (is_none_line (bd_line b)). Qed.
Lemma border_back b : border_of_tree (reread (border_tree b)) = Ok (back_border b).
Proof.
  unfold border_of_tree, border_tree. cbn [reread t_children map border_children].
  unfold border_child. rewrite !side_tag. cbn [rbind]. cbn. by rewrite !side_back.
Qed.
Lemma align_tree_ok x : names_ok (align_tree x).
Proof. apply node_ok; [done| |constructor]. by apply opt_attrs_ok. Qed.
Lemma xf_tree_ok w x : names_ok (xf_tree w x).
Proof. apply node_ok; [done|by apply opt_attrs_ok|]. apply when_ok, align_tree_ok. Qed.
Lemma num16_back l k n : fresh_keys l = true -> find_attr l k = Some (show_N n) -> n <= u16_max ->
  rmap (default 0) (num_attr u16_max (spec_escape <$> opt_attrs l) k) = Ok n.
Proof.
  intros Hl Hf Hn. unfold num_attr. rewrite (parse_attr_back _ show_N l k (Some n) Hl); [done|done|].
  intros x [= <-]. by apply num_back.
Qed.
Lemma flag_back l k (b : bool) : fresh_keys l = true -> find_attr l k = flag_if b -> flag_attr (spec_escape <$> opt_attrs l) k = b.
Proof. intros Hl Hf. unfold flag_attr. rewrite opt_attrs_escaped, Hf by done. by destruct b. Qed.
Lemma enum_back {A} (enum : string -> A) (l : list (string * option string)) k (o : option string) (d r : A) : fresh_keys l = true -> find_attr l k = o ->
  match o with Some s => enum (spec_escape s) | None => d end = r -> default d (enum <$> (spec_escape <$> opt_attrs l) !! k) = r.
Proof. intros Hl Hf Hr. rewrite opt_attrs_escaped, Hf by done. by destruct o. Qed.
Lemma xf_back w x : xf_typed x -> xf_of_tree (reread (xf_tree w x)) = Ok (if w then x else set_format x 0).
Proof.
  intros (T1 & T2 & T3 & T4 & T5). unfold xf_of_tree, xf_tree. cbn [reread t_attrs default].
  change (@id (gmap string string)) with (fun x : gmap string string => x). cbv beta.
  set (l := [("numFmtId", _); _; _; _; _; _; _; _; _; _; _]).
  assert (fresh_keys l = true) as Hl by keys.
  rewrite (num16_back l "numFmtId" (xf_num x)); [|done|found|done].
  rewrite (num16_back l "fontId" (xf_font x)); [|done|found|done].
  rewrite (num16_back l "fillId" (xf_fill x)); [|done|found|done].
  rewrite (num16_back l "borderId" (xf_border x)); [|done|found|done]. cbn [rbind].
  assert (rmap (default 0) (num_attr u16_max (spec_escape <$> opt_attrs l) "xfId") = Ok (if w then xf_format x else 0)) as ->.
  { destruct w; [apply num16_back; [done|found|done]|]. unfold num_attr, parse_attr. by rewrite opt_attrs_escaped. }
  cbn [rbind].
  rewrite (flag_back l "applyFont" (xf_app_font x)); [|done|found].
  rewrite (flag_back l "applyAlignment" (xf_app_align x)); [|done|found].
  rewrite (flag_back l "applyFill" (xf_app_fill x)); [|done|found].
  rewrite (flag_back l "applyBorder" (xf_app_border x)); [|done|found].
  rewrite (flag_back l "applyNumberFormat" (xf_app_num x)); [|done|found].
  rewrite (flag_back l "applyProtection" (xf_app_prot x)); [|done|found].
  generalize (Some (spec_escape <$> opt_attrs l)) as oa. clear l Hl. intros oa.
  assert (forall a : gmap string string, a = default ∅ (first_child (Node "xf" oa None (map reread (when (xf_wrap x || not_vnone (xf_valign x) || not_hnone (xf_halign x)) (align_tree x)))) ≫= t_attrs) ->
    flag_attr a "wrapText" = xf_wrap x /\ default HNone (halign_enum <$> a !! "horizontal") = xf_halign x
    /\ default VNone (valign_enum <$> a !! "vertical") = xf_valign x) as Hal.
  { intros a ->. destruct (xf_wrap x || not_vnone (xf_valign x) || not_hnone (xf_halign x)) eqn:Hw.
    - cbn [when map first_child t_children mbind option_bind align_tree reread t_attrs default].
      change (@id (gmap string string)) with (fun x : gmap string string => x). cbv beta.
      set (l := [("wrapText", _); _; _]). assert (fresh_keys l = true) as Hl by keys. split_and!.
      + apply flag_back; [done|found].
      + eapply enum_back; [done|found|]. by destruct (xf_halign x).
      + eapply enum_back; [done|found|]. by destruct (xf_valign x).
    - apply orb_false_iff in Hw as [[Hw Hv]%orb_false_iff Hh]. rewrite Hw. by destruct (xf_valign x), (xf_halign x). }
  match goal with |- context [flag_attr ?a "wrapText"] => destruct (Hal a eq_refl) as (-> & -> & ->) end.
  destruct x, w; done.
Qed.

(** ** Tables *)
Lemma nums_tree_ok l : names_ok (nums_tree l).
Proof. apply node_ok; [done|apply count_ok|apply Forall_map_all, num_tree_ok]. Qed.
Lemma fonts_tree_ok l : names_ok (fonts_tree l).
Proof. apply node_ok; [done|apply count_ok|apply Forall_map_all, font_tree_ok]. Qed.
Lemma fills_tree_ok l : names_ok (fills_tree l).
Proof. apply node_ok; [done|apply count_ok|apply Forall_map_all, fill_tree_ok]. Qed.
Lemma borders_tree_ok l : names_ok (borders_tree l).
Proof. apply node_ok; [done|apply count_ok|apply Forall_map_all, border_tree_ok]. Qed.
Lemma xfs_tree_ok w l : names_ok (xfs_tree w l).
Proof. apply node_ok; [by destruct w|apply count_ok|apply Forall_map_all, xf_tree_ok]. Qed.
Lemma table_back {A B} (f : tree -> res B) (g : A -> tree) (h : A -> B) tag l : Forall (fun x => f (reread (g x)) = Ok (h x)) l ->
  table_of f (some_list [reread (Node tag (count_attr l) None (map g l))]) = Ok (map h l).
Proof. intros Hf. unfold table_of. cbn. rewrite map_map. by apply (rmapM_map f (fun x => reread (g x))). Qed.

(** ** The document *)
Definition style_rest (cs : list tree) : list tree :=
  untagged "cellXfs" (untagged "cellStyleXfs" (untagged "borders" (untagged "fills" (untagged "fonts" (untagged "numFmts" cs))))).
Lemma style_load_doc d g a v cs nums fonts fills borders sxfs xfs : Doc d (Node g a v cs) ->
  table_of num_of_tree (some_list (tagged "numFmts" cs)) = Ok nums -> table_of font_of_tree (some_list (tagged "fonts" cs)) = Ok fonts ->
  table_of fill_of_tree (some_list (tagged "fills" cs)) = Ok fills -> table_of border_of_tree (some_list (tagged "borders" cs)) = Ok borders ->
  table_of xf_of_tree (some_list (tagged "cellStyleXfs" cs)) = Ok sxfs -> table_of xf_of_tree (some_list (tagged "cellXfs" cs)) = Ok xfs ->
  exists d', load_styles d = (d', Ok (mkStyles (omap id nums) fonts fills borders sxfs xfs)) /\ Doc d' (Node g a v (style_rest cs)) /\ d_ns d' = d_ns d.
Proof.
  intros Hd H1 H2 H3 H4 H5 H6.
  destruct (Doc_take_tagged d g a v cs "numFmts" Hd) as (d1 & T1 & D1 & S1).
  destruct (Doc_take_tagged d1 _ _ _ _ "fonts" D1) as (d2 & T2 & D2 & S2).
  destruct (Doc_take_tagged d2 _ _ _ _ "fills" D2) as (d3 & T3 & D3 & S3).
  destruct (Doc_take_tagged d3 _ _ _ _ "borders" D3) as (d4 & T4 & D4 & S4).
  destruct (Doc_take_tagged d4 _ _ _ _ "cellStyleXfs" D4) as (d5 & T5 & D5 & S5).
  destruct (Doc_take_tagged d5 _ _ _ _ "cellXfs" D5) as (d6 & T6 & D6 & S6).
  rewrite !tagged_untagged in T2 by done.
  rewrite !tagged_untagged in T3 by done.
  rewrite !tagged_untagged in T4 by done.
  rewrite !tagged_untagged in T5 by done.
  rewrite !tagged_untagged in T6 by done.
  exists d6. split; [|split; [done|congruence]].
  unfold load_styles, bind, lift. rewrite T1, H1. cbn [rmap rbind]. rewrite T2, H2, T3, H3, T4, H4, T5, H5, T6, H6. done.
Qed.
Lemma ins_after_here find t l1 x l2 : t_tag x = find -> Forall (fun y => t_tag y <> find) l2 -> ins_after find t (l1 ++ x :: l2) = l1 ++ x :: t :: l2.
Proof.
  intros Hx Hl. unfold ins_after.
  assert (ins_after_found find t (x :: l2) = Some (x :: t :: l2)) as Hs.
  { cbn [ins_after_found]. assert (ins_after_found find t l2 = None) as ->.
    { induction Hl as [|y l2 Hy _ IH]; [done|]. cbn [ins_after_found]. rewrite IH. rewrite (proj2 (seqb_false _ _)) by done. done. }
    by rewrite (proj2 (seqb_true _ _)). }
  assert (ins_after_found find t (l1 ++ x :: l2) = Some (l1 ++ x :: t :: l2)) as ->; [|done].
  induction l1 as [|y l1 IH]; [done|]. cbn [app ins_after_found]. by rewrite IH.
Qed.
Definition style_trees (st : styles) : list tree :=
  [nums_tree (st_nums st); fonts_tree (st_fonts st); fills_tree (st_fills st); borders_tree (st_borders st);
   xfs_tree false (st_style_xfs st); xfs_tree true (st_cell_xfs st)].
Lemma style_trees_ok st : Forall names_ok (style_trees st).
Proof.
  apply List.Forall_cons; [apply nums_tree_ok|]. apply List.Forall_cons; [apply fonts_tree_ok|]. apply List.Forall_cons; [apply fills_tree_ok|].
  apply List.Forall_cons; [apply borders_tree_ok|]. apply List.Forall_cons; [apply xfs_tree_ok|]. apply List.Forall_cons; [apply xfs_tree_ok|]. constructor.
Qed.
Lemma Doc_insert_first d g a v cs t : Doc d (Node g a v cs) -> names_ok t ->
  exists d', insert_tree_first t d = (d', Ok tt) /\ Doc d' (Node g a v (t :: cs)) /\ d_ns d' = d_ns d.
Proof.
  intros Hd Ht. apply (Doc_insert d g a v cs t (place_at (t_tag t) 0)); [done|done|].
  intros id l <-. exists [], l. done.
Qed.
Lemma not_style_tag tag cs : Forall (fun t => t_tag t ∉ style_tags) cs -> tag ∈ style_tags -> Forall (fun t => t_tag t <> tag) cs.
Proof. intros Hf Ht. eapply Forall_impl; [exact Hf|]. intros t Hn Heq. apply Hn. cbn beta in *. by rewrite Heq. Qed.
Lemma save_styles_doc d g a v cs st : Doc d (Node g a v cs) -> Forall (fun t => t_tag t ∉ style_tags) cs ->
  exists d', save_styles st d = (d', Ok tt) /\ Doc d' (Node g a v (style_trees st ++ cs)) /\ d_ns d' = d_ns d.
Proof.
  intros Hd Hcs.
  assert (forall tag, tag ∈ style_tags -> Forall (fun t => t_tag t <> tag) cs) as Hn by (intros; by apply not_style_tag).
  set (tn := nums_tree (st_nums st)). set (tf := fonts_tree (st_fonts st)). set (ti := fills_tree (st_fills st)).
  set (tb := borders_tree (st_borders st)). set (ts := xfs_tree false (st_style_xfs st)). set (tc := xfs_tree true (st_cell_xfs st)).
  destruct (Doc_insert_first d _ _ _ _ tn Hd (nums_tree_ok _)) as (d1 & T1 & D1 & S1).
  destruct (Doc_insert_after d1 _ _ _ _ "numFmts" tf D1 (fonts_tree_ok _)) as (d2 & T2 & D2 & S2).
  pose proof (ins_after_here "numFmts" tf [] tn cs eq_refl (Hn _ ltac:(by left))) as Q2. cbn [app] in Q2. rewrite Q2 in D2.
  destruct (Doc_insert_after d2 _ _ _ _ "fonts" ti D2 (fills_tree_ok _)) as (d3 & T3 & D3 & S3).
  pose proof (ins_after_here "fonts" ti [tn] tf cs eq_refl (Hn _ ltac:(right; by left))) as Q3. cbn [app] in Q3. rewrite Q3 in D3.
  destruct (Doc_insert_after d3 _ _ _ _ "fills" tb D3 (borders_tree_ok _)) as (d4 & T4 & D4 & S4).
  pose proof (ins_after_here "fills" tb [tn; tf] ti cs eq_refl (Hn _ ltac:(do 2 right; by left))) as Q4. cbn [app] in Q4. rewrite Q4 in D4.
  destruct (Doc_insert_after d4 _ _ _ _ "borders" tc D4 (xfs_tree_ok _ _)) as (d5 & T5 & D5 & S5).
  pose proof (ins_after_here "borders" tc [tn; tf; ti] tb cs eq_refl (Hn _ ltac:(do 3 right; by left))) as Q5. cbn [app] in Q5. rewrite Q5 in D5.
  destruct (Doc_insert_after d5 _ _ _ _ "borders" ts D5 (xfs_tree_ok _ _)) as (d6 & T6 & D6 & S6).
  assert (Forall (fun y => t_tag y <> "borders") (tc :: cs)) as Hn6.
  { apply List.Forall_cons; [done|]. apply Hn. do 3 right. by left. }
  pose proof (ins_after_here "borders" ts [tn; tf; ti] tb (tc :: cs) eq_refl Hn6) as Q6. cbn [app] in Q6. rewrite Q6 in D6.
  exists d6. split; [|split; [exact D6|congruence]].
  unfold save_styles, bind. fold tn tf ti tb ts tc. by rewrite T1, T2, T3, T4, T5, T6.
Qed.
Lemma untagged_all tag cs : Forall (fun t => t_tag t <> tag) cs -> untagged tag cs = cs.
Proof.
  induction 1 as [|t cs Ht _ IH]; [done|]. unfold untagged in *. cbn [List.filter].
  rewrite (proj2 (seqb_false _ _)) by done. cbn [negb]. by rewrite IH.
Qed.
Lemma style_rest_back st cs : Forall (fun t => t_tag t ∉ style_tags) cs ->
  style_rest (map reread (style_trees st ++ cs)) = map reread cs.
Proof.
  intros Hcs. rewrite map_app. unfold style_rest, style_trees. cbn [map app].
  assert (forall tag, tag ∈ style_tags -> untagged tag (map reread cs) = map reread cs) as Hu.
  { intros tag Ht. apply untagged_all. rewrite Forall_map. eapply Forall_impl; [exact (not_style_tag _ _ Hcs Ht)|].
    intros t. cbn beta. by rewrite tag_reread. }
  unfold untagged in *. cbn [List.filter t_tag reread nums_tree fonts_tree fills_tree borders_tree xfs_tree].
  do 6 (cbn [List.filter t_tag seqb String.eqb Ascii.eqb Bool.eqb negb]).
  repeat (rewrite Hu; [|by unfold style_tags; rewrite !elem_of_cons; tauto]). done.
Qed.
Lemma StyleOpen_Doc o path rest : StyleOpen o path rest <-> exists p t, of_open o !! path = Some p /\ Doc (op_doc p) t
  /\ names_ok t /\ ns_ok (d_ns (op_doc p)) /\ t_value t = None /\ t_children t = rest /\ Forall (fun t => t_tag t ∉ style_tags) rest.
Proof.
  split.
  - intros (p & it & Hp & Hr & Hb & H1 & H2 & H3 & H4 & H5). exists p, (erase it). split; [done|]. split; [by exists it|]. done.
  - intros (p & t & Hp & (it & [Hr Hb] & <-) & H1 & H2 & H3 & H4). exists p, it. done.
Qed.
Lemma styles_load_back d g a v cs st : Doc d (Node g a v (map reread (style_trees st ++ cs))) -> styles_typed st ->
  Forall (fun t => t_tag t ∉ style_tags) cs ->
  exists d', load_styles d = (d', Ok (back_styles st)) /\ Doc d' (Node g a v (map reread cs)) /\ d_ns d' = d_ns d.
Proof.
  intros Hd (Y1 & Y2 & Y3 & Y4) Hcs.
  assert (forall tag, tag ∈ style_tags -> tagged tag (map reread cs) = []) as Hu.
  { intros tag Ht. unfold tagged. apply filter_none. intros t Hin. apply elem_of_list_fmap in Hin as (t0 & -> & Hin).
    apply seqb_false. rewrite tag_reread. pose proof (not_style_tag _ _ Hcs Ht) as Hf. rewrite Forall_forall in Hf. by apply Hf. }
  assert (forall tag, tag ∈ style_tags -> tagged tag (map reread (style_trees st ++ cs)) = tagged tag (map reread (style_trees st))) as Hv.
  { intros tag Ht. rewrite map_app. unfold tagged in *. rewrite List.filter_app, Hu by done. by rewrite app_nil_r. }
  rewrite <- (style_rest_back st cs Hcs).
  replace (back_styles st) with (mkStyles (omap id (map (fun n => Some (back_num n)) (st_nums st))) (map back_font (st_fonts st))
    (map back_fill (st_fills st)) (map back_border (st_borders st)) (map (fun x => set_format x 0) (st_style_xfs st)) (map (fun x => x) (st_cell_xfs st))).
  2:{ unfold back_styles. rewrite map_id. f_equal. by apply omap_map_some. }
  apply style_load_doc; [done|..]; rewrite Hv by (unfold style_tags; rewrite !elem_of_cons; tauto).
  - apply table_back. eapply Forall_impl; [exact Y1|]. intros. by apply num_tree_back.
  - apply table_back. eapply Forall_impl; [exact Y2|]. intros x [? ?]. by apply font_back.
  - apply table_back. apply Forall_true. intros. apply fill_back.
  - apply table_back. apply Forall_true. intros. apply border_back.
  - apply table_back. eapply Forall_impl; [exact Y3|]. intros. by apply (xf_back false).
  - apply table_back. eapply Forall_impl; [exact Y4|]. intros. by apply (xf_back true).
Qed.

(** ** The part *)
Lemma style_roundtrip o sp rest : StyleOpen o (sp_path sp) rest -> styles_typed (sp_styles sp) ->
  exists e, style_close sp o = (mkOffice (delete (sp_path sp) (of_open o)) (<[sp_path sp := e]> (of_archive o)), Ok tt)
  /\ (exists p ns g a, of_open o !! sp_path sp = Some p /\ part_bytes e = Ok (prolog +:+ render_root ns (Node g a None (style_trees (sp_styles sp) ++ rest)))
      /\ en_ct e = op_ct p /\ en_ext e = op_ext p /\ en_ext_type e = op_ext_type p)
  /\ (forall r2 r3 o2 e2, part_path c_style None r2 = (r3, Ok (sp_path sp)) ->
     of_open o2 !! sp_path sp = None -> of_archive o2 !! sp_path sp = Some e2 -> part_bytes e2 = part_bytes e ->
     exists o3, style_new (r2, o2) = ((r3, o3), Ok (mkStylePart (back_styles (sp_styles sp)) (sp_path sp)))
     /\ StyleOpen o3 (sp_path sp) (map reread rest) /\ of_archive o3 = delete (sp_path sp) (of_archive o2)
     /\ (forall q, q <> sp_path sp -> of_open o3 !! q = of_open o2 !! q)).
Proof.
  destruct sp as [st path]. cbn [sp_styles sp_path]. intros Ho Hty.
  apply StyleOpen_Doc in Ho as (p & [g a v cs] & Hp & Hd & Hn & Hns & Hv & Hc & Hf). cbn in Hv, Hc. subst v cs.
  destruct (save_styles_doc _ _ _ _ _ st Hd Hf) as (d1 & Hs & Hd1 & Hns1).
  pose proof (with_doc_spec path (save_styles st) o p d1 (Ok tt) Hp Hs) as Hw. set (o1 := mkOffice _ _) in Hw.
  destruct (close_doc o1 path (mkOpen d1 (op_ct p) (op_ext p) (op_ext_type p)) (Node g a None (style_trees st ++ rest))) as (e & Hcl & He1 & He2 & He3 & Hb).
  { unfold o1. cbn. by rewrite lookup_insert. } { done. }
  exists e. split; [|split].
  { unfold style_close, bind. cbn [sp_path sp_styles]. rewrite Hw. cbn [rmap rbind]. rewrite Hcl. unfold o1. cbn. by rewrite delete_insert_delete. }
  { exists p, (d_ns d1), g, a. done. }
  intros r2 r3 o2 e2 Hpp Ho2 Ha2 Hb2. rewrite Hb in Hb2. cbn [op_doc] in Hb2. rewrite Hns1 in Hb2.
  pose proof Hn as (Hg & Ha & Hrest)%names_ok_node.
  assert (names_ok (Node g a None (style_trees st ++ rest))) as Hn1.
  { apply names_ok_node. split; [done|]. split; [done|]. apply Forall_app. split; [apply style_trees_ok|done]. }
  destruct (open_doc o2 path e2 _ _ style_init Ho2 Ha2 Hb2 Hn1 Hns) as (d & Hget & Hdd & Hnsd); [by right|].
  cbn [reread] in Hdd. destruct (styles_load_back d _ _ _ _ st Hdd Hty Hf) as (d' & Hl & Hd' & Hns').
  set (o3 := mkOffice _ _) in Hget.
  assert (of_open o3 !! path = Some (mkOpen d (en_ct e2) (en_ext e2) (en_ext_type e2))) as Hp3 by (cbn; by rewrite lookup_insert).
  eexists. split; [|split; [|split]].
  - unfold style_new, bind, on_rels, on_office. cbn [fst snd]. rewrite Hpp. cbn [fst snd]. rewrite Hget. cbn [fst snd].
    rewrite (with_doc_spec path load_styles o3 _ d' _ Hp3 Hl). cbn [rmap rbind fst snd]. unfold ret. cbn [default]. reflexivity.
  - apply StyleOpen_Doc. eexists _, _. split; [cbn; by rewrite lookup_insert|]. split; [exact Hd'|].
    pose proof (names_ok_reread _ Hn) as Hnr. cbn [reread] in Hnr. split; [done|]. cbn [op_doc]. rewrite Hns', Hnsd. split; [by apply ns_ok_written|].
    split; [done|]. split; [done|]. rewrite Forall_map. eapply Forall_impl; [exact Hf|]. intros t. cbn beta. by rewrite tag_reread.
  - done.
  - intros q Hq. cbn. by rewrite !lookup_insert_ne by congruence.
Qed.
(** A new workbook starts with the tables of the template. *)
Definition initial_styles : styles :=
  mkStyles [] [mkFont "Calibri" 11 (mkColor CTheme "1") 2 FSMinor false false false false]
    [mkFill PNone None None; mkFill PGray125 None None] [border_default] [xf_default] [xf_default].
Lemma style_init_spec : exists d d' t', style_init = Ok (mkOpen d (Some (c_content_type c_style)) (c_ext c_style) (c_ext_type c_style))
  /\ load_styles d = (d', Ok initial_styles)
  /\ Doc d' t' /\ names_ok t' /\ ns_ok (d_ns d') /\ t_value t' = None /\ map t_tag (t_children t') = ["cellStyles"; "dxfs"; "tableStyles"].
Proof.
  pose (P := fun (d : doc) (t : tree) => match t with Node g a v cs => g = "styleSheet" /\ v = None
    /\ table_of num_of_tree (some_list (tagged "numFmts" cs)) = Ok [] /\ table_of font_of_tree (some_list (tagged "fonts" cs)) = Ok (st_fonts initial_styles)
    /\ table_of fill_of_tree (some_list (tagged "fills" cs)) = Ok (st_fills initial_styles)
    /\ table_of border_of_tree (some_list (tagged "borders" cs)) = Ok (st_borders initial_styles)
    /\ table_of xf_of_tree (some_list (tagged "cellStyleXfs" cs)) = Ok (st_style_xfs initial_styles)
    /\ table_of xf_of_tree (some_list (tagged "cellXfs" cs)) = Ok (st_cell_xfs initial_styles)
    /\ map t_tag (style_rest cs) = ["cellStyles"; "dxfs"; "tableStyles"] end).
  destruct (template_read style_template P) as (d & [g a v cs] & Hr & Hd & Hn & _ & Hns & -> & -> & H1 & H2 & H3 & H4 & H5 & H6 & H7).
  { by vm_compute. } { by vm_compute. }
  destruct (style_load_doc d _ _ _ _ _ _ _ _ _ _ Hd H1 H2 H3 H4 H5 H6) as (d' & Hl & Hd' & Hns').
  exists d, d'. eexists. split; [unfold style_init; by rewrite Hr|]. split; [exact Hl|]. split; [exact Hd'|].
  apply names_ok_node in Hn as (N1 & N2 & N3). split.
  { apply names_ok_node. split; [done|]. split; [done|]. apply Forall_forall. intros t Ht. rewrite Forall_forall in N3. apply N3.
    unfold style_rest, untagged in Ht. rewrite !elem_of_list_In, !filter_In in Ht. rewrite elem_of_list_In. tauto. }
  split; [by rewrite Hns'|]. split; [done|]. cbn [t_children]. exact H7.
Qed.
Lemma style_fresh r o r' path : part_path c_style None r = (r', Ok path) -> of_open o !! path = None -> of_archive o !! path = None ->
  exists o1 rest, style_new (r, o) = ((r', o1), Ok (mkStylePart initial_styles path)) /\ StyleOpen o1 path rest
    /\ map t_tag rest = ["cellStyles"; "dxfs"; "tableStyles"]
    /\ of_archive o1 = of_archive o /\ (forall q, q <> path -> of_open o1 !! q = of_open o !! q).
Proof.
  intros Hpp Ho Ha. destruct style_init_spec as (d & d' & t' & Hi & Hl & Hd' & Hn' & Hns' & Hv' & Hc').
  set (p0 := mkOpen d _ _ _) in Hi.
  assert (get_xml_document style_init path o = (mkOffice (<[path := p0]> (of_open o)) (of_archive o), Ok tt)) as Hget.
  { unfold get_xml_document, get_xml_tree, bind. rewrite Ho, Ha. unfold lift. by rewrite Hi. }
  set (o3 := mkOffice _ _) in Hget.
  assert (of_open o3 !! path = Some p0) as Hp3 by (cbn; by rewrite lookup_insert).
  eexists _, (t_children t'). split; [|split; [|split; [done|split]]].
  - unfold style_new, bind, on_rels, on_office. cbn [fst snd]. rewrite Hpp. cbn [fst snd]. rewrite Hget. cbn [fst snd].
    rewrite (with_doc_spec path load_styles o3 _ d' _ Hp3 Hl). cbn [rmap rbind fst snd]. unfold ret. cbn [default]. reflexivity.
  - apply StyleOpen_Doc. eexists _, t'. split; [cbn; by rewrite lookup_insert|]. do 4 (split; [done|]). split; [done|].
    rewrite <- (Forall_map t_tag (fun x => x ∉ style_tags)). rewrite Hc'. apply (bool_decide_unpack _). by vm_compute.
  - done.
  - intros q Hq. cbn. by rewrite !lookup_insert_ne by congruence.
Qed.

(** ** Formats after reopening *)
Lemma plain_color c : spec_escape (cl_value c) = cl_value c -> back_color c = c.
Proof. destruct c as [ty v]. unfold back_color. cbn. by intros ->. Qed.
Lemma plain_side b : PlainSide b -> back_side b = b.
Proof.
  destruct b as [c l]. unfold PlainSide, back_side. cbn [bd_line bd_color]. intros [H1 H2].
  destruct c as [c|]; [|by destruct l]. cbn in H2. cbn [fmap option_fmap option_map]. rewrite plain_color by done.
  destruct l; try done. by destruct (H1 eq_refl).
Qed.
Lemma Shows_back st s id : PlainSetting s -> Shows st s id -> Shows (back_styles st) s id.
Proof.
  intros (P1 & P2 & P3 & P4 & P5 & P6 & P7).
  assert (forall x n, FormatFor st s x -> FormatFor (back_styles st) s (set_format x n) /\ FormatFor (back_styles st) s x) as Hf.
  { intros x n ((f & F1 & F2 & F3) & (i & I1 & I2 & I3) & (b & B1 & B2 & B3) & Ha).
    assert (FormatFor (back_styles st) s x) as Hx; [|split; [|done]; destruct x; exact Hx].
    split_and!.
    - exists (back_font f). split; [cbn [back_styles st_fonts]; by rewrite list_lookup_fmap, F1|]. split; [|done].
      destruct F2 as (E1 & E2 & E3 & E4 & E5 & E6 & E7). unfold FontFor, back_font. cbn. rewrite E1, E3, P1, P2, P3, plain_color by done. done.
    - exists (back_fill i). split; [cbn [back_styles st_fills]; by rewrite list_lookup_fmap, I1|]. split; [|done].
      destruct I2 as (E1 & E2 & E3). split; [done|]. unfold RgbColor in *. cbn.
      split; [destruct (se_bg s), (fi_bg i)|destruct (se_fg s), (fi_fg i)]; cbn in *; try done.
      + destruct E2 as [? ->]. split; [done|]. by apply P5.
      + destruct E3 as [? ->]. split; [done|]. by apply P6.
    - exists (back_border b). split; [cbn [back_styles st_borders]; by rewrite list_lookup_fmap, B1|]. split; [|done].
      destruct P7 as (S1 & S2 & S3 & S4 & S5). destruct B2 as (E1 & E2 & E3 & E4 & E5).
      unfold BorderFor, back_border. cbn. by rewrite E1, E2, E3, E4, E5, !plain_side.
    - done. }
  intros (x & y & X1 & X2 & Y1 & Y2). exists x, (set_format y 0). split_and!.
  - done.
  - by apply (Hf x 0).
  - cbn [back_styles st_style_xfs]. by rewrite list_lookup_fmap, Y1.
  - by apply Hf.
Qed.
End with_env.
