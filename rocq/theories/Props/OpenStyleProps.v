(** C57: the styles of a file that is opened, and of the file saved. *)
From Verif.Model Require Import Excel.
From Verif.Spec Require Import RelSpec XmlSpec XmlRepr PackageSpec PartSpec SheetSpec StyleSpec SessionSpec FlowSpec DemoEnv.
From Verif.Proofs Require Import BaseFacts XmlTreeFacts DocBuild RelFacts StyleFacts ExcelFacts KeepFacts ReadAnyFacts FlowFacts FlowSaveFacts FlowOpenFacts OwnFacts OpenBookFacts OpenStyleFacts.
From Verif.Props Require Import StyleProps KeepProps FlowProps OpenProps.
From Verif.Spec Require Import OpenSpec OpenStyleSpec.
Open Scope N_scope.

(** C57, opening. The styles part of a file has the number formats, fonts, fills, borders and formats [st]. The
    opened workbook has all of them, in the same order; italic and single underline are gone, number formats
    count as built-in, and borders without a line have no colour. *)
Theorem C57_opened : forall (E : Env) (Hs : Hashes) (file data : string) (fs0 : filesys) (l0 : list (string * string)) (root : tree) (ns : gmap string string) (st : styles) (x0 : excel),
  Stored fs0 file l0 -> excel_new (Some file) fs0 = Ok x0 ->
  (sp_path (wb_style (x_book x0)), data) ∈ l0 -> sp_path (wb_style (x_book x0)) <> content_types_name ->
  ReadsIn data root ns -> t_value root = None -> StylesSay true root st -> styles_typed st ->
  sp_styles (wb_style (x_book x0)) = taken st.
Proof.
  intros E Hs file data fs0 l0 root ns st x0 H1 H2 H3 H4 H5 H6 H7 H8.
  by destruct (style_flow file fs0 l0 data root ns st x0 [] (x0, []) (mkClock "" "" "" "") (mkFaults false false None []) "" ∅ [] ∅ H1 H2 H3 H4 H5 H6 H7 H8).
Qed.

(** C57, saving. Any calls are made and the workbook is saved. The styles part of the saved file has every entry that
    was taken from the file at the place it had, so that the formats of the cells mean what they meant, and after them those the calls asked
    for; the tables come in the order of the schema with their counts. Its root element has the name, the attributes and the namespaces it had, and every other element (cell
    styles, differential formats, colours, ...) is there as it was. *)
Theorem C57_saved : forall (E : Env) (Hs : Hashes) (file path data : string) (fs0 fs fs' : filesys) (l0 : list (string * string)) (root : tree) (ns : gmap string string)
    (st : styles) (x0 : excel) (cs : list call) (s : session) (t : clock) (f : faults) (tr : list filesys),
  Stored fs0 file l0 -> excel_new (Some file) fs0 = Ok x0 ->
  (sp_path (wb_style (x_book x0)), data) ∈ l0 -> sp_path (wb_style (x_book x0)) <> content_types_name ->
  ReadsIn data root ns -> t_value root = None -> StylesSay true root st -> styles_typed st ->
  calls cs (x0, []) = Some s -> excel_save t f path s.1 fs = (tr, Ok tt) -> last tr = Some fs' ->
  exists l st', Stored fs' path l /\ StylesShown l (sp_path (wb_style (x_book x0))) ns root st' /\ Extends (taken st) st'
    /\ (omap request cs = [] -> st' = taken st).
Proof.
  intros E Hs file path data fs0 fs fs' l0 root ns st x0 cs s t f tr H1 H2 H3 H4 H5 H6 H7 H8 H9 H10 H11.
  destruct (style_flow file fs0 l0 data root ns st x0 cs s t f path fs tr fs' H1 H2 H3 H4 H5 H6 H7 H8) as [_ Hr]. destruct (Hr H9 H10 H11) as (l & Hl & Hsh).
  eexists l, _. split; [done|]. split; [exact Hsh|]. split; [apply style_run_extends|]. by intros ->.
Qed.

(** C57, asking. During the session a style is asked for and answered with an id. If no two entries collide and the
    tables stay within 16 bits, the cell format with that id in the saved file has the font, fill, border and alignment asked for. *)
Theorem C57_asked : forall (E : Env) (Hs : Hashes) (file path data : string) (fs0 fs fs' : filesys) (l0 : list (string * string)) (root : tree) (ns : gmap string string)
    (st : styles) (x0 : excel) (cs1 cs2 : list call) (q : setting) (id : N) (s1 s : session) (t : clock) (f : faults) (tr : list filesys),
  Stored fs0 file l0 -> excel_new (Some file) fs0 = Ok x0 ->
  (sp_path (wb_style (x_book x0)), data) ∈ l0 -> sp_path (wb_style (x_book x0)) <> content_types_name ->
  ReadsIn data root ns -> t_value root = None -> StylesSay true root st -> styles_typed st ->
  calls cs1 (x0, []) = Some s1 -> (wb_style_id q (x_book s1.1)).2 = Ok id ->
  calls (CStyle q :: cs2) s1 = Some s -> excel_save t f path s.1 fs = (tr, Ok tt) -> last tr = Some fs' ->
  let requests := omap request (cs1 ++ CStyle q :: cs2) in
  Collisionless Hs requests (taken st) -> Small (style_run requests (taken st)).1 ->
  exists l st', Stored fs' path l /\ StylesShown l (sp_path (wb_style (x_book x0))) ns root st' /\ Extends (taken st) st' /\ StyleSpec.Shows st' q id.
Proof.
  intros E Hs file path data fs0 fs fs' l0 root ns st x0 cs1 cs2 q id s1 s t f tr H1 H2 H3 H4 H5 H6 H7 H8 H9 Hid H9' H10 H11 requests Hc Hsm.
  assert (calls (cs1 ++ CStyle q :: cs2) (x0, []) = Some s) as Hcs by (by rewrite calls_app, H9).
  destruct (style_flow file fs0 l0 data root ns st x0 (cs1 ++ CStyle q :: cs2) s t f path fs tr fs' H1 H2 H3 H4 H5 H6 H7 H8) as [H0 Hr]. destruct (Hr Hcs H10 H11) as (l & Hl & Hsh).
  eexists l, _. split; [done|]. split; [exact Hsh|]. split; [apply style_run_extends|]. fold requests.
  assert (requests = omap request cs1 ++ q :: omap request cs2) as Hq by (unfold requests; by rewrite omap_app). rewrite Hq in *. clear requests Hq Hsh Hr.
  destruct (C30_ids_denote E Hs (omap request cs1) (omap request cs2) q (taken st) Hc Hsm) as (_ & _ & Hbad & Hgood).
  pose proof (calls_styles _ _ _ H9) as Hrun. cbn [fst] in Hrun. rewrite H0 in Hrun.
  assert ((style_run (omap request cs1 ++ q :: omap request cs2) (taken st)).2 !! length (omap request cs1) = Some (Ok id)) as Ha.
  { rewrite style_run_app. cbn [snd]. rewrite lookup_app_r by (rewrite style_run_length; lia). rewrite style_run_length, Nat.sub_diag. cbn [style_run]. rewrite <- Hrun.
    unfold wb_style_id in Hid. destruct (get_style_id q _) as [st1 r]. cbn in Hid. rewrite Hid. by destruct (style_run _ st1). }
  destruct (decide_number q) as [Hn|Hn].
  - destruct (Hgood Hn) as (id' & x & Hid' & _ & _ & _ & Hsh). congruence.
  - destruct (Hbad Hn) as (e' & Hid' & _). congruence.
Qed.

(** ** Examples *)
(** The styles of a file: a number format, a bold and an italic font, fills, a border with lines, formats with alignment, and the
    names of styles. *)
Definition styles_data : string :=
  "<styleSheet><numFmts count=""1""><numFmt numFmtId=""164"" formatCode=""0.000""/></numFmts>"
  +:+ "<fonts count=""2""><font><sz val=""11""/><color theme=""1""/><name val=""Calibri""/><family val=""2""/><scheme val=""minor""/></font>"
  +:+ "<font><b/><i/><u val=""double""/><sz val=""20""/><color rgb=""FFFF0000""/><name val=""Arial""/></font></fonts>"
  +:+ "<fills count=""2""><fill><patternFill patternType=""none""/></fill><fill><patternFill patternType=""solid""><fgColor rgb=""FF00FF00""/><bgColor indexed=""64""/></patternFill></fill></fills>"
  +:+ "<borders count=""1""><border><left/><right/><top style=""mediumDashed""><color indexed=""8""/></top><bottom/><diagonal/></border></borders>"
  +:+ "<cellStyleXfs count=""1""><xf numFmtId=""0"" fontId=""0"" fillId=""0"" borderId=""0""/></cellStyleXfs>"
  +:+ "<cellXfs count=""2""><xf numFmtId=""0"" fontId=""0"" fillId=""0"" borderId=""0"" xfId=""0""/><xf numFmtId=""164"" fontId=""1"" fillId=""1"" borderId=""0"" xfId=""0"" applyFont=""1"" applyAlignment=""1""><alignment horizontal=""center"" wrapText=""1""/></xf></cellXfs>"
  +:+ "<cellStyles count=""1""><cellStyle name=""Normal"" xfId=""0"" builtinId=""0""/></cellStyles></styleSheet>".
Definition el (tag : string) (l : list (string * string)) (cs : list tree) : tree := Node tag (attr l) None cs.
Definition styles_tree : tree :=
  el "styleSheet" []
   [el "numFmts" [("count", "1")] [el "numFmt" [("numFmtId", "164"); ("formatCode", "0.000")] []];
    el "fonts" [("count", "2")]
     [el "font" [] [el "sz" [("val", "11")] []; el "color" [("theme", "1")] []; el "name" [("val", "Calibri")] []; el "family" [("val", "2")] []; el "scheme" [("val", "minor")] []];
      el "font" [] [el "b" [] []; el "i" [] []; el "u" [("val", "double")] []; el "sz" [("val", "20")] []; el "color" [("rgb", "FFFF0000")] []; el "name" [("val", "Arial")] []]];
    el "fills" [("count", "2")]
     [el "fill" [] [el "patternFill" [("patternType", "none")] []];
      el "fill" [] [el "patternFill" [("patternType", "solid")] [el "fgColor" [("rgb", "FF00FF00")] []; el "bgColor" [("indexed", "64")] []]]];
    el "borders" [("count", "1")]
     [el "border" [] [el "left" [] []; el "right" [] []; el "top" [("style", "mediumDashed")] [el "color" [("indexed", "8")] []]; el "bottom" [] []; el "diagonal" [] []]];
    el "cellStyleXfs" [("count", "1")] [el "xf" [("numFmtId", "0"); ("fontId", "0"); ("fillId", "0"); ("borderId", "0")] []];
    el "cellXfs" [("count", "2")]
     [el "xf" [("numFmtId", "0"); ("fontId", "0"); ("fillId", "0"); ("borderId", "0"); ("xfId", "0")] [];
      el "xf" [("numFmtId", "164"); ("fontId", "1"); ("fillId", "1"); ("borderId", "0"); ("xfId", "0"); ("applyFont", "1"); ("applyAlignment", "1")]
       [el "alignment" [("horizontal", "center"); ("wrapText", "1")] []]];
    el "cellStyles" [("count", "1")] [el "cellStyle" [("name", "Normal"); ("xfId", "0"); ("builtinId", "0")] []]].
Definition styles_read : styles :=
  mkStyles [mkNum 164 (NFBuiltin 0) "0.000"]
    [mkFont "Calibri" 11 (mkColor CTheme "1") 2 FSMinor false false false false; mkFont "Arial" 20 (mkColor CRgb "FFFF0000") 2 FSNone true true true false]
    [mkFill PNone None None; mkFill PSolid (Some (mkColor CIndexed "64")) (Some (mkColor CRgb "FF00FF00"))]
    [mkBorder side_default side_default side_default (mkSide (Some (mkColor CIndexed "8")) LMediumDashed) side_default]
    [xf_default]
    [xf_default; mkXf 0 164 1 1 0 true true false false false false true HCenter VNone].
Example C57_reads : let E := demo_env Checked in ReadsIn styles_data styles_tree ∅ /\ t_value styles_tree = None.
Proof. cbv zeta. split; [apply reads_ns_in; vm_compute; reflexivity|done]. Qed.
(** Tactics for the parts of [StylesSay] on a concrete tree. *)
Ltac one_child := unfold Child, only_child, no_child; cbn; reflexivity.
Ltac in_names := unfold pattern_names, line_names, halign_names, valign_names, scheme_names, color_names; cbn; rewrite ?elem_of_cons; tauto.
Ltac tags := unfold only_tags; cbn [t_children el]; repeat (apply List.Forall_cons; [in_names|]); apply List.Forall_nil.
Ltac of_list H := cbn [t_children el] in H; rewrite ?elem_of_cons, ?elem_of_nil in H; destruct_or! H; subst; try done.
Ltac no_attr := lazy; reflexivity.
Ltac color_says k := exists k; split; [in_names|]; split; [no_attr|]; intros k' Hk' Hne; cbn in Hk'; rewrite ?elem_of_cons in Hk'; destruct_or! Hk'; [subst; first [done|no_attr]..|by apply elem_of_nil in Hk'].
Ltac switch := unfold Switch; first [left; split; no_attr|right; left; split; [left; no_attr|no_attr]|right; right; split; [left; no_attr|no_attr]].
Ltac number := unfold NumberAt; first [left; split; no_attr|right; no_attr].
Ltac valued := first [exists None; split; [one_child|no_attr]|eexists (Some _); split; [one_child|]; eexists; split; [no_attr|first [reflexivity|in_names]]].
Lemma marked_not tag t : existsb (fun c => String.eqb (t_tag c) tag) (t_children t) = false -> Marked tag t false.
Proof.
  intros He. assert (forall c, c ∈ t_children t -> t_tag c <> tag) as Hn.
  { intros c Hc Ht. assert (existsb (fun c => String.eqb (t_tag c) tag) (t_children t) = true); [|congruence]. apply existsb_exists. exists c. split; [by apply elem_of_list_In|]. by apply String.eqb_eq. }
  split; [intros c Hc Ht; by destruct (Hn c Hc)|]. split; [done|]. intros (c & Hc & Ht). by destruct (Hn c Hc).
Qed.
Lemma marked_one tag t c : only_child tag t c -> child_attr c "val" = None -> Marked tag t true.
Proof.
  intros Ho Hv. assert (forall d, d ∈ t_children t -> t_tag d = tag -> d = c) as Hd.
  { intros d Hd Ht. assert (In d [c]) as Hi by (rewrite <- Ho; apply filter_In; split; [by apply elem_of_list_In|by apply String.eqb_eq]). destruct Hi as [->|[]]. done. }
  split; [intros d H1 H2; by rewrite (Hd d H1 H2)|]. split; [|done]. intros _. exists c. assert (In c [c]) as Hi by (by left). rewrite <- Ho in Hi. apply filter_In in Hi as [Hi He].
  split; [by apply elem_of_list_In|by apply String.eqb_eq].
Qed.
Ltac marked := first [apply marked_not; no_attr|eapply marked_one; [one_child|no_attr]].
Ltac side := first [exists None; split; [one_child|no_attr]|eexists (Some _); split; [one_child|left; split; [left; no_attr|no_attr]]].
Ltac xf_says := split; [number..|intros _; number|switch|switch|switch|switch|switch|switch|].
Example C57_says : StylesSay true styles_tree styles_read /\ styles_typed styles_read.
Proof.
  split.
  - split; right; eexists; (split; [one_child|]); cbn [t_children el styles_read st_nums st_fonts st_fills st_borders st_style_xfs st_cell_xfs].
    + constructor; [|constructor]. split; [done|]. split; no_attr.
    + constructor; [|constructor; [|constructor]].
      * split; [done|]. split; [tags|marked|marked| | | |valued| |valued|valued|valued].
        -- intros c Hc Ht. of_list Hc; discriminate.
        -- split; [done|]. intros (c & Hc & Ht & _). of_list Hc; discriminate.
        -- split; [done|]. intros (c & Hc & Ht & _). of_list Hc; discriminate.
        -- eexists (Some _). split; [one_child|]. color_says "theme".
      * split; [done|]. split; [tags|marked|marked| | | |valued| |valued|valued|valued].
        -- intros c Hc Ht. of_list Hc. right; right; no_attr.
        -- split; [done|]. intros (c & Hc & Ht & Hv). of_list Hc.
        -- split; [|done]. intros _. exists (el "u" [("val", "double")] []). split; [in_names|]. split; no_attr.
        -- eexists (Some _). split; [one_child|]. color_says "rgb".
    + constructor; [|constructor; [|constructor]].
      * split; [done|]. eexists _, "none". split; [reflexivity|]. split; [done|]. split; [no_attr|]. split; [in_names|]. split; [tags|]. split; exists None; (split; [one_child|done]).
      * split; [done|]. eexists _, "solid". split; [reflexivity|]. split; [done|]. split; [no_attr|]. split; [in_names|]. split; [tags|]. split; eexists (Some _); (split; [one_child|]); [color_says "rgb"|color_says "indexed"].
    + constructor; [|constructor]. split; [done|]. split; [tags|side|side| |side|side]. eexists (Some _). split; [one_child|]. right. exists "mediumDashed". split; [no_attr|]. split; [in_names|]. split; [tags|].
      eexists (Some _). split; [one_child|]. color_says "indexed".
    + constructor; [|constructor]. split; [done|]. xf_says. left. split_and!; done.
    + constructor; [|constructor; [|constructor]]; (split; [done|]); xf_says; [left; split_and!; done|]. right. eexists. split; [reflexivity|]. split; [done|]. split; [switch|]. split; [change (("center", HCenter) ∈ halign_names); in_names|no_attr].
  - unfold styles_typed, styles_read, xf_typed. cbn [st_nums st_fonts st_style_xfs st_cell_xfs].
    split_and!; repeat (apply List.Forall_cons; [vm_compute; repeat split; discriminate|]); apply List.Forall_nil.
Qed.
(** A sheet is added and the default style asked for: a font, a border and two formats are added behind those of the file. *)
Example C57_example : match @book_demo (demo_env Checked) value_hashes [("xl/styles.xml", styles_data)] [CAdd None; CStyle setting_default] with
  | Some l => ends (part_of "xl/styles.xml" l)
     ("<numFmts count=""1"" ><numFmt formatCode=""0.000"" numFmtId=""164"" /></numFmts>"
     +:+ "<fonts count=""3"" ><font ><sz val=""11"" /><color theme=""1"" /><name val=""Calibri"" /><family val=""2"" /><scheme val=""minor"" /></font>"
     +:+ "<font ><b /><u val=""double"" /><sz val=""20"" /><color rgb=""FFFF0000"" /><name val=""Arial"" /><family val=""2"" /><scheme val=""none"" /></font>"
     +:+ "<font ><sz val=""11"" /><color theme=""1"" /><name val=""Calibri"" /><family val=""2"" /><scheme val=""none"" /></font></fonts>"
     +:+ "<fills count=""2"" ><fill ><patternFill patternType=""none"" /></fill><fill ><patternFill patternType=""solid"" ><fgColor rgb=""FF00FF00"" /><bgColor indexed=""64"" /></patternFill></fill></fills>"
     +:+ "<borders count=""2"" ><border ><left /><right /><top style=""mediumDashed"" ><color indexed=""8"" /></top><bottom /><diagonal /></border><border ><left /><right /><top /><bottom /><diagonal /></border></borders>"
     +:+ "<cellStyleXfs count=""2"" ><xf borderId=""0"" fillId=""0"" fontId=""0"" numFmtId=""0"" /><xf applyBorder=""1"" applyFont=""1"" borderId=""1"" fillId=""0"" fontId=""2"" numFmtId=""0"" /></cellStyleXfs>"
     +:+ "<cellXfs count=""3"" ><xf borderId=""0"" fillId=""0"" fontId=""0"" numFmtId=""0"" xfId=""0"" /><xf applyAlignment=""1"" applyFont=""1"" borderId=""0"" fillId=""1"" fontId=""1"" numFmtId=""164"" xfId=""0"" ><alignment horizontal=""center"" wrapText=""1"" /></xf>"
     +:+ "<xf applyBorder=""1"" applyFont=""1"" borderId=""1"" fillId=""0"" fontId=""2"" numFmtId=""0"" xfId=""1"" /></cellXfs>"
     +:+ "<cellStyles count=""1"" ><cellStyle builtinId=""0"" name=""Normal"" xfId=""0"" /></cellStyles></styleSheet>")
  | None => false end = true.
Proof. vm_compute. reflexivity. Qed.
(** The styles of that example, with the default style: no two entries collide and the tables are small. *)
Example C57_asks : let E := demo_env Checked in Collisionless value_hashes (omap request [CAdd None; CStyle setting_default]) (taken styles_read)
  /\ Small (style_run (H0 := value_hashes) (omap request [CAdd None; CStyle setting_default]) (taken styles_read)).1.
Proof.
  cbv zeta. split; [unfold Collisionless; apply NoCollision_value|]. by vm_compute.
Qed.

(** ** What one would want and what does not hold *)
(** The element reached from [t]: at each step the [i]-th child with that name. *)
Fixpoint dig (path : list (string * nat)) (t : tree) : option tree :=
  match path with
  | [] => Some t
  | (tag, i) :: path => match nth_error (List.filter (fun c => String.eqb (t_tag c) tag) (t_children t)) i with Some c => dig path c | None => None end
  end.
(** A file with these styles is opened and saved, nothing else. *)
Definition styles_part : string := "xl/styles.xml".
(** An element is lost. *)
Definition Loses (path : list (string * nat)) : Prop :=
  exists (E : Env) (Hs : Hashes) (r0 r1 : tree), Resaved styles_part r0 r1 /\ dig path r0 <> None /\ dig path r1 = None /\ dig (removelast path) r1 <> None.
(** An attribute of an element turns from [v0] to [v1], where [None] is: not there. *)
Definition Alters (path : list (string * nat)) (k : string) (v0 v1 : option string) : Prop :=
  exists (E : Env) (Hs : Hashes) (r0 r1 e0 e1 : tree), Resaved styles_part r0 r1 /\ dig path r0 = Some e0 /\ dig path r1 = Some e1 /\ child_attr e0 k = v0 /\ child_attr e1 k = v1.
Definition is_some {A} (o : option A) : bool := match o with Some _ => true | None => false end.
Definition loses (data : string) (path : list (string * nat)) : bool :=
  @resave_check (demo_env Checked) value_hashes (fun r0 r1 => is_some (dig path r0) && negb (is_some (dig path r1)) && is_some (dig (removelast path) r1))
    (with_parts [(styles_part, data)] (@demo_parts (demo_env Checked) value_hashes true)) styles_part.
Lemma loses_ok data path : loses data path = true -> Loses path.
Proof.
  intros Hc. unfold loses in Hc. apply (@resave_found (demo_env Checked) value_hashes) in Hc as (t0 & t1 & Hr & Hp). rewrite !andb_true_iff in Hp. destruct Hp as [[P1 P2] P3].
  exists (demo_env Checked), value_hashes, t0, t1. split; [exact Hr|]. clear Hr. destruct (dig path t0); [|discriminate P1]. destruct (dig path t1); [discriminate P2|]. destruct (dig (removelast path) t1); [|discriminate P3].
  split; [discriminate|]. split; [reflexivity|discriminate].
Qed.
Definition alters (data : string) (path : list (string * nat)) (k : string) (v0 v1 : option string) : bool :=
  @resave_check (demo_env Checked) value_hashes (fun r0 r1 => match dig path r0, dig path r1 with
      | Some e0, Some e1 => bool_decide (child_attr e0 k = v0) && bool_decide (child_attr e1 k = v1)
      | _, _ => false end)
    (with_parts [(styles_part, data)] (@demo_parts (demo_env Checked) value_hashes true)) styles_part.
Lemma alters_ok data path k v0 v1 : alters data path k v0 v1 = true -> Alters path k v0 v1.
Proof.
  intros Hc. unfold alters in Hc. apply (@resave_found (demo_env Checked) value_hashes) in Hc as (t0 & t1 & Hr & Hp).
  revert Hp. destruct (dig path t0) as [e0|] eqn:E0; [|discriminate]. destruct (dig path t1) as [e1|] eqn:E1; [|discriminate]. rewrite !andb_true_iff. intros [P3 P4].
  apply bool_decide_eq_true in P3, P4. exists (demo_env Checked), value_hashes, t0, t1, e0, e1. split; [exact Hr|]. split; [exact E0|]. split; [exact E1|]. split; [exact P3|exact P4].
Qed.
Definition wrapped (collection entry : string) : string := "<styleSheet><" +:+ collection +:+ ">" +:+ entry +:+ "</" +:+ collection +:+ "></styleSheet>".
(** Italic and underlined fonts of the file become upright and plain. *)
Theorem C57_italic_refuted : Loses [("fonts", 0%nat); ("font", 0%nat); ("i", 0%nat)].
Proof. apply (loses_ok (wrapped "fonts" "<font><i/></font>")). vm_compute. reflexivity. Qed.
Theorem C57_underline_refuted : Loses [("fonts", 0%nat); ("font", 0%nat); ("u", 0%nat)].
Proof. apply (loses_ok (wrapped "fonts" "<font><u/></font>")). vm_compute. reflexivity. Qed.
(** A font that says that it is not bold becomes bold. *)
Theorem C57_not_bold_refuted : Alters [("fonts", 0%nat); ("font", 0%nat); ("b", 0%nat)] "val" (Some "0") None.
Proof. apply (alters_ok (wrapped "fonts" "<font><b val=""0""/></font>")). vm_compute. reflexivity. Qed.
(** The tint of a colour is lost. *)
Theorem C57_tint_refuted : Alters [("fills", 0%nat); ("fill", 0%nat); ("patternFill", 0%nat); ("fgColor", 0%nat)] "tint" (Some "-0.25") None.
Proof. apply (alters_ok (wrapped "fills" "<fill><patternFill patternType=""solid""><fgColor theme=""0"" tint=""-0.25""/></patternFill></fill>")). vm_compute. reflexivity. Qed.
(** A gradient is lost; patterns other than solid and one grey become none. *)
Theorem C57_gradient_refuted : Loses [("fills", 0%nat); ("fill", 0%nat); ("gradientFill", 0%nat)].
Proof. apply (loses_ok (wrapped "fills" "<fill><gradientFill degree=""90""><stop position=""0""><color rgb=""FFFF0000""/></stop></gradientFill></fill>")). vm_compute. reflexivity. Qed.
Theorem C57_pattern_refuted : Alters [("fills", 0%nat); ("fill", 0%nat); ("patternFill", 0%nat)] "patternType" (Some "darkGray") (Some "none").
Proof. apply (alters_ok (wrapped "fills" "<fill><patternFill patternType=""darkGray""/></fill>")). vm_compute. reflexivity. Qed.
(** Which way a diagonal goes is lost. *)
Theorem C57_diagonal_refuted : Alters [("borders", 0%nat); ("border", 0%nat)] "diagonalUp" (Some "1") None.
Proof. apply (alters_ok (wrapped "borders" "<border diagonalUp=""1""><left/><right/><top/><bottom/><diagonal style=""thin""/></border>")). vm_compute. reflexivity. Qed.
(** A style that says not to apply its font, which by default applies, loses that. *)
Theorem C57_apply_refuted : Alters [("cellStyleXfs", 0%nat); ("xf", 0%nat)] "applyFont" (Some "0") None.
Proof. apply (alters_ok (wrapped "cellStyleXfs" "<xf numFmtId=""0"" fontId=""0"" applyFont=""0""/>")). vm_compute. reflexivity. Qed.
(** Unlocked cells become locked; the leading quote and the alignments the library does not know are lost. *)
Theorem C57_protection_refuted : Loses [("cellXfs", 0%nat); ("xf", 0%nat); ("protection", 0%nat)].
Proof. apply (loses_ok (wrapped "cellXfs" "<xf numFmtId=""0"" fontId=""0"" applyProtection=""1""><protection locked=""0""/></xf>")). vm_compute. reflexivity. Qed.
Theorem C57_quote_refuted : Alters [("cellXfs", 0%nat); ("xf", 0%nat)] "quotePrefix" (Some "1") None.
Proof. apply (alters_ok (wrapped "cellXfs" "<xf numFmtId=""0"" fontId=""0"" quotePrefix=""1""/>")). vm_compute. reflexivity. Qed.
Theorem C57_rotation_refuted : Loses [("cellXfs", 0%nat); ("xf", 0%nat); ("alignment", 0%nat)].
Proof. apply (loses_ok (wrapped "cellXfs" "<xf numFmtId=""0"" fontId=""0"" applyAlignment=""1""><alignment textRotation=""90"" indent=""2""/></xf>")). vm_compute. reflexivity. Qed.
(** The quotes in the code of a number format are escaped once more. *)
Theorem C57_code_refuted : Alters [("numFmts", 0%nat); ("numFmt", 0%nat)] "formatCode" (Some "0&quot;m&quot;") (Some "0&amp;quot;m&amp;quot;").
Proof. apply (alters_ok (wrapped "numFmts" "<numFmt numFmtId=""164"" formatCode=""0&quot;m&quot;""/>")). vm_compute. reflexivity. Qed.

(** What one would want: every file with a well-formed styles part opens. One whose styles have an entry [e] does not. *)
Definition Unopenable (collection entry : string) : Prop :=
  exists (E : Env) (Hs : Hashes) (fs0 : filesys) (file err : string) (l0 l1 : list (string * string)) (data : string) (root : tree) (x1 : excel),
  Stored fs0 file l0 /\ (styles_part, data) ∈ l0 /\ ReadsAs data root /\ data = wrapped collection entry
  /\ excel_new (Some file) fs0 = Err err
  (* the same file with other styles opens *)
  /\ (exists fs1 : filesys, Stored fs1 file l1 /\ excel_new (Some file) fs1 = Ok x1
        /\ l1.*1 = l0.*1 /\ forall p b, p <> styles_part -> (p, b) ∈ l0 <-> (p, b) ∈ l1).
Definition unopenable `{Env} `{Hashes} (collection entry : string) (l : list (string * string)) : bool :=
  let l0 := with_parts [(styles_part, wrapped collection entry)] l in
  match env_unzip (env_zip l0), env_unzip (env_zip l) with
  | Some k0, Some k =>
    bool_decide (k0 = l0) && bool_decide (k = l)
    && match part_of styles_part l0 with
       | Some data => seqb data (wrapped collection entry) && is_some (tree_read data)
       | None => false end
    && match excel_new (Some "in") {["in" := env_zip l0]}, excel_new (Some "in") {["in" := env_zip l]} with Err _, Ok _ => true | _, _ => false end
  | _, _ => false end.
Lemma with_other new p b l : part_of p new = None -> (p, b) ∈ with_parts new l <-> (p, b) ∈ l.
Proof.
  intros Hp. unfold with_parts. rewrite elem_of_list_fmap. split.
  - intros ([p' b'] & He & Hin). cbn [fst] in He. destruct (part_of p' new) as [d|] eqn:Ed; injection He as -> ->; [congruence|done].
  - intros Hin. exists (p, b). cbn [fst]. by rewrite Hp.
Qed.
Lemma with_names new l : (with_parts new l).*1 = l.*1.
Proof. unfold with_parts. induction l as [|[p b] l IH]; [done|]. cbn. rewrite IH. by destruct (part_of p new). Qed.
Lemma unopenable_ok E Hs collection entry l : @unopenable E Hs collection entry l = true -> Unopenable collection entry.
Proof.
  unfold unopenable. cbv zeta. set (l0 := with_parts _ l). destruct (env_unzip (env_zip l0)) as [k0|] eqn:U0; [|done]. destruct (env_unzip (env_zip l)) as [k|] eqn:U; [|done].
  rewrite !andb_true_iff. intros [[[E0%bool_decide_eq_true E1%bool_decide_eq_true] Hp] He]. subst k0 k.
  destruct (part_of styles_part l0) as [data|] eqn:Ep; [|discriminate Hp]. apply andb_true_iff in Hp as [Hd Ht]. apply String.eqb_eq in Hd. destruct (tree_read data) as [root|] eqn:Er; [|discriminate Ht].
  destruct (excel_new _ {["in" := env_zip l0]}) as [|err|] eqn:N0; [discriminate He| |discriminate He]. destruct (excel_new _ {["in" := env_zip l]}) as [x1| |] eqn:N1; [|discriminate He..].
  exists E, Hs, {["in" := env_zip l0]}, "in", err, l0, l, data, root, x1.
  split; [exists (env_zip l0); by rewrite lookup_singleton|]. split; [by apply part_of_in|]. split; [by apply tree_read_ok|]. split; [done|]. split; [done|].
  exists {["in" := env_zip l]}. split; [exists (env_zip l); by rewrite lookup_singleton|]. split; [done|]. split; [symmetry; apply with_names|].
  intros p b Hne. apply with_other. unfold part_of, seqb. cbn [List.find fst]. destruct (String.eqb styles_part p) eqn:Eq; [apply String.eqb_eq in Eq; congruence|done].
Qed.
(** A font that is struck through, or has a size that is not whole, such as 10.5. *)
Theorem C57_strike_refuted : Unopenable "fonts" "<font><strike/><sz val=""11""/></font>".
Proof. apply (unopenable_ok (demo_env Checked) value_hashes _ _ (@demo_parts (demo_env Checked) value_hashes true)). vm_compute. reflexivity. Qed.
Theorem C57_size_refuted : Unopenable "fonts" "<font><sz val=""10.5""/></font>".
Proof. apply (unopenable_ok (demo_env Checked) value_hashes _ _ (@demo_parts (demo_env Checked) value_hashes true)). vm_compute. reflexivity. Qed.
(** A border with a line between the cells it is applied to. *)
Theorem C57_inner_border_refuted : Unopenable "borders" "<border><left/><right/><top/><bottom/><diagonal/><vertical/><horizontal/></border>".
Proof. apply (unopenable_ok (demo_env Checked) value_hashes _ _ (@demo_parts (demo_env Checked) value_hashes true)). vm_compute. reflexivity. Qed.

Print Assumptions C57_opened.
Print Assumptions C57_saved.
Print Assumptions C57_asked.
