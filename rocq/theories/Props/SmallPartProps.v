(** C16, C17: the shared string table. C42: the calculation chain. C37: the core properties. *)
From Verif.Model Require Import ShareString CalcChain CoreProperties.
From Verif.Spec Require Import PackageSpec RelSpec PartSpec XmlSpec XmlRepr DemoEnv.
From Verif.Proofs Require Import BaseFacts XmlWriteFacts XmlReadFacts XmlNsFacts PackageFacts DocBuild PartFacts
  TypesFacts XmlTreeFacts XmlHistFacts RelDocFacts ReadAnyFacts SmallPartFacts.

(** C16: whatever strings are registered in whatever order, earlier entries stay where they are,
    every reference handed out resolves in the final table to the string it was given for, equal
    strings get equal references and different strings different ones. *)
Theorem C16_references : forall (hist table table' refs : list string),
  register hist table = (table', refs) ->
  (exists new, table' = table ++ new)
  /\ length refs = length hist
  /\ (forall j s ref, hist !! j = Some s -> refs !! j = Some ref -> Refers table' ref s)
  /\ (forall j k s t a b, hist !! j = Some s -> hist !! k = Some t -> refs !! j = Some a -> refs !! k = Some b -> (a = b <-> s = t)).
Proof.
  intros hist table table' refs Hr. apply register_spec in Hr as (Hnew & Hf & _). split; [done|].
  split; [symmetry; by eapply Forall2_length|].
  assert (forall j s ref, hist !! j = Some s -> refs !! j = Some ref ->
    exists i, ref = show_N i /\ position (fun x => seqb x s) table' = Some i) as Hp.
  { intros j s ref Hj Hj'. by destruct (Forall2_lookup_lr _ _ _ _ _ _ Hf Hj Hj') as (i & ? & ?); eauto. }
  split.
  - intros j s ref Hj Hj'. destruct (Hp _ _ _ Hj Hj') as (i & -> & Hi). exists i. split; [done|]. by apply position_some.
  - intros j k s t a b Hj Hk Ha Hb. destruct (Hp _ _ _ Hj Ha) as (i & -> & Hi). destruct (Hp _ _ _ Hk Hb) as (i' & -> & Hi').
    split; [|intros ->; congruence]. intros ->%show_N_inj. apply position_some in Hi, Hi'. congruence.
Qed.
(** The table holds nothing but the initial strings and the registered ones, and a table without
    duplicates stays so. *)
Theorem C16_no_duplicates : forall (hist table table' refs : list string),
  register hist table = (table', refs) ->
  (forall s, s ∈ table' <-> s ∈ table \/ s ∈ hist) /\ (NoDup table -> NoDup table').
Proof. intros hist table table' refs Hr. by apply register_spec in Hr as (_ & _ & H). Qed.
Example C16_example : register ["b"; "c"; "b"; "a"; ""] ["a"; "a"; "b"] = (["a"; "a"; "b"; "c"; ""], ["2"; "3"; "2"; "0"; "4"]).
Proof. by vm_compute. Qed.

(** C17: close the table and open it again: the same strings at the same positions, trimmed. What
    is written has one item per string in order, and the right counts. *)
Theorem C17_reopen : forall (E : Env) (o : office) (r : relations) (s : sst),
  PartOpen "si" o (ss_path s) -> ss_strings s <> [] ->
  exists o1 e text root nsl, sst_close s (r, o) = ((r, o1), Ok tt)
  /\ of_open o1 !! ss_path s = None /\ of_archive o1 !! ss_path s = Some e
  /\ part_bytes e = Ok (prolog +:+ text) /\ Renders (Some nsl) root text
  /\ Forall2 Item (ss_strings s) (List.filter (fun t => String.eqb (t_tag t) "si") (t_children root))
  /\ child_attr root "count" = Some (show_N (N.of_nat (length (ss_strings s))))
  /\ (exists n, Distinct (ss_strings s) n /\ child_attr root "uniqueCount" = Some (show_N n))
  /\ (forall r2 r3 o2 e2, part_path c_share_string None r2 = (r3, Ok (ss_path s)) ->
        of_open o2 !! ss_path s = None -> of_archive o2 !! ss_path s = Some e2 -> part_bytes e2 = part_bytes e ->
        exists o3, sst_new (r2, o2) = ((r3, o3), Ok (mkSst (map trim (ss_strings s)) (ss_path s)))
        /\ PartOpen "si" o3 (ss_path s)).
Proof.
  intros E o r s Ho Hne. destruct (sst_roundtrip o r s Ho Hne) as (e & g & m & cs & ns & Hc & Hb & Hcs & Hre).
  eexists _, e, (render_root ns _), _, _. split; [exact Hc|]. split; [apply lookup_delete|]. split; [apply lookup_insert|].
  split; [exact Hb|]. split; [apply render_renders_mut|]. split; [|split; [|split]].
  - cbn [t_children]. rewrite List.filter_app, filter_none, filter_all.
    + cbn [app]. clear. induction (ss_strings s) as [|x l IH]; cbn [map]; constructor; [constructor|done].
    + intros t Ht. apply elem_of_list_fmap in Ht as (x & -> & _). done.
    + intros t Ht. rewrite Forall_forall in Hcs. by apply String.eqb_neq, Hcs.
  - unfold child_attr, sst_attrs. cbn [t_attrs]. rewrite lookup_insert_ne by done. by rewrite lookup_insert.
  - eexists. split; [apply Distinct_remove_dups|]. unfold child_attr, sst_attrs. cbn [t_attrs]. by rewrite lookup_insert.
  - intros r2 r3 o2 e2 H1 H2 H3 H4. destruct (Hre r2 r3 o2 e2 H1 H2 H3 H4) as (o3 & H5 & H6 & _). eauto.
Qed.
(** So a reference held by a cell still means its string, up to surrounding white space. *)
Theorem C17_references_survive : forall (table : list string) (ref s : string),
  Refers table ref s -> Refers (map trim table) ref (trim s).
Proof.
  intros table ref s (i & -> & Hi). exists i. split; [done|].
  change (map trim table) with (trim <$> table). by rewrite list_lookup_fmap, Hi.
Qed.
(** The requirement of [C17_reopen] holds for a table just created. *)
Theorem C17_fresh : forall (E : Env) (o : office) (r r' : relations) (path : string),
  part_path c_share_string None r = (r', Ok path) -> of_open o !! path = None -> of_archive o !! path = None ->
  exists o1, sst_new (r, o) = ((r', o1), Ok (mkSst [] path)) /\ PartOpen "si" o1 path.
Proof. intros E o r r' path H1 H2 H3. destruct (sst_fresh r o r' path H1 H2 H3) as (o1 & H4 & H5 & _). eauto. Qed.
(** A table written by someone else: an item without children is dropped, so every later string
    moves one place and the cells referring to it show another string; of an item with formatted
    runs the text is lost. *)
Definition load_table `{Env} (text : string) : option (list string) :=
  match sst_new (mkRelations [] "xl/_rels/workbook.xml.rels", mkOffice ∅ {["xl/sharedStrings.xml" := pack "xml" "x" None text]}) with
  | (_, Ok s) => Some (ss_strings s)
  | _ => None
  end.
Theorem C17_empty_item_refuted : let E := demo_env Checked in
  load_table "<sst><si><t>a</t></si><si/><si><t>b</t></si></sst>" = Some ["a"; "b"].
Proof. by vm_compute. Qed.
Theorem C17_rich_text_refuted : let E := demo_env Checked in
  load_table "<sst><si><t>a</t></si><si><r><t>b</t></r><r><t>c</t></r></si></sst>" = Some ["a"; ""].
Proof. by vm_compute. Qed.
(** A workbook that never stored a string: after closing, the table cannot be opened again in the
    same session, although its relationship is gone. *)
Theorem C17_empty_reopen_refuted : forall (E : Env) (o : office) (r r' : relations) (path : string),
  part_path c_share_string None r = (r', Ok path) -> of_open o !! path = None -> of_archive o !! path = None ->
  exists s o1 r2 o2, sst_new (r, o) = ((r', o1), Ok s) /\ sst_close s (r', o1) = ((r2, o2), Ok tt)
  /\ forall r3 r4, part_path c_share_string None r3 = (r4, Ok path) -> exists e, (sst_new (r3, o2)).2 = Err e.
Proof.
  intros E o r r' path H1 H2 H3. destruct (sst_fresh r o r' path H1 H2 H3) as (o1 & H4 & H5 & _).
  exists (mkSst [] path), o1, (delete_relationship path r'), (set_archive o1 (delete path (of_archive o1))). split; [done|].
  split; [done|]. intros r3 r4 Hp. unfold sst_new, bind, on_rels, on_office. cbn [fst snd]. rewrite Hp. cbn [fst snd].
  destruct H5 as (p & it & Hpp & _). unfold get_xml_document, get_xml_tree, bind. cbn [of_open set_archive]. rewrite Hpp. cbn. eauto.
Qed.
Example C17_example : let E := demo_env Wrapping in
  exists r' o1 s, sst_new (mkRelations [] "xl/_rels/workbook.xml.rels", mkOffice ∅ ∅) = ((r', o1), Ok s)
  /\ PartOpen "si" o1 (ss_path (mkSst [" a"; "b"] (ss_path s))) /\ part_path c_share_string None r' = (r', Ok (ss_path s)).
Proof.
  cbn zeta. set (E := demo_env Wrapping).
  destruct (C17_fresh E (mkOffice ∅ ∅) (mkRelations [] "xl/_rels/workbook.xml.rels") (part_path c_share_string None (mkRelations [] "xl/_rels/workbook.xml.rels")).1
     "xl/sharedStrings.xml") as (o1 & H1 & H2); [by vm_compute|done|done|].
  eexists _, o1, _. split; [exact H1|]. split; [done|]. by vm_compute.
Qed.

(** C42: close the calculation chain and open it again: the same cells of the same sheets in the
    same order; the dependency level of each entry is gone. *)
Theorem C42_reopen : forall (E : Env) (o : office) (r : relations) (c : calc),
  PartOpen "c" o (cc_path c) -> cc_entries c <> [] ->
  exists o1 e, calc_close c (r, o) = ((r, o1), Ok tt)
  /\ of_open o1 !! cc_path c = None /\ of_archive o1 !! cc_path c = Some e
  /\ (forall r2 r3 o2 e2, part_path c_calc_chain None r2 = (r3, Ok (cc_path c)) ->
        of_open o2 !! cc_path c = None -> of_archive o2 !! cc_path c = Some e2 -> part_bytes e2 = part_bytes e ->
        exists o3, calc_new (r2, o2) = ((r3, o3), Ok (mkCalc (map escaped_calc (cc_entries c)) (cc_path c)))
        /\ PartOpen "c" o3 (cc_path c))
  /\ (Forall (fun x => plain_text x.1.1 /\ plain_text x.1.2 /\ x.2 = None) (cc_entries c) ->
      map escaped_calc (cc_entries c) = cc_entries c).
Proof.
  intros E o r c Ho Hne. destruct (calc_roundtrip o r c Ho Hne) as (e & Hc & Hre).
  eexists _, e. split; [exact Hc|]. split; [apply lookup_delete|]. split; [apply lookup_insert|]. split.
  - intros r2 r3 o2 e2 H1 H2 H3 H4. destruct (Hre r2 r3 o2 e2 H1 H2 H3 H4) as (o3 & H5 & H6 & _). eauto.
  - intros Hp. rewrite <- (map_id (cc_entries c)) at 2. apply map_ext_in. intros [[i t] l] Hin.
    rewrite Forall_forall in Hp. apply elem_of_list_In in Hin. destruct (Hp _ Hin) as (H1 & H2 & H3). cbn in H1, H2, H3. subst l.
    unfold escaped_calc. cbn [fst snd]. by rewrite !spec_escape_fixed.
Qed.
Theorem C42_fresh : forall (E : Env) (o : office) (r r' : relations) (path : string),
  part_path c_calc_chain None r = (r', Ok path) -> of_open o !! path = None -> of_archive o !! path = None ->
  exists o1, calc_new (r, o) = ((r', o1), Ok (mkCalc [] path)) /\ PartOpen "c" o1 path.
Proof. intros E o r r' path H1 H2 H3. destruct (calc_fresh r o r' path H1 H2 H3) as (o1 & H4 & H5 & _). eauto. Qed.
(** Opening a file whose chain has an entry without cell or sheet id never succeeds, and panics
    when every entry before it is complete. In the format the sheet id may be left out: it is then the one
    of the entry before. *)
Theorem C42_missing_sheet_refuted : forall (E : Env) (o : office) (r r' : relations) (path data : string) (e : entry) (d : doc) (it : itree) (t x : tree) l1 l2,
  part_path c_calc_chain None r = (r', Ok path) -> of_open o !! path = None -> of_archive o !! path = Some e ->
  part_bytes e = Ok data -> data <> "" -> read_doc data = Ok d -> Represents d it -> erase it = t ->
  t_children t = l1 ++ x :: l2 -> t_tag x = "c" -> t_attrs x <> None -> (child_attr x "r" = None \/ child_attr x "i" = None) ->
  Forall (fun y => t_tag y = "c" -> is_Some (child_attr y "r") /\ is_Some (child_attr y "i")) l1 ->
  exists m, (calc_new (r, o)).2 = Panic m.
Proof.
  intros E o r r' path data e d it t x l1 l2 Hp Ho Ha Hb Hne Hr Hrep Her Hch Hx Hxa Hmiss Hl1.
  assert (Doc d t) as Hd.
  { pose proof (read_doc_inv data) as Hi. rewrite Hr in Hi. destruct Hi as (Hbd & _). exists it. by split. }
  destruct (get_open_doc o path e data d t calc_init Ho Ha Hb Hne Hr Hd) as (o1 & p & Hg & Hop & Hdp & _).
  unfold calc_new, bind, on_rels, on_office. cbn [fst snd]. rewrite Hp. cbn [fst snd]. rewrite Hg. cbn [fst snd].
  destruct t as [g a v cs]. cbn [t_children] in Hch. subst cs. destruct (Doc_load_calc _ _ _ _ _ Hdp) as (d' & Hl & _).
  rewrite (with_doc_spec path load_calc o1 p d' _ Hop Hl). cbn [fst snd].
  assert (exists m, rmapM calc_of_attrs (map t_attrs (List.filter (fun t => seqb (t_tag t) "c") (l1 ++ x :: l2))) = Panic m) as (m & ->); [|by exists m].
  assert (exists m, calc_of_attrs (t_attrs x) = Panic m) as (m & Hm).
  { unfold child_attr in Hmiss. destruct (t_attrs x) as [mx|]; [|done]. cbn [calc_of_attrs]. unfold index_attr.
    destruct (mx !! "r"); [|by eexists]. cbn [rbind]. destruct Hmiss as [? | ->]; [done|]. by eexists. }
  rewrite List.filter_app, map_app. cbn [List.filter]. rewrite Hx. change (seqb "c" "c") with true. cbn [map].
  clear Hl Hdp Hd Hmiss Her Hrep. induction l1 as [|y l1 IH]; cbn [List.filter map app rmapM].
  { exists m. by rewrite Hm. }
  apply Forall_cons in Hl1 as [Hy Hl1]. destruct (IH Hl1) as (m' & Hm'). unfold seqb at 1. destruct (String.eqb_spec (t_tag y) "c") as [Hyc|Hyc]; [|by exists m'].
  cbn [map app rmapM]. destruct (Hy Hyc) as ((r0 & Hr0) & (i0 & Hi0)). unfold child_attr in Hr0, Hi0. destruct (t_attrs y) as [my|]; [|done].
  cbn [calc_of_attrs]. unfold index_attr. rewrite Hr0, Hi0. cbn [rbind]. rewrite Hm'. by exists m'.
Qed.
Example C42_example : let E := demo_env Checked in
  let x := "<calcChain><c r=""A1"" i=""1"" l=""1""/><c r=""B2""/></calcChain>" in
  let y := "<calcChain><c r=""A1"" i=""1"" l=""1""/><c r=""B2"" i=""2""/></calcChain>" in
  let load text := (calc_new (mkRelations [] "xl/_rels/workbook.xml.rels", mkOffice ∅ {["xl/calcChain.xml" := pack "xml" "x" None text]})).2 in
  match load x with Panic _ => True | _ => False end
  /\ match load y with Ok c => cc_entries c = [("A1", "1", Some "1"); ("B2", "2", None)] | _ => False end.
Proof. by vm_compute. Qed.

(** C37: saving sets the modification time, sets the creation time only if it has no text yet, and
    changes nothing else. *)
Theorem C37_save : forall (E : Env) (o : office) (path : string) (t : tree) (now1 now2 : string),
  CoreOpen o path t ->
  exists o1 e text root nsl cs, core_close now1 now2 path o = (o1, Ok tt)
  /\ of_archive o1 !! path = Some e /\ part_bytes e = Ok (prolog +:+ text) /\ Renders (Some nsl) root text
  /\ t_tag root = t_tag t /\ t_attrs root = t_attrs t /\ t_value root = t_value t
  /\ SetText "dcterms:modified" now1 (t_children t) cs
  /\ (property "dcterms:created" t = None -> SetText "dcterms:created" now2 cs (t_children root))
  /\ (property "dcterms:created" t <> None -> t_children root = cs).
Proof.
  intros E o path t now1 now2 (p & it & Hp & Hr & Ht & Hb & Hn & Hns & Htag & Hv).
  destruct t as [g a v cs]. cbn in Htag, Hv. subst g v.
  destruct (core_close_spec o path p a None cs now1 now2 Hp) as (e & Hc & _ & _ & _ & Hby); [by exists it|].
  eexists _, e, _, _, _, _. split; [exact Hc|]. split; [apply lookup_insert|]. split; [exact Hby|]. split; [apply render_renders_mut|].
  split; [done|]. split; [done|]. split; [done|]. split; [apply SetText_set_first|]. cbn [t_children].
  set (cs1 := set_first "dcterms:modified" now1 (fun _ => true) cs).
  assert (property "dcterms:created" (Node "cp:coreProperties" a None cs) = child_value "dcterms:created" cs1) as ->.
  { unfold cs1. by rewrite set_first_other. }
  unfold stamped. fold cs1. rewrite set_first_cond. unfold child_value. destruct (List.find _ cs1) as [c|] eqn:Ef.
  - destruct (t_value c); split; try done. intros _. apply SetText_set_first.
  - split; [|done]. intros _. rewrite <- (set_first_none "dcterms:created" now2 (fun _ => true) cs1) at 2; [apply SetText_set_first|].
    intros y Hy. pose proof (find_split (fun c => String.eqb (t_tag c) "dcterms:created") cs1) as Hs. rewrite Ef in Hs. by apply Hs.
Qed.
(** Over any number of saves and reopens: the modification time is the one of the last save, the
    creation time is the one the document had, or that of the first save if it had none, and every
    other property is what it was. *)
Theorem C37_history : forall (E : Env) (times : list (string * string)) (o : office) (path : string) (t : tree) first1 first2,
  CoreOpen o path t -> t_children t <> [] -> time_text first1 -> time_text first2 ->
  Forall (fun x => time_text x.1 /\ time_text x.2) times ->
  visible (property "dcterms:created" t) = property "dcterms:created" t ->
  exists o' t', core_saves ((first1, first2) :: times) path o = (o', Ok tt) /\ CoreOpen o' path t'
  /\ map t_tag (t_children t') = map t_tag (t_children t)
  /\ (has_property "dcterms:modified" t -> property "dcterms:modified" t' = Some (List.last times.*1 first1))
  /\ (has_property "dcterms:created" t -> property "dcterms:created" t' = Some (default first2 (property "dcterms:created" t)))
  /\ (forall k, k <> "dcterms:modified" -> k <> "dcterms:created" -> property k t' = visible (property k t)).
Proof.
  intros E times. induction times as [|[n1 n2] times IH]; intros o path t first1 first2 Ho Hne H1 H2 Hts Hvis.
  - destruct (core_cycle o path t first1 first2 Ho Hne) as (o1 & t1 & Hc & Ho1 & Hne1 & Htags & Hm & Hcr & Hk).
    exists o1, t1. cbn [core_saves]. unfold bind in Hc |- *. destruct (core_close first1 first2 path o) as [o2 [[]| |]]; try done. rewrite Hc.
    split; [done|]. split; [done|]. split; [done|]. split; [|split; [|done]].
    + intros Hp. rewrite (Hm Hp). by apply visible_time.
    + intros Hp. rewrite (Hcr Hp). destruct (property "dcterms:created" t); cbn [default]; [done|by apply visible_time].
  - apply Forall_cons in Hts as [[Ht1 Ht2] Hts].
    destruct (core_cycle o path t first1 first2 Ho Hne) as (o1 & t1 & Hc & Ho1 & Hne1 & Htags & Hm & Hcr & Hk).
    assert (property "dcterms:created" t1 = if has_child "dcterms:created" (t_children t) then Some (default first2 (property "dcterms:created" t)) else None) as Hcr1.
    { destruct (has_child _ _) eqn:Eh.
      - rewrite Hcr by (by apply has_property_child). destruct (property "dcterms:created" t); cbn [default]; [done|by apply visible_time].
      - destruct (property "dcterms:created" t1) eqn:Ep; [|done]. exfalso. rewrite <- (has_child_tags _ _ _ Htags) in Eh.
        rewrite has_child_find in Eh. unfold property in Ep. by destruct (List.find _ (t_children t1)). }
    destruct (IH o1 path t1 n1 n2 Ho1 Hne1 Ht1 Ht2 Hts) as (o' & t' & Hc' & Ho' & Htags' & Hm' & Hcr' & Hk').
    { rewrite Hcr1. destruct (has_child _ _); [|done]. destruct (property "dcterms:created" t); cbn [default]; [done|by apply visible_time]. }
    exists o', t'. split; [|split; [done|split; [congruence|split; [|split]]]].
    + cbn [core_saves]. cbn [core_saves] in Hc'. unfold bind in Hc, Hc' |- *. destruct (core_close first1 first2 path o) as [o2 [[]| |]]; try done.
      rewrite Hc. exact Hc'.
    + intros Hp. rewrite Hm'.
      * f_equal. cbn [fmap list_fmap fst]. clear. revert n1. induction times as [|[a b] times IH]; intros n1; [done|]. cbn [fmap list_fmap fst List.last] in *. 
        destruct (times.*1) eqn:Et; [done|]. rewrite <- Et in *. by apply IH.
      * apply has_property_child. rewrite (has_child_tags _ _ _ Htags). by apply has_property_child.
    + intros Hp. rewrite Hcr'.
      * rewrite Hcr1. apply has_property_child in Hp. by rewrite Hp.
      * apply has_property_child. rewrite (has_child_tags _ _ _ Htags). by apply has_property_child.
    + intros k Hk1 Hk2. rewrite Hk', Hk by done. apply visible_idem.
Qed.
(** The part the library creates meets the requirement, and has both times, unset. *)
Theorem C37_fresh : forall (E : Env) (o : office) (r r' : relations) (path : string),
  part_path c_core None r = (r', Ok path) -> of_open o !! path = None -> of_archive o !! path = None ->
  exists o1 t, core_new (r, o) = ((r', o1), Ok path) /\ CoreOpen o1 path t /\ t_children t <> []
  /\ has_property "dcterms:modified" t /\ has_property "dcterms:created" t
  /\ property "dcterms:modified" t = None /\ property "dcterms:created" t = None
  /\ property "dc:creator" t = Some "OpenXML-Office".
Proof.
  intros E o r r' path Hp Ho Ha. destruct core_template_doc as (d & t & Hr & Hd & Hn & Hns & Ht & Hv & Hcs).
  assert (core_init = Ok (mkOpen d (Some (c_content_type c_core)) (c_ext c_core) (c_ext_type c_core))) as Hi.
  { unfold core_init. by rewrite Hr. }
  exists (mkOffice (<[path := mkOpen d (Some (c_content_type c_core)) (c_ext c_core) (c_ext_type c_core)]> (of_open o)) (of_archive o)), t.
  split; [|split].
  - unfold core_new, bind, on_rels, on_office. cbn [fst snd]. rewrite Hp. cbn [fst snd]. unfold get_xml_document, get_xml_tree, bind, lift.
    rewrite Ho, Ha, Hi. done.
  - destruct Hd as (it & [Hrp Hb] & He). eexists _, it. split; [apply lookup_insert|]. subst t. split; [exact Hrp|]. split; [done|]. split; [exact Hb|].
    split; [done|]. split; [exact Hns|]. done.
  - assert (forall k, property k t = match List.find (fun x : string * option string => String.eqb x.1 k) (map (fun c => (t_tag c, t_value c)) (t_children t)) with
        | Some x => x.2 | None => None end) as Hpr.
    { intros k. unfold property. clear. induction (t_children t) as [|c l IH]; [done|]. cbn [map List.find fst]. by destruct (String.eqb (t_tag c) k). }
    split; [intros Hx; by rewrite Hx in Hcs|].
    assert (forall k v, (k, v) ∈ map (fun c => (t_tag c, t_value c)) (t_children t) -> has_property k t) as Hh.
    { intros k v Hin. apply elem_of_list_fmap in Hin as (c & Hc & Hin). injection Hc as -> _. by exists c. }
    rewrite Hcs in Hpr, Hh. split; [eapply Hh; do 3 apply elem_of_list_further; left|]. split; [eapply Hh; do 2 apply elem_of_list_further; left|].
    by rewrite !Hpr.
Qed.
Example C37_example : let E := demo_env Checked in
  exists o1 o2 t t', core_new (mkRelations [] "_rels/.rels", mkOffice ∅ ∅) = o1 /\ CoreOpen o1.1.2 "docProps/core.xml" t
  /\ core_saves [("2024-01-01T10:00:00Z", "2024-01-01T10:00:01Z"); ("2024-02-02T10:00:00Z", "2024-02-02T10:00:01Z")] "docProps/core.xml" o1.1.2 = (o2, Ok tt)
  /\ CoreOpen o2 "docProps/core.xml" t'
  /\ property "dcterms:modified" t' = Some "2024-02-02T10:00:00Z" /\ property "dcterms:created" t' = Some "2024-01-01T10:00:01Z".
Proof.
  cbn zeta. generalize (demo_env Checked). intros E.
  assert (time_text "2024-01-01T10:00:00Z") as T1 by (by vm_compute). assert (time_text "2024-01-01T10:00:01Z") as T2 by (by vm_compute).
  assert (time_text "2024-02-02T10:00:00Z") as T3 by (by vm_compute). assert (time_text "2024-02-02T10:00:01Z") as T4 by (by vm_compute).
  destruct (C37_fresh E (mkOffice ∅ ∅) (mkRelations [] "_rels/.rels") (part_path c_core None (mkRelations [] "_rels/.rels")).1 "docProps/core.xml")
    as (o1 & t & H1 & H2 & H3 & H4 & H5 & H6 & H7 & _); [by vm_compute|reflexivity|reflexivity|].
  destruct (C37_history E [("2024-02-02T10:00:00Z", "2024-02-02T10:00:01Z")] o1 "docProps/core.xml" t "2024-01-01T10:00:00Z" "2024-01-01T10:00:01Z")
    as (o2 & t' & G1 & G2 & _ & G3 & G4 & _); [exact H2|exact H3|exact T1|exact T2|by repeat constructor|by rewrite H7|].
  eexists _, o2, t, t'. split; [reflexivity|]. rewrite H1. cbn [fst snd]. split; [exact H2|]. split; [exact G1|]. split; [exact G2|].
  split; [by apply G3|]. rewrite (G4 H5), H7. reflexivity.
Qed.

Print Assumptions C16_references.
Print Assumptions C16_no_duplicates.
Print Assumptions C17_reopen.
Print Assumptions C17_references_survive.
Print Assumptions C17_fresh.
Print Assumptions C17_empty_item_refuted.
Print Assumptions C17_rich_text_refuted.
Print Assumptions C17_empty_reopen_refuted.
Print Assumptions C42_reopen.
Print Assumptions C42_fresh.
Print Assumptions C42_missing_sheet_refuted.
Print Assumptions C37_save.
Print Assumptions C37_history.
Print Assumptions C37_fresh.
