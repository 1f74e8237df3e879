(** C23: the sheet list under any history. C24: renaming. C25: hiding. C26: the workbook part written
    and read back. C36: deleting a sheet. C43: view settings. C44: the active sheet. *)
From Verif.Model Require Import Workbook.
From Verif.Spec Require Import RelSpec XmlSpec XmlRepr PackageSpec PartSpec SheetSpec StyleSpec BookSpec DemoEnv.
From Verif.Proofs Require Import BaseFacts XmlWriteFacts XmlReadFacts PackageFacts RelFacts RelDocFacts SheetFacts SheetDocFacts SheetCycleFacts BookFacts.
Open Scope N_scope.

(** C23: take any workbook whose relationships part lies in a "_rels" folder, and any history of
    adding, fetching, renaming, deleting, hiding and activating sheets, whatever the single calls
    return. The list at the end is what the list rules ([ListStep]) make of the history. *)
Theorem C23_history : forall (E : Env) (ops : list list_op) (b : workbook) (o : office) (rp : string),
  get_relative_path (wb_rels b) = Ok rp ->
  ListHistory ops (wb_sheets b) (wb_sheets (run_lists ops (b, o)).1)
  /\ list_sheet_names (run_lists ops (b, o)).1 = names (wb_sheets (run_lists ops (b, o)).1).
Proof. intros E ops b o rp Hrp. split; [|done]. by apply (run_lists_history ops (b, o) rp). Qed.
(** Asking for a name in use changes neither list nor relationships; a handle that comes back is for
    the part of the first sheet of that name. *)
Theorem C23_name_in_use : forall (E : Env) (b : workbook) (o : office) (n : string),
  n ∈ names (wb_sheets b) ->
  wb_sheets (add_sheet (Some n) (b, o)).1.1 = wb_sheets b /\ wb_rels (add_sheet (Some n) (b, o)).1.1 = wb_rels b
  /\ (forall w, (add_sheet (Some n) (b, o)).2 = Ok w -> exists l1 x l2, wb_sheets b = l1 ++ x :: l2 /\ sh_name x = n /\ n ∉ names l1
      /\ get_target_by_id (wb_rels b) (sh_rel x) = Ok (Some (ws_path w)) /\ ws_name w = n).
Proof.
  intros E b o n Hn. pose proof (find_named n (wb_sheets b)) as Hf. pose proof (SmallPartFacts.find_split (fun x => seqb (sh_name x) n) (wb_sheets b)) as Hs.
  destruct (List.find _ _) as [x|] eqn:Ef; [|done]. destruct Hs as (l1 & l2 & Hl & Hx & Hl1). clear Hf.
  unfold add_sheet. cbn [fst snd]. pose proof (ws_new_list (Some n) (wb_sheets b, (wb_rels b, o))) as (H1 & H2 & H3).
  rewrite (file_name_old n x _ _ _ Ef) in H1, H2, H3. cbn [fst snd] in H1, H2, H3.
  destruct (ws_new _ _) as [[l [r o1]] y]. cbn [fst snd] in *. subst l r. split; [done|]. split; [done|].
  intros w Hw. destruct (H3 w Hw) as (path & nm & Hp & <- & Hnm). exists l1, x, l2. split; [done|]. apply seqb_true in Hx. split; [done|].
  split. { intros (z & Hz & Hzn)%in_names. specialize (Hl1 z Hz). cbn beta in Hl1. apply seqb_false in Hl1. done. }
  destruct (get_target_by_id (wb_rels b) (sh_rel x)) as [[p|]|e|e]; cbn in Hp; [|done..]. injection Hp as -> <-. done.
Qed.
(** A handle that comes back from adding is for a sheet on the list. *)
Theorem C23_added_listed : forall (E : Env) (b b' : workbook) (o o' : office) (rp : string) (name : option string) (w : worksheet),
  get_relative_path (wb_rels b) = Ok rp -> add_sheet name (b, o) = ((b', o'), Ok w) ->
  ws_name w ∈ names (wb_sheets b') /\ (forall n, name = Some n -> ws_name w = n).
Proof.
  intros E b b' o o' rp name w Hrp Ha.
  destruct (name) as [n|] eqn:En.
  - assert (ws_name w = n) as Hw.
    { unfold add_sheet in Ha. cbn [fst snd] in Ha. pose proof (ws_new_list (Some n) (wb_sheets b, (wb_rels b, o))) as (_ & _ & H3).
      destruct (ws_new _ _) as [[l [r o1]] y]. injection Ha as <- <- ->. destruct (H3 w eq_refl) as (path & nm & Hp & _ & <-).
      pose proof (find_named n (wb_sheets b)) as Hf. destruct (List.find (fun x => seqb (sh_name x) n) (wb_sheets b)) as [x|] eqn:Ef.
      + rewrite (file_name_old n x _ _ _ Ef) in Hp. cbn [snd] in Hp. by destruct (get_target_by_id _ _) as [[p|]|e|e]; cbn in Hp; [injection Hp as -> <-|..].
      + destruct (file_name_new (Some n) (wb_sheets b) (wb_rels b) o rp) as (k & Hg & _); [|done|].
        { intros n' z [= <-] Hz Hzn. apply Hf, in_names. eauto. }
        rewrite Hg in Hp. cbn [snd default] in Hp. by injection Hp as _ <-. }
    split; [|by intros ? [= <-]]. rewrite Hw. destruct (add_list (Some n) b o rp Hrp) as [(n' & [= <-] & Hin & Hl & _)|(k & _ & _ & Hl & _)];
      rewrite Ha in Hl; cbn [fst snd] in Hl; rewrite Hl; [done|]. apply in_names. eexists. split; [apply elem_of_app; right; by left|done].
  - split; [|done]. destruct (add_list None b o rp Hrp) as [(n' & ? & _)|(k & _ & _ & Hl & Hr)]; [done|].
    unfold add_sheet in Ha. cbn [fst snd] in Ha. pose proof (ws_new_list None (wb_sheets b, (wb_rels b, o))) as (H1 & H2 & H3).
    destruct (ws_new _ _) as [[l [r o1]] y]. injection Ha as <- <- ->. cbn [fst snd] in *. destruct (H3 w eq_refl) as (path & nm & Hp & _ & <-).
    destruct (file_name_new None (wb_sheets b) (wb_rels b) o rp) as (k' & Hg & _); [done|done|].
    rewrite Hg in H1, Hp. cbn [fst snd default] in *. injection Hp as _ <-. cbn. rewrite H1. apply in_names.
    eexists. split; [apply elem_of_app; right; by left|done].
Qed.
(** Automatic names are not checked against the names in use: rename the only sheet to "sheet2" and
    add one without a name, and both are called "sheet2". *)
Theorem C23_auto_name_refuted : forall (E : Env) (b : workbook) (o : office) (rp n : string) (x : sheet),
  get_relative_path (wb_rels b) = Ok rp -> wb_sheets b = [x] -> sh_name x = n -> n <> "sheet2" ->
  of_archive o !! (rp +:+ "worksheets/sheet2.xml") = None ->
  names (wb_sheets (run_lists [LRename n "sheet2"; LAdd None] (b, o)).1) = ["sheet2"; "sheet2"].
Proof.
  intros E b o rp n x Hrp Hb Hx Hn Ha.
  cbn [run_lists run_list]. unfold on_book. cbn [fst snd].
  destruct (rename_sheet_spec n "sheet2" b) as [[[Hq|Hq] _]|(l1 & y & l2 & H1 & H2 & H3 & H4 & ->)].
  - exfalso. apply Hq. rewrite Hb. apply in_names. exists x. split; [by left|done].
  - exfalso. rewrite Hb in Hq. apply in_names in Hq as (z & Hz & Hzn). apply elem_of_list_singleton in Hz. subst z. congruence.
  - cbn [fst snd]. assert (l1 = [] /\ l2 = []) as [-> ->].
    { rewrite Hb in H1. destruct l1 as [|? [|? ?]]; [|done..]. injection H1 as -> <-. done. }
    cbn [app]. set (b1 := set_wb_sheets b [renamed "sheet2" y]).
    unfold add_sheet. cbn [fst snd]. pose proof (ws_new_list None (wb_sheets b1, (wb_rels b1, o))) as (K1 & _ & _).
    destruct (ws_new _ _) as [[l [r o1]] z]. cbn [fst snd] in *. cbn.
    destruct (file_name_new None (wb_sheets b1) (wb_rels b1) o rp) as (k & Hg & Hk & _ & Hfree); [done|done|].
    rewrite Hg in K1. cbn [fst snd] in K1. rewrite K1. cbn [wb_sheets b1 set_wb_sheets default length] in *.
    assert (k = 2) as ->; [|done]. assert (~ 2 < k) as Hk2; [|lia]. intros Hlt. destruct (Hfree 2) as [e He]; [lia|].
    assert (sheet_path (rp +:+ c_path c_worksheet) 2 = rp +:+ "worksheets/sheet2.xml") as Hsp.
    { unfold sheet_path. by rewrite <- app_assoc_s. }
    rewrite Hsp in He. congruence.
Qed.
(** A handle keeps the name it was obtained under: rename the sheet and delete it through the old
    handle, and the list keeps the sheet while its relationship is gone. *)
Theorem C23_stale_handle_refuted : forall (E : Env) (b : workbook) (o : office) (w : worksheet) (new : string),
  ws_name w ∈ names (wb_sheets b) -> new ∉ names (wb_sheets b) ->
  NoDup (names (wb_sheets b)) ->
  let s := run_lists [LRename (ws_name w) new; LDelete w] (b, o) in
  new ∈ names (wb_sheets s.1) /\ length (wb_sheets s.1) = length (wb_sheets b)
  /\ wb_rels s.1 = delete_relationship (ws_path w) (wb_rels b).
Proof.
  intros E b o w new Hin Hnew Hnd. cbn zeta. cbn [run_lists run_list]. unfold on_book. cbn [fst snd].
  destruct (rename_sheet_spec (ws_name w) new b) as [[[Hq|Hq] _]|(l1 & y & l2 & H1 & H2 & H3 & H4 & ->)]; [done|done|].
  cbn [fst snd]. destruct (delete_list w (set_wb_sheets b (l1 ++ renamed new y :: l2)) o) as [-> ->]. cbn [wb_sheets set_wb_sheets wb_rels].
  assert (forall l, ws_name w ∉ names l -> filter (fun x => sh_name x <> ws_name w) l = l) as Hkeep.
  { induction l as [|z l IH]; [done|]. intros Hn. unfold names in Hn. cbn [map] in Hn. apply not_elem_of_cons in Hn as [Hz Hn].
    rewrite filter_cons, decide_True by done. f_equal. by apply IH. }
  rewrite Hkeep.
  - split; [|split; [|done]].
    + apply in_names. exists (renamed new y). split; [|done]. apply elem_of_app. right. by left.
    + rewrite H1, !app_length. done.
  - unfold names. rewrite map_app. cbn [map]. intros Hq. apply elem_of_app in Hq as [Hq|Hq]; [done|].
    apply elem_of_cons in Hq as [Hq|Hq]; [apply Hnew; cbn in Hq; by rewrite <- Hq|].
    rewrite H1 in Hnd. unfold names in Hnd. rewrite map_app in Hnd. cbn [map] in Hnd. apply NoDup_app in Hnd as (_ & _ & Hnd).
    apply NoDup_cons in Hnd as [Hnd _]. by rewrite H2 in Hnd.
Qed.

(** C24: a rename either fails and leaves the whole workbook as it was, exactly when the old name is
    missing or the new one is in use; or it changes the name of the first sheet with the old name
    and nothing else. *)
Theorem C24_rename : forall (b b' : workbook) (old new : string) (r : res unit),
  rename_sheet old new b = (b', r) ->
  (old ∉ names (wb_sheets b) \/ new ∈ names (wb_sheets b) -> b' = b /\ exists e, r = Err e)
  /\ (old ∈ names (wb_sheets b) -> new ∉ names (wb_sheets b) ->
      r = Ok tt /\ exists l1 x l2, wb_sheets b = l1 ++ x :: l2 /\ sh_name x = old /\ old ∉ names l1
        /\ b' = set_wb_sheets b (l1 ++ mkSheet new (sh_rel x) (sh_active x) (sh_hidden x) :: l2)).
Proof.
  intros b b' old new r Hr. destruct (rename_sheet_spec old new b) as [[Hq [e He]]|(l1 & x & l2 & H1 & H2 & H3 & H4 & He)]; rewrite He in Hr; injection Hr as <- <-.
  - split; [eauto|]. intros Ho Hn. by destruct Hq.
  - split.
    + intros [Hq|Hq]; [|done]. exfalso. apply Hq, in_names. exists x. split; [|done]. rewrite H1. apply elem_of_app. right. by left.
    + intros _ _. split; [done|]. exists l1, x, l2. done.
Qed.
Example C24_example :
  let b := mkBook "xl/workbook.xml" (mkCalc [] "") (mkSst [] "") (mkStylePart no_styles "") (mkRelations [] "") ""
    [mkSheet "A" "rId1" true false; mkSheet "B" "rId2" false true; mkSheet "B" "rId3" false false] None in
  names (wb_sheets (rename_sheet "B" "C" b).1) = ["A"; "C"; "B"] /\ (rename_sheet "B" "A" b).1 = b /\ (rename_sheet "A" "A" b).1 = b
  /\ "B" ∈ names (wb_sheets b) /\ "C" ∉ names (wb_sheets b).
Proof. split; [done|]. split; [done|]. split; [done|]. split; apply (bool_decide_unpack _); by vm_compute. Qed.

(** C25: hiding always answers Ok; the sheets stay, in order, with their names, ids and active
    flags, and exactly those of that name are hidden afterwards; nothing else of the workbook
    changes. *)
Theorem C25_hide : forall (b b' : workbook) (n : string) (r : res unit),
  hide_sheet n b = (b', r) ->
  r = Ok tt /\ b' = set_wb_sheets b (wb_sheets b')
  /\ Forall2 (fun x y => sh_name y = sh_name x /\ sh_rel y = sh_rel x /\ sh_active y = sh_active x /\ (sh_hidden y = true <-> sh_name x = n))
       (wb_sheets b) (wb_sheets b').
Proof.
  intros b b' n r [= <- <-]. split; [done|]. split; [done|]. cbn. induction (wb_sheets b) as [|x l IH]; cbn; constructor; [|done].
  cbn. split; [done|]. split; [done|]. split; [done|]. apply seqb_true.
Qed.
(** Wanted: hiding one sheet leaves the others as they are. A second call shows the first sheet
    again, and an unknown name shows all. *)
Theorem C25_only_one_refuted : forall (b : workbook) (x : sheet) (m n : string),
  x ∈ wb_sheets b -> sh_name x = m -> m <> n ->
  (exists y, y ∈ wb_sheets (hide_sheet m b).1 /\ sh_rel y = sh_rel x /\ sh_hidden y = true)
  /\ (exists y, y ∈ wb_sheets (hide_sheet n (hide_sheet m b).1).1 /\ sh_rel y = sh_rel x /\ sh_name y = m /\ sh_hidden y = false).
Proof.
  intros b x m n Hx Hm Hmn. split.
  - exists (mkSheet (sh_name x) (sh_rel x) (sh_active x) (seqb (sh_name x) m)). split; [|split; [done|by apply seqb_true]].
    cbn. apply elem_of_list_In, in_map_iff. exists x. split; [done|by apply elem_of_list_In].
  - exists (mkSheet (sh_name x) (sh_rel x) (sh_active x) (seqb (sh_name x) n)). split; [|split; [done|split; [done|]]].
    + cbn. rewrite map_map. cbn. apply elem_of_list_In, in_map_iff. exists x. split; [done|by apply elem_of_list_In].
    + cbn. apply seqb_false. congruence.
Qed.

(** C26: close the workbook part with any sheet list and view settings. The file has the sheets in
    order, numbered from 1, with names, relationship ids and hidden flags, at most one workbook view,
    the elements the library does not manage, all in the order the format asks for. *)
Theorem C26_written : forall (E : Env) (o : office) (path : string) (rest : list tree) (view : option book_view) (l : list sheet),
  BookOpen o path rest -> (forall v, view = Some v -> ratio_typed v) ->
  exists e nsl text g a cs views sheets,
    book_part_close path view l o = (mkOffice (delete path (of_open o)) (<[path := e]> (of_archive o)), Ok tt)
    /\ part_bytes e = Ok (prolog +:+ text) /\ Renders (Some nsl) (Node g a None cs) text
    /\ Permutation cs (views ++ sheets :: rest) /\ book_in_order cs /\ SheetsEntry l sheets
    /\ match view with Some v => exists t, views = [t] /\ ViewEntry v t | None => views = [] end.
Proof.
  intros E o path rest view l Ho Hr. destruct (book_roundtrip o path rest view l Ho Hr) as (e & p & g & a & cs & Hp & Hc & Hb & _ & _ & _ & Hperm & Hord & _ & _).
  exists e. eexists. eexists. exists g, a, cs, (match view with Some v => [book_views_tree v] | None => [] end), (book_sheets_tree l).
  split; [exact Hc|]. split; [exact Hb|]. split; [apply render_renders_mut|].
  split; [rewrite Hperm; unfold book_trees; by rewrite <- app_assoc|]. split; [done|]. split.
  - split; [done|]. cbn [t_children book_sheets_tree].
    assert (forall l n, length (book_sheet_trees n l) = length l /\ forall i s, l !! i = Some s ->
      exists c, book_sheet_trees n l !! i = Some c /\ t_tag c = "sheet" /\ t_attrs c = Some (book_sheet_attrs (n + N.of_nat i) s)) as Hs.
    { clear. induction l as [|s l IH]; intros n; [done|]. destruct (IH (n + 1)) as [IH1 IH2]. cbn [book_sheet_trees length]. split; [by rewrite IH1|].
      intros [|i] s' Hi; [injection Hi as <-; eexists; split; [done|]; split; [done|]; by rewrite N.add_0_r|].
      destruct (IH2 i s' Hi) as (c & Hc & Ht & Ha). exists c. split; [done|]. split; [done|]. rewrite Ha. do 2 f_equal. lia. }
    destruct (Hs l 1) as [Hs1 Hs2]. split; [done|]. intros i s Hi. destruct (Hs2 i s Hi) as (c & Hc1 & Hc2 & Hc3). exists c. split; [done|].
    assert (forall k, child_attr c k = book_sheet_attrs (N.of_nat i + 1) s !! k) as Hk by (intros k; unfold child_attr; rewrite Hc3; do 2 f_equal; lia).
    unfold SheetEntry. rewrite !Hk. split; [done|]. unfold book_sheet_attrs. rewrite !AttrFacts.opt_attrs_lookup by done. by destruct (sh_hidden s).
  - destruct view as [v|]; [|done]. eexists. split; [done|]. split; [done|]. eexists. split; [done|]. split; [done|].
    unfold child_attr. cbn [t_attrs]. unfold book_view_attrs. rewrite !AttrFacts.opt_attrs_lookup by done.
    split_and!; [done|done|done|by destruct (bv_min v)|by destruct (bv_no_tabs v)|by destruct (bv_no_vscroll v)|by destruct (bv_no_hscroll v)|done| |].
    + by intros ->.
    + intros gr ->. by destruct gr.
Qed.
(** Open what was saved: the same sheets in the same order with the same ids and hidden flags, their
    texts escaped, none active; the same view settings, except that the sheet-tab flag is inverted
    and the date-grouping flag has taken the place of the tab ratio ([book_view_back]). Elements the
    library does not manage survive. *)
Theorem C26_round_trip : forall (E : Env) (o : office) (path : string) (rest : list tree) (view : option book_view) (l : list sheet),
  BookOpen o path rest -> (forall v, view = Some v -> ratio_typed v) ->
  exists e, book_part_close path view l o = (mkOffice (delete path (of_open o)) (<[path := e]> (of_archive o)), Ok tt)
  /\ (forall o2 e2, of_open o2 !! path = None -> of_archive o2 !! path = Some e2 -> part_bytes e2 = part_bytes e ->
      exists o3 rest', bind (get_xml_document workbook_init path) (fun _ => with_doc path load_book) o2
        = (o3, Ok (Some (map book_sheet_back l, book_view_back <$> view)))
      /\ BookOpen o3 path rest' /\ Permutation rest' (map reread rest) /\ of_archive o3 = delete path (of_archive o2)
      /\ (forall q, q <> path -> of_open o3 !! q = of_open o2 !! q)).
Proof.
  intros E o path rest view l Ho Hr. destruct (book_roundtrip o path rest view l Ho Hr) as (e & p & g & a & cs & Hp & Hc & _ & _ & _ & _ & _ & _ & _ & Hre).
  exists e. split; [done|]. intros o2 e2 H1 H2 H3. destruct (Hre o2 e2 workbook_init H1 H2 H3) as (p3 & Hget & Hload).
  destruct (Hload _ (lookup_insert (of_open o2) path p3 : of_open (mkOffice (<[path := p3]> (of_open o2)) (delete path (of_archive o2))) !! path = Some p3))
    as (o5 & rest' & Hw & Hb & Hperm & Ha & Hq).
  exists o5, rest'. unfold bind. rewrite Hget, Hw. split; [done|]. split; [done|]. split; [done|]. split; [done|].
  intros q Hne. rewrite Hq by done. cbn. by rewrite lookup_insert_ne.
Qed.
(** A workbook written by the library starts from the template: no sheets, no view, one element. *)
Theorem C26_new_part : forall (E : Env) (o : office) (path : string),
  of_open o !! path = None -> of_archive o !! path = None ->
  exists o1 rest, bind (get_xml_document workbook_init path) (fun _ => with_doc path load_book) o = (o1, Ok (Some ([], None)))
  /\ BookOpen o1 path rest /\ map t_tag rest = ["fileVersion"] /\ of_archive o1 = of_archive o
  /\ (forall q, q <> path -> of_open o1 !! q = of_open o !! q).
Proof.
  intros E o path Ho Ha. destruct workbook_init_spec as (d & d' & t' & Hi & Hl & Hd' & Hn' & Hns' & Hv' & Hc').
  set (p0 := mkOpen d _ _ _) in Hi.
  assert (get_xml_document workbook_init path o = (mkOffice (<[path := p0]> (of_open o)) (of_archive o), Ok tt)) as Hget.
  { unfold get_xml_document, get_xml_tree, bind. rewrite Ho, Ha. unfold lift. by rewrite Hi. }
  set (o3 := mkOffice _ _) in Hget.
  assert (of_open o3 !! path = Some p0) as Hp3 by (cbn; by rewrite lookup_insert).
  eexists _, (t_children t'). split; [unfold bind; rewrite Hget; exact (with_doc_spec path load_book o3 _ d' _ Hp3 Hl)|]. split; [|split; [done|split; [done|]]].
  - apply BookOpen_Doc. eexists _, t'. split; [cbn; by rewrite lookup_insert|]. do 4 (split; [done|]). split; [done|].
    rewrite <- (Forall_map t_tag (fun x => x ∉ book_tags)). rewrite Hc'. apply (bool_decide_unpack _). by vm_compute.
  - intros q Hq. cbn. by rewrite !lookup_insert_ne by congruence.
Qed.
(** Wanted: view settings come back as they were set. The sheet-tab flag never does. *)
Theorem C26_tabs_refuted : forall v, bv_no_tabs (book_view_back v) <> bv_no_tabs v.
Proof. intros v. cbn. by destruct (bv_no_tabs v). Qed.

(** C36: delete a sheet through its handle. Whatever happens to the parts, afterwards no sheet of the
    handle's name is listed and the others are as before, in order; the relationships whose target is
    the absolute path of the part are gone and the others are as before. *)
Theorem C36_delete_list : forall (E : Env) (b : workbook) (o : office) (w : worksheet),
  let b' := (wb_delete_sheet w (b, o)).1.1 in
  ws_name w ∉ names (wb_sheets b') /\ wb_sheets b' = filter (fun x => sh_name x <> ws_name w) (wb_sheets b)
  /\ rl_rels (wb_rels b') = filter (fun x => r_target x <> absolute (ws_path w)) (rl_rels (wb_rels b)).
Proof.
  intros E b o w. cbn zeta. destruct (delete_list w b o) as [H1 H2]. rewrite H1, H2. split; [|split; [done|]].
  - intros (x & Hx & Hn)%in_names. apply elem_of_list_filter in Hx as [Hx _]. done.
  - rewrite delete_rels. apply filter_ne.
Qed.
(** The part itself stays: the sheet is written into the package on the way out, as if it had just
    been closed. *)
Theorem C36_part_stays_refuted : forall (E : Env) (b : workbook) (o : office) (w : worksheet),
  SheetOpen o (ws_path w) -> sheet_typed w -> rl_path (ws_rels w) <> ws_path w ->
  let o' := (wb_delete_sheet w (b, o)).1.2 in
  (wb_delete_sheet w (b, o)).2 = Ok tt
  /\ exists e, (ws_close (w, o)).1.2 = mkOffice (delete (ws_path w) (of_open o)) (<[ws_path w := e]> (of_archive o))
     /\ of_archive o' !! ws_path w = Some e /\ of_open o' !! ws_path w = None.
Proof.
  intros E b o w Ho Hw Hrp. cbn zeta.
  set (o0 := (delete_document (ws_path w) o).1).
  assert (SheetOpen o0 (ws_path w)) as Ho0 by exact Ho.
  destruct (sheet_cycle o w Ho Hw) as (e & _ & _ & _ & Hc & _).
  destruct (sheet_cycle o0 w Ho0 Hw) as (e0 & _ & _ & _ & Hc0 & _).
  assert (e0 = e) as ->.
  { revert Hc Hc0. unfold ws_close. cbn [o0 delete_document modify fst set_archive of_open of_archive]. destruct (of_open o !! ws_path w) as [p|] eqn:Hp; [|].
    - destruct (ws_save (w, op_doc p)) as [[w1 d] [[]|x|x]]; [|done..]. unfold close_xml_document. cbn [of_open of_archive set_open]. rewrite lookup_insert.
      destruct (write_doc _) as [data|x|x]; [|done..]. cbn. intros H1 H2.
      apply (f_equal (fun s => of_archive s.1.2 !! ws_path w)) in H1, H2. cbn in H1, H2. rewrite !lookup_insert in H1, H2. congruence.
    - destruct Ho as (p & _ & Hp' & _). congruence. }
  unfold wb_delete_sheet, delete_sheet, bind, on_sheets, on_pkg, on_rels, on_office, modify. cbn [fst snd]. fold o0.
  assert ((let (o', r) := delete_document (ws_path w) o in (o', r)) = (o0, Ok tt)) as Hd by done.
  change (delete_document (ws_path w) o) with (o0, Ok tt). cbv beta iota zeta. cbn [fst snd].
  unfold ws_flush. rewrite Hc0. cbv beta iota zeta. cbn [fst snd]. split; [done|]. exists e. split; [by rewrite Hc|].
  unfold ws_drop, ws_close. change (ws_path (handed w)) with (ws_path w). cbn [of_open]. rewrite lookup_delete. cbn [fst snd].
  set (o2 := mkOffice _ _). change (ws_rels (handed w)) with (ws_rels w).
  destruct (rels_close_other (ws_rels w) o2 (ws_path w)) as [-> ->]; [congruence|]. cbn. by rewrite lookup_insert, lookup_delete.
Qed.

(** C43: after any calls of the view setters each setting has the value of the last call for it, or
    the value it had before (the default if there was no view); nothing else changes. *)
Theorem C43_view_settings : forall (ops : list view_op) (b : workbook),
  let old := default book_view_default (wb_view b) in
  ops <> [] -> exists v, run_views ops b = set_wb_view b (Some v)
  /\ bv_visibility v = last_set k_visible ops (bv_visibility old) /\ bv_min v = last_set k_min ops (bv_min old)
  /\ bv_no_tabs v = last_set k_tabs ops (bv_no_tabs old) /\ bv_no_vscroll v = last_set k_vert ops (bv_no_vscroll old)
  /\ bv_no_hscroll v = last_set k_hor ops (bv_no_hscroll old)
  /\ bv_active v = bv_active old /\ bv_first v = bv_first old /\ bv_ratio v = bv_ratio old /\ bv_group v = bv_group old.
Proof. apply view_history. Qed.
Example C43_example : forall b, wb_view b = None ->
  wb_view (run_views [VVisible false; VNoTabs true; VVisible true; VMinimize true] b)
  = Some (mkBookView None None (Some "visible") true false false true None None).
Proof. intros [] [= ->]. done. Qed.

(** C44: choosing the active sheet has no effect on what is saved: the package after flushing the
    workbook, and the result, are the same as without it. *)
Theorem C44_active_not_saved_refuted : forall (E : Env) (b : workbook) (o : office) (n : string),
  wb_flush (set_active_sheet n b).1 o = wb_flush b o.
Proof. intros E b o n. apply flush_active. Qed.
(** In memory exactly the sheets of that name are active. *)
Theorem C44_active : forall (b b' : workbook) (n : string) (r : res unit),
  set_active_sheet n b = (b', r) ->
  r = Ok tt /\ b' = set_wb_sheets b (wb_sheets b')
  /\ Forall2 (fun x y => sh_name y = sh_name x /\ sh_rel y = sh_rel x /\ sh_hidden y = sh_hidden x /\ (sh_active y = true <-> sh_name x = n))
       (wb_sheets b) (wb_sheets b').
Proof.
  intros b b' n r [= <- <-]. split; [done|]. split; [done|]. cbn. induction (wb_sheets b) as [|x l IH]; cbn; constructor; [|done].
  cbn. split; [done|]. split; [done|]. split; [done|]. apply seqb_true.
Qed.

(** A workbook made by the library, with some sheets. *)
Definition demo_book : workbook * office :=
  let s := workbook_new (H := demo_env Checked) (mkRelations [] "_rels/.rels", mkOffice ∅ ∅) in
  match s.2 with Ok b => (b, s.1.2) | _ => (mkBook "" (mkCalc [] "") (mkSst [] "") (mkStylePart no_styles "") (mkRelations [] "") "" [] None, s.1.2) end.
Definition demo_handle (n : string) (s : workbook * office) : worksheet :=
  match (add_sheet (H := demo_env Checked) (Some n) s).2 with Ok w => w | _ => mkWs "" "" (mkRelations [] "") dim_default [] None None end.
Example C23_C25_C36_example : let E := demo_env Checked in
  get_relative_path (wb_rels demo_book.1) = Ok "xl/"
  /\ names (wb_sheets (run_lists [LAdd None; LAdd (Some "Data"); LRename "sheet1" "Start"; LAdd None; LGet "Data"; LHide "Start"] demo_book).1) = ["Start"; "Data"; "sheet3"]
  /\ (let s := (run_lists [LAdd None; LRename "sheet1" "Start"] demo_book) in let w := demo_handle "Data" s in
      let s1 := run_list (LAdd (Some "Data")) s in
      ws_name w = "Data" /\ ws_path w = "xl/worksheets/sheet2.xml" /\ names (wb_sheets s1.1) = ["Start"; "Data"]
      /\ names (wb_sheets (run_list (LDelete w) s1).1) = ["Start"]
      /\ map r_id (rl_rels (wb_rels s1.1)) = ["rId1"; "rId2"; "rId3"; "rId4"; "rId5"; "rId6"]
      /\ map r_id (rl_rels (wb_rels (run_list (LDelete w) s1).1)) = ["rId1"; "rId2"; "rId3"; "rId4"; "rId5"]
      /\ check_file_exist (run_list (LDelete w) s1).2 "xl/worksheets/sheet2.xml" = true)
  /\ map sh_hidden (wb_sheets (run_lists [LAdd None; LAdd None; LHide "sheet1"; LHide "sheet2"] demo_book).1) = [false; true].
Proof. by vm_compute. Qed.
Example C26_example : let E := demo_env Checked in exists o rest, BookOpen o "xl/workbook.xml" rest /\ map t_tag rest = ["fileVersion"].
Proof.
  cbn zeta. destruct (C26_new_part (demo_env Checked) (mkOffice ∅ ∅) "xl/workbook.xml") as (o1 & rest & _ & H1 & H2 & _); [done|done|]. by exists o1, rest.
Qed.

Print Assumptions C23_history.
Print Assumptions C23_name_in_use.
Print Assumptions C23_added_listed.
Print Assumptions C23_auto_name_refuted.
Print Assumptions C23_stale_handle_refuted.
Print Assumptions C24_rename.
Print Assumptions C25_hide.
Print Assumptions C25_only_one_refuted.
Print Assumptions C26_written.
Print Assumptions C26_round_trip.
Print Assumptions C26_new_part.
Print Assumptions C26_tabs_refuted.
Print Assumptions C36_delete_list.
Print Assumptions C36_part_stays_refuted.
Print Assumptions C43_view_settings.
Print Assumptions C44_active_not_saved_refuted.
Print Assumptions C44_active.
