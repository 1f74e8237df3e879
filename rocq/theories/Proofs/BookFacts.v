(** The sheet list in memory, and the workbook part: writing and reading back. *)
From Verif.Model Require Import Workbook.
From Verif.Spec Require Import RelSpec XmlSpec XmlRepr PackageSpec PartSpec ColumnSpec SheetSpec StyleSpec BookSpec.
From Verif.Proofs Require Import BaseFacts ConverterFacts XmlWriteFacts XmlReadFacts XmlTreeFacts XmlHistFacts XmlNsFacts DocBuild PartFacts
  PackageFacts TypesFacts RelFacts RelDocFacts ReadAnyFacts SmallPartFacts AttrFacts SheetFacts SheetDocFacts SheetCycleFacts StyleDocFacts.
Open Scope N_scope.

Section with_env.
Context `{E : Env}.
Ltac keys := lazy; reflexivity.
Ltac found := lazy [find_attr List.find String.eqb Ascii.eqb Bool.eqb fst snd]; reflexivity.

(** ** The list *)
Lemma in_names n l : n ∈ names l <-> exists x, x ∈ l /\ sh_name x = n.
Proof. unfold names. rewrite elem_of_list_fmap. split; intros (x & H1 & H2); eauto. Qed.
Lemma seqb_decide a b : seqb a b = bool_decide (a = b).
Proof. destruct (seqb a b) eqn:Hs; symmetry; [apply bool_decide_eq_true|apply bool_decide_eq_false]; [by apply seqb_true|by apply seqb_false]. Qed.
Lemma find_named n l : match List.find (fun x => seqb (sh_name x) n) l with
  | Some x => x ∈ l /\ sh_name x = n
  | None => n ∉ names l end.
Proof.
  destruct (List.find _ l) as [x|] eqn:Ef.
  - apply find_some in Ef as [Hx Hn]. apply seqb_true in Hn. split; [by apply elem_of_list_In|done].
  - intros (x & Hx & Hn)%in_names. eapply find_none in Ef; [|by apply elem_of_list_In]. cbn beta in Ef. apply seqb_false in Ef. done.
Qed.
Lemma rename_first_spec old new l : match rename_first old new l with
  | Some l' => exists l1 x l2, l = l1 ++ x :: l2 /\ sh_name x = old /\ old ∉ names l1 /\ l' = l1 ++ renamed new x :: l2
  | None => old ∉ names l end.
Proof.
  induction l as [|s l IH]; cbn [rename_first]; [by apply not_elem_of_nil|].
  destruct (seqb (sh_name s) old) eqn:Hs.
  - apply seqb_true in Hs. exists [], s, l. split; [done|]. split; [done|]. split; [by apply not_elem_of_nil|done].
  - apply seqb_false in Hs. destruct (rename_first old new l) as [l'|]; cbn.
    + destruct IH as (l1 & x & l2 & -> & H1 & H2 & ->). exists (s :: l1), x, l2. split; [done|]. split; [done|].
      split; [|done]. apply not_elem_of_cons. split; [congruence|done].
    + apply not_elem_of_cons. split; [congruence|done].
Qed.
Lemma existsb_names n l : existsb (fun s => seqb n (sh_name s)) l = bool_decide (n ∈ names l).
Proof.
  destruct (existsb _ l) eqn:Hx; symmetry; [apply bool_decide_eq_true|apply bool_decide_eq_false].
  - apply existsb_exists in Hx as (x & H1 & H2). apply seqb_true in H2. apply in_names. exists x. split; [by apply elem_of_list_In|done].
  - intros (x & H1 & H2)%in_names. enough (existsb (fun s => seqb n (sh_name s)) l = true) by congruence.
    apply existsb_exists. exists x. split; [by apply elem_of_list_In|]. by apply seqb_true.
Qed.
Lemma rename_sheet_spec old new b :
  ((old ∉ names (wb_sheets b) \/ new ∈ names (wb_sheets b)) /\ exists e, rename_sheet old new b = (b, Err e))
  \/ exists l1 x l2, wb_sheets b = l1 ++ x :: l2 /\ sh_name x = old /\ old ∉ names l1 /\ new ∉ names (wb_sheets b)
     /\ rename_sheet old new b = (set_wb_sheets b (l1 ++ renamed new x :: l2), Ok tt).
Proof.
  unfold rename_sheet. rewrite existsb_names. case_bool_decide as Hn.
  - left. split; [by right|eauto].
  - pose proof (rename_first_spec old new (wb_sheets b)) as Hr. destruct (rename_first old new (wb_sheets b)) as [l'|].
    + right. destruct Hr as (l1 & x & l2 & H1 & H2 & H3 & ->). exists l1, x, l2. done.
    + left. split; [by left|eauto].
Qed.
(** [ws_new] touches the list and the relationships only while it looks for the file name. *)
Lemma ws_new_list name s : let r := get_sheet_file_name name s in
  (ws_new name s).1.1 = r.1.1 /\ (ws_new name s).1.2.1 = r.1.2.1
  /\ (forall w, (ws_new name s).2 = Ok w -> exists path nm, r.2 = Ok (path, nm) /\ ws_path w = path /\ ws_name w = nm).
Proof.
  cbn zeta. unfold ws_new, bind. destruct (get_sheet_file_name name s) as [[l [r o]] [[path nm]|e|e]]; [|by split_and!..].
  unfold on_pkg, on_office, lift. cbn [fst snd].
  destruct (get_xml_document ws_init path o) as [o1 [[]|e|e]]; cbn [fst snd]; [|by split_and!..].
  destruct (rels_beside path) as [rp|e|e]; [|by split_and!..].
  destruct (rels_new rp o1) as [o2 [rels|e|e]]; cbn [fst snd]; [|by split_and!..].
  destruct (with_doc path ws_load o2) as [o3 [x|e|e]]; cbn [fst snd]; [|by split_and!..].
  destruct (default (None, None, [view_default], dim_default) x) as [[[cols data] views] dim]. cbn [fst snd].
  split; [done|]. split; [done|]. intros w [= <-]. exists path, nm. done.
Qed.
Lemma file_name_old n x sheets rels o : List.find (fun x => seqb (sh_name x) n) sheets = Some x ->
  get_sheet_file_name (Some n) (sheets, (rels, o)) = ((sheets, (rels, o)),
    rbind (get_target_by_id rels (sh_rel x)) (fun p => match p with Some p => Ok (p, n) | None => Err "Failed to Get Relationship path" end)).
Proof.
  intros Hx. unfold get_sheet_file_name, bind, get. cbn [mbind option_bind]. rewrite Hx. unfold lift.
  destruct (get_target_by_id rels (sh_rel x)) as [[p|]|e|e]; done.
Qed.
Lemma add_list name b o rp : get_relative_path (wb_rels b) = Ok rp ->
  let r := add_sheet name (b, o) in
  (exists n, name = Some n /\ n ∈ names (wb_sheets b) /\ wb_sheets r.1.1 = wb_sheets b /\ wb_rels r.1.1 = wb_rels b)
  \/ (exists k, N.of_nat (length (wb_sheets b)) < k /\ (forall n, name = Some n -> n ∉ names (wb_sheets b))
      /\ let id := get_next_relationship_id (wb_rels b) in
      wb_sheets r.1.1 = wb_sheets b ++ [mkSheet (default (sheet_file k) name) id false false]
      /\ wb_rels r.1.1 = set_rels (wb_rels b) (rl_rels (wb_rels b) ++ [mkRel id ("/" +:+ sheet_path (rp +:+ c_path c_worksheet) k) (c_type c_worksheet) None])).
Proof.
  intros Hrp. cbn zeta. unfold add_sheet. cbn [fst snd].
  pose proof (ws_new_list name (wb_sheets b, (wb_rels b, o))) as (H1 & H2 & _).
  destruct (ws_new name (wb_sheets b, (wb_rels b, o))) as [[l [r o1]] x]. cbn [fst snd] in *. cbn.
  assert ((exists n y, name = Some n /\ List.find (fun x => seqb (sh_name x) n) (wb_sheets b) = Some y) \/ (forall n, name = Some n -> n ∉ names (wb_sheets b))) as [(n & y & -> & Hf)|Hn].
  { destruct name as [n|]; [|by right]. pose proof (find_named n (wb_sheets b)) as Hf. destruct (List.find _ _) as [y|] eqn:Ef; [left; by exists n, y|right]. by intros ? [= <-]. }
  - left. rewrite (file_name_old n y _ _ _ Hf) in H1, H2. cbn [fst snd] in H1, H2. subst l r.
    pose proof (find_named n (wb_sheets b)) as Hq. rewrite Hf in Hq. destruct Hq as [Hy Hyn].
    exists n. split; [done|]. split; [apply in_names; eauto|]. done.
  - right. destruct (file_name_new name (wb_sheets b) (wb_rels b) o rp) as (k & Hg & Hk & _ & _); [|done|].
    { intros n z Hnm Hz Hzn. apply (Hn n Hnm). apply in_names. eauto. }
    rewrite Hg in H1, H2. cbn [fst snd] in H1, H2. exists k. split; [done|]. split; [done|]. by rewrite H1, H2.
Qed.
Lemma relative_path_set r l : get_relative_path (set_rels r l) = get_relative_path r.
Proof. done. Qed.
Lemma filter_ne {A} (f : A -> string) k l : List.filter (fun x => negb (seqb (f x) k)) l = filter (fun x => f x <> k) l.
Proof.
  induction l as [|x l IH]; [done|]. cbn [List.filter]. rewrite filter_cons. destruct (seqb (f x) k) eqn:Hs.
  - apply seqb_true in Hs. rewrite decide_False by (intros Hq; by apply Hq). exact IH.
  - apply seqb_false in Hs. rewrite decide_True by done. cbn. by f_equal.
Qed.
Lemma with_doc_other {A} path (m : M doc A) o q : q <> path ->
  of_open (with_doc path m o).1 !! q = of_open o !! q /\ of_archive (with_doc path m o).1 = of_archive o.
Proof.
  intros Hq. unfold with_doc. destruct (of_open o !! path) as [p|]; [|done]. destruct (m (op_doc p)) as [d r]. cbn. by rewrite lookup_insert_ne.
Qed.
Lemma delete_document_other path o q : q <> path ->
  of_open (delete_document path o).1 !! q = of_open o !! q /\ of_archive (delete_document path o).1 !! q = of_archive o !! q.
Proof. intros Hq. cbn. by rewrite lookup_delete_ne. Qed.
Lemma rels_close_other r o q : q <> rl_path r ->
  of_open (rels_close r o).1 !! q = of_open o !! q /\ of_archive (rels_close r o).1 !! q = of_archive o !! q.
Proof.
  intros Hq. unfold rels_close, bind. destruct (with_doc_other (rl_path r) (save_relationships (rl_rels r)) o q Hq) as [H1 H2].
  destruct (with_doc (rl_path r) (save_relationships (rl_rels r)) o) as [o1 [[[]|]|e|e]]; cbn [fst snd] in *; try (by rewrite H1, H2).
  - destruct (close_other (rl_path r) q o1) as [-> ->]; [congruence|]. by rewrite H1, H2.
  - destruct (delete_document_other (rl_path r) o1 q Hq) as [-> ->]. by rewrite H1, H2.
  - unfold fail. cbn [fst]. by rewrite H1, H2.
Qed.
Lemma delete_list w b o : wb_sheets (wb_delete_sheet w (b, o)).1.1 = filter (fun x => sh_name x <> ws_name w) (wb_sheets b)
  /\ wb_rels (wb_delete_sheet w (b, o)).1.1 = delete_relationship (ws_path w) (wb_rels b).
Proof.
  unfold wb_delete_sheet, delete_sheet, bind, on_sheets, on_pkg, on_rels, on_office, modify, delete_document. cbn [fst snd]. unfold modify. cbn [fst snd].
  match goal with |- context [ws_flush w ?x] => destruct (ws_flush w x) as [o1 r] end. cbn. split; [apply filter_ne|done].
Qed.
Lemma map_Forall2 {A B} (f : A -> B) l : Forall2 (fun x y => y = f x) l (map f l).
Proof. induction l; constructor; [done|done]. Qed.
Lemma run_list_step op s rp : get_relative_path (wb_rels s.1) = Ok rp ->
  ListStep op (wb_sheets s.1) (wb_sheets (run_list op s).1) /\ get_relative_path (wb_rels (run_list op s).1) = Ok rp.
Proof.
  destruct s as [b o]. cbn [fst]. intros Hrp.
  assert (forall name, get_relative_path (wb_rels (add_sheet name (b, o)).1.1) = Ok rp /\
    match name with Some n => Ensured n (wb_sheets b) (wb_sheets (add_sheet name (b, o)).1.1) | None => ListStep (LAdd None) (wb_sheets b) (wb_sheets (add_sheet name (b, o)).1.1) end) as Hadd.
  { intros name. destruct (add_list name b o rp Hrp) as [(n & -> & Hn & -> & ->)|(k & Hk & Hn & H1 & H2)].
    - split; [done|]. by constructor.
    - rewrite H1, H2. split; [by rewrite relative_path_set|]. destruct name as [n|]; cbn [default].
      + constructor. by apply Hn.
      + by constructor. }
  destruct op as [name|n|old new|w|n|n]; cbn [run_list].
  - destruct (Hadd name) as [H1 H2]. split; [|done]. destruct name; [by constructor|done].
  - destruct (Hadd (Some n)) as [H1 H2]. split; [by constructor|done].
  - unfold on_book. cbn [fst snd]. destruct (rename_sheet_spec old new b) as [[Hn [e ->]]|(l1 & x & l2 & H1 & H2 & H3 & H4 & ->)]; cbn [fst snd].
    + split; [by constructor|done].
    + cbn. rewrite H1 in *. split; [by constructor|done].
  - destruct (delete_list w b o) as [-> ->]. split; [constructor|]. done.
  - unfold on_book, hide_sheet, modify. cbn. split; [|done]. constructor.
    erewrite map_ext; [apply map_Forall2|]. intros x. cbn beta. by rewrite seqb_decide.
  - unfold on_book, set_active_sheet, modify. cbn. split; [|done]. constructor.
    erewrite map_ext; [apply map_Forall2|]. intros x. cbn beta. by rewrite seqb_decide.
Qed.
Lemma run_lists_history ops : forall s rp, get_relative_path (wb_rels s.1) = Ok rp ->
  ListHistory ops (wb_sheets s.1) (wb_sheets (run_lists ops s).1).
Proof.
  induction ops as [|op ops IH]; intros s rp Hrp; cbn [run_lists]; [constructor|].
  destruct (run_list_step op s rp Hrp) as [H1 H2]. econstructor; [exact H1|]. eapply IH, H2.
Qed.

(** ** View settings *)
Lemma last_set_cons {A} (kind : view_op -> option A) op ops old : last_set kind (op :: ops) old
  = last_set kind ops (default old (kind op)).
Proof.
  unfold last_set. cbn [omap list_omap]. destruct (kind op) as [x|]; [|done]. rewrite last_cons. by destruct (last _).
Qed.
Lemma view_history ops : forall b, let old := default book_view_default (wb_view b) in
  ops <> [] -> exists v, run_views ops b = set_wb_view b (Some v)
  /\ bv_visibility v = last_set k_visible ops (bv_visibility old) /\ bv_min v = last_set k_min ops (bv_min old)
  /\ bv_no_tabs v = last_set k_tabs ops (bv_no_tabs old) /\ bv_no_vscroll v = last_set k_vert ops (bv_no_vscroll old)
  /\ bv_no_hscroll v = last_set k_hor ops (bv_no_hscroll old)
  /\ bv_active v = bv_active old /\ bv_first v = bv_first old /\ bv_ratio v = bv_ratio old /\ bv_group v = bv_group old.
Proof.
  induction ops as [|op ops IH]; intros b old; [done|]. intros _. cbn [run_views].
  destruct ops as [|op' ops].
  - exists (default book_view_default (wb_view (run_view op b))). destruct op; done.
  - destruct (IH (run_view op b)) as (v & Hv & H1 & H2 & H3 & H4 & H5 & H6 & H7 & H8 & H9); [done|]. exists v. split; [rewrite Hv; by destruct op|].
    rewrite !(last_set_cons _ op). rewrite H1, H2, H3, H4, H5, H6, H7, H8, H9. destruct op; done.
Qed.

(** ** The active flag is not written *)
Definition same_but_active (x y : sheet) : Prop := sh_name x = sh_name y /\ sh_rel x = sh_rel y /\ sh_hidden x = sh_hidden y.
Lemma sheet_trees_active l l' : Forall2 same_but_active l l' -> forall n, book_sheet_trees n l = book_sheet_trees n l'.
Proof.
  induction 1 as [|x y l l' (H1 & H2 & H3) _ IH]; intros n; [done|]. cbn [book_sheet_trees]. rewrite IH. unfold book_sheet_attrs. by rewrite H1, H2, H3.
Qed.
Lemma save_book_active view l l' : Forall2 same_but_active l l' -> save_book view l = save_book view l'.
Proof. intros Hl. unfold save_book, book_sheets_tree. by rewrite (sheet_trees_active l l' Hl). Qed.
Lemma on_wb_rels_sheets {A} (m : M pkg_state A) b o l :
  on_wb_rels m (set_wb_sheets b l, o) = let '((b1, o1), r) := on_wb_rels m (b, o) in ((set_wb_sheets b1 l, o1), r).
Proof. unfold on_wb_rels. cbn. by destruct (m (wb_rels b, o)) as [[r o1] x]. Qed.
Lemma on_wb_office_sheets {A} (m : M office A) b o l :
  on_wb_office m (set_wb_sheets b l, o) = let '((b1, o1), r) := on_wb_office m (b, o) in ((set_wb_sheets b1 l, o1), r).
Proof. unfold on_wb_office. cbn. by destruct (m o) as [o1 x]. Qed.
Definition Keeps {A} (m : M wb_state A) : Prop := forall b o l,
  m (set_wb_sheets b l, o) = let '((b1, o1), r) := m (b, o) in ((set_wb_sheets b1 l, o1), r).
Lemma keeps_bind {A B} (m : M wb_state A) (k : A -> M wb_state B) : Keeps m -> (forall a, Keeps (k a)) -> Keeps (bind m k).
Proof. intros Hm Hk b o l. unfold bind. rewrite Hm. destruct (m (b, o)) as [[b1 o1] [a|e|e]]; [apply Hk|done..]. Qed.
Lemma keeps_close_rels : Keeps (fun s => on_wb_office (rels_close (wb_rels s.1)) s).
Proof. intros b o l. cbn [fst]. change (wb_rels (set_wb_sheets b l)) with (wb_rels b). apply on_wb_office_sheets. Qed.
Lemma keeps_services b : Keeps (services_close b).
Proof.
  unfold services_close. repeat (apply keeps_bind; [|intros]); intros ? ? ?; (apply on_wb_rels_sheets || apply on_wb_office_sheets).
Qed.
Lemma wb_close_sheets b o l : Forall2 same_but_active l (wb_sheets b) ->
  wb_close (set_wb_sheets b l, o) = let '((b1, o1), r) := wb_close (b, o) in ((set_wb_sheets b1 l, o1), r).
Proof.
  intros Hl. unfold wb_close. unfold bind at 1 6, get. cbv beta iota zeta. cbn [fst].
  change (services_close (set_wb_sheets b l)) with (services_close b). change (wb_theme (set_wb_sheets b l)) with (wb_theme b).
  change (wb_path (set_wb_sheets b l)) with (wb_path b). change (wb_view (set_wb_sheets b l)) with (wb_view b). change (wb_sheets (set_wb_sheets b l)) with l.
  unfold book_part_close. rewrite (save_book_active _ _ _ Hl).
  match goal with |- ?m _ = _ => assert (Keeps m) as Hk; [|apply Hk] end.
  apply keeps_bind; [intros ???; apply on_wb_office_sheets|intros _].
  apply keeps_bind; [apply keeps_services|intros _].
  apply keeps_bind; [apply keeps_close_rels|intros _]. intros ???; apply on_wb_office_sheets.
Qed.
Lemma quietly_keeps {m : M wb_state unit} b o l : Keeps m -> quietly m (set_wb_sheets b l, o) = (set_wb_sheets (quietly m (b, o)).1 l, (quietly m (b, o)).2).
Proof. intros Hm. unfold quietly. rewrite Hm. by destruct (m (b, o)) as [[b1 o1] r]. Qed.
Lemma same_rel b l o : Forall2 same_but_active l (wb_sheets b) -> Forall2 same_but_active l (wb_sheets (wb_close (b, o)).1.1).
Proof.
  intros Hl. enough (wb_sheets (wb_close (b, o)).1.1 = wb_sheets b) as -> by done.
  assert (Forall2 same_but_active (wb_sheets b) (wb_sheets b)) as Hr.
  { clear. induction (wb_sheets b); constructor; [by repeat split|done]. }
  pose proof (wb_close_sheets b o (wb_sheets b) Hr) as He. replace (set_wb_sheets b (wb_sheets b)) with b in He by (by destruct b).
  destruct (wb_close (b, o)) as [[b1 o1] r] eqn:E1. injection He as He. cbn [fst]. rewrite He. done.
Qed.
Lemma wb_drop_sheets b o l : Forall2 same_but_active l (wb_sheets b) -> wb_drop (set_wb_sheets b l) o = wb_drop b o.
Proof.
  intros Hl. unfold wb_drop. change (wb_calc (set_wb_sheets b l)) with (wb_calc b). change (wb_sst (set_wb_sheets b l)) with (wb_sst b).
  change (wb_style (set_wb_sheets b l)) with (wb_style b). change (wb_theme (set_wb_sheets b l)) with (wb_theme b).
  assert (quietly wb_close (set_wb_sheets b l, o) = (set_wb_sheets (quietly wb_close (b, o)).1 l, (quietly wb_close (b, o)).2)) as ->.
  { unfold quietly. rewrite wb_close_sheets by done. by destruct (wb_close (b, o)) as [[b1 o1] r]. }
  destruct (quietly wb_close (b, o)) as [b1 o1]. cbn [fst snd].
  assert (forall (m : M pkg_state unit) b o, quietly (on_wb_rels m) (set_wb_sheets b l, o) = (set_wb_sheets (quietly (on_wb_rels m) (b, o)).1 l, (quietly (on_wb_rels m) (b, o)).2)) as Hr.
  { intros m b0 o0. apply quietly_keeps. intros ???. apply on_wb_rels_sheets. }
  assert (forall (m : M office unit) b o, quietly (on_wb_office m) (set_wb_sheets b l, o) = (set_wb_sheets (quietly (on_wb_office m) (b, o)).1 l, (quietly (on_wb_office m) (b, o)).2)) as Ho.
  { intros m b0 o0. apply quietly_keeps. intros ???. apply on_wb_office_sheets. }
  rewrite Hr. destruct (quietly (on_wb_rels (calc_close (wb_calc b))) (b1, o1)) as [b2 o2]. cbn [fst snd].
  rewrite Hr. destruct (quietly (on_wb_rels (sst_close (wb_sst b))) (b2, o2)) as [b3 o3]. cbn [fst snd].
  rewrite Ho. destruct (quietly (on_wb_office (style_close (wb_style b))) (b3, o3)) as [b4 o4]. cbn [fst snd].
  change (wb_rels (set_wb_sheets b4 l)) with (wb_rels b4).
  rewrite Ho. destruct (quietly (on_wb_office (rels_close (wb_rels b4))) (b4, o4)) as [b5 o5]. cbn [fst snd].
  by rewrite Ho.
Qed.
Lemma flush_active b o n : wb_flush (set_active_sheet n b).1 o = wb_flush b o.
Proof.
  cbn [set_active_sheet modify fst]. set (l := map _ (wb_sheets b)).
  assert (Forall2 same_but_active l (wb_sheets b)) as Hl.
  { subst l. induction (wb_sheets b) as [|x l' IH]; constructor; [done|exact IH]. }
  unfold wb_flush. rewrite wb_close_sheets by done. pose proof (same_rel b l o Hl) as Hs.
  destruct (wb_close (b, o)) as [[b1 o1] r]. cbn [fst] in Hs. by rewrite wb_drop_sheets.
Qed.

(** ** The part *)
Lemma book_view_tree_ok v : names_ok (book_views_tree v).
Proof.
  apply node_ok; [keys|done|]. apply List.Forall_cons; [|constructor]. apply node_ok; [keys|apply opt_attrs_ok; keys|constructor].
Qed.
Lemma book_sheet_trees_ok l : forall n, Forall names_ok (book_sheet_trees n l).
Proof.
  induction l as [|s l IH]; intros n; cbn [book_sheet_trees]; [constructor|]. apply List.Forall_cons; [|apply IH].
  apply node_ok; [keys|apply opt_attrs_ok; keys|constructor].
Qed.
Lemma book_sheets_tree_ok l : names_ok (book_sheets_tree l).
Proof. apply node_ok; [keys|done|apply book_sheet_trees_ok]. Qed.
Lemma book_view_back_ok v : ratio_typed v -> book_view_of (spec_escape <$> book_view_attrs v) = Ok (book_view_back v).
Proof.
  intros Hr. unfold book_view_of, book_view_attrs. set (l := cons _ _).
  assert (fresh_keys l = true) as Hl by keys.
  pose (ratio := match bv_group v with Some g => Some (if g then 1%Z else 0%Z) | None => bv_ratio v end).
  rewrite (parse_attr_back _ show_Z l "tabRatio" ratio Hl).
  2:{ assert (find_attr l "tabRatio" = match bv_group v with Some g => Some (bool_xml_flag g) | None => show_Z <$> bv_ratio v end) as -> by found.
      unfold ratio. by destruct (bv_group v) as [[]|]. }
  2:{ unfold ratio. unfold ratio_typed in Hr. intros x Hx. rewrite escape_show_Z. apply parse_i16_show.
      destruct (bv_group v) as [[]|]; [injection Hx as <-; lia|injection Hx as <-; lia|]. by rewrite Hx in Hr. }
  cbn [rmap rbind]. rewrite !opt_attrs_escaped by done.
  assert (find_attr l "activeTab" = bv_active v) as -> by found.
  assert (find_attr l "firstSheet" = bv_first v) as -> by found.
  assert (find_attr l "visibility" = bv_visibility v) as -> by found.
  assert (find_attr l "minimized" = Some (bool_xml_flag (bv_min v))) as -> by found.
  assert (find_attr l "showHorizontalScroll" = Some (bool_xml_flag (negb (bv_no_hscroll v)))) as -> by found.
  assert (find_attr l "showVerticalScroll" = Some (bool_xml_flag (negb (bv_no_vscroll v)))) as -> by found.
  assert (find_attr l "showSheetTabs" = Some (bool_xml_flag (negb (bv_no_tabs v)))) as -> by found.
  assert (find_attr l "autoFilterDateGrouping" = None) as -> by found.
  cbn [fmap option_fmap option_map default]. unfold id. rewrite !escape_flag, !normalize_flag, !negb_involutive. done.
Qed.
Lemma book_sheet_back_ok n s : sheet_of_attrs (spec_escape <$> book_sheet_attrs n s) = Ok (book_sheet_back s).
Proof.
  unfold sheet_of_attrs, book_sheet_attrs. set (l := cons _ _). assert (fresh_keys l = true) as Hl by keys.
  rewrite !opt_attrs_escaped by done.
  assert (find_attr l "name" = Some (sh_name s)) as -> by found.
  assert (find_attr l "r:id" = Some (sh_rel s)) as -> by found.
  assert (find_attr l "state" = if sh_hidden s then Some "hidden" else None) as -> by found.
  cbn [fmap option_fmap option_map of_option rbind]. unfold book_sheet_back. by destruct (sh_hidden s).
Qed.
Lemma book_sheets_back l : forall n, rmapM sheet_of_tree (map reread (book_sheet_trees n l)) = Ok (map (fun s => Some (book_sheet_back s)) l).
Proof.
  induction l as [|s l IH]; intros n; [done|]. cbn [book_sheet_trees map rmapM reread].
  unfold sheet_of_tree at 1. cbn [t_attrs default]. unfold id at 1. rewrite book_sheet_back_ok. cbn [rmap rbind]. by rewrite IH.
Qed.
Definition book_trees (view : option book_view) (l : list sheet) : list tree :=
  match view with Some v => [book_views_tree v] | None => [] end ++ [book_sheets_tree l].
Lemma book_trees_ok view l : Forall names_ok (book_trees view l).
Proof.
  unfold book_trees. apply Forall_app. split; [|apply List.Forall_cons; [apply book_sheets_tree_ok|constructor]].
  destruct view; [apply List.Forall_cons; [apply book_view_tree_ok|constructor]|constructor].
Qed.
Definition book_in_order (cs : list tree) : Prop :=
  StronglySorted (fun x y => order_index workbook_order (t_tag x) <= order_index workbook_order (t_tag y)) cs.
Lemma save_book_doc d g a v cs view l : Doc d (Node g a v cs) ->
  exists d' cs', save_book view l d = (d', Ok tt) /\ Doc d' (Node g a v cs') /\ d_ns d' = d_ns d
  /\ Permutation cs' (book_trees view l ++ cs) /\ book_in_order cs' /\ left_alone workbook_order book_tags cs cs'.
Proof.
  intros Hd. unfold save_book, bind.
  assert (exists d1 cs1, (match view with Some v => insert_tree_after "fileVersion" (book_views_tree v) | None => ret tt end) d = (d1, Ok tt)
    /\ Doc d1 (Node g a v cs1) /\ d_ns d1 = d_ns d /\ Permutation cs1 (match view with Some v => [book_views_tree v] | None => [] end ++ cs)
    /\ (forall p, (forall t, t_tag t ∈ book_tags -> p t = false) -> List.filter p cs1 = List.filter p cs)) as (d1 & cs1 & -> & D1 & S1 & P1 & F1).
  { destruct view as [w|]; [|exists d, cs; done].
    destruct (Doc_insert_after d g a v cs "fileVersion" (book_views_tree w) Hd (book_view_tree_ok w)) as (d1 & T & D & S).
    exists d1. eexists. split; [exact T|]. split; [exact D|]. split; [done|]. split; [apply ins_after_perm|].
    intros p Hp. apply ins_after_filter, Hp. unfold book_tags. cbn. rewrite !elem_of_cons. tauto. }
  destruct (Doc_insert_after d1 g a v cs1 "bookViews" (book_sheets_tree l) D1 (book_sheets_tree_ok l)) as (d2 & T2 & D2 & S2).
  rewrite T2.
  destruct (Doc_order d2 g a v _ workbook_order D2) as (d3 & T3 & D3 & S3); [done|].
  exists d3. eexists. split; [exact T3|]. split; [exact D3|]. split; [congruence|]. split.
  - rewrite sort_by_perm, ins_after_perm, P1. unfold book_trees. rewrite <- app_assoc. cbn [app]. by rewrite Permutation_middle.
  - split; [apply sort_by_sorted|]. intros p Hsame Hp. rewrite sort_by_stable by done. rewrite ins_after_filter, F1; [done|done|].
    apply Hp. unfold book_tags. cbn. rewrite !elem_of_cons. tauto.
Qed.
Lemma not_book_tag tag cs : Forall (fun t => t_tag t ∉ book_tags) cs -> tag ∈ book_tags -> tagged tag cs = [].
Proof.
  intros Hf Ht. unfold tagged. apply filter_none. intros t Hin. apply seqb_false. intros Heq.
  rewrite Forall_forall in Hf. apply (Hf t Hin). by rewrite Heq.
Qed.
Lemma book_tagged view l cs cs' : Forall (fun t => t_tag t ∉ book_tags) cs -> Permutation cs' (book_trees view l ++ cs) ->
  tagged "bookViews" cs' = (match view with Some v => [book_views_tree v] | None => [] end) /\ tagged "sheets" cs' = [book_sheets_tree l].
Proof.
  intros Hf Hp.
  assert (forall tag, tag ∈ book_tags -> tagged tag (book_trees view l ++ cs) = tagged tag (book_trees view l)) as Hx.
  { intros tag Ht. pose proof (not_book_tag tag cs Hf Ht) as Hn. unfold tagged in *. rewrite List.filter_app, Hn. by rewrite app_nil_r. }
  split; (rewrite (tagged_perm _ _ _ Hp); rewrite Hx; [by destruct view|..]);
    try (by unfold book_tags; rewrite ?elem_of_cons; tauto); destruct view; cbn; lia.
Qed.
Lemma BookOpen_Doc o path rest : BookOpen o path rest <-> exists p t, of_open o !! path = Some p /\ Doc (op_doc p) t
  /\ names_ok t /\ ns_ok (d_ns (op_doc p)) /\ t_value t = None /\ t_children t = rest /\ Forall (fun t => t_tag t ∉ book_tags) rest.
Proof.
  split.
  - intros (p & it & Hp & Hr & Hb & H1 & H2 & H3 & H4 & H5). exists p, (erase it). split; [done|]. split; [by exists it|]. done.
  - intros (p & t & Hp & (it & [Hr Hb] & <-) & H1 & H2 & H3 & H4). exists p, it. done.
Qed.
(** Loading, given what the two collections hold. *)
Definition book_rest (cs : list tree) : list tree := untagged "sheets" (untagged "bookViews" cs).
Lemma load_book_doc d g a v cs view l : Doc d (Node g a v cs) ->
  match last_of (some_list (tagged "bookViews" cs)) with None => Ok None | Some t => book_views_of None (t_children t) end = Ok view ->
  match last_of (some_list (tagged "sheets" cs)) with None => Ok [] | Some t => rmap (omap id) (rmapM sheet_of_tree (t_children t)) end = Ok l ->
  exists d', load_book d = (d', Ok (l, view)) /\ Doc d' (Node g a v (book_rest cs)) /\ d_ns d' = d_ns d.
Proof.
  intros Hd H1 H2.
  destruct (Doc_take_tagged d g a v cs "bookViews" Hd) as (d1 & T1 & D1 & S1).
  destruct (Doc_take_tagged d1 _ _ _ _ "sheets" D1) as (d2 & T2 & D2 & S2).
  rewrite !tagged_untagged in T2 by done.
  exists d2. split; [|split; [done|congruence]].
  unfold load_book, bind, lift. rewrite T1, H1. cbn [rmap rbind]. rewrite T2, H2. done.
Qed.
Lemma book_rest_perm cs cs' : Permutation cs cs' -> Permutation (book_rest cs) (book_rest cs').
Proof. intros Hp. unfold book_rest, untagged. by do 2 apply filter_perm. Qed.
Lemma book_rest_keep view l cs : Forall (fun t => t_tag t ∉ book_tags) cs -> book_rest (map reread (book_trees view l ++ cs)) = map reread cs.
Proof.
  intros Hf. unfold book_rest, untagged. rewrite map_app, !List.filter_app.
  assert (forall tag, tag ∈ book_tags -> untagged tag (map reread cs) = map reread cs) as Hu.
  { intros tag Ht. apply untagged_all. rewrite Forall_map. eapply Forall_impl; [exact Hf|]. intros t Hn. cbn beta in *. rewrite tag_reread.
    intros Heq. apply Hn. by rewrite Heq. }
  unfold untagged in Hu. rewrite !Hu by (unfold book_tags; rewrite ?elem_of_cons; tauto). by destruct view.
Qed.
Lemma load_book_back d g a v cs cs' view l : Doc d (Node g a v (map reread cs')) -> Permutation cs' (book_trees view l ++ cs) ->
  Forall (fun t => t_tag t ∉ book_tags) cs -> (forall v, view = Some v -> ratio_typed v) ->
  exists d' rest, load_book d = (d', Ok (map book_sheet_back l, book_view_back <$> view)) /\ Doc d' (Node g a v rest)
    /\ Permutation rest (map reread cs) /\ d_ns d' = d_ns d.
Proof.
  intros Hd Hp Hf Hr. destruct (book_tagged view l cs cs' Hf Hp) as [T1 T2].
  destruct (load_book_doc d g a v (map reread cs') (book_view_back <$> view) (map book_sheet_back l) Hd) as (d' & Hl & Hd' & Hns).
  - rewrite tagged_reread, T1. destruct view as [w|]; [|done]. cbn [map some_list last_of last reread t_children book_views_tree book_views_of t_attrs default].
    unfold id at 1. rewrite book_view_back_ok by (by apply Hr). done.
  - rewrite tagged_reread, T2. cbn [map some_list last_of last reread t_children book_sheets_tree].
    rewrite book_sheets_back. cbn [rmap rbind]. f_equal. by apply omap_map_some.
  - exists d'. eexists. split; [done|]. split; [done|]. split; [|done]. rewrite (book_rest_perm _ (map reread (book_trees view l ++ cs))).
    + by rewrite book_rest_keep. + by apply Permutation_map.
Qed.
Lemma book_roundtrip o path rest view l : BookOpen o path rest -> (forall v, view = Some v -> ratio_typed v) ->
  exists e p g a cs, of_open o !! path = Some p
  /\ book_part_close path view l o = (mkOffice (delete path (of_open o)) (<[path := e]> (of_archive o)), Ok tt)
  /\ part_bytes e = Ok (prolog +:+ render_root (d_ns (op_doc p)) (Node g a None cs))
  /\ en_ct e = op_ct p /\ en_ext e = op_ext p /\ en_ext_type e = op_ext_type p
  /\ Permutation cs (book_trees view l ++ rest) /\ book_in_order cs /\ Forall (fun t => t_tag t ∉ book_tags) rest
  /\ (forall o2 e2 init, of_open o2 !! path = None -> of_archive o2 !! path = Some e2 -> part_bytes e2 = part_bytes e ->
     exists p3, get_xml_document init path o2 = (mkOffice (<[path := p3]> (of_open o2)) (delete path (of_archive o2)), Ok tt)
     /\ (forall o4, of_open o4 !! path = Some p3 -> exists o5 rest', with_doc path load_book o4 = (o5, Ok (Some (map book_sheet_back l, book_view_back <$> view)))
        /\ BookOpen o5 path rest' /\ Permutation rest' (map reread rest) /\ of_archive o5 = of_archive o4
        /\ (forall q, q <> path -> of_open o5 !! q = of_open o4 !! q))).
Proof.
  intros Ho Hr. apply BookOpen_Doc in Ho as (p & [g a v cs] & Hp & Hd & Hn & Hns & Hv & Hc & Hf). cbn in Hv, Hc. subst v cs.
  destruct (save_book_doc _ _ _ _ _ view l Hd) as (d1 & cs & Hs & Hd1 & Hns1 & Hperm & Hord & _).
  pose proof (with_doc_spec path (save_book view l) o p d1 (Ok tt) Hp Hs) as Hw. set (o1 := mkOffice _ _) in Hw.
  destruct (close_doc o1 path (mkOpen d1 (op_ct p) (op_ext p) (op_ext_type p)) (Node g a None cs)) as (e & Hcl & He1 & He2 & He3 & Hb).
  { unfold o1. cbn. by rewrite lookup_insert. } { done. }
  exists e, p, g, a, cs. split; [done|]. split.
  { unfold book_part_close, bind. rewrite Hw. cbn [rmap rbind]. rewrite Hcl. unfold o1. cbn. by rewrite delete_insert_delete. }
  cbn [op_doc] in Hb. rewrite Hns1 in Hb. split; [done|]. do 6 (split; [done|]).
  intros o2 e2 init Ho2 Ha2 Hb2. rewrite Hb in Hb2.
  pose proof Hn as (Hg & Ha & Hrest)%names_ok_node.
  assert (names_ok (Node g a None cs)) as Hn1.
  { apply names_ok_node. split; [done|]. split; [done|]. rewrite Hperm. apply Forall_app. split; [apply book_trees_ok|done]. }
  assert (cs <> []) as Hne.
  { intros ->. apply Permutation_nil in Hperm. unfold book_trees in Hperm. by destruct view. }
  destruct (open_doc o2 path e2 _ _ init Ho2 Ha2 Hb2 Hn1 Hns) as (d & Hget & Hdd & Hnsd); [by right|].
  eexists. split; [exact Hget|]. intros o4 Ho4. cbn [reread] in Hdd.
  destruct (load_book_back d _ _ _ rest cs view l Hdd Hperm Hf Hr) as (d' & rest' & Hl & Hd' & Hp' & Hns').
  eexists. exists rest'. split; [exact (with_doc_spec path load_book o4 _ d' _ Ho4 Hl)|]. split; [|split; [done|split; [done|]]].
  - apply BookOpen_Doc. eexists _, _. split; [cbn; by rewrite lookup_insert|]. split; [exact Hd'|].
    pose proof (names_ok_reread _ Hn) as Hnr. cbn [reread] in Hnr. apply names_ok_node in Hnr as (N1 & N2 & N3). split.
    { apply names_ok_node. split; [done|]. split; [done|]. by rewrite Hp'. }
    cbn [op_doc]. rewrite Hns', Hnsd. split; [by apply ns_ok_written|].
    split; [done|]. split; [done|]. rewrite Hp', Forall_map. eapply Forall_impl; [exact Hf|]. intros t. cbn beta. by rewrite tag_reread.
  - intros q Hq. cbn. by rewrite !lookup_insert_ne by congruence.
Qed.
(** The template of a new workbook. *)
Lemma workbook_init_spec : exists d d' t', workbook_init = Ok (mkOpen d (Some (c_content_type c_workbook)) (c_ext c_workbook) (c_ext_type c_workbook))
  /\ load_book d = (d', Ok ([], None))
  /\ Doc d' t' /\ names_ok t' /\ ns_ok (d_ns d') /\ t_value t' = None /\ map t_tag (t_children t') = ["fileVersion"].
Proof.
  pose (P := fun (d : doc) (t : tree) => match t with Node g a v cs => v = None /\ map t_tag cs = ["fileVersion"] end).
  destruct (template_read workbook_template P) as (d & [g a v cs] & Hr & Hd & Hn & _ & Hns & -> & Hc).
  { by vm_compute. } { by vm_compute. }
  assert (Forall (fun t => t_tag t ∉ book_tags) cs) as Hf.
  { rewrite <- (Forall_map t_tag (fun x => x ∉ book_tags)). rewrite Hc. apply (bool_decide_unpack _). by vm_compute. }
  destruct (load_book_doc d g a None cs None [] Hd) as (d' & Hl & Hd' & Hns').
  { by rewrite (not_book_tag _ _ Hf) by (unfold book_tags; rewrite ?elem_of_cons; tauto). }
  { by rewrite (not_book_tag _ _ Hf) by (unfold book_tags; rewrite ?elem_of_cons; tauto). }
  assert (book_rest cs = cs) as Hrest.
  { assert (forall tag, tag ∈ book_tags -> untagged tag cs = cs) as Hu.
    { intros tag Ht. apply untagged_all. eapply Forall_impl; [exact Hf|]. intros t Hq Heq. cbn beta in Hq. apply Hq. by rewrite Heq. }
    unfold book_rest. rewrite !Hu; [done|..]; unfold book_tags; rewrite ?elem_of_cons; tauto. }
  rewrite Hrest in Hd'. exists d, d'. eexists. split; [unfold workbook_init; by rewrite Hr|]. split; [done|]. split; [exact Hd'|]. split; [done|].
  split; [by rewrite Hns'|]. split; [done|]. done.
Qed.
End with_env.
