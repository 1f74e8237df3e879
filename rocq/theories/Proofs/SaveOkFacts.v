(** Saving fails only for reasons outside the library. *)
From Verif.Model Require Import Excel.
From Verif.Spec Require Import XmlSpec XmlRepr PackageSpec SheetSpec SessionSpec WellSpec SaveOkSpec.
From Verif.Proofs Require Import BaseFacts XmlTreeFacts XmlHistFacts XmlWriteFacts DocBuild PackageFacts PartFacts RelDocFacts SmallPartFacts StyleDocFacts BookFacts ReadAnyFacts SheetDocFacts SheetCycleFacts FrameFacts SaveFacts SessionFacts SoundFacts
  KeepFacts DocFacts WellFacts.
Open Scope N_scope.

Section with_env.
Context `{E : Env}.
(** ** Documents *)
(** The operation succeeds on every sound document. *)
Definition Goes {A} (m : M doc A) : Prop := forall d, WDoc d -> exists x, (m d).2 = Ok x.
Lemma g_bind {A B} (m : M doc A) (k : A -> M doc B) : WStable m -> Goes m -> (forall a, Goes (k a)) -> Goes (bind m k).
Proof. intros Hs Hm Hk d Hd. unfold bind. specialize (Hs d Hd). destruct (Hm d Hd) as [a Ha]. destruct (m d) as [d1 r]. cbn [fst snd] in *. subst r. by apply Hk. Qed.
Lemma wdoc_doc d : WDoc d -> exists g a v cs, Doc d (Node g a v cs).
Proof.
  intros Hd. destruct (wdoc_tree d Hd) as (it & Hr & _). destruct Hd as [(Hb & _) _ _ _]. destruct (erase it) as [g a v cs] eqn:Ee. exists g, a, v, cs, it. done.
Qed.
Lemma g_adds l : Forall names_ok l -> Goes (add_trees 0 l).
Proof. intros Hl d Hd. destruct (wdoc_doc d Hd) as (g & a & v & cs & H). destruct (Doc_add_trees d g a v cs l H Hl) as (d' & -> & _). by eexists. Qed.
Lemma g_tree_after f t : names_ok t -> Goes (insert_tree_after f t).
Proof. intros Ht d Hd. destruct (wdoc_doc d Hd) as (g & a & v & cs & H). destruct (Doc_insert_after d g a v cs f t H Ht) as (d' & -> & _). by eexists. Qed.
Lemma g_tree_first t : names_ok t -> Goes (insert_tree_first t).
Proof. intros Ht d Hd. destruct (wdoc_doc d Hd) as (g & a & v & cs & H). destruct (Doc_insert_first d g a v cs t H Ht) as (d' & -> & _). by eexists. Qed.
Lemma g_attr k v : Goes (insert_attribute 0 k v).
Proof. intros d _. unfold insert_attribute. destruct (d_elems d !! 0) as [e|]; [|by eexists]. destruct (e_attrs e); by eexists. Qed.
Lemma g_order sk i : Goes (order_child sk i).
Proof. intros d _. unfold order_child. destruct (d_elems d !! i) as [e|]; [|by eexists]. destruct (e_children e), sk; by eexists. Qed.
Lemma g_ret {A} (a : A) : Goes (ret a).
Proof. intros d _. by eexists. Qed.
Lemma g_save_rels l : Goes (save_relationships l).
Proof.
  intros d Hd. unfold save_relationships, bind, get. cbn [fst snd]. unfold get_root, get_element. destruct (wd_root d Hd) as [e He]. rewrite He.
  destruct (g_adds (map rel_tree l)) with (d := d) as [x Hx]; [apply Forall_map_all; intros y; apply rel_tree_ok|done|].
  destruct (add_trees 0 (map rel_tree l) d) as [d1 r]. cbn [snd] in Hx. subst r. by eexists.
Qed.
Lemma g_save_calc l : Goes (add_trees 0 (map calc_tree l)).
Proof. apply g_adds, Forall_map_all. intros x. apply calc_tree_ok. Qed.
Lemma g_save_strings l : Goes (save_strings l).
Proof.
  unfold save_strings. apply g_bind; [apply w_attr; by vm_compute|apply g_attr|intros _]. apply g_bind; [apply w_attr; by vm_compute|apply g_attr|intros _].
  apply g_adds, Forall_map_all. intros x. apply si_tree_ok.
Qed.
Lemma g_save_styles s : Goes (save_styles s).
Proof.
  unfold save_styles. apply g_bind; [apply w_tree_first, nums_tree_ok|apply g_tree_first, nums_tree_ok|intros _].
  apply g_bind; [apply w_tree_after, fonts_tree_ok|apply g_tree_after, fonts_tree_ok|intros _].
  apply g_bind; [apply w_tree_after, fills_tree_ok|apply g_tree_after, fills_tree_ok|intros _].
  apply g_bind; [apply w_tree_after, borders_tree_ok|apply g_tree_after, borders_tree_ok|intros _].
  apply g_bind; [apply w_tree_after, xfs_tree_ok|apply g_tree_after, xfs_tree_ok|intros _]. apply g_tree_after, xfs_tree_ok.
Qed.
Lemma g_save_book v l : Goes (save_book v l).
Proof.
  unfold save_book. apply g_bind; [destruct v; [apply w_tree_after, book_view_tree_ok|apply w_ret]|destruct v; [apply g_tree_after, book_view_tree_ok|apply g_ret]|intros _].
  apply g_bind; [apply w_tree_after, book_sheets_tree_ok|apply g_tree_after, book_sheets_tree_ok|intros _]. apply g_order.
Qed.
Lemma g_stamp b tag now : Goes (stamp b tag now).
Proof.
  intros d Hd. unfold stamp. destruct (wdoc_tree d Hd) as (it & (Hi & _ & Hh) & _). destruct it as [i g a v cs]. cbn in Hi. subst i. apply Holds_children in Hh as [H0 Hc].
  assert (exists r, first_element_id d ["cp:coreProperties"; tag] 0 = Ok r) as [r Hr].
  { cbn [first_element_id]. rewrite H0. cbn [e_tag e_children]. destruct (_ && _).
    - cbn [e_tag e_children]. destruct (_ && _); [by eexists|]. destruct (List.find _ _); by eexists.
    - destruct (List.find _ _) as [c|] eqn:Ef; [|by eexists]. apply find_some in Ef as [Hin _]. apply elem_of_list_In, elem_of_list_fmap in Hin as (y & -> & Hy).
      rewrite (HoldsAll_elem (d_elems d) 0 cs) in Hc. specialize (Hc y Hy). destruct y as [i' g' a' v' cs']. apply Holds_children in Hc as [H1 _]. cbn [child_entry fst]. cbn [i_id] in *. rewrite H1.
      destruct (_ && _); [by eexists|]. destruct (List.find _ _); by eexists. }
  rewrite Hr. destruct r as [k|]; [|by eexists]. destruct (d_elems d !! k) as [e|] eqn:Ek; [|by eexists]. destruct (b && has_value e); [by eexists|]. unfold set_value. rewrite Ek. by eexists.
Qed.
Lemma g_stamps a b : Goes (core_stamps a b).
Proof. unfold core_stamps. apply g_bind; [apply w_stamp|apply g_stamp|intros _; apply g_stamp]. Qed.

(** ** Parts *)
Context (Orig : string -> string -> Prop).
Notation OInv := (OInv Orig).
Definition Works (m : M office unit) (o : office) : Prop := (m o).2 = Ok tt.
Lemma with_goes {A} q (m : M doc A) o : Goes m -> OInv o -> exists x, (with_doc q m o).2 = Ok x /\ (is_Some (of_open o !! q) -> is_Some x).
Proof.
  intros Hm Ho. unfold with_doc. destruct (of_open o !! q) as [p|] eqn:Ep; [|exists None; split; [done|by intros []]]. destruct (Hm (op_doc p) (oi_open _ o Ho _ _ Ep)) as [x Hx].
  destruct (m (op_doc p)) as [d r]. cbn [snd] in *. subst r. exists (Some x). done.
Qed.
Lemma docs_ok o : OInv o -> DocsOk o.
Proof. intros Ho q p Hp. apply (wd_inv _ (oi_open _ o Ho q p Hp)). Qed.
Lemma works_close q o : OInv o -> Works (close_xml_document q) o.
Proof. intros Ho. apply close_ok, docs_ok, Ho. Qed.
Lemma works_doc_close {A} q (m : M doc A) o : WStable m -> Goes m -> OInv o -> Works (bind (with_doc q m) (fun _ => close_xml_document q)) o.
Proof.
  intros Hs Hm Ho. unfold Works, bind. destruct (with_goes q m o Hm Ho) as (x & Hx & _). pose proof (o_with Orig q m Hs o Ho) as H1. unfold id in H1.
  destruct (with_doc q m o) as [o1 r]. cbn [fst snd] in *. subst r. by apply works_close.
Qed.
Lemma works_rels r o : OInv o -> is_Some (of_open o !! rl_path r) -> Works (rels_close r) o.
Proof.
  intros Ho Hp. unfold Works, rels_close, bind. destruct (with_goes (rl_path r) _ o (g_save_rels (rl_rels r)) Ho) as (x & Hx & Hs). specialize (Hs Hp).
  pose proof (o_with Orig (rl_path r) _ (w_save_rels (rl_rels r)) o Ho) as H1. unfold id in H1.
  destruct (with_doc (rl_path r) (save_relationships (rl_rels r)) o) as [o1 y]. cbn [fst snd] in *. subst y. destruct Hs as [[] ->]; [by apply works_close|done].
Qed.
Lemma works_calc c r o : OInv o -> (calc_close c (r, o)).2 = Ok tt.
Proof.
  intros Ho. unfold calc_close. destruct (cc_entries c) as [|x l]; [done|]. pose proof (works_doc_close (cc_path c) _ o (w_save_calc (x :: l)) (g_save_calc (x :: l)) Ho) as H.
  unfold Works, bind in H. unfold bind, on_office. cbn [fst snd]. destruct (with_doc (cc_path c) _ o) as [o1 [y|e|e]]; [|done..]. cbn [fst snd] in *. by destruct (close_xml_document (cc_path c) o1).
Qed.
Lemma works_sst c r o : OInv o -> (sst_close c (r, o)).2 = Ok tt.
Proof.
  intros Ho. unfold sst_close. destruct (ss_strings c) as [|x l]; [done|]. pose proof (works_doc_close (ss_path c) _ o (w_save_strings (x :: l)) (g_save_strings (x :: l)) Ho) as H.
  unfold Works, bind in H. unfold bind, on_office. cbn [fst snd]. destruct (with_doc (ss_path c) _ o) as [o1 [y|e|e]]; [|done..]. cbn [fst snd] in *. by destruct (close_xml_document (ss_path c) o1).
Qed.
Lemma works_style c o : OInv o -> Works (style_close c) o.
Proof. intros Ho. by apply works_doc_close; [apply w_save_styles|apply g_save_styles|]. Qed.
Lemma works_book q v l o : OInv o -> Works (book_part_close q v l) o.
Proof. intros Ho. by apply works_doc_close; [apply w_save_book|apply g_save_book|]. Qed.
Lemma works_core t q o : OInv o -> Works (core_flush t q) o.
Proof.
  intros Ho. unfold Works, core_flush. pose proof (works_doc_close q _ o (w_stamps (ck_1 t) (ck_2 t)) (g_stamps (ck_1 t) (ck_2 t)) Ho) as H. unfold Works in H. unfold core_close at 1.
  destruct (bind _ _ o) as [o1 r]. done.
Qed.

(** ** Workbooks *)
Lemma office_works (m : M office unit) s : Works m s.2 -> exists o, on_wb_office m s = ((s.1, o), Ok tt) /\ (m s.2).1 = o.
Proof. unfold Works, on_wb_office. intros H. destruct (m s.2) as [o r]. cbn [snd] in H. subst r. by exists o. Qed.
Lemma rels_works (m : M pkg_state unit) s : (m (wb_rels s.1, s.2)).2 = Ok tt -> exists r o, on_wb_rels m s = ((set_wb_rels s.1 r, o), Ok tt) /\ (m (wb_rels s.1, s.2)).1 = (r, o).
Proof. unfold on_wb_rels. intros H. destruct (m (wb_rels s.1, s.2)) as [[r o] x]. cbn [snd] in H. subst x. by exists r, o. Qed.
Lemma works_flush b o : NoDup (own_parts b) -> is_Some (of_open o !! rl_path (wb_rels b)) -> OInv o -> Works (wb_flush b) o.
Proof.
  intros Hnd Hr Ho. unfold Works, wb_flush. assert ((wb_close (b, o)).2 = Ok tt) as Hc; [|by destruct (wb_close (b, o)) as [[b1 o1] r]].
  unfold own_parts in Hnd. rewrite !NoDup_cons, !not_elem_of_cons in Hnd. destruct_and! Hnd.
  unfold wb_close, services_close. assert (forall A (k : wb_state -> M wb_state A), bind get k (b, o) = k (b, o) (b, o)) as Hg by done. rewrite Hg. clear Hg. cbn zeta. cbn [fst snd].
  destruct (office_works (theme_close (wb_theme b)) (b, o)) as (o1 & E1 & F1); [by apply works_close|]. cbn [fst snd] in *.
  pose proof (o_close Orig (wb_theme b) o Ho) as I1. pose proof (keep_close (wb_theme b) o (rl_path (wb_rels b))) as K1. unfold id, theme_close in *. rewrite F1 in I1, K1.
  unfold bind at 1. rewrite E1. cbn [fst snd].
  destruct (rels_works (calc_close (wb_calc b)) (b, o1)) as (r2 & o2 & E2 & F2); [by apply works_calc|]. cbn [fst snd] in *.
  pose proof (p_calc_close Orig (wb_calc b) (wb_rels b, o1) I1) as I2. pose proof (keep_calc_close (wb_calc b) (wb_rels b, o1) (rl_path (wb_rels b))) as K2. pose proof (calc_close_path (wb_calc b) (wb_rels b, o1)) as P2. rewrite F2 in I2, K2, P2. cbn [fst snd] in *.
  unfold bind at 1. unfold bind at 1. rewrite E2. cbn [fst snd].
  destruct (rels_works (sst_close (wb_sst b)) (set_wb_rels b r2, o2)) as (r3 & o3 & E3 & F3); [by apply works_sst|]. cbn [fst snd wb_rels set_wb_rels] in *.
  pose proof (p_sst_close Orig (wb_sst b) (r2, o2) I2) as I3. pose proof (keep_sst_close (wb_sst b) (r2, o2) (rl_path (wb_rels b))) as K3. pose proof (sst_close_path (wb_sst b) (r2, o2)) as P3. rewrite F3 in I3, K3, P3. cbn [fst snd] in *.
  unfold bind at 1. rewrite E3. cbn [fst snd].
  destruct (office_works (style_close (wb_style b)) (set_wb_rels (set_wb_rels b r2) r3, o3)) as (o4 & E4 & F4); [by apply works_style|]. cbn [fst snd] in *.
  pose proof (o_style_close Orig (wb_style b) o3 I3) as I4. pose proof (keep_style_close (wb_style b) o3 (rl_path (wb_rels b))) as K4. unfold id in *. rewrite F4 in I4, K4.
  rewrite E4. cbn [fst snd].
  destruct (office_works (rels_close r3) (set_wb_rels (set_wb_rels b r2) r3, o4)) as (o5 & E5 & F5).
  { apply works_rels; [done|]. cbn [snd]. rewrite P3, P2. destruct K4 as [-> _]; [congruence|]. destruct K3 as [-> _]; [congruence|]. destruct K2 as [-> _]; [congruence|]. destruct K1 as [-> _]; [congruence|]. done. }
  cbn [fst snd] in *. pose proof (o_rels_close Orig r3 o4 I4) as I5. unfold id in I5. rewrite F5 in I5.
  unfold bind at 1. cbn [fst wb_rels set_wb_rels]. rewrite E5. cbn [fst snd].
  destruct (office_works (book_part_close (wb_path b) (wb_view b) (wb_sheets b)) (set_wb_rels (set_wb_rels b r2) r3, o5)) as (o6 & E6 & F6); [by apply works_book|]. by rewrite E6.
Qed.

(** ** Files *)
Lemma pieces_healthy sizes : forall limit d todo, (write_pieces sizes limit d todo).2 = true <-> match limit with None => True | Some n => (length sizes < n)%nat end.
Proof.
  induction sizes as [|k l IH]; intros [[|n]|] d todo; cbn [write_pieces length]; try (split; [done|lia] || done).
  - split; [intros _; lia|done].
  - specialize (IH (Some n) (d +:+ stake k todo) (sdrop k todo)). destruct (write_pieces l (Some n) _ _) as [x ok]. cbn [snd] in *. rewrite IH. lia.
  - specialize (IH None (d +:+ stake k todo) (sdrop k todo)). destruct (write_pieces l None _ _) as [x ok]. done.
Qed.
Lemma write_healthy f path b fs : (write_file f path b fs).2 = Ok tt <-> Healthy f path fs.
Proof.
  unfold write_file, Healthy. destruct (fs !! path) as [c|]; cbn [andb].
  - destruct (f_remove f); [split; [done|by intros [[|] _]]|]. destruct (f_create f); [split; [done|by intros (_ & ? & _)]|].
    pose proof (pieces_healthy (f_pieces f) (f_write f) "" b) as H. destruct (write_pieces _ _ _ _) as [l ok]. cbn [snd] in *. rewrite <- H. destruct ok; split; [auto|done|done|intros (_ & _ & ?); done].
  - destruct (f_create f); [split; [done|by intros (_ & ? & _)]|].
    pose proof (pieces_healthy (f_pieces f) (f_write f) "" b) as H. destruct (write_pieces _ _ _ _) as [l ok]. cbn [snd] in *. rewrite <- H. destruct ok; split; [auto|done|done|intros (_ & _ & ?); done].
Qed.
Lemma works_all o : OInv o -> Works close_all o.
Proof.
  unfold Works, close_all. generalize (env_order (map_keys (of_open o))). intros l. revert o. induction l as [|q l IH]; intros o Ho; cbn [iterM]; [done|].
  unfold bind. pose proof (o_close Orig q o Ho) as H1. pose proof (works_close q o Ho) as H2. unfold Works, id in *. destruct (close_xml_document q o) as [o1 r]. cbn [fst snd] in *. subst r. by apply IH.
Qed.
Lemma office_saves f path o fs : OInv o -> Absent o content_types_name -> (office_save f path o fs).2.2 = Ok tt <-> Healthy f path fs.
Proof.
  intros Ho [Ha Hb]. unfold office_save. pose proof (works_all o Ho) as H1. pose proof (o_close_all Orig o Ho) as H2. unfold Works, id in *. destruct (close_all o) as [o1 r] eqn:Ec. cbn [fst snd] in *. subst r.
  destruct (close_all_spec o o1 content_types_name Ec) as [_ Hc]. rewrite Ha, Hb in Hc.
  destruct (save_archive_ok (of_archive o1)) as [b ->]; [|done|]. { intros q e He. destruct (oi_stored _ o1 H2 q e He) as (data & Hd & _). by exists data. }
  apply write_healthy.
Qed.
Lemma suite_saves t f path x fs : OInv (su_office x) -> NoDup (DocsIn x) -> (forall q, q ∈ DocsIn x -> is_Some (of_open (su_office x) !! q)) -> Absent (su_office x) content_types_name ->
  (suite_save t f path x fs).2 = Ok tt <-> Healthy f path fs.
Proof.
  intros Ho Hnd Hop Ha. unfold suite_save, bind. unfold DocsIn in *. rewrite !NoDup_cons, !not_elem_of_cons in Hnd. destruct_and! Hnd.
  assert (forall q, q ∈ [rl_path (su_root x); su_core x] -> content_types_name <> q) as Hne. { intros q Hq <-. destruct (Hop _ Hq) as [p Hp]. destruct Ha as [Ha _]. congruence. }
  assert (OInv (core_flush t (su_core x) (su_office x)).1) as I1.
  { unfold core_flush. pose proof (o_core_close Orig (ck_1 t) (ck_2 t) (su_core x) (su_office x) Ho) as I1. unfold id in I1. destruct (core_close _ _ _ (su_office x)) as [o1 r]. cbn [fst] in *. by apply o_core_close. }
  pose proof (works_core t (su_core x) (su_office x) Ho) as W1. pose proof (keep_core_flush t (su_core x) (su_office x)) as K1. unfold Works, id in *.
  destruct (core_flush t (su_core x) (su_office x)) as [o1 r1]. cbn [fst snd] in *. subst r1.
  assert (is_Some (of_open o1 !! rl_path (su_root x))) as Hr. { destruct (K1 (rl_path (su_root x))) as [-> _]; [congruence|]. apply Hop. by left. }
  pose proof (works_rels (su_root x) o1 I1 Hr) as W2. pose proof (o_rels_close Orig (su_root x) o1 I1) as I2. pose proof (keep_rels_close (su_root x) o1 content_types_name) as K2. unfold Works, id in *.
  destruct (rels_close (su_root x) o1) as [o2 r2]. cbn [fst snd] in *. subst r2.
  apply office_saves; [done|].
  apply (absent_same o1 o2); [apply K2, Hne; by left|]. apply (absent_same (su_office x) o1); [|done]. apply K1, Hne. right. by left.
Qed.
End with_env.

Section with_hashes.
Context `{E : Env} `{HH : Hashes}.
Theorem excel_saves Orig t f path s fs : LInv s -> OInv Orig (x_office s.1) -> Absent (x_office s.1) content_types_name -> (excel_save t f path s.1 fs).2 = Ok tt <-> Healthy f path fs.
Proof.
  intros I Ho Ha. pose proof (li_nodup _ I) as Hnd. unfold held in Hnd. apply NoDup_app in Hnd as (Hown & Hdis & Hnd2). apply NoDup_app in Hnd2 as (Hdocs & _ & _).
  assert (forall q, q ∈ held s -> content_types_name <> q) as Hne. { intros q Hq <-. destruct (li_open _ I _ Hq) as [p Hp]. destruct Ha as [Ha _]. congruence. }
  assert (forall q, q ∈ DocsIn (x_suite s.1) -> q ∉ own_parts (x_book s.1)) as Hdoc. { intros q Hq Hq'. apply (Hdis q Hq'), elem_of_app. by left. }
  unfold excel_save. pose proof (works_flush Orig (x_book s.1) (x_office s.1) Hown) as W. pose proof (o_flush Orig (x_book s.1) (x_office s.1) Ho) as I1. pose proof (flush_keeps (x_book s.1) (x_office s.1)) as K.
  unfold Works, id in *. destruct (wb_flush (x_book s.1) (x_office s.1)) as [o r]. cbn [fst snd] in *. rewrite W; [|apply (li_open _ I); unfold held; apply elem_of_app; left; unfold own_parts; rewrite !elem_of_cons; tauto|done].
  apply (suite_saves Orig); [done|done| |].
  - cbn [su_office]. intros q Hq. change (DocsIn _) with (DocsIn (x_suite s.1)) in Hq. destruct (K q) as [-> _]; [by apply Hdoc|]. apply (li_open _ I). unfold held. rewrite !elem_of_app. tauto.
  - cbn [su_office]. eapply absent_same; [|exact Ha]. apply K. intros Hq. apply (Hne content_types_name); [|done]. unfold held. rewrite !elem_of_app. tauto.
Qed.

(** ** The content types stay out of the way *)
Notation Free o := (Absent o content_types_name).
Lemma beside_slash path rp : rels_beside path = Ok rp -> content_types_name <> rp.
Proof.
  unfold rels_beside. destruct (rsplit_at_byte _ path) as [[[dir b] file]|]; [|done]. intros [= <-] Heq.
  assert (sforall (fun a => negb (aeqb a "/")) content_types_name = true) as Hs by (by vm_compute). rewrite Heq in Hs. clear Heq.
  induction dir as [|a dir IH]; cbn in Hs; [done|]. apply andb_true_iff in Hs as [_ Hs]. by apply IH.
Qed.
Lemma file_name_office name s : (get_sheet_file_name name s).1.2.2 = s.2.2.
Proof.
  destruct s as [l [r o]]. unfold get_sheet_file_name, bind, get, lift, put, ret. cbn [fst snd]. destruct (name ≫= _) as [x|].
  - destruct (get_target_by_id r (sh_rel x)) as [[p|]|e|e]; done.
  - destruct (get_relative_path r) as [rp|e|e]; [|done|done]. destruct (free_number _ _ _ _) as [n|e|e]; done.
Qed.
Lemma free_sheet name s : Free s.2.2 -> NoPanic (ws_new name s).2 -> Free (ws_new name s).1.2.2.
Proof.
  intros Hf Hn. assert ((exists nm, (get_sheet_file_name name s).2 = Ok (content_types_name, nm)) \/ ~ exists nm, (get_sheet_file_name name s).2 = Ok (content_types_name, nm)) as [[nm Hp]|Hp].
  { destruct ((get_sheet_file_name name s).2) as [[path nm]|e|e]; [|right; by intros []..]. destruct (decide (path = content_types_name)) as [->|Hd]; [left; eauto|right]. intros [nm' [= ? ?]]. done. }
  - (* the name is that of the content types *)
    revert Hn. unfold ws_new, bind. pose proof (file_name_office name s) as Ho. destruct (get_sheet_file_name name s) as [[l [r o]] x]. cbn [fst snd] in *. subst x o.
    unfold on_pkg, on_office. cbn [fst snd]. unfold get_xml_document, get_xml_tree, bind. destruct Hf as [F1 F2]. rewrite F1, F2. unfold lift.
    destruct ws_init as [p|e|e]; cbn; done.
  - eapply absent_same; [|exact Hf]. apply ws_new_keeps.
    + intros path nm rp H1 H2. split; [|by eapply beside_slash]. intros <-. eauto.
    + intros path nm H1 <-. eauto.
Qed.
Lemma free_give name s : Free (x_office s.1) -> NoPanic (give (on_book (add_sheet name)) s).2 -> Free (x_office (give (on_book (add_sheet name)) s).1.1).
Proof.
  intros Hf. unfold give, on_book, x_state, add_sheet. cbn [fst snd].
  pose proof (free_sheet name (wb_sheets (x_book s.1), (wb_rels (x_book s.1), x_office s.1)) Hf) as K.
  destruct (ws_new name _) as [[l [r o]] x]. cbn [fst snd] in *. destruct x; intros Hn; apply (K Hn).
Qed.
Lemma free_spend h (m : worksheet -> M wb_state unit) s : (forall w b o q, q <> ws_path w -> q <> rl_path (ws_rels w) -> SameAt o (m w (b, o)).1.2 q) ->
  LInv s -> Free (x_office s.1) -> Free (x_office (spend h m s).1.1).
Proof.
  intros Hm I Hf. unfold spend. destruct (handle h s) as [w|] eqn:Eh; [|done]. apply handle_lookup in Eh. destruct (live_split _ _ _ Eh) as (a & b & L1 & _).
  assert (forall q, q ∈ handle_parts (Some w) -> content_types_name <> q) as Hw.
  { intros q Hq <-. destruct (li_open _ I content_types_name) as [p Hp]; [unfold held; rewrite L1, !elem_of_app; tauto|]. destruct Hf as [F1 _]. congruence. }
  unfold on_book, x_state. pose proof (Hm w (x_book s.1) (x_office s.1) content_types_name) as K. destruct (m w (x_book s.1, x_office s.1)) as [[b1 o1] r]. cbn [fst snd] in *.
  apply (absent_same (x_office s.1)); [|done]. apply K; apply Hw; [left|right; left].
Qed.
Lemma free_call c s : LInv s -> Free (x_office s.1) -> NoPanic (call_step c s).2 -> Free (x_office (call_step c s).1.1).
Proof.
  intros I Hf. assert (forall (m : M workbook unit), Free (x_office (on_excel (on_book (pure_book m)) s).1.1)) as Hp.
  { intros m. unfold on_excel, on_book, pure_book, x_state. cbn [fst snd]. by destruct (m (x_book s.1)). }
  assert (forall h m, Free (x_office (use h m s).1.1)) as Hu. { intros h m. unfold use. destruct (handle h s) as [w|]; [|done]. by destruct (m _) as [[w1 t1] r]. }
  destruct c; cbn [call_step]; try (intros _; first [apply Hp|apply Hu]); try (by apply free_give); intros _; (apply free_spend; [|done|done]); intros w b o q.
  - apply ws_drop_keeps.
  - intros H1 H2. unfold on_wb_office. cbn [fst snd]. pose proof (ws_flush_keeps w o q H1 H2) as K. by destruct (ws_flush w o).
  - apply delete_keeps.
Qed.
Theorem free_calls cs : forall s s', LInv s -> Free (x_office s.1) -> calls cs s = Some s' -> Free (x_office s'.1) /\ LInv s'.
Proof.
  induction cs as [|c cs IH]; intros s s' I Hf; cbn [calls]; [by intros [= <-]|]. pose proof (call_effect c s I) as HE. pose proof (free_call c s I Hf) as HF.
  destruct (call_step c s) as [s1 [[]|e|e]]; cbn [fst snd NoPanic] in *; [| |done]; destruct (HE Logic.I) as [I1 _]; apply IH; auto.
Qed.

(** ** The beginning *)
Lemma unpacked_free file fs o : office_new file fs = Ok o -> Free o.
Proof.
  destruct file as [p|]; unfold office_new; [|intros [= <-]; split; apply lookup_empty]. destruct (fs !! p) as [b|]; [|done]. cbn [of_option rbind].
  destruct (load_archive b) as [m| |] eqn:Em; [|done..]. intros [= <-]. split; [apply lookup_empty|]. cbn [of_archive]. by destruct (load_archive_spec b m Em) as (l & _ & Hc & _).
Qed.
Lemma suite_free file fs x : suite_new file fs = Ok x -> content_types_name ∉ DocsIn x -> Free (su_office x).
Proof.
  intros Hx Hc. destruct (opens_suite _ _ _ Hx) as (o & Ho & He & O). destruct (unpacked_free _ _ _ Ho) as [F1 F2]. split.
  - apply eq_None_not_Some. intros Hy. apply (op_open _ _ _ O) in Hy as [Hy|Hy]; [|done]. rewrite F1 in Hy. by destruct Hy.
  - by rewrite (op_rest _ _ _ O).
Qed.
Lemma opened_free file fs x : excel_new (Some file) fs = Ok x -> content_types_name ∉ own_parts (x_book x) ++ DocsIn (x_suite x) -> Free (x_office x).
Proof.
  intros Hx Hc. destruct (new_linv _ _ _ Hx) as [_ (o & Ho & _)]. revert Hx. unfold excel_new. destruct (suite_new (Some file) fs) as [s|e|e] eqn:Es; cbn [rbind]; [|done..].
  destruct (opens_suite _ _ _ Es) as (o' & _ & _ & O1). destruct (workbook_new (su_root s, su_office s)) as [[root o1] [b|e|e]] eqn:Ew; [|done..].
  destruct (opens_workbook (su_root s, su_office s) _ _ (op_docs _ _ _ O1) Ew) as [O2 Hr]. cbn [fst snd] in *. intros [= <-]. cbn [x_book x_suite] in Hc. rewrite elem_of_app in Hc.
  assert (DocsIn (mkSuite o1 root (su_core s)) = DocsIn s) as Hd by (unfold DocsIn; cbn; by rewrite Hr). rewrite Hd in Hc.
  destruct (suite_free _ _ _ Es) as [F1 F2]; [tauto|]. unfold x_office. cbn [x_suite su_office]. split.
  - apply eq_None_not_Some. intros Hy. apply (op_open _ _ _ O2) in Hy as [Hy|Hy]; [|tauto]. rewrite F1 in Hy. by destruct Hy.
  - rewrite (op_rest _ _ _ O2); tauto.
Qed.
Lemma new_free fs x : excel_new None fs = Ok x -> Free (x_office x).
Proof.
  unfold excel_new. destruct (suite_new None fs) as [s|e|e] eqn:Es; cbn [rbind]; [|done..].
  destruct (opens_suite _ _ _ Es) as (o' & _ & _ & O1). destruct (workbook_new (su_root s, su_office s)) as [[root o1] [b|e|e]] eqn:Ew; [|done..].
  destruct (opens_workbook (su_root s, su_office s) _ _ (op_docs _ _ _ O1) Ew) as [O2 Hr]. cbn [fst snd] in *.
  destruct (new_book _ _ _ _ _ Es Ew) as (_ & [B1 B2 B3 B4 B5 B6 _ _] & _ & _ & _ & -> & Hc). cbn [rl_path SessionFacts.root_rels] in Hr.
  assert (Free o1) as F.
  { destruct (suite_free _ _ _ Es) as [F1 F2]; [unfold DocsIn; rewrite <- Hr, Hc; apply (bool_decide_unpack _); by vm_compute|].
    assert (content_types_name ∉ own_parts b) as Hn by (unfold own_parts; rewrite B1, B2, B3, B4, B5, B6; apply (bool_decide_unpack _); by vm_compute). split.
    - apply eq_None_not_Some. intros Hy. apply (op_open _ _ _ O2) in Hy as [Hy|Hy]; [|done]. rewrite F1 in Hy. by destruct Hy.
    - by rewrite (op_rest _ _ _ O2). }
  cbv zeta. set (x0 := mkExcel (mkSuite o1 SessionFacts.root_rels (su_core s)) b).
  assert (LInv (x0, [])) as I0.
  { pose proof (opens_trans _ _ _ _ _ O1 O2) as O. assert (held (x0, []) ≡ₚ DocsIn s ++ own_parts b) as Hp.
    { unfold held, x0, live_parts. cbn [fst snd x_book x_suite]. cbn [fmap list_fmap concat]. rewrite app_nil_r, Permutation_app_comm. unfold DocsIn. cbn [su_root su_core rl_path SessionFacts.root_rels]. by rewrite <- Hr. }
    constructor; [apply O|rewrite Hp; apply O|]. intros q Hq. rewrite Hp in Hq. apply (op_open _ _ _ O). by right. }
  pose proof (give_step (CAdd None) None Logic.I (x0, []) I0) as G. pose proof (free_give None (x0, []) F) as G2. unfold give in G, G2. cbn [fst snd] in G, G2.
  destruct (on_book (add_sheet None) x0) as [x1 [w|e|e]]; [|done..]. cbn [fst snd NoPanic] in G, G2. destruct (G Logic.I) as [I1 _]. specialize (G2 Logic.I). intros [= <-].
  exact (free_call (CDrop 0) (x1, [Some w]) I1 G2 Logic.I).
Qed.

(** ** When the content types are in the way *)
Lemma taken_office f path o fs : DocsOk o -> Present o content_types_name -> (office_save f path o fs).2.2 <> Ok tt.
Proof.
  intros Ho Hp. unfold office_save. destruct (close_all o) as [o1 [[]|e|e]] eqn:Ec; [|done..]. destruct (close_all_spec o o1 content_types_name Ec) as [_ Hc].
  assert (is_Some (of_archive o1 !! content_types_name)) as [x Hx]. { destruct (of_open o !! content_types_name) as [p|] eqn:Ep; [destruct Hc as (data & _ & ->); eauto|]. rewrite Hc. destruct Hp as [Hp|Hp]; [|done]. rewrite Ep in Hp. by destruct Hp. }
  unfold save_archive. rewrite Hx. destruct (rmapM _ _); done.
Qed.
Lemma taken_suite t f path x fs : DocsOk (su_office x) -> Present (su_office x) content_types_name -> (suite_save t f path x fs).2 <> Ok tt.
Proof.
  intros Ho Hp. unfold suite_save. assert (SafeM (bind (core_flush t (su_core x)) (fun _ => rels_close (su_root x)))) as Hs. { apply safe_bind; [apply safe_core_flush|intros _ o; apply safe_rels_close]. }
  destruct (Hs _ Ho) as [H1 H2]. destruct (bind _ _ (su_office x)) as [o [[]|e|e]]; [|done..]. cbn [fst] in *. apply taken_office; auto.
Qed.
Theorem taken t f path s fs : LInv s -> content_types_name ∈ held s -> (excel_save t f path s.1 fs).2 <> Ok tt.
Proof.
  intros I Hc. pose proof (li_nodup _ I) as Hnd. unfold held in Hnd. apply NoDup_app in Hnd as (Hown & _ & _).
  destruct (safe_flush (x_book s.1) (x_office s.1) Hown (li_docs _ I)) as [H1 H2]. { intros q Hq. apply (li_open _ I). unfold held. rewrite elem_of_app. by left. }
  unfold excel_save. destruct (wb_flush _ _) as [o [[]|e|e]]; [|done..]. cbn [fst] in *. apply taken_suite; cbn [su_office]; [done|]. apply H2. left. by apply (li_open _ I).
Qed.

(** ** Making a workbook *)
Lemma theme_reads : exists p, theme_init = Ok p.
Proof.
  destruct (template_read theme_template (fun _ _ => True)) as (d & t & Hr & _); [by vm_compute|by vm_compute|]. unfold theme_init. rewrite Hr. by eexists.
Qed.
Lemma get_fresh init p path o : init = Ok p -> Absent o path -> get_xml_document init path o = (mkOffice (<[path := p]> (of_open o)) (of_archive o), Ok tt).
Proof. intros -> [H1 H2]. unfold get_xml_document, get_xml_tree, bind. rewrite H1, H2. done. Qed.
Lemma absent_other o o1 path : of_archive o1 = of_archive o -> (forall q, q <> path -> of_open o1 !! q = of_open o !! q) -> forall q, q <> path -> SameAt o o1 q.
Proof. intros H1 H2 q Hq. split; [by apply H2|by rewrite H1]. Qed.
Lemma book_made r o : r = DocFacts.root_rels -> (forall q, q <> root_at -> q <> core_at -> Absent o q) -> exists s b, workbook_new (r, o) = (s, Ok b).
Proof.
  intros -> Z. unfold workbook_new. unfold bind at 1. unfold on_rels at 1. cbn [fst snd].
  assert (part_path c_workbook None DocFacts.root_rels = (SessionFacts.root_rels, Ok book_at)) as P2 by reflexivity. rewrite P2. unfold bind at 1. unfold on_office at 1. cbn [fst snd].
  destruct workbook_init_spec as (d & d' & t' & Hi & Hl & _). set (p0 := mkOpen d _ _ _) in Hi. rewrite (get_fresh _ _ _ _ Hi) by (by apply Z). cbn [fst snd].
  set (o1 := mkOffice _ _). assert (forall q, q <> book_at -> SameAt o o1 q) as K1 by (intros q Hq; split; [by apply lookup_insert_ne|done]).
  assert (of_open o1 !! book_at = Some p0) as B1 by apply lookup_insert. clearbody o1.
  unfold bind at 1. unfold lift at 1. change (book_rels_path book_at) with (Ok rels_at). cbn [fst snd]. unfold bind at 1. unfold on_office at 1. cbn [fst snd].
  assert (forall q, q ∉ [root_at; core_at; book_at] -> Absent o1 q) as Z1. { intros q Hq. rewrite !not_elem_of_cons in Hq. destruct_and! Hq. eapply absent_same; [by apply K1|by apply Z]. }
  destruct (Z1 rels_at) as [Zo Za]; [apply (bool_decide_unpack _); by vm_compute|]. destruct (rels_new_fresh o1 rels_at Zo Za) as (o2 & E2 & _ & A2 & F2). rewrite E2. cbn [fst snd].
  pose proof (absent_other _ _ _ A2 F2) as K2. clear A2 F2.
  assert (forall q, q ∉ [root_at; core_at; book_at; rels_at] -> Absent o2 q) as Z2. { intros q Hq. rewrite !not_elem_of_cons in Hq. destruct_and! Hq. eapply absent_same; [by apply K2|]. apply Z1. rewrite !not_elem_of_cons. done. }
  unfold bind at 1. unfold get at 1. cbn [fst snd].
  assert (exists r6 o6 x, bind theme_new (fun theme => bind sst_new (fun s => bind calc_new (fun c => bind style_new (fun y => ret (theme, s, c, y))))) (mkRelations [] rels_at, o2) = ((r6, o6), Ok x)
    /\ SameAt o2 o6 book_at) as (r6 & o6 & [[[theme st] c] y] & -> & K6).
  { unfold theme_new. unfold bind at 1. unfold bind at 1. unfold on_rels at 1. cbn [fst snd].
    assert (part_path c_theme (Some ("xl/" +:+ c_path c_theme)) (mkRelations [] rels_at) = (mkRelations (take 1 base_rels) rels_at, Ok theme_at)) as Q1 by reflexivity.
    rewrite Q1. unfold bind at 1. unfold on_office at 1. cbn [fst snd]. destruct theme_reads as [pt Ht]. rewrite (get_fresh _ _ _ _ Ht) by (apply Z2, (bool_decide_unpack _); by vm_compute).
    cbn [fst snd]. set (o3 := mkOffice _ _). assert (forall q, q <> theme_at -> SameAt o2 o3 q) as K3 by (intros q Hq; split; [by apply lookup_insert_ne|done]). clearbody o3. unfold ret at 1.
    assert (part_path c_share_string None (mkRelations (take 1 base_rels) rels_at) = (mkRelations (take 2 base_rels) rels_at, Ok sst_at)) as Q2 by reflexivity.
    assert (Absent o3 sst_at) as [Y1 Y2] by (eapply absent_same; [by apply K3|]; apply Z2, (bool_decide_unpack _); by vm_compute).
    destruct (sst_fresh _ _ _ _ Q2 Y1 Y2) as (o4 & E4 & _ & A4 & F4). pose proof (absent_other _ _ _ A4 F4) as K4. clear A4 F4. unfold bind at 1. rewrite E4.
    assert (part_path c_calc_chain None (mkRelations (take 2 base_rels) rels_at) = (mkRelations (take 3 base_rels) rels_at, Ok calc_at)) as Q3 by reflexivity.
    assert (Absent o4 calc_at) as [Y3 Y4] by (eapply absent_same; [by apply K4|]; eapply absent_same; [by apply K3|]; apply Z2, (bool_decide_unpack _); by vm_compute).
    destruct (calc_fresh _ _ _ _ Q3 Y3 Y4) as (o5 & E5 & _ & A5 & F5). pose proof (absent_other _ _ _ A5 F5) as K5. clear A5 F5. unfold bind at 1. rewrite E5.
    assert (part_path c_style None (mkRelations (take 3 base_rels) rels_at) = (mkRelations base_rels rels_at, Ok style_at)) as Q4 by reflexivity.
    assert (Absent o5 style_at) as [Y5 Y6] by (eapply absent_same; [by apply K5|]; eapply absent_same; [by apply K4|]; eapply absent_same; [by apply K3|]; apply Z2, (bool_decide_unpack _); by vm_compute).
    destruct (style_fresh _ _ _ _ Q4 Y5 Y6) as (o6 & rest & E6 & _ & _ & A6 & F6). pose proof (absent_other _ _ _ A6 F6) as K6. clear A6 F6. unfold bind at 1. rewrite E6.
    eexists _, _, _. split; [reflexivity|]. eapply same_trans; [by apply K3|]. eapply same_trans; [by apply K4|]. eapply same_trans; [by apply K5|by apply K6]. }
  unfold bind at 1. unfold put at 1. unfold bind at 1. unfold on_office at 1. cbn [fst snd].
  assert (of_open o6 !! book_at = Some p0) as B6. { destruct K6 as [-> _]. destruct (K2 book_at) as [-> _]; [done|]. done. }
  rewrite (with_doc_spec book_at load_book o6 p0 d' _ B6 Hl). cbn [fst snd default]. unfold ret. by eexists _, _.
Qed.
Theorem made fs : exists x, excel_new None fs = Ok x.
Proof.
  destruct (doc_new fs) as (s & t & Es & (D1 & D2 & D3 & _ & _ & D6 & _) & _). unfold excel_new. rewrite Es. cbn [rbind].
  destruct (book_made (su_root s) (su_office s)) as ([root o1] & b & Ew); [done|intros q H1 H2; split; [by apply D6|rewrite D3; apply lookup_empty]|]. rewrite Ew. cbv zeta.
  destruct (opens_suite _ _ _ Es) as (o' & Ho' & He & O1). injection Ho' as <-. destruct (opens_workbook (su_root s, su_office s) _ _ (op_docs _ _ _ O1) Ew) as [O2 Hr]. cbn [fst snd] in *.
  pose proof (opens_trans _ _ _ _ _ O1 O2) as O.
  destruct (new_book _ _ _ _ _ Es Ew) as (_ & [B1 B2 B3 B4 B5 B6 _ _] & _ & Hsh & _ & -> & Hc).
  assert (forall q, in_area q -> Absent o1 q) as Hz.
  { intros q Hq. assert (q ∉ DocsIn s ++ own_parts b) as Hn.
    { unfold DocsIn, own_parts. rewrite D1, D2, B1, B2, B3, B4, B5, B6. cbn [app cc_path rl_path DocFacts.root_rels]. rewrite !not_elem_of_cons. unfold in_area in Hq.
      repeat split; try (intros ->; by vm_compute in Hq). apply not_elem_of_nil. }
    split; [|by rewrite (op_rest _ _ _ O)]. apply eq_None_not_Some. intros Hy. apply (op_open _ _ _ O) in Hy as [[y Hy]|Hy]; [|done]. cbn in Hy. by rewrite lookup_empty in Hy. }
  unfold on_book, x_state, add_sheet. cbn [fst snd x_book x_suite]. unfold x_office. cbn [x_suite su_office].
  destruct (file_name_new None (wb_sheets b) (wb_rels b) o1 "xl/") as (k & Hg & _); [done|unfold get_relative_path; by rewrite B2|].
  change ("xl/" +:+ c_path c_worksheet) with sheet_dir in *. destruct (Hz _ (sheet_in_area k)) as [W1 W2]. pose proof (sheet_beside k) as Hb.
  destruct (Hz (sheet_dir +:+ "/_rels/" +:+ (sheet_file k +:+ "." +:+ c_ext c_worksheet) +:+ ".rels")) as [W3 W4]; [reflexivity|].
  destruct (ws_new_fresh None _ _ _ _ _ [] Hg Hb W1 W2) as (o3 & -> & _); [by apply rels_absent|]. by eexists.
Qed.
End with_hashes.
