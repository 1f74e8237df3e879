(** Every part the library writes is well-formed, whatever texts it was given. *)
From Verif.Model Require Import Excel.
From Verif.Spec Require Import XmlSpec XmlRepr XmlHistory PackageSpec WellSpec.
From Verif.Proofs Require Import BaseFacts XmlWriteFacts XmlReadFacts XmlTreeFacts XmlLexFacts XmlNsFacts XmlHistFacts ReadAnyFacts
  PackageFacts PartFacts RelDocFacts SmallPartFacts StyleDocFacts SheetDocFacts BookFacts SaveFacts SoundFacts.
Open Scope N_scope.

Section with_env.
Context `{E : Env}.

(** ** Documents *)
Definition decls (ns : gmap string string) : Prop := forall k v, ns !! k = Some v -> decl_ok (k, v).
Definition NameElem (e : elem) : Prop := is_valid_xml_name (e_tag e) = true /\ attrs_ok (e_attrs e).
Record WDoc (d : doc) : Prop := {
  wd_inv : HInv d;
  wd_root : is_Some (d_elems d !! 0);
  wd_elems : forall k e, d_elems d !! k = Some e -> NameElem e;
  wd_ns : decls (d_ns d);
}.
Lemma safe_no_dquote s : SafeText s -> has_no_dquote s = true.
Proof.
  unfold has_no_dquote. induction 1 as [|a s Ha _ IH|e s He _ IH]; [done| |].
  - cbn [sexists]. apply negb_true_iff in IH. rewrite IH, orb_false_r. apply negb_true_iff. unfold is_special in Ha.
    destruct (aeqb a """") eqn:Eq; [|done]. apply Ascii.eqb_eq in Eq as ->. done.
  - apply negb_true_iff in IH. rewrite !elem_of_cons, elem_of_nil in He. apply negb_true_iff.
    destruct He as [-> | [-> | [-> | [-> | [-> | []]]]]]; cbn; by rewrite IH.
Qed.
Lemma decls_ns_ok ns : decls ns -> ns_ok ns.
Proof. intros H k v Hk. destruct (H k v Hk) as [H1 H2]. split; [by apply safe_no_dquote|done]. Qed.
Lemma plain_safe s : sexists is_special s = false -> SafeText s.
Proof. induction s as [|a s IH]; [constructor|]. cbn [sexists]. intros [H1 H2]%orb_false_iff. constructor; auto. Qed.
Lemma decls_written ns : decls ns -> decls (written_ns ns).
Proof.
  intros H. unfold written_ns. destruct env_mode; [done|]. intros k v. rewrite lookup_insert_Some. intros [[<- <-]|[_ Hk]]; [|by apply H].
  split; [apply plain_safe; by vm_compute|]. right. by vm_compute.
Qed.
Lemma names_held m p it : (forall k e, m !! k = Some e -> NameElem e) -> Holds m p it -> names_ok (erase it).
Proof.
  intros Hm. revert p. induction it as [i g a v cs IH] using itree_rect'. intros p Hh. apply Holds_children in Hh as [Hi Hcs].
  destruct (Hm _ _ Hi) as (H1 & H2). cbn in H1, H2. cbn [erase]. apply names_ok_node. split; [done|]. split; [done|].
  apply Forall_forall. intros t Ht. apply elem_of_list_fmap in Ht as (c & -> & Hc). rewrite Forall_forall in IH.
  apply (IH c Hc i). by apply (proj1 (HoldsAll_elem _ _ _) Hcs).
Qed.
Lemma wdoc_tree d : WDoc d -> exists it, Represents d it /\ names_ok (erase it).
Proof.
  intros [(_ & _ & [He|[it Ht]]) [e Hr] Hn _]; [by rewrite He, lookup_empty in Hr|]. exists it. split; [done|].
  destruct Ht as (_ & _ & Hh). by eapply names_held.
Qed.
(** The text of such a document. *)
Definition Fine (data : string) : Prop := exists ns t, data = prolog +:+ render_root ns t /\ names_ok t /\ decls ns.
Lemma wdoc_writes d : WDoc d -> exists data, write_doc d = Ok data /\ Fine data.
Proof.
  intros Hd. destruct (wdoc_tree d Hd) as (it & Hr & Hn). exists (prolog +:+ render_root (d_ns d) (erase it)). split; [by apply write_doc_render|].
  exists (d_ns d), (erase it). split; [done|]. split; [done|apply Hd].
Qed.
Lemma repr_root d it : Represents d it -> is_Some (d_elems d !! 0).
Proof. intros (H0 & _ & Hh). destruct it as [i g a v cs]. cbn in H0. subst i. apply Holds_children in Hh as [Hi _]. eauto. Qed.
Lemma read_wdoc data d : read_doc data = Ok d -> is_Some (d_elems d !! 0) -> decls (d_ns d) -> WDoc d.
Proof.
  intros Hr H0 Hns. constructor; [|done| |done].
  - pose proof (read_doc_inv data) as Hi. by rewrite Hr in Hi.
  - intros k e He. destruct (read_doc_good _ _ Hr k e He) as (H1 & H2 & _). done.
Qed.
Lemma fine_read data d : Fine data -> read_doc data = Ok d -> WDoc d.
Proof.
  intros (ns & t & -> & Hn & Hns) Hr. pose proof (decls_ns_ok _ Hns) as Hns'.
  assert (t_value t <> None \/ t_children t <> []) as Hne.
  { destruct t as [g a [v|] [|c cs]]; cbn; [by left|by left| |by right].
    destruct (read_empty_root ns g a Hn Hns') as [m Hm]. congruence. }
  destruct (read_render_root ns t Hn Hns' Hne) as (d' & it & H1 & H2 & _ & _ & H5). rewrite Hr in H1. injection H1 as <-.
  eapply read_wdoc; [exact Hr|by eapply repr_root|]. rewrite H5. by apply decls_written.
Qed.
Lemma fine_formed data : Fine data -> WellFormed data.
Proof.
  intros (ns & t & -> & Hn & Hns). exists (hash_entries (written_ns ns)), t, (render_root ns t). split; [done|].
  split; [apply render_renders_mut|]. split; [done|]. split.
  - apply Forall_forall. intros [k v] Hk. rewrite hash_entries_perm in Hk. apply elem_of_map_to_list in Hk. by apply (decls_written ns Hns).
  - rewrite hash_entries_perm. apply NoDup_fst_map_to_list.
Qed.

(** ** Operations on documents *)
Definition WStable {A} (m : M doc A) : Prop := forall d, WDoc d -> WDoc (m d).1.
Lemma w_bind {A B} (m : M doc A) (k : A -> M doc B) : WStable m -> (forall a, WStable (k a)) -> WStable (bind m k).
Proof. intros Hm Hk d Hd. unfold bind. specialize (Hm d Hd). destruct (m d) as [d1 [a|e|e]]; [by apply Hk|done|done]. Qed.
Lemma w_ret {A} (a : A) : WStable (ret a).
Proof. by intros d. Qed.
Lemma w_fail {A} e : WStable (fail (A := A) e).
Proof. by intros d. Qed.
Lemma w_lift {A} (r : res A) : WStable (lift r).
Proof. by intros d. Qed.
Lemma w_get : WStable get.
Proof. by intros d. Qed.
Lemma w_iter {A} (f : A -> M doc unit) l : Forall (fun a => WStable (f a)) l -> WStable (iterM f l).
Proof. induction 1 as [|a l Ha _ IH]; cbn [iterM]; [apply w_ret|]. apply w_bind; [exact Ha|by intros _]. Qed.
Lemma w_iter_all {A} (f : A -> M doc unit) l : (forall a, WStable (f a)) -> WStable (iterM f l).
Proof. intros Hf. apply w_iter, Forall_forall. auto. Qed.
Lemma w_same d d' : WDoc d -> HInv d' -> d_ns d' = d_ns d -> is_Some (d_elems d' !! 0) ->
  (forall k e, d_elems d' !! k = Some e -> NameElem e) -> WDoc d'.
Proof. intros Hd H1 H2 H3 H4. constructor; [done|done|done|]. rewrite H2. apply Hd. Qed.
Lemma w_insert place tag p : Stable (insert_with place tag p) -> WStable (insert_with place tag p).
Proof.
  intros Hs d Hd. pose proof (Hs d (wd_inv d Hd)) as Hi. revert Hi. unfold insert_with. cbv zeta.
  destruct (d_elems d !! default 0 p) as [ep|] eqn:Ep; [|done]. unfold new_elem. destruct (is_valid_xml_name tag) eqn:Ev; [|done].
  destruct (place _ _) as [cs|e|e]; cbn [fst]; intros Hi; eapply w_same; try exact Hi; try exact Hd; try done; try apply Hd; cbn [d_elems].
  - destruct (wd_root d Hd) as [e0 He0]. destruct (decide (0 = d_running d + 1)) as [<-|H1]; [rewrite lookup_insert; eauto|].
    rewrite lookup_insert_ne by done. destruct (decide (0 = default 0 p)) as [<-|H2]; [rewrite lookup_insert; eauto|].
    rewrite lookup_insert_ne by done. eauto.
  - intros k e. rewrite lookup_insert_Some. intros [[<- <-]|[_ He]]; [by split|]. apply lookup_insert_Some in He as [[<- <-]|[_ He]]; [|by apply (wd_elems d Hd k)].
    apply (wd_elems d Hd _ _ Ep).
Qed.
Lemma w_append tag p : WStable (append_child tag p).
Proof. apply w_insert, stable_append. Qed.
Lemma w_after tag f p : WStable (insert_after tag f p).
Proof. apply w_insert, stable_after. Qed.
Lemma w_at tag i p : WStable (insert_at tag i p).
Proof. apply w_insert, stable_at. Qed.
Lemma w_attrs i a : attrs_ok (Some a) -> WStable (set_attributes i a).
Proof.
  intros Ha d Hd. pose proof (stable_attrs i a d (wd_inv d Hd)) as Hi. revert Hi. unfold set_attributes.
  destruct (negb _) eqn:En; [done|]. destruct (d_elems d !! i) as [e|] eqn:Ee; [|done]. cbn [fst]. intros Hi.
  assert (List.filter is_ns_key (env_order (map_keys a)) = []) as Hf.
  { destruct (List.filter _ _) as [|k l] eqn:Ef; [done|]. exfalso. assert (In k (List.filter is_ns_key (env_order (map_keys a)))) as Hk by (rewrite Ef; by left).
    apply filter_In in Hk as [H1 H2]. apply elem_of_list_In in H1. rewrite env_order_perm in H1. apply map_keys_elem in H1 as [v Hv].
    destruct (Ha k v Hv) as [_ ?]. congruence. }
  rewrite Hf in *. cbn [register_ns] in *. eapply w_same; [exact Hd|exact Hi|done| |]; cbn [d_elems].
  - destruct (decide (0 = i)) as [<-|H1]; [rewrite lookup_insert; eauto|]. rewrite lookup_insert_ne by done. apply Hd.
  - intros k x. rewrite lookup_insert_Some. intros [[<- <-]|[_ Hx]]; [|by apply (wd_elems d Hd k)]. split; [apply (wd_elems d Hd _ _ Ee)|].
    cbn. intros k v Hkv. apply map_filter_lookup_Some in Hkv as [Hkv _]. by apply (Ha k v).
Qed.
Lemma w_attr i k v : is_valid_xml_name k = true -> is_ns_key k = false -> WStable (insert_attribute i k v).
Proof.
  intros Hk1 Hk2 d Hd. pose proof (stable_attr i k v d (wd_inv d Hd)) as Hi. revert Hi. unfold insert_attribute.
  destruct (d_elems d !! i) as [e|] eqn:Ee; [|done]. destruct (e_attrs e) as [a|] eqn:Ea; [|done]. cbn [fst]. intros Hi.
  eapply w_same; [exact Hd|exact Hi|done| |]; cbn [with_elems d_elems].
  - destruct (decide (0 = i)) as [<-|H1]; [rewrite lookup_insert; eauto|]. rewrite lookup_insert_ne by done. apply Hd.
  - intros j x. rewrite lookup_insert_Some. intros [[<- <-]|[_ Hx]]; [|by apply (wd_elems d Hd j)]. destruct (wd_elems d Hd _ _ Ee) as [H1 H2]. split; [done|].
    rewrite Ea in H2. cbn [set_elem_attrs e_attrs attrs_ok]. intros k' v'. rewrite lookup_insert_Some. intros [[<- <-]|[_ Hx]]; [done|by apply (H2 k' v')].
Qed.
Lemma w_value i v : WStable (set_value i v).
Proof.
  intros d Hd. pose proof (stable_value i v d (wd_inv d Hd)) as Hi. revert Hi. unfold set_value.
  destruct (d_elems d !! i) as [e|] eqn:Ee; [|done]. cbn [fst]. intros Hi.
  eapply w_same; [exact Hd|exact Hi|done| |]; cbn [with_elems d_elems].
  - destruct (decide (0 = i)) as [<-|H1]; [rewrite lookup_insert; eauto|]. rewrite lookup_insert_ne by done. apply Hd.
  - intros j x. rewrite lookup_insert_Some. intros [[<- <-]|[_ Hx]]; [|by apply (wd_elems d Hd j)]. apply (wd_elems d Hd _ _ Ee).
Qed.
Lemma remove_elems_sub l : forall m k e, (remove_elems l m).2 !! k = Some e -> m !! k = Some e.
Proof.
  induction l as [|i l IH]; intros m k e; cbn [remove_elems]; [done|]. destruct (m !! i) as [x|].
  - specialize (IH (delete i m) k e). destruct (remove_elems l (delete i m)) as [es m']. cbn [snd] in *. intros H. apply IH in H.
    by apply lookup_delete_Some in H as [_ H].
  - apply IH.
Qed.
Lemma remove_elems_keep l k : k ∉ l -> forall m, (remove_elems l m).2 !! k = m !! k.
Proof.
  induction l as [|i l IH]; intros Hk m; cbn [remove_elems]; [done|]. apply not_elem_of_cons in Hk as [H1 H2]. destruct (m !! i) as [x|]; [|by apply IH].
  specialize (IH H2 (delete i m)). destruct (remove_elems l (delete i m)) as [es m']. cbn [snd] in *. rewrite IH. by rewrite lookup_delete_ne.
Qed.
Lemma w_pop tag p : WStable (pop_elements_by_tag tag p).
Proof.
  intros d Hd. pose proof (stable_pop tag p d (wd_inv d Hd)) as Hi. revert Hi. unfold pop_elements_by_tag. cbv zeta.
  destruct (d_elems d !! default 0 p) as [e|] eqn:Ee; [|done]. destruct (ids_by_tag d tag p) as [l|] eqn:El; [|done].
  set (m0 := <[_ := _]> (d_elems d)). pose proof (remove_elems_sub l m0) as Hs. assert (0 ∉ l) as Hl.
  { unfold ids_by_tag in El. rewrite Ee in El. intros H0. assert (0 ∈ (e_children e).*1) as Hc.
    { destruct (map fst _) as [|x xs] eqn:Em; [done|]. injection El as <-. change (map fst) with (fmap (M := list) (@fst N string)) in Em. rewrite <- Em in H0.
      apply elem_of_list_fmap in H0 as (c & -> & Hc). apply elem_of_list_In, filter_In in Hc as [Hc _]. apply elem_of_list_fmap. exists c. split; [done|by apply elem_of_list_In]. }
    destruct (wd_inv d Hd) as (_ & U & _). pose proof (uq_range _ U _ _ _ Ee Hc). lia. }
  pose proof (remove_elems_keep l 0 Hl m0) as H0. destruct (remove_elems l m0) as [es m]. cbn [fst snd] in *. intros Hi.
  eapply w_same; [exact Hd|exact Hi|done| |]; cbn [with_elems d_elems].
  - rewrite H0. subst m0. destruct (decide (0 = default 0 p)) as [<-|H1]; [rewrite lookup_insert; eauto|]. rewrite lookup_insert_ne by done. apply Hd.
  - intros k x Hx. apply Hs in Hx. subst m0. apply lookup_insert_Some in Hx as [[<- <-]|[_ Hx]]; [|by apply (wd_elems d Hd k)]. apply (wd_elems d Hd _ _ Ee).
Qed.
Lemma w_order sk i : WStable (order_child sk i).
Proof.
  intros d Hd. pose proof (stable_order sk i d (wd_inv d Hd)) as Hi. revert Hi. unfold order_child.
  destruct (d_elems d !! i) as [e|] eqn:Ee; [|done]. destruct (e_children e) as [|c cs]; [done|]. destruct sk as [|t ts]; [done|]. cbn [fst]. intros Hi.
  eapply w_same; [exact Hd|exact Hi|done| |]; cbn [with_elems d_elems].
  - destruct (decide (0 = i)) as [<-|H1]; [rewrite lookup_insert; eauto|]. rewrite lookup_insert_ne by done. apply Hd.
  - intros j x. rewrite lookup_insert_Some. intros [[<- <-]|[_ Hx]]; [|by apply (wd_elems d Hd j)]. apply (wd_elems d Hd _ _ Ee).
Qed.
Lemma w_take tag : WStable (take_subtrees tag).
Proof.
  unfold take_subtrees. apply w_bind; [apply w_pop|]. intros [es|]; [|apply w_ret].
  apply w_bind; [apply w_get|]. intros d. apply w_lift.
Qed.
Lemma w_fill t : names_ok t -> forall id, WStable (XmlView.fill id t).
Proof.
  induction t as [tag a v cs IH] using tree_rect'; intros Hn id. apply names_ok_node in Hn as (_ & Ha & Hcs). cbn [XmlView.fill].
  apply w_bind; [destruct a; [by apply w_attrs|apply w_ret]|intros _].
  apply w_bind; [destruct v; [apply w_value|apply w_ret]|intros _].
  induction IH as [|c cs Hc _ IH]; [apply w_ret|]. apply Forall_cons in Hcs as [H1 H2].
  apply w_bind; [|intros _; by apply IH]. apply w_bind; [apply w_append|intros i; by apply Hc].
Qed.
Lemma w_add p t : names_ok t -> WStable (add_tree p t).
Proof. intros Ht. apply w_bind; [apply w_append|intros i; by apply w_fill]. Qed.
Lemma w_adds p l : Forall names_ok l -> WStable (add_trees p l).
Proof. intros Hl. apply w_iter. eapply Forall_impl; [exact Hl|]. intros t. apply w_add. Qed.
Lemma w_tree_after f t : names_ok t -> WStable (insert_tree_after f t).
Proof. intros Ht. apply w_bind; [apply w_after|intros i; by apply w_fill]. Qed.
Lemma w_tree_first t : names_ok t -> WStable (insert_tree_first t).
Proof. intros Ht. apply w_bind; [apply w_at|intros i; by apply w_fill]. Qed.

(** ** Reading and writing the parts *)
Ltac ws := repeat first
  [ apply w_ret | apply w_fail | apply w_lift | apply w_get | apply w_append
  | apply w_after | apply w_value | apply w_pop | apply w_order | apply w_take | apply w_bind; [|intros ?] ].
Lemma w_load_rels : WStable load_relations.
Proof. unfold load_relations. ws. destruct a; ws. Qed.
Lemma w_save_rels l : WStable (save_relationships l).
Proof. unfold save_relationships. ws. destruct (get_root a); ws. apply w_adds, Forall_map_all. intros x. apply rel_tree_ok. Qed.
Lemma w_load_calc : WStable load_calc.
Proof. unfold load_calc. ws. Qed.
Lemma w_save_calc l : WStable (add_trees 0 (map calc_tree l)).
Proof. apply w_adds, Forall_map_all. intros x. apply calc_tree_ok. Qed.
Lemma w_load_strings : WStable load_strings.
Proof. unfold load_strings. ws. Qed.
Lemma w_save_strings l : WStable (save_strings l).
Proof.
  unfold save_strings. apply w_bind; [apply w_attr; by vm_compute|intros _]. apply w_bind; [apply w_attr; by vm_compute|intros _].
  apply w_adds, Forall_map_all. intros x. apply si_tree_ok.
Qed.
Lemma w_stamp b tag now : WStable (stamp b tag now).
Proof.
  intros d Hd. unfold stamp. destruct (first_element_id d _ 0) as [[i|]|m|m]; [|done..]. destruct (d_elems d !! i) as [e|]; [|done].
  destruct (b && has_value e); [done|]. by apply w_value.
Qed.
Lemma w_stamps a b : WStable (core_stamps a b).
Proof. unfold core_stamps. apply w_bind; [apply w_stamp|intros _; apply w_stamp]. Qed.
Lemma w_load_styles : WStable load_styles.
Proof. unfold load_styles. ws. Qed.
Lemma w_save_styles s : WStable (save_styles s).
Proof.
  unfold save_styles. apply w_bind; [apply w_tree_first, nums_tree_ok|intros _]. apply w_bind; [apply w_tree_after, fonts_tree_ok|intros _].
  apply w_bind; [apply w_tree_after, fills_tree_ok|intros _]. apply w_bind; [apply w_tree_after, borders_tree_ok|intros _].
  apply w_bind; [apply w_tree_after, xfs_tree_ok|intros _]. apply w_tree_after, xfs_tree_ok.
Qed.
Lemma w_load_book : WStable load_book.
Proof. unfold load_book. ws. Qed.
Lemma w_save_book v l : WStable (save_book v l).
Proof.
  unfold save_book. apply w_bind; [destruct v; [apply w_tree_after, book_view_tree_ok|apply w_ret]|intros _].
  apply w_bind; [apply w_tree_after, book_sheets_tree_ok|intros _]. apply w_order.
Qed.
Lemma w_ws_load : WStable ws_load.
Proof. unfold ws_load. ws. match goal with x : _ * _ |- _ => destruct x end. ws. Qed.
Lemma w_save_cols c : WStable (save_cols c).
Proof. unfold save_cols. destruct c as [[|? ?]|]; [apply w_ret|apply w_tree_after, cols_tree_ok|apply w_ret]. Qed.
Lemma w_save_data m : WStable (save_data m).
Proof.
  unfold save_data. destruct m as [m|]; [|ws]. ws. apply w_iter_all. intros ir. unfold save_row. ws.
  - apply w_attrs. pose proof (row_tree_ok ir.1 ir.2) as Hr. by apply names_ok_node in Hr as (_ & Hr & _).
  - destruct (rd_cells _); [|ws]. apply w_iter_all. intros ic. unfold save_cell. apply w_bind; [apply w_append|intros id].
    apply w_bind; [apply w_lift|intros col]. apply w_fill, cell_tree_ok.
Qed.
Lemma w_ws_save w d : WDoc d -> WDoc (ws_save (w, d)).1.2.
Proof.
  pose (G := fun A (m : M (worksheet * doc) A) => forall s, WDoc s.2 -> WDoc (m s).1.2).
  assert (forall A B (m : M (worksheet * doc) A) (k : A -> M (worksheet * doc) B), G A m -> (forall a, G B (k a)) -> G B (bind m k)) as Gb.
  { intros A B m k Hm Hk s Hs. unfold bind. specialize (Hm s Hs). destruct (m s) as [s1 [a|e|e]]; [by apply Hk|done|done]. }
  assert (forall A (m : M doc A), WStable m -> G A (on_doc m)) as Gd.
  { intros A m Hm [w0 d0] H0. unfold on_doc. cbn in *. specialize (Hm d0 H0). by destruct (m d0). }
  assert (G unit ws_save) as Gs; [|apply (Gs (w, d))].
  unfold ws_save. apply Gb; [intros s; done|intros s]. apply Gb; [intros s'; done|intros ref].
  repeat (apply Gb; [first [apply Gd; first [apply w_save_cols|apply w_save_data|apply w_add, dim_tree_ok|apply w_tree_after, views_tree_ok]|intros s'; done]|intros _]).
  apply Gd, w_order.
Qed.

(** ** The documents parts start from *)
Definition WInit (r : res open_part) : Prop := match r with Ok p => WDoc (op_doc p) | _ => True end.
Lemma w_with_ns tag uri d x : sexists is_special uri = false -> create_with_ns tag uri new_doc = (d, Ok x) -> WDoc d.
Proof.
  intros Hu. unfold create_with_ns, bind. destruct (create_root tag new_doc) as [d1 [i|e|e]] eqn:Ec; [|done..]. intros Hs.
  assert (HInv d) as Hi. { pose proof (stable_with_ns tag uri new_doc HInv_new) as H0. unfold create_with_ns, bind in H0. by rewrite Ec, Hs in H0. }
  unfold create_root, new_elem in Ec. destruct (is_valid_xml_name tag) eqn:Ev; [|done]. injection Ec as <- <-.
  unfold set_attributes in Hs. cbn [with_elems d_elems new_doc d_ns] in Hs.
  destruct (negb _) eqn:En; [done|]. rewrite lookup_insert in Hs. injection Hs as <- <-. constructor; [done| | |].
  - cbn. rewrite lookup_insert. eauto.
  - cbn. intros k e. rewrite insert_insert. rewrite lookup_insert_Some. intros [[<- <-]|[_ He]]; [|by rewrite lookup_empty in He]. split; [done|].
    cbn. intros k v Hkv. apply map_filter_lookup_Some in Hkv as [Hkv Hns]. cbn in Hns. unfold attrs_of in Hkv. cbn in Hkv.
    apply lookup_insert_Some in Hkv as [[<- <-]|[_ Hkv]]; [by vm_compute in Hns|by rewrite lookup_empty in Hkv].
  - cbn [d_ns]. set (a := attrs_of [("xmlns", uri)]). assert (forall ks ns, decls ns -> (forall k, k ∈ ks -> k = "xmlns") -> decls (register_ns ks a ns)) as Hd.
    { induction ks as [|k ks IH]; intros ns Hn Hk; [done|]. cbn [register_ns]. assert (k = "xmlns") as -> by (apply Hk; by left).
      change (split_byte ":" "xmlns") with ["xmlns"]. cbv iota. apply IH; [|intros k Hk'; apply Hk; by right].
      intros k v. rewrite lookup_insert_Some. intros [[<- <-]|[_ Hx]]; [|by apply Hn]. subst a. unfold attrs_of. cbn [foldl fst snd]. rewrite lookup_insert. cbn [default].
      split; [by apply plain_safe|by left]. }
    apply Hd; [intros k v; by rewrite lookup_empty|]. intros k Hk. apply elem_of_list_In, filter_In in Hk as [Hk _]. apply elem_of_list_In in Hk.
    rewrite env_order_perm in Hk. apply map_keys_elem in Hk as [v Hv]. subst a. unfold attrs_of in Hv. cbn [foldl fst snd] in Hv.
    apply lookup_insert_Some in Hv as [[<- _]|[_ Hv]]; [done|by rewrite lookup_empty in Hv].
Qed.
Lemma winit_ns c tag : sexists is_special (c_namespace c) = false -> WInit (init_with_ns c tag).
Proof.
  intros Hc. unfold init_with_ns, doc_of_m. destruct (create_with_ns tag (c_namespace c) new_doc) as [d [x|e|e]] eqn:Ec; [|done..]. by eapply w_with_ns.
Qed.
Lemma winit_rels : WInit rels_init.
Proof.
  unfold rels_init, doc_of_m. destruct (create_with_ns _ _ new_doc) as [d [x|e|e]] eqn:Ec; [|done..]. cbn. eapply w_with_ns; [|exact Ec]. by vm_compute.
Qed.
Definition declsb (ns : gmap string string) : bool :=
  forallb (fun kv : string * string => negb (sexists is_special kv.2) && (seqb kv.1 default_ns_key || is_valid_xml_name ("xmlns:" +:+ kv.1))) (map_to_list ns).
Lemma declsb_decls ns : declsb ns = true -> decls ns.
Proof.
  unfold declsb. rewrite forallb_forall. intros H k v Hkv. specialize (H (k, v)). cbn [fst snd] in H.
  rewrite <- elem_of_list_In, elem_of_map_to_list in H. apply H in Hkv as [H1 H2]%andb_true_iff. apply negb_true_iff in H1. split; [by apply plain_safe|].
  apply orb_true_iff in H2 as [H2|H2]; [left; by apply String.eqb_eq|by right].
Qed.
Lemma winit_template c s : template_ok s = true ->
  match @read_doc id_env s with Ok d => match doc_tree d with Some _ => declsb (d_ns d) = true | None => False end | _ => False end ->
  WInit (rmap (fun d => mkOpen d (Some (c_content_type c)) (c_ext c) (c_ext_type c)) (read_doc s)).
Proof.
  intros Hs. rewrite <- (read_doc_det s Hs). destruct (read_doc s) as [d| |] eqn:Er; [|done..]. destruct (doc_tree d) as [t|] eqn:Et; [|done]. intros Hd.
  cbn. eapply read_wdoc; [exact Er| |by apply declsb_decls]. unfold doc_tree, get_root, get_element in Et. destruct (d_elems d !! 0); [eauto|done].
Qed.

(** ** The package *)
Section package.
Context (Orig : string -> string -> Prop) (Hord : forall q data, Orig q data -> Ordinary data).
Record OInv (o : office) : Prop := {
  oi_open : forall q p, of_open o !! q = Some p -> WDoc (op_doc p);
  oi_stored : forall q e, of_archive o !! q = Some e -> exists data, part_bytes e = Ok data /\ (Orig q data \/ Fine data);
}.
(** Whatever the outcome, the invariant is kept. *)
Definition Pres {S A} (f : S -> office) (m : M S A) : Prop := forall s, OInv (f s) -> OInv (f (m s).1).
Definition OPres {A} (m : M office A) : Prop := Pres id m.
Definition PPres {A} (m : M pkg_state A) : Prop := Pres snd m.
Lemma p_bind {S A B} (f : S -> office) (m : M S A) (k : A -> M S B) : Pres f m -> (forall a, Pres f (k a)) -> Pres f (bind m k).
Proof. intros Hm Hk s Hs. unfold bind. specialize (Hm s Hs). destruct (m s) as [s1 [a|e|e]]; [by apply Hk|done|done]. Qed.
Lemma p_ret {S A} (f : S -> office) (a : A) : Pres f (ret a).
Proof. by intros s. Qed.
Lemma p_fail {S A} (f : S -> office) e : Pres f (fail (A := A) e).
Proof. by intros s. Qed.
Lemma p_lift {S A} (f : S -> office) (r : res A) : Pres f (lift r).
Proof. by intros s. Qed.
Lemma p_get {S} (f : S -> office) : Pres f get.
Proof. by intros s. Qed.
Lemma p_rels {A} (m : M relations A) : PPres (on_rels m).
Proof. intros [r o] Ho. unfold on_rels. cbn in *. by destruct (m r). Qed.
Lemma p_office {A} (m : M office A) : OPres m -> PPres (on_office m).
Proof. intros Hm [r o] Ho. unfold on_office. cbn in *. specialize (Hm o Ho). by destruct (m o). Qed.
Lemma oi_set_open o q p : OInv o -> WDoc (op_doc p) -> OInv (set_open o (<[q := p]> (of_open o))).
Proof. intros [H1 H2] Hp. constructor; [|done]. intros q' p'. cbn. rewrite lookup_insert_Some. intros [[<- <-]|[_ H]]; [done|by apply (H1 q')]. Qed.
Lemma o_delete q : OPres (delete_document q).
Proof. intros o [H1 H2]. constructor; [done|]. cbn. intros q' e He. apply lookup_delete_Some in He as [_ He]. by apply H2. Qed.
Lemma o_with {A} q (m : M doc A) : WStable m -> OPres (with_doc q m).
Proof.
  intros Hm o Ho. unfold with_doc. destruct (of_open o !! q) as [p|] eqn:Ep; [|done]. specialize (Hm (op_doc p) (oi_open o Ho _ _ Ep)).
  destruct (m (op_doc p)) as [d r]. cbn [fst] in *. by apply oi_set_open.
Qed.
Lemma o_close q : OPres (close_xml_document q).
Proof.
  intros o Ho. unfold close_xml_document, id. destruct (of_open o !! q) as [p|] eqn:Ep; [|done].
  assert (forall q' p', delete q (of_open o) !! q' = Some p' -> WDoc (op_doc p')) as H1.
  { intros q' p' Hp. apply lookup_delete_Some in Hp as [_ Hp]. by apply (oi_open o Ho q'). }
  destruct (wdoc_writes (op_doc p) (oi_open o Ho _ _ Ep)) as (data & -> & Hf). constructor; cbn; [done|].
  intros q' e. rewrite lookup_insert_Some. intros [[<- <-]|[_ He]]; [|by apply Ho]. exists data. split; [apply part_bytes_pack|by right].
Qed.
Lemma o_get init q : WInit init -> OPres (get_xml_document init q).
Proof.
  intros Hi o Ho. unfold get_xml_document, bind, get_xml_tree, id. destruct (of_open o !! q) as [p|] eqn:Ep; [done|].
  destruct (of_archive o !! q) as [e|] eqn:Ee.
  - assert (OInv (set_archive o (delete q (of_archive o)))) as Ho'.
    { constructor; [apply Ho|]. cbn. intros q' e' He. apply lookup_delete_Some in He as [_ He]. by apply Ho. }
    destruct (oi_stored o Ho _ _ Ee) as (data & Hb & Hd). destruct (en_content e) as [c|] eqn:Ec; cbn [of_option rbind]; [|done].
    unfold part_bytes in Hb. rewrite Ec in Hb. rewrite Hb. cbn [rbind]. destruct (read_doc data) as [d| |] eqn:Er; [|done..]. cbn [rbind].
    apply oi_set_open; [done|]. destruct Hd as [Hd|Hd]; [|by eapply fine_read].
    destruct (Hord _ _ Hd d Er) as [H1 H2]. by eapply read_wdoc.
  - unfold lift. destruct init as [p|e|e]; [|done..]. by apply oi_set_open.
Qed.
Lemma o_rels_new q : OPres (rels_new q).
Proof. apply p_bind; [apply o_get, winit_rels|intros _]. apply p_bind; [apply o_with, w_load_rels|intros l; apply p_ret]. Qed.
Lemma o_rels_close r : OPres (rels_close r).
Proof.
  apply p_bind; [apply o_with, w_save_rels|]. intros [[]|]; [apply o_close| |apply p_fail].
  apply o_delete.
Qed.
Lemma p_sst_new : PPres sst_new.
Proof.
  apply p_bind; [apply p_rels|intros q]. apply p_bind; [apply p_office, o_get, winit_ns; by vm_compute|intros _].
  apply p_bind; [apply p_office, o_with, w_load_strings|intros l; apply p_ret].
Qed.
Lemma p_calc_new : PPres calc_new.
Proof.
  apply p_bind; [apply p_rels|intros q]. apply p_bind; [apply p_office, o_get, winit_ns; by vm_compute|intros _].
  apply p_bind; [apply p_office, o_with, w_load_calc|intros l; apply p_ret].
Qed.
Lemma p_core_new : PPres core_new.
Proof.
  apply p_bind; [apply p_rels|intros q]. apply p_bind; [|intros _; apply p_ret]. apply p_office, o_get, winit_template; by vm_compute.
Qed.
Lemma p_theme_new : PPres theme_new.
Proof.
  apply p_bind; [apply p_rels|intros q]. apply p_bind; [|intros _; apply p_ret]. apply p_office, o_get, winit_template; by vm_compute.
Qed.
Lemma p_style_new : PPres style_new.
Proof.
  apply p_bind; [apply p_rels|intros q]. apply p_bind; [|intros _; apply p_bind; [|intros l; apply p_ret]].
  - apply p_office, o_get, winit_template; by vm_compute.
  - apply p_office, o_with, w_load_styles.
Qed.
Lemma p_calc_close c : PPres (calc_close c).
Proof.
  unfold calc_close. destruct (cc_entries c) as [|x l]; [apply p_bind; [apply p_rels|intros _; apply p_office, o_delete]|].
  apply p_bind; [apply p_office, o_with, w_save_calc|intros _; apply p_office, o_close].
Qed.
Lemma p_sst_close c : PPres (sst_close c).
Proof.
  unfold sst_close. destruct (ss_strings c) as [|x l]; [apply p_bind; [apply p_rels|intros _; apply p_office, o_delete]|].
  apply p_bind; [apply p_office, o_with, w_save_strings|intros _; apply p_office, o_close].
Qed.
Lemma o_core_close a b q : OPres (core_close a b q).
Proof. apply p_bind; [apply o_with, w_stamps|intros _; apply o_close]. Qed.
Lemma o_style_close c : OPres (style_close c).
Proof. apply p_bind; [apply o_with, w_save_styles|intros _; apply o_close]. Qed.
Lemma o_theme_close q : OPres (theme_close q).
Proof. apply o_close. Qed.

(** The workbook. *)
Definition BPres {A} (m : M wb_state A) : Prop := Pres snd m.
Lemma p_workbook_new s : OInv s.2 -> OInv (workbook_new s).1.2.
Proof.
  revert s. change (PPres workbook_new). apply p_bind; [apply p_rels|intros path].
  apply p_bind; [apply p_office, o_get, winit_template; by vm_compute|intros _]. apply p_bind; [apply p_lift|intros rp].
  apply p_bind; [apply p_office, o_rels_new|intros rels]. intros [r o] Ho. unfold bind at 1, get. cbn [fst snd] in *.
  match goal with |- context [match ?m (rels, o) with _ => _ end] => assert (PPres m) as Hm; [|specialize (Hm (rels, o) Ho); revert Hm; destruct (m (rels, o)) as [[r1 o1] [[[[a b] c] y]|e|e]]; intros Hm; [|done|done]; cbn [fst snd] in Hm] end.
  { apply p_bind; [apply p_theme_new|intros a]. apply p_bind; [apply p_sst_new|intros b]. apply p_bind; [apply p_calc_new|intros c].
    apply p_bind; [apply p_style_new|intros e; apply p_ret]. }
  unfold bind at 1, put. cbn [fst snd]. revert Hm. change (OInv (snd (r, o1)) -> OInv (snd (bind (on_office (with_doc path load_book))
    (fun x => let '(sheets, view) := default ([], None) x in ret (mkBook path c b y r1 a sheets view)) (r, o1)).1)).
  apply (p_bind snd); [apply p_office, o_with, w_load_book|]. intros x. destruct (default ([], None) x). apply p_ret.
Qed.
Lemma b_office {A} (m : M office A) : OPres m -> BPres (on_wb_office m).
Proof. intros Hm [b o] Ho. unfold on_wb_office. cbn in *. specialize (Hm o Ho). by destruct (m o). Qed.
Lemma b_rels {A} (m : M pkg_state A) : PPres m -> BPres (on_wb_rels m).
Proof. intros Hm [b o] Ho. unfold on_wb_rels. cbn in *. specialize (Hm (wb_rels b, o) Ho). by destruct (m (wb_rels b, o)) as [[r1 o1] x]. Qed.
Lemma b_rels_close : BPres (fun s : wb_state => on_wb_office (rels_close (wb_rels s.1)) s).
Proof. intros s Hs. by apply (b_office _ (o_rels_close _)). Qed.
Lemma b_close : BPres wb_close.
Proof.
  apply p_bind; [apply p_get|intros s]. apply p_bind; [apply b_office, o_theme_close|intros _]. apply p_bind.
  { apply p_bind; [apply b_rels, p_calc_close|intros _]. apply p_bind; [apply b_rels, p_sst_close|intros _; apply b_office, o_style_close]. }
  intros _. apply p_bind; [apply b_rels_close|intros _]. apply b_office. apply p_bind; [apply o_with, w_save_book|intros _; apply o_close].
Qed.
Lemma o_drop b o : OInv o -> OInv (wb_drop b o).
Proof.
  intros Ho. unfold wb_drop, quietly. cbv zeta. apply (b_office _ (o_theme_close _)). apply b_rels_close. apply (b_office _ (o_style_close _)).
  apply (b_rels _ (p_sst_close _)). apply (b_rels _ (p_calc_close _)). by apply b_close.
Qed.
Lemma o_flush b : OPres (wb_flush b).
Proof.
  intros o Ho. unfold wb_flush. pose proof (b_close (b, o) Ho) as H1. destruct (wb_close (b, o)) as [[b1 o1] r]. by apply o_drop.
Qed.
(** Sheets. *)
Lemma o_ws_close w o : OInv o -> OInv (ws_close (w, o)).1.2.
Proof.
  intros Ho. unfold ws_close. destruct (of_open o !! ws_path w) as [p|] eqn:Ep; [|done]. pose proof (w_ws_save w (op_doc p) (oi_open o Ho _ _ Ep)) as Hs.
  destruct (ws_save (w, op_doc p)) as [[w1 d] r]. cbn [fst snd] in Hs. pose proof (oi_set_open o (ws_path w) (mkOpen d (op_ct p) (op_ext p) (op_ext_type p)) Ho Hs) as Ho1.
  destruct r as [[]|e|e]; [|done|done]. pose proof (o_close (ws_path w) _ Ho1) as Hc. by destruct (close_xml_document _ _).
Qed.
Lemma o_ws_drop w o : OInv o -> OInv (ws_drop w o).
Proof.
  intros Ho. unfold ws_drop. pose proof (o_ws_close w o Ho) as H1. destruct (ws_close (w, o)) as [[w1 o1] r]. by apply o_rels_close.
Qed.
Lemma o_ws_flush w : OPres (ws_flush w).
Proof.
  intros o Ho. unfold ws_flush. pose proof (o_ws_close w o Ho) as H1. destruct (ws_close (w, o)) as [[w1 o1] r]. by apply o_ws_drop.
Qed.
Definition SPres {A} (m : M book_state A) : Prop := Pres (fun s => s.2.2) m.
Lemma s_pkg {A} (m : M pkg_state A) : PPres m -> SPres (on_pkg m).
Proof. intros Hm [l p] Hp. unfold on_pkg. cbn in *. specialize (Hm p Hp). by destruct (m p). Qed.
Lemma s_sheets {A} (m : M (list sheet) A) : SPres (on_sheets m).
Proof. intros [l p] Hp. unfold on_sheets. cbn in *. by destruct (m l). Qed.
Lemma s_file_name name : SPres (get_sheet_file_name name).
Proof.
  intros [l [r o]] Ho. unfold get_sheet_file_name, bind, get. cbn [fst snd] in *. destruct (_ ≫= _) as [x|].
  - unfold lift. destruct (get_target_by_id r (sh_rel x)) as [[p|]|e|e]; done.
  - unfold lift. destruct (get_relative_path r) as [rp|e|e]; [|done..]. destruct (free_number _ _ _ _) as [n|e|e]; [|done..].
    destruct (set_new_relationship _ _ _ r) as [r1 i]. done.
Qed.
Lemma s_ws_new name : SPres (ws_new name).
Proof.
  apply p_bind; [apply s_file_name|intros [path nm]]. apply p_bind; [apply s_pkg, p_office, o_get, winit_template; by vm_compute|intros _].
  apply p_bind; [apply p_lift|intros rp]. apply p_bind; [apply s_pkg, p_office, o_rels_new|intros rels]. intros s Hs.
  pose proof (s_pkg _ (p_office _ (o_with path _ w_ws_load)) s Hs) as H1. destruct (on_pkg _ s) as [s1 [x|e|e]]; cbn [fst] in H1.
  - by destruct (default _ x) as [[[? ?] ?] ?].
  - by apply (o_rels_close rels).
  - by apply (o_rels_close rels).
Qed.
Lemma b_add name : BPres (add_sheet name).
Proof.
  intros [b o] Ho. unfold add_sheet. cbn [fst snd] in *. pose proof (s_ws_new name (wb_sheets b, (wb_rels b, o)) Ho) as H1.
  by destruct (ws_new name _) as [[l [r o1]] x].
Qed.
Lemma b_delete w : BPres (wb_delete_sheet w).
Proof.
  intros [b o] Ho. unfold wb_delete_sheet. cbn [fst snd] in *. assert (SPres (delete_sheet w)) as Hd.
  { apply p_bind; [apply s_sheets|intros _]. apply p_bind; [apply s_pkg, p_rels|intros _].
    apply p_bind; [apply s_pkg, p_office, o_delete|intros _]. apply s_pkg, p_office, o_ws_flush. }
  specialize (Hd (wb_sheets b, (wb_rels b, o)) Ho). by destruct (delete_sheet w _) as [[l [r o1]] x].
Qed.
(** Files. *)
Lemma suite_new_inv file fs s : (match file with Some _ => forall o, office_new file fs = Ok o -> OInv o | None => True end) ->
  suite_new file fs = Ok s -> OInv (su_office s).
Proof.
  intros Hf. unfold suite_new. destruct (office_new file fs) as [o| |] eqn:Eo; [|done..]. cbn [rbind].
  assert (OInv o) as Ho. { destruct file; [by apply Hf|]. injection Eo as <-. constructor; intros q x Hx; cbn in Hx; by rewrite lookup_empty in Hx. }
  pose proof (o_rels_new "_rels/.rels" o Ho) as H1. destruct (rels_new "_rels/.rels" o) as [o1 [root| |]]; [|done..]. cbn in H1.
  pose proof (p_core_new (root, o1) H1) as H2. destruct (core_new (root, o1)) as [[root1 o2] [core| |]]; [|done..]. by intros [= <-].
Qed.
Lemma excel_new_inv file fs x : (match file with Some _ => forall o, office_new file fs = Ok o -> OInv o | None => True end) ->
  excel_new file fs = Ok x -> OInv (x_office x).
Proof.
  intros Hf. unfold excel_new. destruct (suite_new file fs) as [s| |] eqn:Es; [|done..]. cbn [rbind]. pose proof (suite_new_inv _ _ _ Hf Es) as H1.
  pose proof (p_workbook_new (su_root s, su_office s) H1) as H2. destruct (workbook_new _) as [[root o] [b| |]]; [|done..]. cbn [fst snd] in H2.
  destruct file as [p|]; [by intros [= <-]|]. unfold on_book, x_state, x_office. cbn [x_suite x_book su_office].
  pose proof (b_add None (b, o) H2) as H3. destruct (add_sheet None (b, o)) as [s1 [w| |]]; [|done..]. intros [= <-]. by apply o_ws_drop.
Qed.
Lemma call_inv `{Hs : Hashes} c s : OInv (x_office s.1) -> OInv (x_office (call_step c s).1.1).
Proof.
  assert (forall A (m : M wb_state A), BPres m -> Pres x_office (on_book m)) as Hb.
  { intros A m Hm x Hx. unfold on_book. specialize (Hm (x_state x) Hx). by destruct (m (x_state x)) as [[b o] r]. }
  assert (forall m, Pres x_office m -> Pres (fun s : session => x_office s.1) (give m)) as Hg.
  { intros m Hm [x l] Hx. unfold give. cbn [fst snd] in *. specialize (Hm x Hx). by destruct (m x) as [x1 [w|e|e]]. }
  assert (forall A (m : M excel A), Pres x_office m -> Pres (fun s : session => x_office s.1) (on_excel m)) as He.
  { intros A m Hm [x l] Hx. unfold on_excel. cbn [fst snd] in *. specialize (Hm x Hx). by destruct (m x) as [x1 r]. }
  assert (forall A (m : M workbook A), BPres (pure_book m)) as Hp.
  { intros A m [b o] Ho. unfold pure_book. cbn [fst snd] in *. by destruct (m b). }
  assert (forall h m, Pres (fun s : session => x_office s.1) (use h m)) as Hu.
  { intros h m s0 H0. unfold use. destruct (handle h s0); [|done]. by destruct (m _) as [[w1 t] r]. }
  assert (forall h m, (forall w, BPres (m w)) -> Pres (fun s : session => x_office s.1) (spend h m)) as Hsp.
  { intros h m Hm s0 H0. unfold spend. destruct (handle h s0) as [w|]; [|done]. pose proof (Hb _ _ (Hm w) s0.1 H0) as H1. by destruct (on_book (m w) s0.1). }
  revert s. change (Pres (fun s : session => x_office s.1) (call_step c)). destruct c; cbn [call_step]; auto.
  - apply Hg, Hb, b_add.
  - apply Hg, Hb, b_add.
  - apply Hsp. intros w [b o] Ho. by apply o_ws_drop.
  - apply Hsp. intros w. apply b_office, o_ws_flush.
  - apply Hsp. intros w. apply b_delete.
Qed.
Lemma calls_inv `{Hs : Hashes} cs : forall s s', OInv (x_office s.1) -> calls cs s = Some s' -> OInv (x_office s'.1).
Proof.
  induction cs as [|c cs IH]; intros s s' Ho; cbn [calls]; [by intros [= <-]|]. pose proof (call_inv c s Ho) as H1.
  destruct (call_step c s) as [s1 [[]|e|e]]; [by apply IH|by apply IH|done].
Qed.
Lemma types_fine exts overs data : create_content_types exts overs = Ok data -> Fine data.
Proof.
  unfold create_content_types. destruct (content_types_doc exts overs new_doc) as [d [[]|e|e]] eqn:Ed; [|done..]. intros Hw.
  assert (WDoc d) as Hd.
  { unfold content_types_doc, bind in Ed. destruct (create_with_ns "Types" (c_namespace c_types) new_doc) as [d1 [[]|e|e]] eqn:Ec; [|done..].
    assert (WDoc d1) as H1. { eapply w_with_ns; [|exact Ec]. by vm_compute. }
    assert (WStable (add_trees 0 (map default_tree exts))) as S1 by (apply w_adds, Forall_map_all; intros x; apply default_tree_ok).
    assert (WStable (add_trees 0 (map override_tree overs))) as S2 by (apply w_adds, Forall_map_all; intros x; apply override_tree_ok).
    specialize (S1 d1 H1). destruct (add_trees 0 (map default_tree exts) d1) as [d2 [[]|e|e]]; [|done..]. specialize (S2 d2 S1). by rewrite Ed in S2. }
  destruct (wdoc_writes d Hd) as (data' & H1 & H2). congruence.
Qed.
Lemma o_close_all : OPres close_all.
Proof.
  intros o. unfold close_all, id. generalize (env_order (map_keys (of_open o))). intros l. revert o. induction l as [|q l IH]; intros o Ho; cbn [iterM]; [done|].
  unfold bind. pose proof (o_close q o Ho) as H1. destruct (close_xml_document q o) as [o1 [[]|e|e]]; [by apply IH|done|done].
Qed.
Lemma office_save_inv f path o fs o1 tr fs' : OInv o -> office_save f path o fs = (o1, (tr, Ok tt)) -> last tr = Some fs' ->
  exists l, Stored fs' path l /\ forall q data, (q, data) ∈ l -> Orig q data \/ Fine data.
Proof.
  intros Ho. unfold office_save. pose proof (o_close_all o Ho) as H1. destruct (close_all o) as [o2 [[]|e|e]]; [|done|done]. cbn in H1.
  destruct (save_archive (of_archive o2)) as [b|e|e] eqn:Es; [|done|done]. intros [= <- Hw] Hl.
  destruct (write_file_last _ _ _ _ _ Hw) as (fs2 & Hl2 & Hb). rewrite Hl in Hl2. injection Hl2 as <-.
  destruct (save_archive_files _ _ Es) as (l & types & Hu & Ht & _ & Hfiles). exists (l ++ [(content_types_name, types)]). split; [by exists b|].
  intros q data. rewrite elem_of_app, elem_of_list_singleton. intros [Hin|[= -> ->]]; [|right; by eapply types_fine].
  apply Hfiles in Hin as (e & He & Hbd). destruct (oi_stored o2 H1 _ _ He) as (data' & H2 & H3). by rewrite Hbd in H2; injection H2 as ->.
Qed.
Lemma suite_save_inv t f path s fs tr fs' : OInv (su_office s) -> suite_save t f path s fs = (tr, Ok tt) -> last tr = Some fs' ->
  exists l, Stored fs' path l /\ forall q data, (q, data) ∈ l -> Orig q data \/ Fine data.
Proof.
  intros Ho. unfold suite_save. assert (OPres (core_flush t (su_core s) ;;; rels_close (su_root s))%mon) as Hp.
  { apply p_bind; [|intros _; apply o_rels_close]. intros o H1. unfold core_flush. pose proof (o_core_close (ck_1 t) (ck_2 t) (su_core s) o H1) as H2.
    destruct (core_close _ _ _ o) as [o1 r]. by apply o_core_close. }
  specialize (Hp _ Ho). unfold id in Hp. destruct ((core_flush t (su_core s) ;;; rels_close (su_root s))%mon (su_office s)) as [o [[]|e|e]]; [|done|done]. cbn [fst] in Hp. intros Hsv Hl.
  destruct (office_save f path o fs) as [o1 [tr1 r]] eqn:Es. cbn [snd] in Hsv. injection Hsv as -> ->. by eapply office_save_inv.
Qed.
Lemma excel_save_inv t f path x fs tr fs' : OInv (x_office x) -> excel_save t f path x fs = (tr, Ok tt) -> last tr = Some fs' ->
  exists l, Stored fs' path l /\ forall q data, (q, data) ∈ l -> Orig q data \/ Fine data.
Proof.
  intros Ho. unfold excel_save. pose proof (o_flush (x_book x) _ Ho) as H1. destruct (wb_flush (x_book x) (x_office x)) as [o [[]|e|e]]; [|done|done].
  by apply suite_save_inv.
Qed.
End package.
Lemma opened_inv l0 fs file o : Stored fs file l0 -> office_new (Some file) fs = Ok o -> OInv (fun q data => (q, data) ∈ l0) o.
Proof.
  intros (b & Hb & Hu). unfold office_new. rewrite Hb. cbn [of_option rbind]. destruct (load_archive b) as [m| |] eqn:Em; [|done|done]. intros [= <-].
  destruct (load_archive_spec b m Em) as (l & Hu0 & Hc & H1 & H2). rewrite Hu in Hu0. injection Hu0 as <-. constructor; [intros q p; cbn; by rewrite lookup_empty|].
  cbn. intros q e He. destruct (decide (q ∈ l0.*1)) as [Hq|Hq]; [|by rewrite (H2 q Hq) in He].
  apply elem_of_list_fmap in Hq as ([q' data] & -> & Hin). cbn [fst] in *. assert (q' <> content_types_name) as Hne by (intros ->; congruence).
  destruct (H1 q' data Hin Hne) as (x & t & ct & Hm). rewrite He in Hm. injection Hm as ->. exists data. split; [apply part_bytes_pack|by left].
Qed.

(** ** A consequence of being well-formed: double quotes come in pairs *)
Fixpoint oddq (s : string) : bool := match s with EmptyString => false | String a s => xorb (aeqb a """") (oddq s) end.
Lemma oddq_app a b : oddq (a +:+ b) = xorb (oddq a) (oddq b).
Proof. induction a as [|c a IH]; cbn [oddq append]; [by destruct (oddq b)|]. by rewrite IH, xorb_assoc. Qed.
Lemma oddq_safe s : SafeText s -> oddq s = false.
Proof.
  induction 1 as [|a s Ha _ IH|e s He _ IH]; [done| |].
  - cbn [oddq]. rewrite IH, xorb_false_r. destruct (aeqb a """") eqn:Eq; [|done]. apply Ascii.eqb_eq in Eq as ->. done.
  - rewrite oddq_app, IH. rewrite !elem_of_cons, elem_of_nil in He. by destruct He as [-> | [-> | [-> | [-> | [-> | []]]]]].
Qed.
Lemma oddq_name s : is_valid_xml_name s = true -> oddq s = false.
Proof.
  intros Hv. apply valid_name_bytes in Hv. induction s as [|a s IH]; [done|]. cbn [sforall] in Hv. apply andb_true_iff in Hv as [H1 H2]. cbn [oddq].
  rewrite (IH H2), xorb_false_r. destruct (aeqb a """") eqn:Eq; [|done]. apply Ascii.eqb_eq in Eq as ->. by vm_compute in H1.
Qed.
Lemma oddq_quoted s : oddq s = false -> oddq (quoted s) = false.
Proof. intros H. unfold quoted. by rewrite !oddq_app, H. Qed.
Lemma oddq_spaced l : Forall (fun x => oddq x = false) l -> oddq (spaced l) = false.
Proof. induction 1 as [|x l Hx Hl IH]; [done|]. cbn [spaced]. destruct l as [|y l]; [done|]. by rewrite !oddq_app, Hx, IH. Qed.
Lemma oddq_head nsl g a h : Head nsl g a h -> is_valid_xml_name g = true -> attrs_ok a -> match nsl with Some l => Forall decl_ok l | None => True end -> oddq h = false.
Proof.
  intros Hh Hg Ha Hn. destruct Hh as [nsl g a al Ho]. rewrite !oddq_app, (oddq_name g Hg). cbn [oddq xorb].
  assert (oddq match nsl with Some l => " " +:+ spaced (map spec_ns l) | None => "" end = false) as ->.
  { destruct nsl as [l|]; [|done]. rewrite oddq_app. cbn. rewrite oddq_spaced; [done|]. rewrite Forall_map. eapply Forall_impl; [exact Hn|].
    intros [k v] [H1 H2]. cbn [fst snd] in *. unfold spec_ns. cbn [fst snd]. rewrite !oddq_app, oddq_quoted by (by apply oddq_safe).
    destruct (String.eqb k "<Default>") eqn:Ek; [done|]. destruct H2 as [->|H2]; [done|]. by rewrite (oddq_name _ H2). }
  destruct a as [m|]; [|done]. rewrite oddq_app. cbn. rewrite oddq_spaced; [done|]. rewrite Forall_map. apply Forall_forall. intros [k v] Hk.
  destruct Ho as [Ho _]. rewrite Ho in Hk. apply elem_of_map_to_list in Hk. destruct (Ha k v Hk) as [Hk1 _].
  unfold spec_attr. cbn [fst snd]. rewrite !oddq_app, oddq_quoted by apply oddq_safe, spec_escape_safe. by rewrite (oddq_name _ Hk1).
Qed.
Lemma oddq_renders t : names_ok t -> forall nsl s, match nsl with Some l => Forall decl_ok l | None => True end -> Renders nsl t s -> oddq s = false.
Proof.
  induction t as [g a v cs IH] using tree_rect'. intros Hn nsl s Hl Hr. apply names_ok_node in Hn as (Hg & Ha & Hcs).
  inversion Hr as [? ? ? h Hh|? ? ? w ? h Hh|? ? ? c cs' h body Hh Hb]; subst; rewrite !oddq_app, (oddq_head _ _ _ _ Hh Hg Ha Hl); [done| |].
  - rewrite (oddq_safe _ (spec_escape_safe _)), (oddq_name g Hg). done.
  - rewrite (oddq_name g Hg). cbn. rewrite xorb_false_r. clear Hr Hh. revert body Hb. generalize (c :: cs') IH Hcs. clear - E. intros l IH Hcs.
    induction l as [|t l IHl]; intros body Hb; inversion Hb; subst; [done|]. apply Forall_cons in IH as [I1 I2]. apply Forall_cons in Hcs as [C1 C2].
    rewrite oddq_app. match goal with H : Renders None t ?s0 |- _ => rewrite (I1 C1 None s0 I H) end. rewrite xorb_false_l. by apply IHl.
Qed.
Lemma formed_pairs data : WellFormed data -> oddq data = oddq prolog.
Proof. intros (nsl & t & text & -> & Hr & Hn & Hl & _). by rewrite oddq_app, (oddq_renders t Hn (Some nsl) text Hl Hr), xorb_false_r. Qed.
(** Checking that a part is ordinary. *)
Definition ordinaryb (data : string) : bool :=
  match read_doc data with Ok d => match d_elems d !! 0 with Some _ => declsb (d_ns d) | None => false end | _ => true end.
Lemma ordinaryb_ok data : ordinaryb data = true -> Ordinary data.
Proof.
  unfold ordinaryb. intros Hb d Hr. rewrite Hr in Hb. destruct (d_elems d !! 0); [|done]. split; [eauto|]. by apply declsb_decls.
Qed.
End with_env.
