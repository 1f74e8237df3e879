(** Relationships in their part: writing and reading back. *)
From Verif.Model Require Import Relations.
From Verif.Spec Require Import PackageSpec RelSpec XmlSpec XmlRepr.
From Verif.Proofs Require Import BaseFacts XmlWriteFacts XmlReadFacts XmlTreeFacts XmlNsFacts DocBuild PartFacts
  PackageFacts TypesFacts.

Section with_env.
Context `{E : Env}.
Lemma rel_tree_ok x : names_ok (rel_tree x).
Proof. unfold rel_tree. destruct (r_mode x); by apply leaf_ok; vm_compute. Qed.
Lemma rel_reread x : rel_of_attrs (t_attrs (reread (rel_tree x))) = Ok (escaped_rel x).
Proof. unfold rel_tree. destruct x as [i t y [m|]]; done. Qed.
Lemma Doc_load_relations d g a v cs : Doc d (Node g a v cs) ->
  exists d', load_relations d = (d', rmapM rel_of_attrs (map t_attrs (List.filter (fun t => seqb (t_tag t) "Relationship") cs)))
  /\ Doc d' (Node g a v (List.filter (fun t => negb (seqb (t_tag t) "Relationship")) cs)) /\ d_ns d' = d_ns d.
Proof.
  intros Hd. apply Doc_inv in Hd as (its & Hc & Hrep). cbn in Hc, Hrep. subst cs.
  destruct (Repr_pop_root d g a v its "Relationship" Hrep) as (d' & Ep & Hrep' & Hns & _).
  exists d'. split; [|split; [|done]].
  - unfold load_relations, bind. rewrite Ep. rewrite <- (filter_erase (fun t => seqb t "Relationship")).
    destruct (List.filter _ its) as [|c0 cs0]; [done|]. rewrite map_attrs_node. done.
  - apply Doc_intro in Hrep'. by rewrite (filter_erase (fun t => negb (seqb t "Relationship"))) in Hrep'.
Qed.
Lemma Doc_save_relationships d g a v cs l : Doc d (Node g a v cs) ->
  exists d', save_relationships l d = (d', Ok (Nat.ltb 0 (length cs) || Nat.ltb 0 (length l)))
  /\ Doc d' (Node g a v (cs ++ map rel_tree l)) /\ d_ns d' = d_ns d.
Proof.
  intros Hd. unfold save_relationships, bind, get.
  destruct (Doc_root _ _ Hd) as (e & He & _ & _ & _ & Hlen). rewrite He. cbn [t_children] in Hlen. rewrite Hlen.
  destruct (Doc_add_trees d _ _ _ _ (map rel_tree l) Hd) as (d1 & -> & Hd1 & Hns1); [apply Forall_map_all, rel_tree_ok|].
  exists d1. done.
Qed.
Lemma filter_negb_none {A} (f : A -> bool) l : List.filter f (List.filter (fun x => negb (f x)) l) = [].
Proof. induction l as [|x l IH]; [done|]. cbn. destruct (f x) eqn:Ef; cbn; [done|]. by rewrite Ef. Qed.

(** Closing a part and opening it again. *)
Lemma close_doc o path p t : of_open o !! path = Some p -> Doc (op_doc p) t ->
  exists e, close_xml_document path o = (mkOffice (delete path (of_open o)) (<[path := e]> (of_archive o)), Ok tt)
  /\ en_ct e = op_ct p /\ en_ext e = op_ext p /\ en_ext_type e = op_ext_type p
  /\ part_bytes e = Ok (prolog +:+ render_root (d_ns (op_doc p)) t).
Proof.
  intros Hp Hd. pose proof (Doc_write _ _ Hd) as Hw. set (data := prolog +:+ _) in *.
  exists (pack (op_ext p) (op_ext_type p) (op_ct p) data). split.
  { unfold close_xml_document. rewrite Hp, Hw. done. }
  split; [done|]. split; [done|]. split; [done|]. apply part_bytes_pack.
Qed.
Lemma prolog_nonempty s : prolog +:+ s <> "".
Proof. unfold prolog. by destruct env_mode. Qed.
Lemma open_bytes o path e data d init : of_open o !! path = None -> of_archive o !! path = Some e ->
  part_bytes e = Ok data -> data <> "" -> read_doc data = Ok d ->
  get_xml_document init path o = (mkOffice (<[path := mkOpen d (en_ct e) (en_ext e) (en_ext_type e)]> (of_open o))
            (delete path (of_archive o)), Ok tt).
Proof.
  intros Ho Ha Hb Hne Hr. unfold get_xml_document, get_xml_tree, bind, ret, lift, get_xml_document_ref, modify.
  rewrite Ho, Ha. unfold part_bytes in Hb. destruct (en_content e) as [c|]; [|congruence]. cbn [of_option rbind].
  rewrite Hb. cbn [rbind]. rewrite Hr. cbn [rbind set_open set_archive of_open of_archive]. done.
Qed.
Lemma open_doc o path e ns t init : of_open o !! path = None -> of_archive o !! path = Some e ->
  part_bytes e = Ok (prolog +:+ render_root ns t) -> names_ok t -> ns_ok ns -> t_value t <> None \/ t_children t <> [] ->
  exists d, get_xml_document init path o = (mkOffice (<[path := mkOpen d (en_ct e) (en_ext e) (en_ext_type e)]> (of_open o))
            (delete path (of_archive o)), Ok tt) /\ Doc d (reread t) /\ d_ns d = written_ns ns.
Proof.
  intros Ho Ha Hb Hn Hns Hc. destruct (Doc_read ns t Hn Hns Hc) as (d & Hr & Hd & Hns').
  exists d. split; [|done]. eapply open_bytes; [done|done|exact Hb|apply prolog_nonempty|done].
Qed.
Lemma with_doc_spec {A} path (m : M doc A) o p d' r : of_open o !! path = Some p -> m (op_doc p) = (d', r) ->
  with_doc path m o = (mkOffice (<[path := mkOpen d' (op_ct p) (op_ext p) (op_ext_type p)]> (of_open o)) (of_archive o), rmap Some r).
Proof. intros Hp Hm. unfold with_doc. rewrite Hp, Hm. done. Qed.

Lemma PartOpen_Doc tag o path : PartOpen tag o path <-> exists p t, of_open o !! path = Some p /\ Doc (op_doc p) t
  /\ names_ok t /\ ns_ok (d_ns (op_doc p)) /\ t_value t = None /\ t_attrs t <> None
  /\ Forall (fun t => t_tag t <> tag) (t_children t).
Proof.
  split.
  - intros (p & it & Hp & Hr & Hb & H1 & H2 & H3 & H4 & H5). exists p, (erase it). split; [done|]. split; [by exists it|]. done.
  - intros (p & t & Hp & (it & [Hr Hb] & <-) & H1 & H2 & H3 & H4). exists p, it. done.
Qed.
Lemma ns_ok_single uri : has_no_dquote uri = true -> ns_ok {["<Default>" := uri]}.
Proof. intros Hu k v Hk. apply lookup_singleton_Some in Hk as [<- <-]. split; [done|]. by left. Qed.
Lemma root_ok g a : is_valid_xml_name g = true -> attrs_ok a -> names_ok (Node g a None []).
Proof. intros Hg Ha. apply names_ok_node. split; [done|]. split; [done|constructor]. Qed.
Lemma attrs_ok_empty : attrs_ok (Some ∅).
Proof. cbn. apply map_Forall_empty. Qed.

(** A part created from a template that is only a root, then loaded by [load]. *)
Lemma part_fresh {A} tag o path (load : M doc A) d x root uri init p0 :
  of_open o !! path = None -> of_archive o !! path = None -> init = Ok p0 -> op_doc p0 = d ->
  Doc d (Node root (Some ∅) None []) -> d_ns d = {["<Default>" := uri]} -> is_valid_xml_name root = true ->
  has_no_dquote uri = true ->
  (exists d', load d = (d', Ok x) /\ Doc d' (Node root (Some ∅) None []) /\ d_ns d' = d_ns d) ->
  exists o1, bind (get_xml_document init path) (fun _ => with_doc path load) o = (o1, Ok (Some x)) /\ PartOpen tag o1 path
    /\ of_archive o1 = of_archive o /\ (forall q, q <> path -> of_open o1 !! q = of_open o !! q).
Proof.
  intros Ho Ha -> Hd0 Hd Hns Hroot Huri (d' & Hl & Hd' & Hns').
  unfold bind at 1. unfold get_xml_document, get_xml_tree, bind at 1. rewrite Ho, Ha.
  unfold bind at 1, lift. unfold get_xml_document_ref, modify. subst d.
  set (o1 := set_open _ _). rewrite (with_doc_spec path load o1 p0 d' (Ok x) (lookup_insert _ _ _) Hl). cbn [rmap rbind].
  eexists. split; [done|]. split; [|split; [done|]].
  - apply PartOpen_Doc. eexists _, _. split; [cbn; apply lookup_insert|]. cbn [op_doc]. split; [exact Hd'|].
    split; [apply root_ok; [done|apply attrs_ok_empty]|]. split; [rewrite Hns', Hns; by apply ns_ok_single|]. split; [done|]. split; [done|constructor].
  - intros q Hq. cbn. by rewrite !lookup_insert_ne.
Qed.
Lemma rels_init_spec : exists d, rels_init = Ok (mkOpen d None (c_ext c_rels) (c_ext_type c_rels))
  /\ Doc d (Node "Relationships" (Some ∅) None []) /\ d_ns d = {["<Default>" := c_namespace c_rels]}.
Proof.
  unfold rels_init, doc_of_m. destruct (Doc_create "Relationships" (c_namespace c_rels)) as (d & -> & Hd & Hns); [by vm_compute|].
  by exists d.
Qed.
Lemma rels_new_fresh o path : of_open o !! path = None -> of_archive o !! path = None ->
  exists o1, rels_new path o = (o1, Ok (mkRelations [] path)) /\ RelsOpen o1 path
    /\ of_archive o1 = of_archive o /\ (forall q, q <> path -> of_open o1 !! q = of_open o !! q).
Proof.
  intros Ho Ha. destruct rels_init_spec as (d & Hi & Hd & Hns).
  destruct (Doc_load_relations d _ _ _ _ Hd) as (d' & Hl & Hd' & Hns'). cbn [List.filter] in Hl, Hd'.
  destruct (part_fresh "Relationship" o path load_relations d [] "Relationships" (c_namespace c_rels) rels_init _ Ho Ha Hi eq_refl Hd Hns)
    as (o1 & E1 & H1 & H2 & H3); [by vm_compute|by vm_compute|by exists d'|].
  exists o1. split; [|done]. unfold rels_new. unfold bind in E1 |- *.
  destruct (get_xml_document rels_init path o) as [o' [[]| |]]; [|done|done]. rewrite E1. done.
Qed.
Lemma ns_ok_written ns : ns_ok ns -> ns_ok (written_ns ns).
Proof.
  intros Hns. unfold written_ns. destruct env_mode; [done|]. apply map_Forall_insert_2; [|done]. split; [by vm_compute|]. right. by vm_compute.
Qed.
Lemma names_ok_reread t : names_ok t -> names_ok (reread t).
Proof.
  induction t as [g a v cs IH] using tree_rect'. rewrite names_ok_node. intros (Hg & Ha & Hcs). cbn [reread].
  assert (attrs_ok (Some (spec_escape <$> default ∅ a))) as Ha' by (by apply plain_escape).
  destruct v; apply names_ok_node; (split; [done|]); (split; [done|]); [constructor|].
  apply Forall_forall. intros c Hc. apply elem_of_list_fmap in Hc as (c' & -> & Hc).
  rewrite Forall_forall in IH, Hcs. by apply IH, Hcs.
Qed.
(** Open a part whose stored form has the elements [new] under [tag] besides others, and take
    them out. *)
Lemma part_load {A} tag o path e ns g a cs new (load : M doc A) (y : A) init :
  of_open o !! path = None -> of_archive o !! path = Some e ->
  part_bytes e = Ok (prolog +:+ render_root ns (Node g a None (cs ++ new))) ->
  names_ok (Node g a None (cs ++ new)) -> ns_ok ns -> cs ++ new <> [] ->
  Forall (fun t => t_tag t <> tag) cs -> Forall (fun t => t_tag t = tag) new ->
  (forall d g a v cs, Doc d (Node g a v cs) -> List.filter (fun t => seqb (t_tag t) tag) cs = map reread new ->
     exists d', load d = (d', Ok y) /\ Doc d' (Node g a v (List.filter (fun t => negb (seqb (t_tag t) tag)) cs)) /\ d_ns d' = d_ns d) ->
  exists o', bind (get_xml_document init path) (fun _ => with_doc path load) o = (o', Ok (Some y)) /\ PartOpen tag o' path
       /\ of_archive o' = delete path (of_archive o) /\ (forall q, q <> path -> of_open o' !! q = of_open o !! q).
Proof.
  intros Ho Ha Hb Hn Hns Hne Hf Htag Hload.
  destruct (open_doc o path e ns (Node g a None (cs ++ new)) init Ho Ha Hb Hn Hns) as (d & Hg & Hd & Hns'); [by right|].
  unfold bind. rewrite Hg. cbn [reread] in Hd.
  set (o3 := mkOffice (<[path := _]> _) _) at 1.
  destruct (Hload d _ _ _ _ Hd) as (d3 & Hl & Hd3 & Hns3).
  { rewrite map_app, List.filter_app, filter_none, filter_all; [done| |].
    - intros z Hin. apply elem_of_list_fmap in Hin as (w & -> & Hw). rewrite tag_reread. rewrite Forall_forall in Htag. rewrite (Htag _ Hw).
      apply String.eqb_refl.
    - intros z Hin. apply elem_of_list_fmap in Hin as (w & -> & Hw). rewrite tag_reread. apply String.eqb_neq.
      rewrite Forall_forall in Hf. by apply Hf. }
  rewrite (with_doc_spec path load o3 _ d3 _ (lookup_insert _ _ _) Hl). cbn [rmap rbind].
  eexists. split; [done|]. split; [|split; [done|intros q Hq; cbn; by rewrite !lookup_insert_ne]].
  apply PartOpen_Doc. eexists _, _. split; [cbn; apply lookup_insert|]. cbn [op_doc].
  split; [exact Hd3|]. split; [|split; [|split; [done|split; [done|]]]].
  - pose proof (names_ok_reread _ Hn) as Hn'. apply names_ok_node in Hn as (Hg' & Ha' & _). apply names_ok_node. split; [done|].
    split; [by apply plain_escape|]. apply Forall_forall. intros z Hin. apply elem_of_list_In, filter_In in Hin as [Hin _]. apply elem_of_list_In in Hin.
    cbn [reread] in Hn'. apply names_ok_node in Hn' as (_ & _ & Hall). rewrite Forall_forall in Hall. by apply Hall.
  - rewrite Hns3, Hns'. by apply ns_ok_written.
  - cbn. apply Forall_forall. intros z Hin. apply elem_of_list_In, filter_In in Hin as [_ Hin].
    by apply Bool.negb_true_iff, String.eqb_neq in Hin.
Qed.
(** Write new [tag] elements into the part and close it. *)
Lemma part_save {X} tag o path p g a cs a' new d1 x (save : M doc X) :
  of_open o !! path = Some p -> names_ok (Node g a None cs) -> ns_ok (d_ns (op_doc p)) -> Forall (fun t => t_tag t <> tag) cs ->
  save (op_doc p) = (d1, Ok x) -> Doc d1 (Node g a' None (cs ++ new)) -> d_ns d1 = d_ns (op_doc p) ->
  attrs_ok a' -> Forall names_ok new -> Forall (fun t => t_tag t = tag) new ->
  exists o1 e, with_doc path save o = (o1, Ok (Some x))
  /\ close_xml_document path o1 = (mkOffice (delete path (of_open o)) (<[path := e]> (of_archive o)), Ok tt)
  /\ en_ct e = op_ct p /\ en_ext e = op_ext p /\ en_ext_type e = op_ext_type p
  /\ part_bytes e = Ok (prolog +:+ render_root (d_ns (op_doc p)) (Node g a' None (cs ++ new)))
  /\ names_ok (Node g a' None (cs ++ new)).
Proof.
  intros Hp Hn Hns Hf Hs Hd1 Hns1 Ha' Hnew Htag. apply names_ok_node in Hn as (Hg & Ha & Hcs).
  set (p1 := mkOpen d1 (op_ct p) (op_ext p) (op_ext_type p)). set (o1 := mkOffice (<[path := p1]> (of_open o)) (of_archive o)).
  destruct (close_doc o1 path p1 (Node g a' None (cs ++ new))) as (e & Hcl & Hct & Hx & Ht & Hb).
  { unfold o1. cbn. apply lookup_insert. } { exact Hd1. }
  exists o1, e. split; [by rewrite (with_doc_spec path save o p d1 (Ok x) Hp Hs)|]. split.
  { rewrite Hcl. unfold o1. cbn [of_open of_archive]. by rewrite delete_insert_delete. }
  split; [done|]. split; [done|]. split; [done|]. split.
  - rewrite Hb. unfold p1. cbn [op_doc]. by rewrite Hns1.
  - apply names_ok_node. split; [done|]. split; [done|]. by apply Forall_app.
Qed.
Lemma rels_roundtrip o r : RelsOpen o (rl_path r) -> rl_rels r <> [] ->
  exists e, rels_close r o = (mkOffice (delete (rl_path r) (of_open o)) (<[rl_path r := e]> (of_archive o)), Ok tt)
  /\ (forall o2 e2, of_open o2 !! rl_path r = None -> of_archive o2 !! rl_path r = Some e2 -> part_bytes e2 = part_bytes e ->
     exists o3, rels_new (rl_path r) o2 = (o3, Ok (mkRelations (map escaped_rel (rl_rels r)) (rl_path r)))
     /\ RelsOpen o3 (rl_path r) /\ of_archive o3 = delete (rl_path r) (of_archive o2)
     /\ (forall q, q <> rl_path r -> of_open o3 !! q = of_open o2 !! q)).
Proof.
  intros Hro Hne. apply PartOpen_Doc in Hro as (p & [g a v cs] & Hp & Hd & Hn & Hns & Hv & Hva & Hf). cbn in Hv, Hf, Hva. subst v.
  set (path := rl_path r) in *. set (l := rl_rels r) in *.
  destruct (Doc_save_relationships (op_doc p) _ _ _ _ l Hd) as (d1 & Hs & Hd1 & Hns1).
  assert (Nat.ltb 0 (length cs) || Nat.ltb 0 (length l) = true) as Htrue. { destruct l; [done|]. apply Bool.orb_true_r. }
  rewrite Htrue in Hs. pose proof Hn as (_ & Ha & _)%names_ok_node.
  destruct (part_save "Relationship" o path p g a cs a (map rel_tree l) d1 true _ Hp Hn Hns Hf Hs Hd1 Hns1 Ha) as (o1 & e & Hw & Hcl & _ & _ & _ & Hb & Hn1).
  { apply Forall_map_all, rel_tree_ok. } { by apply Forall_map_all. }
  exists e. unfold rels_close, bind. fold path l. rewrite Hw, Hcl. split; [done|].
  intros o2 e2 Ho2 Ha2 Hb2. rewrite Hb in Hb2.
  destruct (part_load "Relationship" o2 path e2 (d_ns (op_doc p)) g a cs (map rel_tree l) load_relations (map escaped_rel l) rels_init Ho2 Ha2 Hb2 Hn1 Hns)
    as (o3 & E3 & H3); [|done|by apply Forall_map_all| |].
  { destruct cs; [by destruct l|done]. }
  { intros d g' a' v' cs' Hdd Hfil. destruct (Doc_load_relations d _ _ _ _ Hdd) as (d3 & Hl & Hd3 & Hns3).
    rewrite Hfil, !map_map in Hl. rewrite (rmapM_map_ok _ _ escaped_rel) in Hl by (intros; apply rel_reread). by exists d3. }
  exists o3. split; [|done]. unfold rels_new. unfold bind in E3 |- *.
  destruct (get_xml_document rels_init path o2) as [o' [[]| |]]; [|done|done]. by rewrite E3.
Qed.
End with_env.
