(** Documents and presentations: a new one, saved and opened any number of times. *)
From Verif.Model Require Import Excel.
From Verif.Spec Require Import XmlSpec XmlRepr RelSpec PackageSpec PartSpec DocSpec.
From Verif.Proofs Require Import BaseFacts XmlReadFacts DocBuild PartFacts PackageFacts TypesFacts RelDocFacts SmallPartFacts SaveFacts.
Open Scope N_scope.

Section with_env.
Context `{E : Env}.
(** As [core_cycle], with anything between closing and opening that keeps the bytes. *)
Lemma core_roundtrip o path t n1 n2 : CoreOpen o path t -> t_children t <> [] ->
  exists e, core_close n1 n2 path o = (mkOffice (delete path (of_open o)) (<[path := e]> (of_archive o)), Ok tt)
  /\ (exists data, part_bytes e = Ok data)
  /\ (forall o2 e2, of_open o2 !! path = None -> of_archive o2 !! path = Some e2 -> part_bytes e2 = part_bytes e ->
     exists o3 t1, get_xml_document core_init path o2 = (o3, Ok tt)
     /\ CoreOpen o3 path t1 /\ of_archive o3 = delete path (of_archive o2) /\ (forall q, q <> path -> of_open o3 !! q = of_open o2 !! q)
     /\ t_children t1 <> [] /\ map t_tag (t_children t1) = map t_tag (t_children t)
     /\ (has_property "dcterms:modified" t -> property "dcterms:modified" t1 = visible (Some n1))
     /\ (has_property "dcterms:created" t -> property "dcterms:created" t1 = visible (Some (default n2 (property "dcterms:created" t))))
     /\ (forall k, k <> "dcterms:modified" -> k <> "dcterms:created" -> property k t1 = visible (property k t))).
Proof.
  intros (p & it & Hp & Hr & Ht & Hb & Hn & Hns & Htag & Hv) Hne.
  destruct t as [g a v cs]. cbn in Htag, Hv, Hne. subst g v.
  destruct (core_close_spec o path p a None cs n1 n2 Hp) as (e & Hc & _ & _ & _ & Hby); [by exists it|].
  exists e. split; [done|]. split; [eauto|]. apply names_ok_node in Hn as (Hg & Ha & Hcs).
  assert (names_ok (Node "cp:coreProperties" a None (stamped n1 n2 cs))) as Hn1.
  { apply names_ok_node. split; [done|]. split; [done|]. by apply stamped_ok. }
  assert (stamped n1 n2 cs <> []) as Hne1.
  { intros Hx. pose proof (stamped_tags n1 n2 cs) as Hy. rewrite Hx in Hy. by destruct cs. }
  intros o2 e2 Ho2 Ha2 Hb2. rewrite Hby in Hb2.
  destruct (open_doc o2 path e2 (d_ns (op_doc p)) (Node "cp:coreProperties" a None (stamped n1 n2 cs)) core_init Ho2 Ha2 Hb2 Hn1 Hns) as (d & Hg1 & Hd & Hnsd); [by right|].
  eexists _, _. split; [exact Hg1|]. split.
  { destruct Hd as (it' & [Hr' Hb'] & He'). eexists _, it'. split; [apply lookup_insert|]. split; [exact Hr'|]. split; [exact He'|]. split; [exact Hb'|].
    split; [by apply names_ok_reread|]. split; [cbn [op_doc]; rewrite Hnsd; by apply ns_ok_written|]. done. }
  split; [done|]. split; [intros q Hq; by apply lookup_insert_ne|].
  cbn [reread t_children]. split; [by destruct (stamped n1 n2 cs)|]. split.
  { rewrite map_map. rewrite <- (stamped_tags n1 n2 cs). apply map_ext. apply tag_reread. }
  assert (forall k, property k (Node "cp:coreProperties" (Some (spec_escape <$> default ∅ a)) None (map reread (stamped n1 n2 cs)))
    = visible (child_value k (stamped n1 n2 cs))) as Hpr by (intros; apply child_value_reread).
  split; [|split].
  - intros Hm. rewrite Hpr, stamped_modified. apply has_property_child in Hm. cbn [t_children] in Hm. by rewrite Hm.
  - intros Hm. rewrite Hpr, stamped_created. apply has_property_child in Hm. cbn [t_children] in Hm. by rewrite Hm.
  - intros k H1 H2. rewrite Hpr. by rewrite stamped_other.
Qed.

(** ** Saving without faults *)
Lemma rmapM_total {A B} (f : A -> res B) l : (forall x, x ∈ l -> exists y, f x = Ok y) -> exists l', rmapM f l = Ok l'.
Proof.
  induction l as [|x l IH]; intros Hf; [by eexists|]. cbn. destruct (Hf x) as [y ->]; [by left|].
  destruct IH as [l' ->]; [intros z Hz; apply Hf; by right|]. by eexists.
Qed.
Lemma save_archive_ok a : (forall q e, a !! q = Some e -> exists data, part_bytes e = Ok data) -> a !! content_types_name = None ->
  exists b, save_archive a = Ok b.
Proof.
  intros Hb Hc. unfold save_archive.
  destruct (rmapM_total (fun ne : string * entry => rmap (fun b => (ne.1, b)) (part_bytes ne.2)) (hash_entries a)) as [l ->].
  { intros [q e] Hin. apply hash_entries_lookup in Hin. destruct (Hb q e Hin) as [d Hd]. cbn. rewrite Hd. by eexists. }
  cbn [rbind]. rewrite Hc, create_content_types_spec. by eexists.
Qed.
Lemma write_pieces_ok sizes : forall d todo, (write_pieces sizes None d todo).2 = true.
Proof. induction sizes as [|n l IH]; intros d todo; [done|]. cbn. specialize (IH (d +:+ stake n todo) (sdrop n todo)). by destruct (write_pieces l None _ _). Qed.
Lemma write_file_ok pieces path b fs : exists tr fs', write_file (mkFaults false false None pieces) path b fs = (tr, Ok tt)
  /\ last tr = Some fs' /\ fs' !! path = Some b /\ forall q, q <> path -> fs' !! q = fs !! q.
Proof.
  destruct (write_file (mkFaults false false None pieces) path b fs) as [tr r] eqn:Ew. assert (r = Ok tt) as ->.
  { unfold write_file in Ew. rewrite Bool.andb_false_r in Ew. cbn [f_create f_write f_pieces] in Ew. pose proof (write_pieces_ok pieces "" b) as Hk.
    destruct (write_pieces pieces None "" b) as [l ok]. cbn in Hk. subst ok. by injection Ew as _ <-. }
  destruct (write_file_last _ _ _ _ _ Ew) as (fs' & Hl & Hp). exists tr, fs'. split; [done|]. split; [done|]. split; [done|].
  intros q Hq. unfold write_file in Ew. destruct (_ && _); [done|]. destruct (f_create _); [done|].
  destruct (write_pieces _ _ _ _) as [ps ok]. injection Ew as <- _.
  apply last_Some_elem_of in Hl. apply elem_of_app in Hl as [Hl|Hl].
  - destruct (fs !! path); [|by apply elem_of_nil in Hl]. apply elem_of_list_singleton in Hl as ->. by apply lookup_delete_ne.
  - apply elem_of_cons in Hl as [->|Hl]; [|apply elem_of_list_fmap in Hl as (y & -> & _)]; by rewrite lookup_insert_ne, lookup_delete_ne.
Qed.

(** ** The life of a document *)
Definition root_path : string := "_rels/.rels".
Definition core_path : string := "docProps/core.xml".
Definition core_rel : rel :=
  mkRel "rId1" "/docProps/core.xml" "http://schemas.openxmlformats.org/package/2006/relationships/metadata/core-properties" None.
Definition root_rels : relations := mkRelations [core_rel] root_path.
Definition DocState (s : suite) (t : tree) : Prop :=
  su_root s = root_rels /\ su_core s = core_path /\ of_archive (su_office s) = ∅
  /\ RelsOpen (su_office s) root_path /\ CoreOpen (su_office s) core_path t
  /\ (forall q, q <> root_path -> q <> core_path -> of_open (su_office s) !! q = None)
  /\ t_children t <> [].
Lemma PartOpen_at tag o o' path : of_open o' !! path = of_open o !! path -> PartOpen tag o path -> PartOpen tag o' path.
Proof. intros Ho (p & it & Hp & H). exists p, it. by rewrite Ho. Qed.
Lemma CoreOpen_at o o' path t : of_open o' !! path = of_open o !! path -> CoreOpen o path t -> CoreOpen o' path t.
Proof. intros Ho (p & it & Hp & H). exists p, it. by rewrite Ho. Qed.
Lemma opened_bytes init path o o' e : of_open o !! path = None -> of_archive o !! path = Some e -> get_xml_document init path o = (o', Ok tt) ->
  exists data, part_bytes e = Ok data.
Proof.
  intros Ho Ha. unfold get_xml_document, get_xml_tree, bind, part_bytes. rewrite Ho, Ha.
  destruct (en_content e) as [c|]; [|done]. cbn [of_option rbind]. destruct (decompress_content c) as [data|m|m]; [eauto|done..].
Qed.
Lemma core_flush_spec o path t n : CoreOpen o path t -> t_children t <> [] ->
  exists e, core_flush n path o = (mkOffice (delete path (of_open o)) (<[path := e]> (of_archive o)), Ok tt)
  /\ core_close (ck_1 n) (ck_2 n) path o = (mkOffice (delete path (of_open o)) (<[path := e]> (of_archive o)), Ok tt).
Proof.
  intros Ho Hne. destruct (core_roundtrip o path t (ck_1 n) (ck_2 n) Ho Hne) as (e & Hc & _). exists e. split; [|done].
  unfold core_flush. rewrite Hc. f_equal. unfold core_close, bind, with_doc. cbn [of_open]. rewrite lookup_delete.
  unfold close_xml_document. cbn [of_open]. by rewrite lookup_delete.
Qed.
Lemma doc_cycle s t n path pieces fs : DocState s t ->
  exists tr fs' s' t', suite_save n (mkFaults false false None pieces) path s fs = (tr, Ok tt) /\ last tr = Some fs'
  /\ (forall q, q <> path -> fs' !! q = fs !! q) /\ suite_new (Some path) fs' = Ok s' /\ DocState s' t'
  /\ map t_tag (t_children t') = map t_tag (t_children t)
  /\ (has_property "dcterms:modified" t -> property "dcterms:modified" t' = visible (Some (ck_1 n)))
  /\ (has_property "dcterms:created" t -> property "dcterms:created" t' = visible (Some (default (ck_2 n) (property "dcterms:created" t))))
  /\ (forall k, k <> "dcterms:modified" -> k <> "dcterms:created" -> property k t' = visible (property k t)).
Proof.
  intros (D1 & D2 & D3 & D4 & D5 & D6 & D7). set (o := su_office s) in *.
  assert (core_path <> root_path) as Hpp by done.
  destruct (core_roundtrip o core_path t (ck_1 n) (ck_2 n) D5 D7) as (ec & Hc & [cdata Hcb] & Hcr).
  destruct (core_flush_spec o core_path t n D5 D7) as (ec' & Hf & Hc'). rewrite Hc in Hc'. injection Hc' as Hc'.
  assert (ec' = ec) as ->. { pose proof (f_equal (fun m : gmap string entry => m !! core_path) Hc') as He. rewrite !lookup_insert in He. by injection He. }
  clear Hc'. set (o1 := mkOffice (delete core_path (of_open o)) (<[core_path := ec]> (of_archive o))) in *.
  assert (RelsOpen o1 root_path) as Hro. { eapply PartOpen_at; [|exact D4]. by apply lookup_delete_ne. }
  destruct (rels_roundtrip o1 root_rels Hro) as (er & Hr & Hrr); [done|]. cbn [rl_path root_rels] in Hr, Hrr. fold root_rels in Hr.
  set (o2 := mkOffice (delete root_path (of_open o1)) (<[root_path := er]> (of_archive o1))) in *.
  assert (of_open o2 = ∅) as Hemp.
  { apply map_empty. intros q. unfold o2, o1. cbn [of_open]. destruct (decide (q = root_path)) as [->|Hq]; [apply lookup_delete|]. rewrite lookup_delete_ne by done.
    destruct (decide (q = core_path)) as [->|Hq2]; [apply lookup_delete|]. rewrite lookup_delete_ne by done. by apply D6. }
  assert (of_archive o2 = <[root_path := er]> {[core_path := ec]}) as Harch. { unfold o2, o1. cbn [of_archive]. rewrite D3. done. }
  assert (exists rdata, part_bytes er = Ok rdata) as [rdata Hrb].
  { destruct (Hrr (mkOffice ∅ {[root_path := er]}) er) as (o3 & Hn & _); [done|apply lookup_singleton|done|].
    unfold rels_new, bind in Hn. destruct (get_xml_document rels_init root_path (mkOffice ∅ {[root_path := er]})) as [o4 [[]|m|m]] eqn:Eg; [|done..].
    eapply opened_bytes; [| |exact Eg]; [done|apply lookup_singleton]. }
  assert (forall q e, of_archive o2 !! q = Some e -> q = root_path /\ e = er \/ q = core_path /\ e = ec) as Hparts.
  { intros q e. rewrite Harch. intros [[<- <-]|[_ [<- <-]%lookup_singleton_Some]]%lookup_insert_Some; auto. }
  destruct (save_archive_ok (of_archive o2)) as [b Hb].
  { intros q e [[-> ->]|[-> ->]]%Hparts; eauto. }
  { destruct (of_archive o2 !! content_types_name) as [e|] eqn:Ee; [|done]. apply Hparts in Ee as [[? _]|[? _]]; done. }
  destruct (save_load (of_archive o2) b) as (a2 & Hl2 & Ha2); [| |done|].
  { rewrite Harch. apply insert_non_empty. }
  { intros q e [[-> _]|[-> _]]%Hparts; by vm_compute. }
  destruct (write_file_ok pieces path b fs) as (tr & fs' & Hw & Hlast & Hfs & Hframe).
  exists tr, fs'.
  assert (suite_save n (mkFaults false false None pieces) path s fs = (tr, Ok tt)) as Hsave.
  { unfold suite_save, bind. rewrite D1, D2. fold o. rewrite Hf. cbn [fst snd]. rewrite Hr.
    unfold office_save, close_all. rewrite Hemp. assert (env_order (map_keys (∅ : gmap string open_part)) = []) as ->.
    { apply Permutation_nil. symmetry. rewrite env_order_perm. unfold map_keys. by rewrite map_to_list_empty. }
    cbn [iterM]. unfold ret. cbn [fst snd]. by rewrite Hb. }
  assert (forall q e, of_archive o2 !! q = Some e -> exists e2, a2 !! q = Some e2 /\ part_bytes e2 = part_bytes e) as Hback.
  { intros q e He. specialize (Ha2 q). rewrite He in Ha2. destruct Ha2 as (data & Hd & Hp). cbv zeta in Hp. eexists. split; [exact Hp|]. by rewrite part_bytes_pack, Hd. }
  assert (forall q, of_archive o2 !! q = None -> a2 !! q = None) as Hnone. { intros q Hq. specialize (Ha2 q). by rewrite Hq in Ha2. }
  destruct (Hback root_path er) as (er2 & Her & Herb). { rewrite Harch. apply lookup_insert. }
  destruct (Hback core_path ec) as (ec2 & Hec & Hecb). { rewrite Harch, lookup_insert_ne by done. apply lookup_singleton. }
  destruct (Hrr (mkOffice ∅ a2) er2) as (o3 & Hn3 & Ho3 & Har3 & Hop3); [done|done|done|].
  cbn [map root_rels rl_rels] in Hn3. change (escaped_rel core_rel) with core_rel in Hn3. fold root_rels in Hn3. cbn [of_archive of_open] in Har3, Hop3.
  destruct (Hcr o3 ec2) as (o4 & t' & Hg4 & Hco & Har4 & Hop4 & Hne' & Htags & Hm & Hcre & Hk).
  { rewrite Hop3 by done. done. } { rewrite Har3. by rewrite lookup_delete_ne. } { done. }
  exists (mkSuite o4 root_rels core_path), t'. split; [done|]. split; [done|]. split; [done|]. split.
  { unfold suite_new, office_new. rewrite Hfs. cbn [of_option rbind]. rewrite Hl2. cbn [rmap rbind]. fold root_path. rewrite Hn3.
    unfold core_new, bind, on_rels. cbn [fst snd]. assert (part_path c_core None root_rels = (root_rels, Ok core_path)) as -> by (by vm_compute).
    unfold on_office. cbn [fst snd]. rewrite Hg4. done. }
  split; [|done]. split; [done|]. split; [done|]. cbn [su_office]. split.
  { rewrite Har4, Har3. apply map_empty. intros q. destruct (decide (q = core_path)) as [->|Hq]; [apply lookup_delete|]. rewrite lookup_delete_ne by done.
    destruct (decide (q = root_path)) as [->|Hq2]; [apply lookup_delete|]. rewrite lookup_delete_ne by done. apply Hnone.
    rewrite Harch. rewrite lookup_insert_ne by done. by apply lookup_singleton_ne. }
  split. { eapply PartOpen_at; [|exact Ho3]. by apply Hop4. }
  split; [done|]. split; [|done]. intros q H1 H2. rewrite Hop4, Hop3 by done. done.
Qed.
Lemma core_fresh o r r' path : part_path c_core None r = (r', Ok path) -> of_open o !! path = None -> of_archive o !! path = None ->
  exists o1 t, core_new (r, o) = ((r', o1), Ok path) /\ CoreOpen o1 path t /\ t_children t <> []
  /\ of_archive o1 = of_archive o /\ (forall q, q <> path -> of_open o1 !! q = of_open o !! q)
  /\ has_property "dcterms:modified" t /\ has_property "dcterms:created" t
  /\ property "dcterms:modified" t = None /\ property "dcterms:created" t = None
  /\ property "dc:creator" t = Some "OpenXML-Office" /\ property "cp:lastModifiedBy" t = Some "OpenXML-Office".
Proof.
  intros Hp Ho Ha. destruct core_template_doc as (d & t & Hr & Hd & Hn & Hns & Ht & Hv & Hcs).
  assert (core_init = Ok (mkOpen d (Some (c_content_type c_core)) (c_ext c_core) (c_ext_type c_core))) as Hi.
  { unfold core_init. by rewrite Hr. }
  exists (mkOffice (<[path := mkOpen d (Some (c_content_type c_core)) (c_ext c_core) (c_ext_type c_core)]> (of_open o)) (of_archive o)), t.
  split; [|split].
  - unfold core_new, bind, on_rels, on_office. cbn [fst snd]. rewrite Hp. cbn [fst snd]. unfold get_xml_document, get_xml_tree, bind, lift.
    rewrite Ho, Ha, Hi. done.
  - destruct Hd as (it & [Hrp Hb] & He). eexists _, it. split; [apply lookup_insert|]. subst t. split; [exact Hrp|]. split; [done|]. split; [exact Hb|].
    split; [done|]. split; [exact Hns|]. done.
  - assert (forall k, property k t = match List.find (fun x : string * option string => String.eqb x.1 k) (map (fun c => (t_tag c, t_value c)) (t_children t)) with
        | Some x => x.2 | None => None end) as Hpr.
    { intros k. unfold property. clear. induction (t_children t) as [|c l IH]; [done|]. cbn [map List.find fst]. by destruct (String.eqb (t_tag c) k). }
    split; [intros Hx; by rewrite Hx in Hcs|]. split; [done|]. split; [intros q Hq; by apply lookup_insert_ne|].
    assert (forall k v, (k, v) ∈ map (fun c => (t_tag c, t_value c)) (t_children t) -> has_property k t) as Hh.
    { intros k v Hin. apply elem_of_list_fmap in Hin as (c & Hc & Hin). injection Hc as -> _. by exists c. }
    rewrite Hcs in Hpr, Hh. split; [eapply Hh; do 3 apply elem_of_list_further; left|]. split; [eapply Hh; do 2 apply elem_of_list_further; left|].
    by rewrite !Hpr.
Qed.
Lemma doc_new fs : exists s t, suite_new None fs = Ok s /\ DocState s t
  /\ has_property "dcterms:modified" t /\ has_property "dcterms:created" t
  /\ property "dcterms:modified" t = None /\ property "dcterms:created" t = None
  /\ property "dc:creator" t = Some "OpenXML-Office" /\ property "cp:lastModifiedBy" t = Some "OpenXML-Office".
Proof.
  destruct (rels_new_fresh (mkOffice ∅ ∅) root_path) as (o1 & H1 & H2 & H3 & H4); [done|done|].
  destruct (core_fresh o1 (mkRelations [] root_path) root_rels core_path) as (o2 & t & C1 & C2 & C3 & C4 & C5 & C6); [by vm_compute|by rewrite H4|by rewrite H3|].
  exists (mkSuite o2 root_rels core_path), t. split.
  { unfold suite_new, office_new. cbn [rbind]. fold root_path. rewrite H1, C1. done. }
  split; [|done]. split; [done|]. split; [done|]. cbn [su_office]. split; [by rewrite C4, H3|].
  split. { eapply PartOpen_at; [|exact H2]. by apply C5. }
  split; [done|]. split; [|done]. intros q Q1 Q2. by rewrite C5, H4.
Qed.

(** The state after any number of saves. *)
Lemma doc_history l : forall s fs t, DocState s t -> Forall (fun x : saving => time_text (ck_1 x.1) /\ time_text (ck_2 x.1)) l ->
  visible (property "dcterms:created" t) = property "dcterms:created" t ->
  has_property "dcterms:modified" t -> has_property "dcterms:created" t ->
  exists s' fs' t', suite_cycles l s fs = Some (s', fs') /\ DocState s' t'
  /\ (forall q, q ∉ map (fun x : saving => x.2.1) l -> fs' !! q = fs !! q)
  /\ map t_tag (t_children t') = map t_tag (t_children t)
  /\ (l = [] -> t' = t)
  /\ (l <> [] -> property "dcterms:modified" t' = ck_1 <$> last l.*1)
  /\ property "dcterms:created" t' = match property "dcterms:created" t with Some c => Some c | None => ck_2 <$> head l.*1 end
  /\ (forall k, k <> "dcterms:modified" -> k <> "dcterms:created" -> visible (property k t) = property k t -> property k t' = property k t).
Proof.
  induction l as [|[n [path pieces]] l IH]; intros s fs t Hs Hl Hvis Hm Hc.
  - exists s, fs, t. split_and!; try done. by destruct (property "dcterms:created" t).
  - apply Forall_cons in Hl as [[T1 T2] Hl]. cbn [fst] in T1, T2.
    destruct (doc_cycle s t n path pieces fs Hs) as (tr & fs1 & s1 & t1 & S1 & S2 & S3 & S4 & S5 & S6 & S7 & S8 & S9).
    specialize (S7 Hm). specialize (S8 Hc). rewrite visible_time in S7 by done.
    assert (property "dcterms:created" t1 = Some (default (ck_2 n) (property "dcterms:created" t))) as Hcr.
    { rewrite S8. destruct (property "dcterms:created" t) as [c|]; [exact Hvis|by apply visible_time]. }
    assert (forall k, has_property k t -> has_property k t1) as Hhas.
    { intros k Hk. apply has_property_child in Hk. apply has_property_child. by rewrite (has_child_tags _ _ _ S6). }
    destruct (IH s1 fs1 t1) as (s' & fs' & t' & I1 & I2 & I3 & I4 & I0 & I5 & I6 & I7); [done|done| |by apply Hhas|by apply Hhas|].
    { rewrite Hcr. destruct (property "dcterms:created" t) as [c|]; [exact Hvis|by apply visible_time]. }
    exists s', fs', t'. split; [cbn [suite_cycles]; by rewrite S1, S2, S4|]. split; [done|]. split.
    { intros q Hq. cbn in Hq. apply not_elem_of_cons in Hq as [Hq1 Hq2]. rewrite I3 by done. by apply S3. }
    split; [congruence|]. split; [done|]. split; [|split].
    + intros _. destruct l as [|y l]; [by rewrite I0|]. rewrite I5 by done. by destruct y.
    + rewrite I6, Hcr. by destruct (property "dcterms:created" t).
    + intros k K1 K2 Kv. rewrite I7; [rewrite S9 by done; exact Kv|done|done|]. rewrite S9 by done. by rewrite !Kv.
Qed.
End with_env.
