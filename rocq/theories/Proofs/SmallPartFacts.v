(** Shared strings, calculation chain and core properties in their parts. *)
From Verif.Model Require Import ShareString CalcChain CoreProperties.
From Verif.Spec Require Import PackageSpec RelSpec PartSpec XmlSpec XmlRepr.
From Verif.Proofs Require Import BaseFacts XmlWriteFacts XmlReadFacts XmlTreeFacts XmlNsFacts DocBuild PartFacts
  ReadAnyFacts PackageFacts TypesFacts RelDocFacts.

Section with_env.
Context `{E : Env}.
(** ** Attributes of the root, text of a child *)
Lemma Repr_root_set d g a v its a' v' : Repr d (INode 0 g a v its) ->
  Repr (with_elems d (<[0 := mkElem 0 0 g a' v' (map child_entry its)]> (d_elems d))) (INode 0 g a' v' its).
Proof.
  intros Hr. apply Repr_node in Hr as (_ & H0 & Ha & Hnd & Hb). apply Repr_intro; cbn [with_elems d_elems].
  - by rewrite lookup_insert.
  - eapply HoldsAll_agree; [|shelve|exact Ha]. instantiate (1 := [0]).
    intros k Hk. rewrite lookup_insert_ne; [done|]. intros <-. apply Hk. left.
    Unshelve. intros k Hk Hk'. apply elem_of_list_singleton in Hk' as ->. by apply NoDup_cons in Hnd as [? _].
  - done.
  - intros k e. cbn. destruct (decide (k = 0)) as [->|Hk]; [lia|]. rewrite lookup_insert_ne by done. apply Hb.
Qed.
Lemma Repr_child_set d g a v l1 i g1 a1 v1 l l2 a' v' : Repr d (INode 0 g a v (l1 ++ INode i g1 a1 v1 l :: l2)) ->
  Repr (with_elems d (<[i := mkElem i 0 g1 a' v' (map child_entry l)]> (d_elems d))) (INode 0 g a v (l1 ++ INode i g1 a' v' l :: l2)).
Proof.
  intros Hr. apply Repr_node in Hr as (_ & H0 & Ha & Hnd & Hb). rewrite flat_map_middle in Hnd. cbn [ids app] in Hnd.
  apply NoDup_cons in Hnd as [H0n Hnd]. assert (i <> 0) as Hi0.
  { intros ->. apply H0n. apply elem_of_app. right. left. }
  apply NoDup_app in Hnd as (Hn1 & Hn2 & Hn3). apply NoDup_cons in Hn3 as [Hn4 Hn5].
  assert (i ∉ flat_map ids l1) as Hi1. { intros Hi. apply (Hn2 i Hi). left. }
  assert (d_elems d !! i = Some (mkElem i 0 g1 a1 v1 (map child_entry l)) /\ HoldsAll (d_elems d) i l) as [Hi Hl].
  { apply Holds_children. apply (proj1 (HoldsAll_elem _ _ _) Ha). apply elem_of_app. right. left. }
  rewrite elem_of_app in Hn4. apply Repr_intro; cbn [with_elems d_elems].
  - rewrite lookup_insert_ne by done. rewrite H0. by rewrite !map_app.
  - apply HoldsAll_elem. intros c Hc. apply elem_of_app in Hc as [Hc|[->|Hc]%elem_of_cons].
    + eapply Holds_agree; [|apply (proj1 (HoldsAll_elem _ _ _) Ha), elem_of_app; by left].
      intros k Hk. rewrite lookup_insert_ne; [done|]. intros <-. apply Hi1, elem_of_flat_map. eauto.
    + apply Holds_children. split; [by rewrite lookup_insert|].
      apply HoldsAll_elem. intros c Hc. eapply Holds_agree; [|by apply (proj1 (HoldsAll_elem _ _ _) Hl)].
      intros k Hk. rewrite lookup_insert_ne; [done|]. intros <-. apply Hn4. left. apply elem_of_flat_map. eauto.
    + eapply Holds_agree; [|apply (proj1 (HoldsAll_elem _ _ _) Ha), elem_of_app; right; by right].
      intros k Hk. rewrite lookup_insert_ne; [done|]. intros <-. apply Hn4. right. apply elem_of_flat_map. eauto.
  - rewrite flat_map_middle. cbn [ids app]. apply NoDup_cons. split; [done|]. apply NoDup_app. split; [done|]. split; [done|].
    apply NoDup_cons. split; [by rewrite elem_of_app|done].
  - intros k e. cbn. destruct (decide (k = i)) as [->|Hk].
    + intros _. by apply (Hb i _ Hi).
    + rewrite lookup_insert_ne by done. apply Hb.
Qed.
Lemma Doc_set_attr d g m v cs k x : Doc d (Node g (Some m) v cs) ->
  exists d', insert_attribute 0 k x d = (d', Ok tt) /\ Doc d' (Node g (Some (<[k := x]> m)) v cs) /\ d_ns d' = d_ns d.
Proof.
  intros Hd. apply Doc_inv in Hd as (its & Hc & Hr). cbn in Hc, Hr. subst cs.
  assert (Hr' := Hr). apply Repr_node in Hr' as (_ & H0 & _ & _ & _).
  unfold insert_attribute. rewrite H0. cbn [e_attrs]. eexists. split; [done|]. split; [|done].
  apply Doc_intro. by apply (Repr_root_set d g (Some m) v its).
Qed.
Lemma find_split {A} (f : A -> bool) l :
  match List.find f l with
  | Some x => exists l1 l2, l = l1 ++ x :: l2 /\ f x = true /\ (forall y, y ∈ l1 -> f y = false)
  | None => forall y, y ∈ l -> f y = false
  end.
Proof.
  induction l as [|x l IH]; cbn; [by intros y ?%elem_of_nil|]. destruct (f x) eqn:Ef.
  - exists [], l. split; [done|]. split; [done|]. by intros y ?%elem_of_nil.
  - destruct (List.find f l) as [y|].
    + destruct IH as (l1 & l2 & -> & Hy & Hl). exists (x :: l1), l2. split; [done|]. split; [done|].
      intros z [->|Hz]%elem_of_cons; [done|by apply Hl].
    + intros z [->|Hz]%elem_of_cons; [done|by apply IH].
Qed.

(** ** Shared strings *)
Lemma si_tree_ok s : names_ok (si_tree s).
Proof. unfold si_tree. cbn. repeat split; by vm_compute. Qed.
Lemma si_text_reread s : si_text (reread (si_tree s)) = Some (trim s).
Proof. unfold si_tree, si_text. cbn [reread map t_children]. destruct (String.eqb_spec (trim s) "") as [->|]; done. Qed.
Lemma Doc_load_strings d g a v cs : Doc d (Node g a v cs) ->
  exists d', load_strings d = (d', Ok (omap si_text (List.filter (fun t => seqb (t_tag t) "si") cs)))
  /\ Doc d' (Node g a v (List.filter (fun t => negb (seqb (t_tag t) "si")) cs)) /\ d_ns d' = d_ns d.
Proof.
  intros Hd. destruct (Doc_take d g a v cs "si" Hd) as (d' & Et & Hd' & Hns). exists d'. split; [|done].
  unfold load_strings, bind. rewrite Et. unfold ret. by destruct (List.filter _ cs).
Qed.
Definition sst_attrs (l : list string) (m : gmap string string) : gmap string string :=
  <["uniqueCount" := show_N (N.of_nat (length (remove_dups l)))]> (<["count" := show_N (N.of_nat (length l))]> m).
Lemma Doc_save_strings d g m v cs l : Doc d (Node g (Some m) v cs) ->
  exists d', save_strings l d = (d', Ok tt) /\ Doc d' (Node g (Some (sst_attrs l m)) v (cs ++ map si_tree l)) /\ d_ns d' = d_ns d.
Proof.
  intros Hd. unfold save_strings, bind.
  destruct (Doc_set_attr d g m v cs "count" (show_N (N.of_nat (length l))) Hd) as (d1 & -> & Hd1 & Hn1).
  destruct (Doc_set_attr d1 g _ v cs "uniqueCount" (show_N (N.of_nat (length (remove_dups l)))) Hd1) as (d2 & -> & Hd2 & Hn2).
  destruct (Doc_add_trees d2 g _ v cs (map si_tree l) Hd2) as (d3 & -> & Hd3 & Hn3); [apply Forall_map_all, si_tree_ok|].
  exists d3. split; [done|]. split; [done|]. congruence.
Qed.
Lemma sst_attrs_ok l m : attrs_ok (Some m) -> attrs_ok (Some (sst_attrs l m)).
Proof. intros Hm. cbn in *. apply map_Forall_insert_2; [by vm_compute|]. apply map_Forall_insert_2; [by vm_compute|done]. Qed.
Lemma init_with_ns_spec c root : is_valid_xml_name root = true ->
  exists d, init_with_ns c root = Ok (mkOpen d (Some (c_content_type c)) (c_ext c) (c_ext_type c))
  /\ Doc d (Node root (Some ∅) None []) /\ d_ns d = {["<Default>" := c_namespace c]}.
Proof.
  intros Hr. unfold init_with_ns, doc_of_m. destruct (Doc_create root (c_namespace c)) as (d & -> & Hd & Hns); [done|]. by exists d.
Qed.
Lemma sst_fresh r o r' path : part_path c_share_string None r = (r', Ok path) -> of_open o !! path = None -> of_archive o !! path = None ->
  exists o1, sst_new (r, o) = ((r', o1), Ok (mkSst [] path)) /\ PartOpen "si" o1 path
    /\ of_archive o1 = of_archive o /\ (forall q, q <> path -> of_open o1 !! q = of_open o !! q).
Proof.
  intros Hp Ho Ha. destruct (init_with_ns_spec c_share_string "sst") as (d & Hi & Hd & Hns); [by vm_compute|].
  destruct (Doc_load_strings d _ _ _ _ Hd) as (d' & Hl & Hd' & Hns'). cbn [List.filter] in Hl, Hd'.
  destruct (part_fresh "si" o path load_strings d [] "sst" (c_namespace c_share_string) sst_init _ Ho Ha Hi eq_refl Hd Hns)
    as (o1 & E1 & H1 & H2 & H3); [by vm_compute|by vm_compute|by exists d'|].
  exists o1. split; [|done]. unfold sst_new, bind, on_rels. cbn [fst snd]. rewrite Hp. unfold on_office. cbn [fst snd]. unfold bind in E1.
  destruct (get_xml_document sst_init path o) as [o' [[]| |]]; [|done|done]. cbn [fst snd]. rewrite E1. done.
Qed.
Lemma omap_map_some {A B C} (f : A -> B) (g : B -> option C) (h : A -> C) l : (forall x, g (f x) = Some (h x)) -> omap g (map f l) = map h l.
Proof. intros Hg. induction l as [|x l IH]; [done|]. cbn [map list_omap omap]. rewrite Hg. cbn. f_equal. exact IH. Qed.
Lemma sst_roundtrip o r s : PartOpen "si" o (ss_path s) -> ss_strings s <> [] ->
  exists e g m cs ns, sst_close s (r, o) = ((r, mkOffice (delete (ss_path s) (of_open o)) (<[ss_path s := e]> (of_archive o))), Ok tt)
  /\ part_bytes e = Ok (prolog +:+ render_root ns (Node g (Some (sst_attrs (ss_strings s) m)) None (cs ++ map si_tree (ss_strings s))))
  /\ Forall (fun t => t_tag t <> "si") cs
  /\ (forall r2 r3 o2 e2, part_path c_share_string None r2 = (r3, Ok (ss_path s)) ->
     of_open o2 !! ss_path s = None -> of_archive o2 !! ss_path s = Some e2 -> part_bytes e2 = part_bytes e ->
     exists o3, sst_new (r2, o2) = ((r3, o3), Ok (mkSst (map trim (ss_strings s)) (ss_path s)))
     /\ PartOpen "si" o3 (ss_path s) /\ of_archive o3 = delete (ss_path s) (of_archive o2)
     /\ (forall q, q <> ss_path s -> of_open o3 !! q = of_open o2 !! q)).
Proof.
  intros Hro Hne. apply PartOpen_Doc in Hro as (p & [g a v cs] & Hp & Hd & Hn & Hns & Hv & Hva & Hf). cbn in Hv, Hf, Hva. subst v.
  destruct a as [m|]; [|done]. set (path := ss_path s) in *. set (l := ss_strings s) in *.
  destruct (Doc_save_strings (op_doc p) _ _ _ _ l Hd) as (d1 & Hs & Hd1 & Hns1).
  pose proof Hn as (_ & Ha & _)%names_ok_node.
  destruct (part_save "si" o path p g (Some m) cs (Some (sst_attrs l m)) (map si_tree l) d1 tt _ Hp Hn Hns Hf Hs Hd1 Hns1)
    as (o1 & e & Hw & Hcl & _ & _ & _ & Hb & Hn1).
  { by apply sst_attrs_ok. } { apply Forall_map_all, si_tree_ok. } { by apply Forall_map_all. }
  exists e, g, m, cs, (d_ns (op_doc p)). split.
  { unfold sst_close. fold l path. destruct l as [|s0 l0]; [done|]. unfold bind, on_office. cbn [fst snd]. rewrite Hw. cbn [fst snd]. by rewrite Hcl. }
  split; [done|]. split; [done|].
  intros r2 r3 o2 e2 Hpp Ho2 Ha2 Hb2. rewrite Hb in Hb2.
  destruct (part_load "si" o2 path e2 (d_ns (op_doc p)) g (Some (sst_attrs l m)) cs (map si_tree l) load_strings (map trim l) sst_init Ho2 Ha2 Hb2 Hn1 Hns)
    as (o3 & E3 & H3); [|done|by apply Forall_map_all| |].
  { destruct cs; [by destruct l|done]. }
  { intros d g' a' v' cs' Hdd Hfil. destruct (Doc_load_strings d _ _ _ _ Hdd) as (d3 & Hl & Hd3 & Hns3).
    rewrite Hfil, map_map in Hl. rewrite (omap_map_some _ _ trim) in Hl by (intros; apply si_text_reread). by exists d3. }
  exists o3. split; [|done]. unfold sst_new, bind, on_rels. cbn [fst snd]. rewrite Hpp. unfold on_office. cbn [fst snd]. unfold bind in E3.
  destruct (get_xml_document sst_init path o2) as [o' [[]| |]]; [|done|done]. cbn [fst snd]. rewrite E3. done.
Qed.

(** ** Calculation chain *)
Lemma calc_tree_ok x : names_ok (calc_tree x).
Proof. by apply leaf_ok; vm_compute. Qed.
Lemma calc_reread x : calc_of_attrs (t_attrs (reread (calc_tree x))) = Ok (Some (escaped_calc x)).
Proof. by destruct x as [[r i] l]. Qed.
Lemma Doc_load_calc d g a v cs : Doc d (Node g a v cs) ->
  exists d', load_calc d = (d', rmap (omap id) (rmapM calc_of_attrs (map t_attrs (List.filter (fun t => seqb (t_tag t) "c") cs))))
  /\ Doc d' (Node g a v (List.filter (fun t => negb (seqb (t_tag t) "c")) cs)) /\ d_ns d' = d_ns d.
Proof.
  intros Hd. destruct (Doc_take d g a v cs "c" Hd) as (d' & Et & Hd' & Hns). exists d'. split; [|done].
  unfold load_calc, bind. rewrite Et. unfold lift. by destruct (List.filter _ cs).
Qed.
Lemma calc_fresh r o r' path : part_path c_calc_chain None r = (r', Ok path) -> of_open o !! path = None -> of_archive o !! path = None ->
  exists o1, calc_new (r, o) = ((r', o1), Ok (mkCalc [] path)) /\ PartOpen "c" o1 path
    /\ of_archive o1 = of_archive o /\ (forall q, q <> path -> of_open o1 !! q = of_open o !! q).
Proof.
  intros Hp Ho Ha. destruct (init_with_ns_spec c_calc_chain "calcChain") as (d & Hi & Hd & Hns); [by vm_compute|].
  destruct (Doc_load_calc d _ _ _ _ Hd) as (d' & Hl & Hd' & Hns'). cbn [List.filter] in Hl, Hd'.
  destruct (part_fresh "c" o path load_calc d [] "calcChain" (c_namespace c_calc_chain) calc_init _ Ho Ha Hi eq_refl Hd Hns)
    as (o1 & E1 & H1 & H2 & H3); [by vm_compute|by vm_compute|by exists d'|].
  exists o1. split; [|done]. unfold calc_new, bind, on_rels. cbn [fst snd]. rewrite Hp. unfold on_office. cbn [fst snd]. unfold bind in E1.
  destruct (get_xml_document calc_init path o) as [o' [[]| |]]; [|done|done]. cbn [fst snd]. rewrite E1. done.
Qed.
Lemma calc_roundtrip o r s : PartOpen "c" o (cc_path s) -> cc_entries s <> [] ->
  exists e, calc_close s (r, o) = ((r, mkOffice (delete (cc_path s) (of_open o)) (<[cc_path s := e]> (of_archive o))), Ok tt)
  /\ (forall r2 r3 o2 e2, part_path c_calc_chain None r2 = (r3, Ok (cc_path s)) ->
     of_open o2 !! cc_path s = None -> of_archive o2 !! cc_path s = Some e2 -> part_bytes e2 = part_bytes e ->
     exists o3, calc_new (r2, o2) = ((r3, o3), Ok (mkCalc (map escaped_calc (cc_entries s)) (cc_path s)))
     /\ PartOpen "c" o3 (cc_path s) /\ of_archive o3 = delete (cc_path s) (of_archive o2)
     /\ (forall q, q <> cc_path s -> of_open o3 !! q = of_open o2 !! q)).
Proof.
  intros Hro Hne. apply PartOpen_Doc in Hro as (p & [g a v cs] & Hp & Hd & Hn & Hns & Hv & Hva & Hf). cbn in Hv, Hf, Hva. subst v.
  set (path := cc_path s) in *. set (l := cc_entries s) in *.
  destruct (Doc_add_trees (op_doc p) _ _ _ _ (map calc_tree l) Hd) as (d1 & Hs & Hd1 & Hns1); [apply Forall_map_all, calc_tree_ok|].
  pose proof Hn as (_ & Ha & _)%names_ok_node.
  destruct (part_save "c" o path p g a cs a (map calc_tree l) d1 tt _ Hp Hn Hns Hf Hs Hd1 Hns1 Ha)
    as (o1 & e & Hw & Hcl & _ & _ & _ & Hb & Hn1).
  { apply Forall_map_all, calc_tree_ok. } { by apply Forall_map_all. }
  exists e. split.
  { unfold calc_close. fold l path. destruct l as [|s0 l0]; [done|]. unfold bind, on_office. cbn [fst snd]. rewrite Hw. cbn [fst snd]. by rewrite Hcl. }
  intros r2 r3 o2 e2 Hpp Ho2 Ha2 Hb2. rewrite Hb in Hb2.
  destruct (part_load "c" o2 path e2 (d_ns (op_doc p)) g a cs (map calc_tree l) load_calc (map escaped_calc l) calc_init Ho2 Ha2 Hb2 Hn1 Hns)
    as (o3 & E3 & H3); [|done|by apply Forall_map_all| |].
  { destruct cs; [by destruct l|done]. }
  { intros d g' a' v' cs' Hdd Hfil. destruct (Doc_load_calc d _ _ _ _ Hdd) as (d3 & Hl & Hd3 & Hns3).
    rewrite Hfil, !map_map in Hl. rewrite (rmapM_map_ok _ _ (fun x => Some (escaped_calc x))) in Hl by (intros; apply calc_reread).
    cbv beta iota delta [rmap rbind] in Hl. rewrite (omap_map_some _ id escaped_calc) in Hl by done. by exists d3. }
  exists o3. split; [|done]. unfold calc_new, bind, on_rels. cbn [fst snd]. rewrite Hpp. unfold on_office. cbn [fst snd]. unfold bind in E3.
  destruct (get_xml_document calc_init path o2) as [o' [[]| |]]; [|done|done]. cbn [fst snd]. rewrite E3. done.
Qed.

(** ** Core properties *)
Definition with_text (s : string) (t : tree) : tree := Node (t_tag t) (t_attrs t) (Some s) (t_children t).
(** Set the text of the first child named [tag], if [f] allows it. *)
Fixpoint set_first (tag s : string) (f : tree -> bool) (cs : list tree) : list tree :=
  match cs with
  | [] => []
  | t :: cs => if seqb (t_tag t) tag then (if f t then with_text s t else t) :: cs else t :: set_first tag s f cs
  end.
Lemma set_first_split tag s f l1 t l2 : (forall y, y ∈ l1 -> seqb (t_tag y) tag = false) -> seqb (t_tag t) tag = true ->
  set_first tag s f (l1 ++ t :: l2) = l1 ++ (if f t then with_text s t else t) :: l2.
Proof.
  intros Hl Ht. induction l1 as [|y l1 IH]; cbn [app set_first]; [by rewrite Ht|].
  rewrite (Hl y (elem_of_list_here _ _)), IH; [done|]. intros z Hz. apply Hl. by right.
Qed.
Lemma set_first_none tag s f l : (forall y, y ∈ l -> seqb (t_tag y) tag = false) -> set_first tag s f l = l.
Proof.
  induction l as [|y l IH]; intros Hl; [done|]. cbn [set_first]. rewrite (Hl y (elem_of_list_here _ _)), IH; [done|].
  intros z Hz. apply Hl. by right.
Qed.
Definition no_text (t : tree) : bool := match t_value t with Some _ => false | None => true end.
Lemma Doc_stamp d a v cs only tag now : Doc d (Node "cp:coreProperties" a v cs) -> seqb "cp:coreProperties" tag = false ->
  exists d', stamp only tag now d = (d', Ok tt)
  /\ Doc d' (Node "cp:coreProperties" a v (set_first tag now (fun t => negb only || no_text t) cs)) /\ d_ns d' = d_ns d.
Proof.
  intros Hd Htag. assert (Hd0 := Hd). apply Doc_inv in Hd as (its & Hc & Hr). cbn in Hc, Hr. subst cs.
  assert (Hr' := Hr). apply Repr_node in Hr' as (_ & H0 & Hh & Hnd & _).
  unfold stamp. cbn [first_element_id]. rewrite H0. cbn [e_tag e_children]. rewrite Htag.
  change (seqb "cp:coreProperties" "cp:coreProperties" && (0 =? 0)) with true. cbn [andb].
  pose proof (find_split (fun c : itree => seqb (i_tag c) tag) its) as Hf.
  assert (List.find (fun c : N * string => seqb c.2 tag) (map child_entry its)
     = option_map child_entry (List.find (fun c : itree => seqb (i_tag c) tag) its)) as ->.
  { clear. induction its as [|x its IH]; [done|]. cbn [map List.find child_entry snd]. destruct (seqb (i_tag x) tag); [done|]. apply IH. }
  destruct (List.find _ its) as [[i g1 a1 v1 l]|]; cbn [option_map].
  2:{ exists d. split; [done|]. split; [|done]. rewrite set_first_none; [done|]. intros y Hy. apply elem_of_list_fmap in Hy as (z & -> & Hz).
      destruct z. by apply (Hf _ Hz). }
  destruct Hf as (l1 & l2 & -> & Hg1 & Hl1). cbn [child_entry i_id fst]. cbn [i_tag] in Hg1.
  assert (d_elems d !! i = Some (mkElem i 0 g1 a1 v1 (map child_entry l))) as Hi.
  { assert (Holds (d_elems d) 0 (INode i g1 a1 v1 l)) as Hx.
    { apply (proj1 (HoldsAll_elem _ _ _) Hh). apply elem_of_app. right. left. }
    by apply Holds_children in Hx as [? _]. }
  rewrite Hi. unfold has_value. cbn [e_value].
  rewrite map_app. cbn [map erase]. rewrite set_first_split; [|intros y Hy; apply elem_of_list_fmap in Hy as (z & -> & Hz); specialize (Hl1 z Hz); by destruct z|done].
  unfold no_text. cbn [t_value].
  assert (only && match v1 with Some _ => true | None => false end = negb (negb only || match v1 with Some _ => false | None => true end)) as ->
    by (by destruct only, v1).
  destruct (negb only || _); cbn [negb].
  2:{ exists d. split; [done|]. split; [|done]. rewrite map_app in Hd0. done. }
  unfold set_value. rewrite Hi. eexists. split; [done|]. split; [|done].
  apply (Repr_child_set _ _ _ _ _ _ _ _ _ _ _ a1 (Some now)) in Hr. apply Doc_intro in Hr. rewrite map_app in Hr. exact Hr.
Qed.
Definition stamped (now1 now2 : string) (cs : list tree) : list tree :=
  set_first "dcterms:created" now2 no_text (set_first "dcterms:modified" now1 (fun _ => true) cs).
Lemma Doc_core_stamps d a v cs now1 now2 : Doc d (Node "cp:coreProperties" a v cs) ->
  exists d', core_stamps now1 now2 d = (d', Ok tt) /\ Doc d' (Node "cp:coreProperties" a v (stamped now1 now2 cs)) /\ d_ns d' = d_ns d.
Proof.
  intros Hd. unfold core_stamps. destruct (Doc_stamp d a v cs false "dcterms:modified" now1 Hd) as (d1 & E1 & Hd1 & Hns1); [done|].
  destruct (Doc_stamp d1 a v _ true "dcterms:created" now2 Hd1) as (d2 & E2 & Hd2 & Hns2); [done|].
  unfold bind. rewrite E1, E2. exists d2. split; [done|]. split; [exact Hd2|]. congruence.
Qed.
(** Trimming twice is trimming once. *)
Lemma all_space_trim_right s : all_space (trim_right s) = all_space s.
Proof.
  induction s as [|a s IH]; [done|]. cbn [trim_right]. destruct (all_space (String a s)) eqn:Ea; [done|].
  cbn [all_space] in Ea |- *. by rewrite IH.
Qed.
Lemma trim_right_idem s : trim_right (trim_right s) = trim_right s.
Proof.
  induction s as [|a s IH]; [done|]. cbn [trim_right]. destruct (all_space (String a s)) eqn:Ea; [done|].
  cbn [trim_right]. rewrite IH. assert (all_space (String a (trim_right s)) = false) as ->; [|done].
  cbn [all_space] in Ea |- *. by rewrite all_space_trim_right.
Qed.
Lemma trim_left_head s : trim_left s = "" \/ exists a r, trim_left s = String a r /\ xml_space a = false.
Proof. induction s as [|a s IH]; [by left|]. cbn [trim_left]. destruct (xml_space a) eqn:Ea; [done|]. right. eauto. Qed.
Lemma trim_idem s : trim (trim s) = trim s.
Proof.
  unfold trim. destruct (trim_left_head s) as [->|(a & r & -> & Ha)]; [done|].
  assert (trim_right (String a r) = String a (trim_right r)) as Ht. { cbn [trim_right all_space]. by rewrite Ha. }
  rewrite Ht. cbn [trim_left]. rewrite Ha. cbn [trim_right all_space]. rewrite Ha. cbn [andb]. by rewrite trim_right_idem.
Qed.
Lemma trim_no_space s : sforall (fun a => negb (xml_space a)) s = true -> trim s = s.
Proof.
  assert (forall s, sforall (fun a => negb (xml_space a)) s = true -> trim_right s = s) as Hr.
  { clear. induction s as [|a s IH]; [done|]. cbn [sforall trim_right all_space]. intros [Ha Hs]%andb_true_iff.
    apply Bool.negb_true_iff in Ha. rewrite Ha. cbn [andb]. by rewrite IH. }
  intros Hs. unfold trim. destruct s as [|a s]; [done|]. cbn [trim_left]. assert (Hs' := Hs). cbn [sforall] in Hs'. apply andb_true_iff in Hs' as [Ha _].
  apply Bool.negb_true_iff in Ha. rewrite Ha. by apply Hr.
Qed.
Lemma sforall_impl (f g : ascii -> bool) s : (forall a, f a = true -> g a = true) -> sforall f s = true -> sforall g s = true.
Proof.
  intros Hfg. induction s as [|a s IH]; [done|]. cbn [sforall]. intros [Ha Hs]%andb_true_iff. apply andb_true_iff.
  split; [by apply Hfg|by apply IH].
Qed.
Lemma time_text_trim s : time_text s -> trim s = s.
Proof.
  intros [_ Hs]. apply trim_no_space. revert Hs. apply sforall_impl. intros [[] [] [] [] [] [] [] []]; by vm_compute.
Qed.
(** Properties of the stamped children. *)
Definition child_value (tag : string) (cs : list tree) : option string :=
  match List.find (fun c => String.eqb (t_tag c) tag) cs with Some c => t_value c | None => None end.
Lemma visible_idem v : visible (visible v) = visible v.
Proof.
  destruct v as [s|]; [|done]. cbn. destruct (String.eqb_spec (trim s) "") as [Hs|Hs]; [done|]. cbn.
  rewrite trim_idem. by destruct (String.eqb_spec (trim s) "").
Qed.
Lemma child_value_reread tag cs : child_value tag (map reread cs) = visible (child_value tag cs).
Proof.
  unfold child_value. induction cs as [|[g a v l] cs IH]; [done|]. cbn [map List.find]. rewrite tag_reread. cbn [t_tag].
  destruct (String.eqb g tag); [|apply IH]. by destruct v.
Qed.
Lemma set_first_tags tag s f cs : map t_tag (set_first tag s f cs) = map t_tag cs.
Proof. induction cs as [|t cs IH]; [done|]. cbn [set_first]. destruct (seqb (t_tag t) tag); cbn [map]; [by destruct (f t)|by rewrite IH]. Qed.
Lemma set_first_other tag s f cs k : k <> tag -> child_value k (set_first tag s f cs) = child_value k cs.
Proof.
  intros Hk. unfold child_value. induction cs as [|t cs IH]; [done|]. cbn [set_first]. destruct (seqb (t_tag t) tag) eqn:Et; cbn [List.find].
  - apply String.eqb_eq in Et. destruct (String.eqb_spec (t_tag t) k) as [He|He]; [congruence|].
    destruct (f t); cbn [with_text t_tag]; by rewrite (proj2 (String.eqb_neq _ _) He).
  - destruct (String.eqb (t_tag t) k); [done|apply IH].
Qed.
Lemma set_first_value tag s f cs : child_value tag (set_first tag s f cs)
  = match List.find (fun c => String.eqb (t_tag c) tag) cs with Some c => if f c then Some s else t_value c | None => None end.
Proof.
  unfold child_value. induction cs as [|t cs IH]; [done|]. cbn [set_first]. unfold seqb. destruct (String.eqb (t_tag t) tag) eqn:Et; cbn [List.find].
  - rewrite Et. destruct (f t) eqn:Ef; cbn [with_text t_tag t_value]; rewrite Et; done.
  - rewrite Et. apply IH.
Qed.
Definition has_child (tag : string) (cs : list tree) : bool := existsb (fun c => String.eqb (t_tag c) tag) cs.
Lemma has_child_tags tag cs cs' : map t_tag cs = map t_tag cs' -> has_child tag cs = has_child tag cs'.
Proof.
  revert cs'. unfold has_child. induction cs as [|t cs IH]; intros [|t' cs'] Hm; try done. cbn in *. injection Hm as Ht Hm. rewrite Ht. f_equal. by apply IH.
Qed.
Lemma has_child_find tag cs : has_child tag cs = match List.find (fun c => String.eqb (t_tag c) tag) cs with Some _ => true | None => false end.
Proof. induction cs as [|t cs IH]; [done|]. cbn. destruct (String.eqb (t_tag t) tag); [done|apply IH]. Qed.
Lemma stamped_modified n1 n2 cs : child_value "dcterms:modified" (stamped n1 n2 cs) = if has_child "dcterms:modified" cs then Some n1 else None.
Proof.
  unfold stamped. rewrite set_first_other by done. rewrite set_first_value, has_child_find. by destruct (List.find _ cs).
Qed.
Lemma stamped_created n1 n2 cs : child_value "dcterms:created" (stamped n1 n2 cs)
  = if has_child "dcterms:created" cs then Some (default n2 (child_value "dcterms:created" cs)) else None.
Proof.
  unfold stamped. set (cs1 := set_first "dcterms:modified" n1 (fun _ => true) cs).
  rewrite (has_child_tags _ cs cs1) by (unfold cs1; by rewrite set_first_tags).
  rewrite <- (set_first_other "dcterms:modified" n1 (fun _ => true) cs "dcterms:created") by done. fold cs1.
  rewrite set_first_value, has_child_find. unfold child_value, no_text. destruct (List.find _ cs1) as [c|]; [|done]. by destruct (t_value c).
Qed.
Lemma stamped_other n1 n2 cs k : k <> "dcterms:modified" -> k <> "dcterms:created" -> child_value k (stamped n1 n2 cs) = child_value k cs.
Proof. intros H1 H2. unfold stamped. by rewrite !set_first_other. Qed.
Lemma stamped_tags n1 n2 cs : map t_tag (stamped n1 n2 cs) = map t_tag cs.
Proof. unfold stamped. by rewrite !set_first_tags. Qed.
Lemma set_first_ok tag s f cs : Forall names_ok cs -> Forall names_ok (set_first tag s f cs).
Proof.
  induction cs as [|t cs IH]; intros Hc; [done|]. apply Forall_cons in Hc as [Ht Hc]. cbn [set_first].
  destruct (seqb (t_tag t) tag); [|by apply Forall_cons; split; [|apply IH]].
  apply Forall_cons. split; [|done]. destruct (f t); [|done]. destruct t as [g a v l]. unfold with_text. cbn.
  apply names_ok_node in Ht as (H1 & H2 & H3). by apply names_ok_node.
Qed.
Lemma stamped_ok n1 n2 cs : Forall names_ok cs -> Forall names_ok (stamped n1 n2 cs).
Proof. intros Hc. unfold stamped. by apply set_first_ok, set_first_ok. Qed.
Lemma SetText_set_first tag s cs : SetText tag s cs (set_first tag s (fun _ => true) cs).
Proof.
  induction cs as [|[g a v l] cs IH]; [constructor|]. cbn [set_first t_tag]. unfold seqb. destruct (String.eqb_spec g tag) as [->|Hg].
  - constructor.
  - by constructor.
Qed.
Lemma set_first_cond tag s cs : set_first tag s no_text cs
  = match List.find (fun c => String.eqb (t_tag c) tag) cs with
    | Some c => match t_value c with None => set_first tag s (fun _ => true) cs | Some _ => cs end
    | None => cs end.
Proof.
  induction cs as [|t cs IH]; [done|]. cbn [set_first List.find]. unfold seqb in *. unfold no_text at 1. destruct (String.eqb (t_tag t) tag); [by destruct (t_value t)|].
  rewrite IH. destruct (List.find _ cs) as [c|]; [|done]. by destruct (t_value c).
Qed.
Lemma core_close_spec o path p a v cs n1 n2 : of_open o !! path = Some p -> Doc (op_doc p) (Node "cp:coreProperties" a v cs) ->
  exists e, core_close n1 n2 path o = (mkOffice (delete path (of_open o)) (<[path := e]> (of_archive o)), Ok tt)
  /\ en_ct e = op_ct p /\ en_ext e = op_ext p /\ en_ext_type e = op_ext_type p
  /\ part_bytes e = Ok (prolog +:+ render_root (d_ns (op_doc p)) (Node "cp:coreProperties" a v (stamped n1 n2 cs))).
Proof.
  intros Hp Hd. destruct (Doc_core_stamps _ a v cs n1 n2 Hd) as (d1 & E1 & Hd1 & Hns1).
  unfold core_close, bind. rewrite (with_doc_spec path _ o p d1 _ Hp E1). cbn [rmap rbind].
  set (o1 := mkOffice _ _). destruct (close_doc o1 path (mkOpen d1 (op_ct p) (op_ext p) (op_ext_type p)) _ (lookup_insert _ _ _) Hd1)
    as (e & Hc & H1 & H2 & H3 & Hb). exists e. rewrite Hc. unfold o1. cbn [of_open of_archive]. rewrite delete_insert_delete. 
  cbn [op_doc] in Hb. rewrite Hns1 in Hb. done.
Qed.
(** ** Registering strings *)
Lemma position_some s l i : position (fun x => seqb x s) l = Some i -> l !! N.to_nat i = Some s.
Proof.
  revert i. induction l as [|x l IH]; intros i; [done|]. cbn [position]. unfold seqb at 1. destruct (String.eqb_spec x s) as [->|Hx]; [by intros [= <-]|].
  destruct (position _ l) as [j|]; [|done]. intros [= <-]. replace (N.to_nat (j + 1)) with (S (N.to_nat j)) by lia. cbn. by apply IH.
Qed.
Lemma position_none s l : position (fun x => seqb x s) l = None -> s ∉ l.
Proof.
  induction l as [|x l IH]; [by intros _ ?%elem_of_nil|]. cbn [position]. unfold seqb at 1. destruct (String.eqb_spec x s) as [->|Hx]; [done|].
  destruct (position _ l) as [j|] eqn:Ej; [done|]. intros _ [->|Hs]%elem_of_cons; [done|]. by apply IH.
Qed.
Lemma position_app s l l' i : position (fun x => seqb x s) l = Some i -> position (fun x => seqb x s) (l ++ l') = Some i.
Proof.
  revert i. induction l as [|x l IH]; intros i; [done|]. cbn [app position]. destruct (seqb x s); [done|].
  destruct (position _ l) as [j|]; [|done]. intros [= <-]. by rewrite (IH j).
Qed.
Lemma position_new s l : s ∉ l -> position (fun x => seqb x s) (l ++ [s]) = Some (N.of_nat (length l)).
Proof.
  induction l as [|x l IH]; intros Hs; cbn [app position].
  - unfold seqb. by rewrite String.eqb_refl.
  - apply not_elem_of_cons in Hs as [Hx Hs]. unfold seqb at 1. destruct (String.eqb_spec x s) as [->|_]; [done|]. rewrite IH by done. f_equal. cbn. lia.
Qed.
(** Every reference is the first position of its string in the table, at every later time. *)
Lemma get_string_id_spec s l l' ref : get_string_id s l = (l', ref) ->
  exists i, ref = show_N i /\ position (fun x => seqb x s) l' = Some i /\ (l' = l \/ s ∉ l /\ l' = l ++ [s]).
Proof.
  unfold get_string_id. destruct (position _ l) as [i|] eqn:Ei; intros [= <- <-].
  - exists i. auto.
  - exists (N.of_nat (length l)). split; [done|]. apply position_none in Ei. split; [by apply position_new|auto].
Qed.
Lemma register_spec hist : forall table table' refs, register hist table = (table', refs) ->
  (exists new, table' = table ++ new)
  /\ Forall2 (fun s ref => exists i, ref = show_N i /\ position (fun x => seqb x s) table' = Some i) hist refs
  /\ (forall s, s ∈ table' <-> s ∈ table \/ s ∈ hist) /\ (NoDup table -> NoDup table').
Proof.
  induction hist as [|s hist IH]; intros table table' refs; cbn [register].
  - intros [= <- <-]. split; [by exists []; rewrite app_nil_r|]. split; [constructor|]. split; [|done].
    intros s. rewrite elem_of_nil. tauto.
  - destruct (get_string_id s table) as [t1 ref] eqn:E1. destruct (register hist t1) as [t2 rs] eqn:E2. intros [= <- <-].
    apply get_string_id_spec in E1 as (i & -> & Hi & Hor). destruct (IH _ _ _ E2) as ((new & ->) & Hf & Hel & Hnd).
    assert (position (fun x => seqb x s) (t1 ++ new) = Some i) as Hi' by (by apply position_app).
    split; [|split; [|split]].
    + destruct Hor as [->|[_ ->]]; [by exists new|]. exists ([s] ++ new). by rewrite <- app_assoc.
    + constructor; [by exists i|done].
    + intros x. rewrite Hel, elem_of_cons. destruct Hor as [->|[_ ->]].
      * apply position_some, elem_of_list_lookup_2 in Hi. split; [tauto|]. intros [?|[->|?]]; tauto.
      * rewrite elem_of_app, elem_of_list_singleton. tauto.
    + intros Ht. apply Hnd. destruct Hor as [->|[Hs ->]]; [done|]. apply NoDup_app. split; [done|]. split; [|apply NoDup_singleton].
      intros x Hx ->%elem_of_list_singleton. done.
Qed.
Lemma Distinct_remove_dups (l : list string) : Distinct l (N.of_nat (length (remove_dups l))).
Proof.
  induction l as [|s l IH]; [constructor|]. cbn [remove_dups]. destruct (decide_rel _ s l) as [Hs|Hs].
  - by apply Distinct_old.
  - cbn [length]. rewrite Nat2N.inj_succ, <- N.add_1_r. by apply Distinct_new.
Qed.
Lemma get_open_doc o path e data d t init : of_open o !! path = None -> of_archive o !! path = Some e ->
  part_bytes e = Ok data -> data <> "" -> read_doc data = Ok d -> Doc d t ->
  exists o1 p, get_xml_document init path o = (o1, Ok tt) /\ of_open o1 !! path = Some p /\ Doc (op_doc p) t
    /\ of_archive o1 = delete path (of_archive o).
Proof.
  intros Ho Ha Hb Hne Hr Hd. eexists _, _. split; [by eapply open_bytes|]. split; [apply lookup_insert|]. split; [exact Hd|done].
Qed.
Lemma visible_time s : time_text s -> visible (Some s) = Some s.
Proof. intros Hs. cbn. rewrite time_text_trim by done. destruct Hs as [Hs _]. by destruct (String.eqb_spec s ""). Qed.
Lemma has_property_child tag t : has_property tag t <-> has_child tag (t_children t) = true.
Proof.
  unfold has_property, has_child. rewrite existsb_exists. split.
  - intros (c & Hc & <-). exists c. split; [by apply elem_of_list_In|apply String.eqb_refl].
  - intros (c & Hc & Ht). exists c. split; [by apply elem_of_list_In|by apply String.eqb_eq].
Qed.
(** One save and reopen. *)
Lemma core_cycle o path t n1 n2 : CoreOpen o path t -> t_children t <> [] ->
  exists o1 t1, bind (core_close n1 n2 path) (fun _ => get_xml_document core_init path) o = (o1, Ok tt)
  /\ CoreOpen o1 path t1 /\ t_children t1 <> [] /\ map t_tag (t_children t1) = map t_tag (t_children t)
  /\ (has_property "dcterms:modified" t -> property "dcterms:modified" t1 = visible (Some n1))
  /\ (has_property "dcterms:created" t -> property "dcterms:created" t1 = visible (Some (default n2 (property "dcterms:created" t))))
  /\ (forall k, k <> "dcterms:modified" -> k <> "dcterms:created" -> property k t1 = visible (property k t)).
Proof.
  intros (p & it & Hp & Hr & Ht & Hb & Hn & Hns & Htag & Hv) Hne.
  destruct t as [g a v cs]. cbn in Htag, Hv, Hne. subst g v.
  destruct (core_close_spec o path p a None cs n1 n2 Hp) as (e & Hc & _ & _ & _ & Hby); [by exists it|].
  unfold bind. rewrite Hc. apply names_ok_node in Hn as (Hg & Ha & Hcs).
  assert (names_ok (Node "cp:coreProperties" a None (stamped n1 n2 cs))) as Hn1.
  { apply names_ok_node. split; [done|]. split; [done|]. by apply stamped_ok. }
  assert (stamped n1 n2 cs <> []) as Hne1.
  { intros Hx. pose proof (stamped_tags n1 n2 cs) as Hy. rewrite Hx in Hy. by destruct cs. }
  destruct (open_doc (mkOffice (delete path (of_open o)) (<[path := e]> (of_archive o))) path e (d_ns (op_doc p))
    (Node "cp:coreProperties" a None (stamped n1 n2 cs)) core_init (lookup_delete _ _) (lookup_insert _ _ _) Hby Hn1 Hns) as (d & Hg1 & Hd & Hnsd); [by right|].
  eexists _, _. split; [exact Hg1|]. split.
  { destruct Hd as (it' & [Hr' Hb'] & He'). eexists _, it'. split; [apply lookup_insert|]. split; [exact Hr'|]. split; [exact He'|]. split; [exact Hb'|].
    split; [by apply names_ok_reread|]. split; [cbn [op_doc]; rewrite Hnsd; by apply ns_ok_written|]. done. }
  cbn [reread t_children]. split; [by destruct (stamped n1 n2 cs)|]. split.
  { rewrite map_map. rewrite <- (stamped_tags n1 n2 cs). apply map_ext. apply tag_reread. }
  assert (forall k, property k (Node "cp:coreProperties" (Some (spec_escape <$> default ∅ a)) None (map reread (stamped n1 n2 cs)))
    = visible (child_value k (stamped n1 n2 cs))) as Hpr by (intros; apply child_value_reread).
  split; [|split].
  - intros Hm. rewrite Hpr, stamped_modified. apply has_property_child in Hm. cbn [t_children] in Hm. by rewrite Hm.
  - intros Hm. rewrite Hpr, stamped_created. apply has_property_child in Hm. cbn [t_children] in Hm. by rewrite Hm.
  - intros k H1 H2. rewrite Hpr. by rewrite stamped_other.
Qed.
(** The core properties template. *)
Lemma core_template_doc : exists d t, read_doc core_template = Ok d /\ Doc d t /\ names_ok t /\ ns_ok (d_ns d)
  /\ t_tag t = "cp:coreProperties" /\ t_value t = None
  /\ map (fun c => (t_tag c, t_value c)) (t_children t) = [("dc:creator", Some "OpenXML-Office");
       ("cp:lastModifiedBy", Some "OpenXML-Office"); ("dcterms:created", None); ("dcterms:modified", None)].
Proof.
  pose (P := fun (d : doc) (t : tree) => t_tag t = "cp:coreProperties" /\ t_value t = None
    /\ map (fun c => (t_tag c, t_value c)) (t_children t) = [("dc:creator", Some "OpenXML-Office");
       ("cp:lastModifiedBy", Some "OpenXML-Office"); ("dcterms:created", None); ("dcterms:modified", None)]).
  destruct (template_read core_template P) as (d & t & H1 & H2 & H3 & _ & H4 & H5); [by vm_compute|by vm_compute|].
  by exists d, t.
Qed.
End with_env.
