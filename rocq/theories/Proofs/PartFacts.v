(** Common facts about parts: literal attributes, fresh documents, content types. *)
From Verif.Model Require Import Base XmlTree XmlWrite XmlRead XmlView Package.
From Verif.Spec Require Import XmlSpec XmlRepr.
From Verif.Proofs Require Import BaseFacts XmlWriteFacts XmlReadFacts XmlTreeFacts DocBuild.

Section with_env.
Context `{E : Env}.

(** ** Literal attributes *)
Definition key_ok (k : string) : bool := is_valid_xml_name k && negb (is_ns_key k).
Lemma attrs_of_ok l : forallb (fun kv : string * string => key_ok kv.1) l = true -> attrs_ok (Some (attrs_of l)).
Proof.
  unfold attrs_of. assert (attrs_ok (Some (∅ : gmap string string))) as H0 by (cbn; apply map_Forall_empty).
  revert H0. generalize (∅ : gmap string string) as m.
  induction l as [|[k v] l IH]; intros m Hm Hl; [done|]. cbn [foldl fst snd]. cbn in Hl.
  apply andb_prop in Hl as [Hk Hl]. apply IH; [|done]. cbn. apply map_Forall_insert_2; [|done].
  unfold key_ok in Hk. apply andb_prop in Hk as [H1 H2]. split; [done|]. by destruct (is_ns_key k).
Qed.
Lemma leaf_ok tag l : is_valid_xml_name tag = true ->
  forallb (fun kv : string * string => key_ok kv.1) l = true -> names_ok (leaf tag l).
Proof. intros H1 H2. unfold leaf. apply names_ok_node. split; [done|]. split; [by apply attrs_of_ok|constructor]. Qed.

(** ** A fresh root with a default namespace *)
Lemma Doc_create tag uri : is_valid_xml_name tag = true ->
  exists d, create_with_ns tag uri new_doc = (d, Ok tt) /\ Doc d (Node tag (Some ∅) None [])
    /\ d_ns d = {["<Default>" := uri]}.
Proof.
  intros Ht. unfold create_with_ns, bind, create_root, new_elem. rewrite Ht.
  unfold set_attributes. set (m := attrs_of _).
  assert (m = {["xmlns" := uri]}) as -> by done.
  assert (env_order (map_keys ({["xmlns" := uri]} : gmap string string)) = ["xmlns"]) as ->.
  { apply Permutation_length_1_inv. rewrite <- env_order_perm. unfold map_keys. rewrite map_to_list_singleton. done. }
  assert (forallb is_valid_xml_name ["xmlns"] = true) as -> by (by vm_compute).
  cbn [negb d_elems with_elems]. rewrite lookup_insert.
  eexists. split; [done|]. split; [|done].
  eexists (INode 0 tag (Some ∅) None []). split; [|done].
  split.
  - split; [done|]. split; [cbn; apply NoDup_singleton|]. apply Holds_children. cbn [d_elems]. rewrite lookup_insert. split; [done|apply Forall_nil; done].
  - intros k x. cbn [d_elems]. destruct (decide (k = 0)) as [->|Hk]; [cbn; lia|].
    rewrite !lookup_insert_ne by done. cbn [d_elems new_doc]. by rewrite lookup_empty.
Qed.

(** ** Content types *)
Lemma default_tree_ok xt : names_ok (default_tree xt).
Proof. by apply leaf_ok; vm_compute. Qed.
Lemma override_tree_ok xt : names_ok (override_tree xt).
Proof. by apply leaf_ok; vm_compute. Qed.
Lemma Forall_map_all {A B} (f : A -> B) (P : B -> Prop) l : (forall x, P (f x)) -> Forall P (map f l).
Proof. intros Hp. induction l; constructor; auto. Qed.
Definition types_tree (exts ovs : list (string * string)) : tree :=
  Node "Types" (Some ∅) None (map default_tree exts ++ map override_tree ovs).
Lemma types_tree_ok exts ovs : names_ok (types_tree exts ovs).
Proof.
  apply names_ok_node. split; [by vm_compute|]. split; [cbn; apply map_Forall_empty|].
  apply Forall_app. split; apply Forall_map_all; [apply default_tree_ok|apply override_tree_ok].
Qed.
Definition types_ns : gmap string string := {["<Default>" := c_namespace c_types]}.
Lemma create_content_types_spec exts ovs :
  create_content_types exts ovs = Ok (prolog +:+ render_root types_ns (types_tree exts ovs)).
Proof.
  unfold create_content_types, content_types_doc, bind.
  destruct (Doc_create "Types" (c_namespace c_types)) as (d & -> & Hd & Hns); [by vm_compute|].
  destruct (Doc_add_trees d _ _ _ _ (map default_tree exts) Hd) as (d1 & -> & Hd1 & Hns1);
    [apply Forall_map_all, default_tree_ok|].
  destruct (Doc_add_trees d1 _ _ _ _ (map override_tree ovs) Hd1) as (d2 & -> & Hd2 & Hns2);
    [apply Forall_map_all, override_tree_ok|].
  rewrite (Doc_write _ _ Hd2). cbn [app]. by rewrite Hns2, Hns1, Hns.
Qed.

(** Loading: which content type a part gets. *)
Definition has_attr (k v : string) (t : tree) : bool :=
  match attr_opt (t_attrs t) k with Some x => seqb x v | None => false end.
Definition override_of (cs : list tree) (name : string) : res (option string) :=
  match last (List.filter (has_attr "PartName" ("/" +:+ name)) cs) with
  | None => Ok None
  | Some t =>
      match attr_opt (t_attrs t) "ContentType" with
      | Some ct => Ok (Some ct)
      | None => Panic "called Option::unwrap() on a None value"
      end
  end.
Record Left (d : doc) (its : list itree) (seen : list string) : Prop := {
  lf_root : exists e, d_elems d !! 0 = Some e /\ e_children e = map child_entry its;
  lf_nodup : NoDup (0 :: map i_id its);
  lf_at : forall c, c ∈ its -> d_elems d !! i_id c = Some (elem_of_node 0 c)
          \/ d_elems d !! i_id c = None /\ (exists n, n ∈ seen /\ attr_opt (t_attrs (erase c)) "PartName" = Some ("/" +:+ n));
}.
Lemma sapp_inj_l a x y : a +:+ x = a +:+ y -> x = y.
Proof. induction a as [|c a IH]; [done|]. cbn. intros [= Hx]. by apply IH. Qed.
Lemma filter_ext_in' {A} (f g : A -> bool) l : (forall x, x ∈ l -> f x = g x) -> List.filter f l = List.filter g l.
Proof.
  induction l as [|x l IH]; intros Hf; [done|]. cbn. rewrite (Hf x) by left. rewrite IH; [done|].
  intros y Hy. apply Hf. by right.
Qed.
Lemma last_map {A B} (f : A -> B) l : last (map f l) = option_map f (last l).
Proof. induction l as [|x [|y l] IH]; [done|done|]. exact IH. Qed.
Lemma filter_map_comm {A B} (f : A -> B) (g : B -> bool) l :
  List.filter g (map f l) = map f (List.filter (fun x => g (f x)) l).
Proof. induction l as [|x l IH]; [done|]. cbn. destruct (g (f x)); cbn; by rewrite IH. Qed.
Lemma last_elem {A} (l : list A) x : last l = Some x -> x ∈ l.
Proof. rewrite last_Some. intros [l' ->]. apply elem_of_app. right. left. Qed.
Lemma get_override_spec d its seen name : Left d its seen -> name ∉ seen ->
  exists d', get_override_content_type name d = (d', override_of (map erase its) name)
  /\ Left d' its (name :: seen).
Proof.
  intros [(e & He & Hc) Hnd Hat] Hname. unfold get_override_content_type, bind, get, ids_by_attribute.
  change (default 0 None) with 0. rewrite He, Hc. rewrite filter_map_comm. rewrite map_map.
  set (hit := List.filter _ its).
  assert (hit = List.filter (fun c => has_attr "PartName" ("/" +:+ name) (erase c)) its) as Hhit.
  { apply filter_ext_in'. intros c Hcin. cbn [child_entry fst]. destruct (Hat c Hcin) as [->|[-> (n & Hn & Hp)]].
    - unfold elem_of_node. cbn [e_attrs]. unfold has_attr, attr_opt. destruct (t_attrs (erase c)); done.
    - unfold has_attr. rewrite Hp. symmetry. apply String.eqb_neq. intros Heq. apply sapp_inj_l in Heq. congruence. }
  unfold override_of. rewrite filter_map_comm, last_map. rewrite <- Hhit.
  assert (Left d its (name :: seen)) as Hl.
  { split; [by exists e|done|]. intros c Hcin. destruct (Hat c Hcin) as [?|[? (n & ? & ?)]]; [by left|]. right. split; [done|].
    exists n. split; [by right|done]. }
  destruct hit as [|h hit'] eqn:Eh; [by exists d|].
  rewrite <- Eh in *. cbn [map]. 
  assert (exists c, last hit = Some c) as (c & Hlast).
  { change (is_Some (last hit)). apply last_is_Some. by rewrite Eh. }
  assert (match map (fun x => (child_entry x).1) hit with [] => None | _ :: _ => Some (map (fun x => (child_entry x).1) hit) end
    = Some (map i_id hit)) as -> by (rewrite Eh; done).
  rewrite last_map, Hlast. cbn [option_map].
  assert (c ∈ hit) as Hcin by (by apply last_elem).
  assert (c ∈ its) as Hcits. { rewrite Hhit in Hcin. apply elem_of_list_In, filter_In in Hcin as [? _]. by apply elem_of_list_In. }
  assert (has_attr "PartName" ("/" +:+ name) (erase c) = true) as Hha.
  { rewrite Hhit in Hcin. by apply elem_of_list_In, filter_In in Hcin as [_ ?]. }
  assert (d_elems d !! i_id c = Some (elem_of_node 0 c)) as Hlk.
  { destruct (Hat c Hcits) as [?|[_ (n & Hn & Hp)]]; [done|]. exfalso. unfold has_attr in Hha. rewrite Hp in Hha.
    apply String.eqb_eq, sapp_inj_l in Hha. congruence. }
  unfold pop_element. rewrite Hlk. cbn [e_attrs elem_of_node].
  assert (exists a, t_attrs (erase c) = Some a) as (a & Ha).
  { unfold has_attr, attr_opt in Hha. destruct (t_attrs (erase c)); [eauto|done]. }
  unfold elem_of_node. cbn [e_attrs]. rewrite Ha. cbn [attr_opt].
  exists (with_elems d (delete (i_id c) (d_elems d))). split; [by destruct (a !! "ContentType")|].
  apply NoDup_cons in Hnd as [H0 Hnd]. split.
  - exists e. cbn. rewrite lookup_delete_ne; [done|]. intros Hx. apply H0. apply elem_of_list_fmap. exists c. done.
  - by apply NoDup_cons.
  - intros x Hx. cbn. destruct (decide (i_id x = i_id c)) as [Heq|Hne].
    + right. rewrite Heq, lookup_delete. split; [done|]. exists name. split; [left|].
      assert (x = c) as ->.
      { clear -Hnd Hx Hcits Heq. induction its as [|y its IH]; [by apply elem_of_nil in Hx|].
        cbn in Hnd. apply NoDup_cons in Hnd as [Hy Hnd]. apply elem_of_cons in Hx, Hcits.
        destruct Hx as [->|Hx], Hcits as [->|Hc]; [done| | |by apply IH];
          exfalso; apply Hy; apply elem_of_list_fmap; eauto. }
      unfold has_attr in Hha. rewrite Ha in Hha |- *. cbn in Hha |- *. destruct (a !! "PartName"); [|done].
      apply String.eqb_eq in Hha. congruence.
    + rewrite lookup_delete_ne by congruence. destruct (Hat x Hx) as [?|[? (n & ? & ?)]]; [by left|]. right. split; [done|].
      exists n. split; [by right|done].
Qed.
Definition loaded_entry (exts : list (string * string)) (cs : list tree) (nb : string * string) : res (string * entry) :=
  rmap (fun ct => (nb.1, pack (extension_of exts nb.1).1 (extension_of exts nb.1).2 ct nb.2)) (override_of cs nb.1).
Lemma load_files_pure exts its files : forall d seen acc, Left d its seen -> NoDup files.*1 ->
  (forall n, n ∈ files.*1 -> n ∉ seen) ->
  (load_files exts files acc d).2
  = rmap (fun l => foldl (fun m ne => <[ne.1 := ne.2]> m) acc l) (rmapM (loaded_entry exts (map erase its)) files).
Proof.
  induction files as [|[n b] files IH]; intros d seen acc Hl Hnd Hs; [done|].
  cbn [fmap list_fmap fst] in Hnd, Hs. apply NoDup_cons in Hnd as [Hn Hnd].
  cbn [load_files rmapM]. unfold bind. unfold loaded_entry at 1. cbn [fst snd].
  destruct (get_override_spec d its seen n Hl) as (d' & -> & Hl'); [apply Hs; left|].
  destruct (override_of (map erase its) n) as [ct| |]; [|done|done]. cbn [rmap rbind].
  rewrite (IH d' (n :: seen) _ Hl' Hnd).
  - destruct (rmapM _ files); done.
  - intros m Hm. rewrite not_elem_of_cons. split; [by intros ->|]. apply Hs. by right.
Qed.
Lemma Repr_Left d g a v its : Repr d (INode 0 g a v its) -> Left d its [].
Proof.
  intros Hr. apply Repr_node in Hr as (_ & H0 & Hcs & Hnd & _). split.
  - eexists. split; [exact H0|done].
  - apply NoDup_cons in Hnd as [Hn Hnd]. apply NoDup_cons. split.
    + intros Hx. apply Hn. apply elem_of_list_fmap in Hx as (c & -> & Hc). apply elem_of_flat_map. exists c. split; [done|apply ids_head].
    + clear -Hnd. induction its as [|c cs IH]; [constructor|]. cbn in *. apply NoDup_app in Hnd as (_ & Hd & Hn).
      apply NoDup_cons. split; [|by apply IH]. intros Hin. apply elem_of_list_fmap in Hin as (x & Hx & Hin).
      apply (Hd (i_id c)); [apply ids_head|]. apply elem_of_flat_map. exists x. split; [done|]. rewrite Hx. apply ids_head.
  - intros c Hc. left. pose proof (proj1 (HoldsAll_elem _ _ _) Hcs c Hc) as Hh. apply Holds_unfold in Hh as (e & He & -> & _).
    rewrite He. by destruct c.
Qed.
Definition extensions_of (cs : list tree) : res (list (string * string)) :=
  rmapM default_entry (map t_attrs (List.filter (fun t => seqb (t_tag t) "Default") cs)).
Lemma map_attrs_node (l : list itree) : map e_attrs (map (elem_of_node 0) l) = map t_attrs (map erase l).
Proof. rewrite !map_map. by apply map_ext. Qed.
(** The whole of loading, from the tree of the content types part. *)
Lemma load_archive_pure b files types d g a v cs :
  env_unzip b = Some files -> List.find (fun f : string * string => seqb f.1 content_types_name) files = Some (content_types_name, types) ->
  read_doc types = Ok d -> Doc d (Node g a v cs) ->
  load_archive b =
    rbind (extensions_of cs) (fun exts =>
    rmap (fun l => foldl (fun m ne => <[ne.1 := ne.2]> m) ∅ l)
      (rmapM (loaded_entry exts (List.filter (fun t => negb (seqb (t_tag t) "Default")) cs))
        (List.filter (fun f : string * string => negb (seqb content_types_name f.1)) files))).
Proof.
  intros Hu Hf Hr Hd. unfold load_archive. rewrite Hu. cbn [of_option rbind]. rewrite Hf, Hr. cbn [rbind].
  apply Doc_inv in Hd as (its & Hc & Hrep). cbn in Hc, Hrep. subst cs.
  destruct (Repr_pop_root d g a v its "Default" Hrep) as (d' & Ep & Hrep' & _).
  assert (NoDup (List.filter (fun f : string * string => negb (seqb content_types_name f.1)) files).*1) as Hnd.
  { assert (NoDup files.*1) as Hnd by (by eapply env_unzip_nodup). clear -Hnd.
    induction files as [|f fs IH]; [constructor|]. cbn in Hnd. apply NoDup_cons in Hnd as [H1 H2]. cbn.
    destruct (negb _); [|by apply IH]. cbn. apply NoDup_cons. split; [|by apply IH]. intros Hin. apply H1.
    apply elem_of_list_fmap in Hin as (y & -> & Hy). apply elem_of_list_fmap. exists y. split; [done|].
    apply elem_of_list_In, filter_In in Hy as [Hy _]. by apply elem_of_list_In. }
  unfold bind at 1. unfold get_extensions, bind. rewrite Ep.
  assert (forall cs0, match match cs0 with [] => None | _ => Some (map (elem_of_node 0) cs0) end with
     | Some es => lift (S:=doc) (rmapM default_entry (map e_attrs es)) | None => ret [] end d'
     = (d', rmapM default_entry (map t_attrs (map erase cs0)))) as Hx.
  { intros [|c0 cs0]; [done|]. rewrite map_attrs_node. done. }
  rewrite Hx. rewrite (filter_erase (fun t => seqb t "Default")). fold (extensions_of (map erase its)).
  destruct (extensions_of (map erase its)) as [exts| |]; [|done|done]. cbn [rbind].
  rewrite (load_files_pure exts _ _ d' [] ∅ (Repr_Left _ _ _ _ _ Hrep') Hnd) by (intros n _; apply not_elem_of_nil).
  by rewrite (filter_erase (fun t => negb (seqb t "Default"))).
Qed.
End with_env.
