(** Edits of a document described on trees. *)
From Verif.Model Require Import XmlTree XmlWrite XmlRead XmlView.
From Verif.Spec Require Import XmlSpec XmlRepr XmlHistory.
From Verif.Proofs Require Import BaseFacts XmlWriteFacts XmlReadFacts XmlTreeFacts XmlHistFacts.

Lemma attrs_of_nil : attrs_of [] = ∅. Proof. done. Qed.

Section with_env.
Context `{Env}.

(** ** Growing a new element *)
Lemma Added_new d p e g : Bound d -> d_elems d !! p = Some e -> is_valid_xml_name g = true ->
  exists d1, append_child g (Some p) d = (d1, Ok (d_running d + 1))
    /\ Added d p e d1 [INode (d_running d + 1) g None None []]
    /\ d_elems d1 !! (d_running d + 1) = Some (mkElem (d_running d + 1) p g None None []).
Proof.
  intros Hb Hp Hg. set (id := d_running d + 1).
  assert (p <= d_running d) as Hpr by (by eapply Hb).
  eexists. split.
  { unfold append_child, insert_with. change (default 0 (Some p)) with p. cbv zeta.
    unfold new_elem. rewrite Hp, Hg. fold id. reflexivity. }
  split; [|cbn; by rewrite lookup_insert]. split.
  - done.
  - cbn. unfold id. lia.
  - intros k x. cbn. destruct (decide (k = id)) as [->|Hk]; [lia|]. rewrite lookup_insert_ne by done.
    destruct (decide (k = p)) as [->|Hk']; [intros _; unfold id; lia|]. rewrite lookup_insert_ne by done.
    intros Hx. apply Hb in Hx. unfold id. lia.
  - cbn. rewrite lookup_insert_ne by (unfold id; lia). by rewrite lookup_insert.
  - apply HoldsAll_cons. split; [|apply Forall_nil; done]. apply Holds_children. split; [|apply Forall_nil; done].
    cbn. by rewrite lookup_insert.
  - cbn. apply NoDup_singleton.
  - cbn. intros k ->%elem_of_list_singleton. unfold id. lia.
  - intros k. cbn. rewrite !not_elem_of_cons. intros (H1 & H2 & _). by rewrite !lookup_insert_ne.
Qed.
(** What has been done below a fresh element [id] since [d]. *)
Record Filled (d : doc) (id q : N) (g : string) (d' : doc) (a : option (gmap string string))
    (v : option string) (its : list itree) : Prop := {
  fl_ns : d_ns d' = d_ns d;
  fl_run : d_running d <= d_running d';
  fl_bound : Bound d';
  fl_id : d_elems d' !! id = Some (mkElem id q g a v (map child_entry its));
  fl_holds : HoldsAll (d_elems d') id its;
  fl_nodup : NoDup (flat_map ids its);
  fl_range : forall k, k ∈ flat_map ids its -> d_running d < k <= d_running d';
  fl_frame : agree_off (id :: flat_map ids its) (d_elems d) (d_elems d');
}.
Lemma Filled_start d id q g : Bound d -> d_elems d !! id = Some (mkElem id q g None None []) ->
  Filled d id q g d None None [].
Proof.
  intros Hb Hid. split; try done; cbn.
  - apply Forall_nil. done.
  - constructor.
  - intros k Hk. by apply elem_of_nil in Hk.
Qed.
Lemma Filled_update d id q g d1 a v its a' v' : Bound d -> is_Some (d_elems d !! id) ->
  Filled d id q g d1 a v its ->
  Filled d id q g (with_elems d1 (<[id := mkElem id q g a' v' (map child_entry its)]> (d_elems d1))) a' v' its.
Proof.
  intros Hb [x Hx] [Hns Hr Hb1 Hid Hh Hnd Hrg Hf]. split; try done; cbn.
  - intros k y. cbn. destruct (decide (k = id)) as [->|Hk]; [apply Hb in Hx; lia|]. rewrite lookup_insert_ne by done. apply Hb1.
  - by rewrite lookup_insert.
  - apply (HoldsAll_agree [id] (d_elems d1)); [| |done].
    + intros k Hk. apply not_elem_of_cons in Hk as [Hk _]. by rewrite lookup_insert_ne.
    + intros k Hk. rewrite elem_of_list_singleton. intros ->. apply Hrg in Hk. apply Hb in Hx. lia.
  - intros k Hk. rewrite lookup_insert_ne; [by apply Hf|]. intros <-. apply Hk. left.
Qed.
Lemma Filled_below d id q g d1 a v its d2 its' : Bound d -> is_Some (d_elems d !! id) ->
  Filled d id q g d1 a v its -> Added d1 id (mkElem id q g a v (map child_entry its)) d2 its' ->
  Filled d id q g d2 a v (its ++ its').
Proof.
  intros Hb [x Hx] [Hns Hr Hb1 Hid Hh Hnd Hrg Hf] [Hns2 Hr2 Hb2 Hp2 Hh2 Hnd2 Hrg2 Hf2].
  apply Hb in Hx.
  assert (forall k, k ∈ flat_map ids its -> k ∉ id :: flat_map ids its') as Hdis.
  { intros k Hk. rewrite not_elem_of_cons. apply Hrg in Hk. split; [lia|]. intros Hk'. apply Hrg2 in Hk'. lia. }
  split.
  - congruence.
  - lia.
  - done.
  - rewrite Hp2. cbn. by rewrite map_app.
  - assert (HoldsAll (d_elems d2) id its) as Hi2 by (eapply HoldsAll_agree; [exact Hf2|exact Hdis|exact Hh]).
    apply HoldsAll_elem. intros c. rewrite elem_of_app.
    intros [Hc|Hc]; [by apply (proj1 (HoldsAll_elem _ _ _) Hi2)|by apply (proj1 (HoldsAll_elem _ _ _) Hh2)].
  - rewrite flat_map_app. apply NoDup_app. split; [done|]. split; [|done]. intros k Hk Hk'. apply (Hdis k Hk). by right.
  - intros k. rewrite flat_map_app, elem_of_app. intros [Hk|Hk]; [apply Hrg in Hk|apply Hrg2 in Hk]; lia.
  - intros k. rewrite flat_map_app, not_elem_of_cons, not_elem_of_app. intros (H1 & H2 & H3).
    rewrite Hf2 by (by rewrite not_elem_of_cons). apply Hf. by rewrite not_elem_of_cons.
Qed.
Lemma Added_filled d p e d1 id g d2 a v its : Bound d -> d_elems d !! p = Some e ->
  Added d p e d1 [INode id g None None []] -> Filled d1 id p g d2 a v its ->
  Added d p e d2 [INode id g a v its].
Proof.
  intros Hb Hp [Hns Hr Hb1 Hp1 Hh Hnd Hrg Hf] [Hns2 Hr2 Hb2 Hid2 Hh2 Hnd2 Hrg2 Hf2].
  assert (p <= d_running d) as Hpr by (by eapply Hb).
  cbn [flat_map ids app] in Hnd, Hrg, Hf.
  assert (d_running d < id <= d_running d1) as Hidr by (apply Hrg; left).
  split.
  - congruence.
  - lia.
  - done.
  - rewrite Hf2; [done|]. rewrite not_elem_of_cons. split; [lia|]. intros Hk. apply Hrg2 in Hk. lia.
  - apply HoldsAll_cons. split; [|apply Forall_nil; done]. by apply Holds_children.
  - cbn. rewrite app_nil_r. apply NoDup_cons. split; [|done]. intros Hk. apply Hrg2 in Hk. lia.
  - intros k. cbn. rewrite app_nil_r, elem_of_cons. intros [->|Hk]; [lia|]. apply Hrg2 in Hk. lia.
  - intros k. cbn. rewrite app_nil_r, !not_elem_of_cons. intros (H1 & H2 & H3).
    rewrite Hf2 by (by rewrite not_elem_of_cons). apply Hf. rewrite !not_elem_of_cons. split; [done|]. split; [done|]. apply not_elem_of_nil.
Qed.

(** ** Filling it from a tree *)
Lemma attrs_ok_plain m : attrs_ok (Some m) -> plain_attrs m.
Proof. done. Qed.
Definition fill_list (id : N) : list tree -> M doc unit :=
  fix go l := match l with
              | [] => ret tt
              | c :: l => bind (bind (append_child (t_tag c) (Some id)) (fun i => fill i c)) (fun _ => go l)
              end.
Lemma fill_unfold id g a v cs : fill id (Node g a v cs) =
  bind (match a with Some m => set_attributes id m | None => ret tt end) (fun _ =>
  bind (match v with Some s => set_value id s | None => ret tt end) (fun _ => fill_list id cs)).
Proof. done. Qed.
Lemma fill_list_iter id l d : fill_list id l d = add_trees id l d.
Proof.
  revert d. induction l as [|c l IH]; intros d; [done|]. cbn. unfold bind, add_tree, bind.
  destruct (append_child _ _ d) as [d1 [i| |]]; [|done|done]. destruct (fill i c d1) as [d2 [[]| |]]; [|done|done].
  apply IH.
Qed.

Definition fills (t : tree) : Prop := forall d id q,
  Bound d -> d_elems d !! id = Some (mkElem id q (t_tag t) None None []) ->
  exists d2 its, fill id t d = (d2, Ok tt) /\ map erase its = t_children t
    /\ Filled d id q (t_tag t) d2 (t_attrs t) (t_value t) its.
Lemma names_ok_tag t : names_ok t -> is_valid_xml_name (t_tag t) = true.
Proof. destruct t. rewrite names_ok_node. by intros [? _]. Qed.
Lemma add_tree_fills t d p e : fills t -> names_ok t -> d_elems d !! p = Some e -> Bound d ->
  exists d' it, add_tree p t d = (d', Ok tt) /\ erase it = t /\ Added d p e d' [it].
Proof.
  intros Hf Hn Hp Hb. destruct (Added_new d p e (t_tag t) Hb Hp (names_ok_tag t Hn)) as (d1 & E1 & Hadd & Hid).
  destruct (Hf d1 _ p (add_bound _ _ _ _ _ Hadd) Hid) as (d2 & its & E2 & He & Hfl).
  exists d2, (INode (d_running d + 1) (t_tag t) (t_attrs t) (t_value t) its). split; [|split].
  - unfold add_tree, bind. rewrite E1. done.
  - cbn. rewrite He. by destruct t.
  - by eapply Added_filled.
Qed.
Lemma fill_spec t : names_ok t -> fills t.
Proof.
  induction t as [g a v cs IH] using tree_rect'. rewrite names_ok_node. intros (Hg & Ha & Hcs) d id q Hb Hid.
  cbn [t_tag t_attrs t_value t_children] in *. rewrite fill_unfold.
  assert (is_Some (d_elems d !! id)) as Hsome by eauto.
  pose proof (Filled_start d id q g Hb Hid) as Hfl.
  assert (exists d2, match a with Some m => set_attributes id m | None => ret tt end d = (d2, Ok tt)
    /\ Filled d id q g d2 a None []) as (d2 & E2 & Hfl2).
  { destruct a as [m|]; [|by eexists].
    eexists. split; [|by eapply (Filled_update _ _ _ _ _ _ _ _ (Some m) None Hb Hsome Hfl)].
    erewrite set_attributes_plain; [|done|exact Hid]. done. }
  assert (exists d3, match v with Some s => set_value id s | None => ret tt end d2 = (d3, Ok tt)
    /\ Filled d id q g d3 a v []) as (d3 & E3 & Hfl3).
  { destruct v as [s|]; [|by eexists].
    eexists. split; [|by eapply (Filled_update _ _ _ _ _ _ _ _ a (Some s) Hb Hsome Hfl2)].
    unfold set_value. rewrite (fl_id _ _ _ _ _ _ _ _ Hfl2). done. }
  unfold bind at 1. rewrite E2. unfold bind at 1. rewrite E3. rewrite fill_list_iter.
  assert (forall l its d3, Forall (fun t => names_ok t -> fills t) l -> Forall names_ok l -> Filled d id q g d3 a v its ->
    exists d4 its', add_trees id l d3 = (d4, Ok tt) /\ map erase its' = l /\ Filled d id q g d4 a v (its ++ its')) as Hgo.
  { clear -Hb Hsome. induction l as [|c l IHl]; intros its d3 Hl Hn Hfl3.
    - exists d3, []. rewrite app_nil_r. done.
    - apply Forall_cons in Hl as [Hc Hl]. apply Forall_cons in Hn as [Hnc Hnl].
      destruct (add_tree_fills c d3 id _ (Hc Hnc) Hnc (fl_id _ _ _ _ _ _ _ _ Hfl3) (fl_bound _ _ _ _ _ _ _ _ Hfl3))
        as (d4 & it & E4 & He & Hadd4).
      pose proof (Filled_below _ _ _ _ _ _ _ _ _ _ Hb Hsome Hfl3 Hadd4) as Hfl4.
      destruct (IHl (its ++ [it]) d4 Hl Hnl Hfl4) as (d6 & its' & E6 & He' & Hfl5).
      exists d6, (it :: its'). split; [|split].
      + unfold add_trees in *. cbn [iterM]. unfold bind. rewrite E4. done.
      + cbn. by rewrite He, He'.
      + by rewrite <- app_assoc in Hfl5. }
  destruct (Hgo cs [] d3 IH Hcs Hfl3) as (d4 & its' & E4 & He & Hfl4). eauto.
Qed.
Lemma add_tree_spec t d p e : names_ok t -> d_elems d !! p = Some e -> Bound d ->
  exists d' it, add_tree p t d = (d', Ok tt) /\ erase it = t /\ Added d p e d' [it].
Proof. intros Hn. by apply add_tree_fills; [apply fill_spec|]. Qed.
Lemma add_trees_spec l d p e : Forall names_ok l -> d_elems d !! p = Some e -> Bound d ->
  exists d' its, add_trees p l d = (d', Ok tt) /\ map erase its = l /\ Added d p e d' its.
Proof.
  intros Hl. revert d e. induction Hl as [|t l Ht Hl IH]; intros d e Hp Hb.
  - exists d, []. split; [done|]. split; [done|]. by apply Added_nil.
  - destruct (add_tree_spec t d p e Ht Hp Hb) as (d1 & it & E1 & He & Ha).
    destruct (IH d1 (set_children e (e_children e ++ [child_entry it]))) as (d2 & its & E2 & He2 & Ha2);
      [apply Ha|apply Ha|].
    exists d2, (it :: its). split; [|split].
    + unfold add_trees in *. cbn [iterM]. unfold bind. rewrite E1. done.
    + cbn. by rewrite He, He2.
    + by eapply Added_cons.
Qed.

(** ** Documents seen as trees *)
Definition Doc (d : doc) (t : tree) : Prop := exists it, Repr d it /\ erase it = t.

Lemma Repr_node d i g a v cs : Repr d (INode i g a v cs) ->
  i = 0 /\ d_elems d !! 0 = Some (mkElem 0 0 g a v (map child_entry cs)) /\ HoldsAll (d_elems d) 0 cs
  /\ NoDup (0 :: flat_map ids cs) /\ Bound d.
Proof.
  intros [(Hi & Hnd & Hh) Hb]. cbn in Hi. subst i. apply Holds_children in Hh as [H1 H2]. done.
Qed.
Lemma Repr_intro d g a v cs : d_elems d !! 0 = Some (mkElem 0 0 g a v (map child_entry cs)) ->
  HoldsAll (d_elems d) 0 cs -> NoDup (0 :: flat_map ids cs) -> Bound d -> Repr d (INode 0 g a v cs).
Proof. intros H1 H2 H3 Hb. split; [|done]. split; [done|]. split; [done|]. by apply Holds_children. Qed.
Lemma Doc_inv d t : Doc d t -> exists cs, t_children t = map erase cs
  /\ Repr d (INode 0 (t_tag t) (t_attrs t) (t_value t) cs).
Proof.
  intros ([i g a v cs] & Hr & <-). exists cs. split; [done|]. assert (Hr' := Hr).
  apply Repr_node in Hr as [-> _]. done.
Qed.
Lemma Doc_intro d g a v cs : Repr d (INode 0 g a v cs) -> Doc d (Node g a v (map erase cs)).
Proof. intros Hr. eexists. split; [exact Hr|done]. Qed.

Lemma Repr_added d g a v cs d' its : Repr d (INode 0 g a v cs) ->
  Added d 0 (mkElem 0 0 g a v (map child_entry cs)) d' its -> Repr d' (INode 0 g a v (cs ++ its)).
Proof.
  intros Hr [Hns Hrn Hb' Hp Hh Hnd Hrg Hf]. assert (Hr' := Hr). apply Repr_node in Hr' as (_ & H0 & Hcs & Hn & Hb).
  apply NoDup_cons in Hn as [H0n Hn].
  assert (forall k, k ∈ flat_map ids cs -> k ∉ 0 :: flat_map ids its) as Hdis.
  { intros k Hk. rewrite not_elem_of_cons. split; [by intros ->|]. intros Hk'. apply Hrg in Hk'.
    assert (k <= d_running d); [|lia]. eapply Repr_ids_le; [exact Hr|]. cbn. by right. }
  apply Repr_intro; [rewrite Hp; cbn; by rewrite map_app| | |done].
  - apply HoldsAll_elem. intros c. rewrite elem_of_app. intros [Hc|Hc].
    + assert (HoldsAll (d_elems d') 0 cs) as Hc2 by (eapply HoldsAll_agree; [exact Hf|exact Hdis|done]).
      by apply (proj1 (HoldsAll_elem _ _ _) Hc2).
    + by apply (proj1 (HoldsAll_elem _ _ _) Hh).
  - rewrite flat_map_app. apply NoDup_cons. split.
    + rewrite not_elem_of_app. split; [done|]. intros Hk. apply Hrg in Hk. lia.
    + apply NoDup_app. split; [done|]. split; [|done]. intros k Hk Hk'. apply (Hdis k Hk). by right.
Qed.
Lemma Doc_add_trees d g a v cs l : Doc d (Node g a v cs) -> Forall names_ok l ->
  exists d', add_trees 0 l d = (d', Ok tt) /\ Doc d' (Node g a v (cs ++ l)) /\ d_ns d' = d_ns d.
Proof.
  intros Hd Hl. apply Doc_inv in Hd as (its & Hc & Hr). cbn in Hc, Hr. subst cs.
  assert (Hr' := Hr). apply Repr_node in Hr' as (_ & H0 & _ & _ & Hb).
  destruct (add_trees_spec l d 0 _ Hl H0 Hb) as (d' & its' & E & He & Ha).
  exists d'. split; [done|]. split; [|apply Ha]. rewrite <- He, <- map_app. by apply Doc_intro, (Repr_added d).
Qed.
Lemma Doc_add_tree d g a v cs t : Doc d (Node g a v cs) -> names_ok t ->
  exists d', add_tree 0 t d = (d', Ok tt) /\ Doc d' (Node g a v (cs ++ [t])) /\ d_ns d' = d_ns d.
Proof.
  intros Hd Ht. destruct (Doc_add_trees d g a v cs [t] Hd) as (d' & E & H1 & H2); [by repeat constructor|].
  exists d'. split; [|done]. cbn in E. unfold bind in E. destruct (add_tree 0 t d) as [d1 [[]| |]]; done.
Qed.

(** ** Insertion in the middle *)
Fixpoint ins_after_found (find : string) (t : tree) (cs : list tree) : option (list tree) :=
  match cs with
  | [] => None
  | c :: cs' =>
      match ins_after_found find t cs' with
      | Some r => Some (c :: r)
      | None => if seqb (t_tag c) find then Some (c :: t :: cs') else None
      end
  end.
Definition ins_after (find : string) (t : tree) (cs : list tree) : list tree :=
  match ins_after_found find t cs with Some r => r | None => cs ++ [t] end.

(** Permuting the children of the root. *)
Lemma flat_map_perm {A B} (f : A -> list B) l l' : Permutation l l' -> Permutation (flat_map f l) (flat_map f l').
Proof.
  induction 1 as [|x l l' _ IH|x y l|l l' l'' _ IH1 _ IH2]; cbn; [done|by rewrite IH| |by etrans].
  rewrite !app_assoc. by rewrite (Permutation_app_comm (f y)).
Qed.
Lemma Repr_permute d d' g a v cs cs' : Repr d (INode 0 g a v cs) -> Permutation cs cs' ->
  d_elems d' = <[0 := mkElem 0 0 g a v (map child_entry cs')]> (d_elems d) -> d_running d' = d_running d ->
  Repr d' (INode 0 g a v cs').
Proof.
  intros Hr Hp He Hrun. apply Repr_node in Hr as (_ & H0 & Hcs & Hn & Hb).
  assert (Permutation (flat_map ids cs) (flat_map ids cs')) as Hpi by (by apply flat_map_perm).
  apply Repr_intro.
  - by rewrite He, lookup_insert.
  - apply HoldsAll_elem. intros c Hc. assert (c ∈ cs) as Hc' by (by rewrite Hp).
    eapply Holds_agree; [|by apply (proj1 (HoldsAll_elem _ _ _) Hcs)].
    intros k Hk. rewrite He, lookup_insert_ne; [done|]. intros <-. apply NoDup_cons in Hn as [Hn _]. apply Hn.
    apply elem_of_flat_map. eauto.
  - by rewrite <- Hpi.
  - intros k e. rewrite He, Hrun. destruct (decide (k = 0)) as [->|Hk]; [lia|]. rewrite lookup_insert_ne by done. apply Hb.
Qed.

(** An insertion of a leaf is an append followed by a permutation of the entries of the root, and
    nothing done below the leaf looks at them. So: rotate, fill, rotate back. *)
Lemma place_after_split tag find id (cs : list itree) t : t_tag t = tag -> exists l1 l2, cs = l1 ++ l2
  /\ place_after tag find id (map child_entry cs) = map child_entry l1 ++ (id, tag) :: map child_entry l2
  /\ ins_after find t (map erase cs) = map erase l1 ++ t :: map erase l2.
Proof.
  intros Ht. unfold place_after, ins_after.
  assert (match place_after_found tag find id (map child_entry cs), ins_after_found find t (map erase cs) with
    | Some r, Some r' => exists l1 l2, cs = l1 ++ l2 /\ r = map child_entry l1 ++ (id, tag) :: map child_entry l2
                                    /\ r' = map erase l1 ++ t :: map erase l2
    | None, None => True | _, _ => False end) as Hx.
  { induction cs as [|c cs IH]; [done|]. cbn [map place_after_found ins_after_found].
    destruct (place_after_found tag find id (map child_entry cs)), (ins_after_found find t (map erase cs)); try done.
    - destruct IH as (l1 & l2 & -> & -> & ->). exists (c :: l1), l2. done.
    - assert (t_tag (erase c) = i_tag c) as -> by (by destruct c). cbn [child_entry snd].
      destruct (seqb (i_tag c) find); [|done]. exists [c], cs. done. }
  destruct (place_after_found tag find id (map child_entry cs)), (ins_after_found find t (map erase cs)); try done.
  exists cs, []. rewrite app_nil_r. done.
Qed.
Lemma subst_mid id n g a v l1 l2 g' : id <> 0 -> id ∉ flat_map ids l1 -> id ∉ flat_map ids l2 ->
  subst id n (INode 0 g a v (l1 ++ INode id g' None None [] :: l2)) = INode 0 g a v (l1 ++ n :: l2).
Proof.
  intros Hid H1 H2. cbn [subst]. destruct (N.eqb_spec 0 id); [done|]. f_equal. rewrite map_app. cbn [map subst].
  rewrite N.eqb_refl. by rewrite !map_subst_notin.
Qed.
Lemma Doc_insert d g a v cs t place cs' : Doc d (Node g a v cs) -> names_ok t ->
  (forall id (l : list itree), map erase l = cs -> exists l1 l2, l = l1 ++ l2
     /\ place id (map child_entry l) = Ok (map child_entry l1 ++ (id, t_tag t) :: map child_entry l2)
     /\ cs' = map erase l1 ++ t :: map erase l2) ->
  exists d', bind (insert_with place (t_tag t) None) (fun i => fill i t) d = (d', Ok tt)
    /\ Doc d' (Node g a v cs') /\ d_ns d' = d_ns d.
Proof.
  intros Hd Ht Hpl. apply Doc_inv in Hd as (its & Hc & Hr). cbn in Hc, Hr. subst cs.
  assert (Hr' := Hr). apply Repr_node in Hr' as (_ & H0 & Hcs & Hnd & Hb). set (id := d_running d + 1).
  destruct (Hpl id its eq_refl) as (l1 & l2 & -> & Hp & ->).
  unfold bind at 1, insert_with. change (default 0 None) with 0. cbv zeta. rewrite H0.
  unfold new_elem. rewrite (names_ok_tag t Ht). cbn [e_children]. fold id. rewrite Hp. unfold set_children. cbn [e_id e_parent e_tag e_attrs e_value].
  set (d1 := mkDoc id (d_ns d) _).
  assert (forall k, k ∈ flat_map ids (l1 ++ l2) -> k < id) as Hlt.
  { intros k Hk. assert (k <= d_running d); [|unfold id; lia]. eapply Repr_ids_le; [exact Hr|]. cbn. by right. }
  rewrite flat_map_app in Hlt. apply NoDup_cons in Hnd as [H0n Hnd]. rewrite flat_map_app in H0n, Hnd.
  assert (Bound d1) as Hb1.
  { intros k x. unfold d1. cbn. destruct (decide (k = id)) as [->|Hk]; [lia|]. rewrite lookup_insert_ne by done.
    destruct (decide (k = 0)) as [->|Hk']; [lia|]. rewrite lookup_insert_ne by done. intros Hx. apply Hb in Hx. unfold id. lia. }
  assert (Repr d1 (INode 0 g a v (l1 ++ INode id (t_tag t) None None [] :: l2))) as Hr1.
  { apply Repr_intro; [| | |done].
    - unfold d1. cbn. rewrite lookup_insert_ne by (unfold id; lia). rewrite lookup_insert. by rewrite map_app.
    - apply HoldsAll_elem. intros c. rewrite elem_of_app, elem_of_cons. intros Hc.
      assert (c = INode id (t_tag t) None None [] \/ c ∈ l1 ++ l2) as [->|Hc'] by (rewrite elem_of_app; tauto).
      + apply Holds_children. split; [unfold d1; cbn; by rewrite lookup_insert|]. apply Forall_nil. done.
      + eapply Holds_agree; [|by apply (proj1 (HoldsAll_elem _ _ _) Hcs)]. intros k Hk.
        assert (k ∈ flat_map ids l1 ++ flat_map ids l2) as Hk'.
        { rewrite <- flat_map_app. apply elem_of_flat_map. eauto. }
        unfold d1. cbn. rewrite lookup_insert_ne by (apply Hlt in Hk'; lia).
        rewrite lookup_insert_ne; [done|]. by intros <-.
    - rewrite flat_map_middle. cbn [ids flat_map app]. apply NoDup_cons. split.
      + rewrite elem_of_app, elem_of_cons. rewrite elem_of_app in H0n. intros [Hx|[Hx|Hx]]; [tauto|unfold id in Hx; lia|tauto].
      + apply NoDup_app in Hnd as (Hn1 & Hd & Hn2). apply NoDup_app. split; [done|]. split.
        * intros k Hk. rewrite not_elem_of_cons. split; [|by apply Hd]. assert (k < id); [|lia]. apply Hlt, elem_of_app. by left.
        * apply NoDup_cons. split; [|done]. intros Hk. assert (id < id); [|lia]. apply Hlt, elem_of_app. by right. }
  assert (id ∈ ids (INode 0 g a v (l1 ++ INode id (t_tag t) None None [] :: l2))) as Hin.
  { cbn [ids]. right. rewrite flat_map_middle. rewrite elem_of_app. right. cbn. left. }
  destruct (fill_spec t Ht d1 id 0 Hb1) as (d2 & its & E2 & He & Hfl); [unfold d1; cbn; by rewrite lookup_insert|].
  exists d2. split; [done|]. split; [|apply Hfl].
  assert (Repr d2 (INode 0 g a v (l1 ++ INode id (t_tag t) (t_attrs t) (t_value t) its :: l2))) as Hr2.
  { rewrite <- (subst_mid id _ g a v l1 l2 (t_tag t)); [|unfold id; lia| |].
    2:{ intros Hk. assert (id < id); [|lia]. apply Hlt, elem_of_app. by left. }
    2:{ intros Hk. assert (id < id); [|lia]. apply Hlt, elem_of_app. by right. }
    destruct (Repr_focus d1 _ id Hr1 Hin) as (q & g1 & a1 & v1 & cs1 & Hsub & Hlk & Hh1 & Hn1 & _ & _ & Hfoc).
    assert (d_elems d1 !! id = Some (mkElem id 0 (t_tag t) None None [])) as Hlk' by (unfold d1; cbn; by rewrite lookup_insert).
    rewrite Hlk' in Hlk. injection Hlk as <- <- <- <- Hcs1. symmetry in Hcs1. apply map_eq_nil in Hcs1. subst cs1.
    apply Hfoc; [apply Hfl|apply Hfl|apply Hfl| | |apply Hfl].
    - intros k Hk. right. apply Hfl in Hk. intros Hk'. eapply Repr_ids_le in Hk'; [|exact Hr1]. lia.
    - intros k Hk Hk'. apply (fl_frame _ _ _ _ _ _ _ _ Hfl). rewrite not_elem_of_cons in Hk' |- *.
      split; [tauto|]. intros Hk2. apply Hfl in Hk2. eapply Repr_ids_le in Hk; [|exact Hr1]. lia. }
  apply Doc_intro in Hr2. rewrite map_app in Hr2. cbn [map erase] in Hr2. rewrite He in Hr2.
  assert (Node (t_tag t) (t_attrs t) (t_value t) (t_children t) = t) as Ht' by (by destruct t).
  by rewrite Ht' in Hr2.
Qed.
Lemma Doc_insert_after d g a v cs find t : Doc d (Node g a v cs) -> names_ok t ->
  exists d', insert_tree_after find t d = (d', Ok tt)
    /\ Doc d' (Node g a v (ins_after find t cs)) /\ d_ns d' = d_ns d.
Proof.
  intros Hd Ht. apply (Doc_insert d g a v cs t (fun id l => Ok (place_after (t_tag t) find id l))); [done|done|].
  intros id l <-. destruct (place_after_split (t_tag t) find id l t eq_refl) as (l1 & l2 & -> & -> & ->).
  exists l1, l2. done.
Qed.

(** ** Taking subtrees out *)
Lemma subtree_holds it : forall m p f, Holds m p it -> (length (ids it) <= f)%nat ->
  subtree f m (mkElem (i_id it) p (i_tag it) (t_attrs (erase it)) (t_value (erase it))
      (map child_entry (match it with INode _ _ _ _ cs => cs end))) = Ok (erase it).
Proof.
  induction it as [i g a v cs IH] using itree_rect'. intros m p f Hh Hf. apply Holds_children in Hh as [Hi Hcs].
  destruct f as [|f]; [cbn in Hf; lia|]. cbn [subtree e_children i_id i_tag erase t_attrs t_value e_tag e_attrs e_value].
  assert (rmapM (fun c : N * string => match m !! c.1 with Some x => subtree f m x | None => Err "element not found" end)
            (map child_entry cs) = Ok (map erase cs)) as ->; [|done].
  assert (length (flat_map ids cs) <= f)%nat as Hf' by (cbn in Hf; lia). clear Hf Hi.
  induction IH as [|c cs Hc _ IHl]; [done|]. apply HoldsAll_cons in Hcs as [Hhc Hcs].
  cbn [flat_map] in Hf'. rewrite app_length in Hf'. cbn [map rmapM child_entry fst].
  assert (Hhc' := Hhc). apply Holds_unfold in Hhc' as (e & -> & He & _).
  assert (e = mkElem (i_id c) i (i_tag c) (t_attrs (erase c)) (t_value (erase c))
      (map child_entry (match c with INode _ _ _ _ cs => cs end))) as -> by (subst e; by destruct c).
  rewrite (Hc m i f Hhc) by lia. cbn [rbind]. rewrite IHl by (done || lia). done.
Qed.
Lemma NoDup_size (m : gmap N elem) l : NoDup l -> (forall k, k ∈ l -> is_Some (m !! k)) -> (length l <= size m)%nat.
Proof.
  intros Hn Hm. rewrite <- (size_list_to_set (C:=gset N)) by done. rewrite <- size_dom.
  apply subseteq_size. intros k Hk. apply elem_of_list_to_set in Hk. apply elem_of_dom. by apply Hm.
Qed.
Lemma Holds_keys m p it k : Holds m p it -> k ∈ ids it -> is_Some (m !! k).
Proof.
  revert p. induction it as [i g a v cs IH] using itree_rect'. intros p Hh. apply Holds_children in Hh as [Hi Hcs].
  cbn [ids]. rewrite elem_of_cons. intros [->|Hk]; [eauto|]. apply elem_of_flat_map in Hk as (c & Hc & Hk).
  rewrite Forall_forall in IH. apply (IH c Hc i); [|done]. by apply (proj1 (HoldsAll_elem _ _ _) Hcs).
Qed.
Definition elem_of_node (p : N) (it : itree) : elem :=
  mkElem (i_id it) p (i_tag it) (t_attrs (erase it)) (t_value (erase it))
      (map child_entry (match it with INode _ _ _ _ cs => cs end)).
Lemma Repr_pop_root d g a v cs tag : Repr d (INode 0 g a v cs) ->
  let hit := List.filter (fun c => seqb (i_tag c) tag) cs in
  exists d', pop_elements_by_tag tag None d
      = (d', Ok match hit with [] => None | _ => Some (map (elem_of_node 0) hit) end)
  /\ Repr d' (INode 0 g a v (List.filter (fun c => negb (seqb (i_tag c) tag)) cs))
  /\ d_ns d' = d_ns d
  /\ (forall c, c ∈ hit -> forall x, x ∈ (match c with INode _ _ _ _ l => l end) -> Holds (d_elems d') (i_id c) x)
  /\ d_running d' = d_running d.
Proof.
  intros Hr hit. assert (Hr' := Hr). apply Repr_node in Hr' as (_ & H0 & Hcs & Hnd & Hb).
  assert (exists cs0, map child_entry cs = map child_entry cs0 /\
     Repr (pop_elements_by_tag tag (Some 0) d).1 (subst 0 (INode 0 g a v (List.filter (fun c => negb (seqb (i_tag c) tag)) cs0)) (INode 0 g a v cs)) /\ cs0 = cs)
     as (cs0 & _ & Hpop & ->).
  { destruct (pop_elements_by_tag tag (Some 0) d) as [d' r] eqn:Ep.
    destruct (Repr_pop d _ 0 _ tag d' r Hr (Repr_root _ _ Hr) H0 Ep) as (cs0 & H1 & H2 & H3).
    cbn [e_children e_tag e_attrs e_value] in *. exists cs0. split; [done|]. split; [done|].
    eapply HoldsAll_inj; [|exact Hcs|done].
    eapply Sub_Holds in H2; [|apply Holds_children; split; [exact H0|exact Hcs]]. by apply Holds_children in H2 as [_ ?]. }
  cbn [subst] in Hpop. rewrite N.eqb_refl in Hpop.
  change (pop_elements_by_tag tag None d) with (pop_elements_by_tag tag (Some 0) d).
  unfold pop_elements_by_tag, ids_by_tag in *. change (default 0 (Some 0)) with 0 in *. cbv zeta in *.
  rewrite H0 in Hpop |- *. cbn [e_children] in *.
  rewrite (filter_map_entry (fun t => seqb t tag)) in Hpop |- *. fold hit in Hpop |- *.
  assert (map fst (map child_entry hit) = map i_id hit) as Eids by (by rewrite map_map).
  rewrite Eids in Hpop |- *.
  destruct hit as [|h hit'] eqn:Eh.
  - cbn [map] in *. exists d. split; [done|]. split; [done|]. split; [done|]. split; [|done].
    intros c Hc. by apply elem_of_nil in Hc.
  - rewrite <- Eh in *. assert (exists i l, map i_id hit = i :: l) as (i & l & El) by (rewrite Eh; cbn; eauto).
    rewrite El in Hpop |- *. cbn zeta. rewrite <- El in Hpop |- *.
    destruct (remove_elems (map i_id hit) _) as [es m] eqn:Er. cbn [fst] in Hpop.
    assert (sublist hit cs) as Hsl.
    { unfold hit. clear. induction cs as [|c cs IH]; cbn; [constructor|]. destruct (seqb _ _); by constructor. }
    assert (forall c, c ∈ hit -> c ∈ cs) as Hsub.
    { intros c Hc. eapply elem_of_submseteq; [exact Hc|]. by apply sublist_submseteq. }
    apply NoDup_cons in Hnd as [H0n Hnd].
    assert (NoDup (map i_id cs)) as Hndc.
    { clear -Hnd. induction cs as [|c cs IH]; [constructor|]. cbn in *. apply NoDup_app in Hnd as (_ & Hd & Hn).
      apply NoDup_cons. split; [|by apply IH]. intros Hin. apply elem_of_list_fmap in Hin as (x & Hx & Hin).
      apply (Hd (i_id c)); [apply ids_head|]. apply elem_of_flat_map. exists x. split; [done|]. rewrite Hx. apply ids_head. }
    assert (forall c, c ∈ cs -> i_id c <> 0) as Hne0.
    { intros c Hc Hx. apply H0n. apply elem_of_flat_map. exists c. split; [done|]. rewrite <- Hx. apply ids_head. }
    assert (NoDup (map i_id hit)) as Hndh.
    { clear -Hndc Hsl. induction Hsl as [|x l k Hs IH|x l k Hs IH]; [constructor| |]; cbn in *;
        apply NoDup_cons in Hndc as [Hx Hk]; [|by apply IH]. apply NoDup_cons. split; [|by apply IH].
      intros Hin. apply Hx. apply elem_of_list_fmap in Hin as (y & -> & Hin). apply elem_of_list_fmap. exists y. split; [done|].
      eapply elem_of_submseteq; [exact Hin|]. by apply sublist_submseteq. }
    pose proof (remove_elems_elems _ _ _ _ Er Hndh) as Hes.
    assert (forall c, c ∈ cs -> d_elems d !! i_id c = Some (elem_of_node 0 c)) as Hlk.
    { intros c Hc. pose proof (proj1 (HoldsAll_elem _ _ _) Hcs c Hc) as Hh. apply Holds_unfold in Hh as (e & He & -> & _).
      rewrite He. by destruct c. }
    assert (es = map (elem_of_node 0) hit) as ->.
    { rewrite Hes. clear -Hsub Hlk Hne0. induction hit as [|c hit IH]; [done|]. cbn [map omap list_omap].
      rewrite lookup_insert_ne by (apply not_eq_sym, Hne0, Hsub; left).
      rewrite (Hlk c) by (apply Hsub; left). f_equal. apply IH. intros x Hx. apply Hsub. by right. }
    eexists. split; [|split; [exact Hpop|split; [done|split; [|done]]]].
    { rewrite Eh. cbn [map]. done. }
    intros c Hc x Hx. assert (c ∈ cs) as Hc' by (by apply Hsub).
    assert (Holds (d_elems d) (i_id c) x) as Hhx.
    { pose proof (proj1 (HoldsAll_elem _ _ _) Hcs c Hc') as Hh. destruct c as [j g1 a1 v1 l1].
      apply Holds_children in Hh as [_ Hh]. by apply (proj1 (HoldsAll_elem _ _ _) Hh). }
    eapply Holds_agree; [|exact Hhx]. intros k Hk. cbn [d_elems with_elems].
    rewrite (remove_elems_lookup _ _ _ _ k Er).
    (* k lies strictly below c: it is neither 0 nor a child of the root *)
    assert (k ∈ flat_map ids cs) as Hkin.
    { apply elem_of_flat_map. exists c. split; [done|]. destruct c. cbn. right. apply elem_of_flat_map. eauto. }
    rewrite decide_False.
    + rewrite lookup_insert_ne; [done|]. by intros <-.
    + intros Hin. apply elem_of_list_fmap in Hin as (y & -> & Hy). apply Hsub in Hy.
      assert (i_id y ∈ ids c) as Hyc2 by (destruct c; cbn in *; right; apply elem_of_flat_map; eauto).
      apply elem_of_list_split in Hc' as (l1 & l2 & ->). rewrite flat_map_middle in Hnd.
      apply NoDup_app in Hnd as (_ & Hd1 & Hnd). apply NoDup_app in Hnd as (Hndi & Hd2 & _).
      rewrite elem_of_app, elem_of_cons in Hy. destruct Hy as [Hy|[->|Hy]].
      * apply (Hd1 (i_id y)); [apply elem_of_flat_map; exists y; split; [done|apply ids_head]|].
        apply elem_of_app. by left.
      * destruct c as [j g1 a1 v1 l3]. cbn in Hndi, Hk. apply NoDup_cons in Hndi as [Hj _]. apply Hj.
        apply elem_of_flat_map. eauto.
      * apply (Hd2 _ Hyc2). apply elem_of_flat_map. exists y. split; [done|apply ids_head].
Qed.
Lemma filter_erase f (cs : list itree) :
  map erase (List.filter (fun c => f (i_tag c)) cs) = List.filter (fun t => f (t_tag t)) (map erase cs).
Proof.
  induction cs as [|c cs IH]; [done|]. cbn. assert (t_tag (erase c) = i_tag c) as -> by (by destruct c).
  destruct (f (i_tag c)); cbn; by rewrite IH.
Qed.
Definition some_list {A} (l : list A) : option (list A) := match l with [] => None | _ => Some l end.
Lemma Doc_take d g a v cs tag : Doc d (Node g a v cs) ->
  exists d', take_subtrees tag d
      = (d', Ok (some_list (List.filter (fun t => seqb (t_tag t) tag) cs)))
  /\ Doc d' (Node g a v (List.filter (fun t => negb (seqb (t_tag t) tag)) cs)) /\ d_ns d' = d_ns d.
Proof.
  intros Hd. apply Doc_inv in Hd as (its & Hc & Hr). cbn in Hc, Hr. subst cs.
  destruct (Repr_pop_root d g a v its tag Hr) as (d' & E & Hr' & Hns & Hh & _).
  exists d'. split; [|split; [|done]].
  2:{ apply Doc_intro in Hr'. by rewrite (filter_erase (fun t => negb (seqb t tag))) in Hr'. }
  unfold take_subtrees, bind. rewrite E. rewrite <- (filter_erase (fun t => seqb t tag)).
  set (hit := List.filter _ its) in *.
  assert (rmapM (subtree (S (size (d_elems d'))) (d_elems d')) (map (elem_of_node 0) hit) = Ok (map erase hit)) as Hm.
  { assert (forall c, c ∈ hit -> NoDup (ids c)) as Hnd.
    { intros c Hc. apply Repr_node in Hr as (_ & _ & _ & Hnd & _). apply NoDup_cons in Hnd as [_ Hnd].
      assert (c ∈ its) as Hc'. { unfold hit in Hc. apply elem_of_list_In, filter_In in Hc as [Hc _]. by apply elem_of_list_In. }
      apply elem_of_list_split in Hc' as (l1 & l2 & ->). rewrite flat_map_middle in Hnd.
      apply NoDup_app in Hnd as (_ & _ & Hnd). by apply NoDup_app in Hnd as (? & _). }
    clear E. induction hit as [|c hit IH]; [done|]. cbn [map rmapM].
    assert (subtree (S (size (d_elems d'))) (d_elems d') (elem_of_node 0 c) = Ok (erase c)) as ->.
    { destruct c as [j g1 a1 v1 l1]. specialize (Hnd _ (elem_of_list_here _ _)). specialize (Hh _ (elem_of_list_here _ _)).
      cbn in Hnd, Hh. apply NoDup_cons in Hnd as [Hj Hnd].
      unfold elem_of_node. cbn [subtree e_children i_id i_tag erase t_attrs t_value e_tag e_attrs e_value].
      assert (length (flat_map ids l1) <= size (d_elems d'))%nat as Hlen.
      { apply NoDup_size; [done|]. intros k Hk. apply elem_of_flat_map in Hk as (x & Hx & Hk). by eapply Holds_keys; [apply Hh|]. }
      assert (rmapM (fun c : N * string => match d_elems d' !! c.1 with Some x => subtree (size (d_elems d')) (d_elems d') x | None => Err "element not found" end)
            (map child_entry l1) = Ok (map erase l1)) as ->; [|done].
      clear -Hlen Hh. revert Hlen. generalize (size (d_elems d')) as f. intros f Hlen.
      induction l1 as [|x l1 IHl]; [done|]. cbn [map rmapM child_entry fst].
      assert (Holds (d_elems d') j x) as Hx by (apply Hh; left). assert (Hx' := Hx).
      apply Holds_unfold in Hx' as (e & He & Hee & _). rewrite He.
      assert (e = mkElem (i_id x) j (i_tag x) (t_attrs (erase x)) (t_value (erase x))
        (map child_entry (match x with INode _ _ _ _ cs => cs end))) as -> by (subst e; by destruct x).
      cbn [flat_map] in Hlen. rewrite app_length in Hlen.
      rewrite (subtree_holds x _ _ f Hx) by lia. cbn [rbind]. rewrite IHl; [done| |lia].
      intros y Hy. apply Hh. by right. }
    cbn [rbind]. rewrite IH; [done| |].
    - intros y Hy. apply Hh. by right.
    - intros y Hy. apply Hnd. by right. }
  destruct hit as [|c hit]; [done|]. unfold get, lift. rewrite Hm. done.
Qed.
Lemma Doc_order d g a v cs (order : list string) : Doc d (Node g a v cs) -> order <> [] ->
  exists d', order_child order 0 d = (d', Ok tt)
    /\ Doc d' (Node g a v (sort_by (fun t => order_index order (t_tag t)) cs)) /\ d_ns d' = d_ns d.
Proof.
  intros Hd Ho. apply Doc_inv in Hd as (its & Hc & Hr). cbn in Hc, Hr. subst cs.
  assert (Hr' := Hr). apply Repr_node in Hr' as (_ & H0 & _ & _ & _).
  assert (forall l : list itree, sort_by (fun c : N * string => order_index order c.2) (map child_entry l)
    = map child_entry (sort_by (fun c => order_index order (i_tag c)) l)) as Hs1.
  { assert (forall c l, insert_by (fun c : N * string => order_index order c.2) (child_entry c) (map child_entry l)
       = map child_entry (insert_by (fun c => order_index order (i_tag c)) c l)) as Hi.
    { intros c l. induction l as [|x l IH]; [done|]. cbn [map insert_by child_entry snd]. destruct (_ <=? _); [done|].
      cbn [map]. by rewrite <- IH. }
    unfold sort_by. induction l as [|c l IH]; [done|]. cbn [map foldr]. by rewrite IH, Hi. }
  assert (forall l : list itree, sort_by (fun t => order_index order (t_tag t)) (map erase l)
    = map erase (sort_by (fun c => order_index order (i_tag c)) l)) as Hs2.
  { assert (forall c l, insert_by (fun t => order_index order (t_tag t)) (erase c) (map erase l)
       = map erase (insert_by (fun c => order_index order (i_tag c)) c l)) as Hi.
    { intros c l. induction l as [|x l IH]; [done|]. cbn [map insert_by].
      assert (forall z, t_tag (erase z) = i_tag z) as Hz by (by intros []). rewrite !Hz. destruct (_ <=? _); [done|].
      cbn [map]. by rewrite <- IH. }
    unfold sort_by. induction l as [|c l IH]; [done|]. cbn [map foldr]. by rewrite IH, Hi. }
  unfold order_child. rewrite H0. cbn [e_children]. destruct its as [|c its].
  - exists d. split; [done|]. split; [|done]. by apply Doc_intro in Hr.
  - destruct order as [|o1 os]; [done|]. set (order := o1 :: os) in *.
    rewrite Hs1. eexists. split; [done|]. split; [|done]. rewrite Hs2. apply Doc_intro.
    eapply (Repr_permute d); [exact Hr| |done|done]. symmetry. apply sort_by_perm.
Qed.

(** ** Writing and reading *)
Lemma Doc_write d t : Doc d t -> write_doc d = Ok (prolog +:+ render_root (d_ns d) t).
Proof. intros (it & [Hr _] & <-). by apply write_doc_render. Qed.
Lemma Doc_read ns t : names_ok t -> ns_ok ns -> (t_value t <> None \/ t_children t <> []) ->
  exists d', read_doc (prolog +:+ render_root ns t) = Ok d' /\ Doc d' (reread t) /\ d_ns d' = written_ns ns.
Proof.
  intros H1 H2 H3. destruct (read_render_root ns t H1 H2 H3) as (d' & it & H4 & H5 & H6 & H7 & H8).
  exists d'. split; [done|]. split; [|done]. exists it. done.
Qed.
Lemma Doc_root d t : Doc d t -> exists e, get_root d = Some e /\ e_tag e = t_tag t /\ e_attrs e = t_attrs t
  /\ e_value e = t_value t /\ length (e_children e) = length (t_children t).
Proof.
  intros Hd. apply Doc_inv in Hd as (its & Hc & Hr). apply Repr_node in Hr as (_ & H0 & _).
  eexists. split; [exact H0|]. cbn. rewrite Hc, !map_length. done.
Qed.
End with_env.
