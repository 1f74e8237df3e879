(** Tree operations on a document that represents a tree: each one represents the edited tree. *)
From Verif.Model Require Import XmlTree XmlWrite XmlRead.
From Verif.Spec Require Import XmlSpec XmlRepr.
From Verif.Proofs Require Import BaseFacts XmlWriteFacts XmlLexFacts XmlReadFacts.

Lemma elem_of_flat_map {A B} (f : A -> list B) l y : y ∈ flat_map f l <-> exists x, x ∈ l /\ y ∈ f x.
Proof.
  rewrite elem_of_list_In, in_flat_map. split; intros (x & H1 & H2); exists x.
  - by rewrite !elem_of_list_In.
  - by rewrite <- !elem_of_list_In.
Qed.
Lemma ids_head t : i_id t ∈ ids t.
Proof. destruct t. cbn. left. Qed.
Lemma Holds_unfold m p t : Holds m p t <->
  exists e, m !! i_id t = Some e /\ e = mkElem (i_id t) p (i_tag t)
     (let 'INode _ _ a _ _ := t in a) (let 'INode _ _ _ v _ := t in v)
     (map child_entry (let 'INode _ _ _ _ cs := t in cs))
  /\ HoldsAll m (i_id t) (let 'INode _ _ _ _ cs := t in cs).
Proof.
  destruct t as [i g a v cs]. rewrite Holds_children. cbn. split.
  - intros [H1 H2]. eauto.
  - intros (e & H1 & -> & H2). done.
Qed.
Lemma HoldsAll_elem m p cs : HoldsAll m p cs <-> (forall c, c ∈ cs -> Holds m p c).
Proof.
  induction cs as [|c cs IH].
  - split; [|by intros _; apply Forall_nil]. intros _ c Hc. by apply elem_of_nil in Hc.
  - rewrite HoldsAll_cons, IH. split.
    + intros [H1 H2] x Hx. apply elem_of_cons in Hx as [->|Hx]; auto.
    + intros Hx. split; [apply Hx; left|]. intros. apply Hx. by right.
Qed.
Lemma Holds_agree m m' p t : (forall k, k ∈ ids t -> m' !! k = m !! k) -> Holds m p t -> Holds m' p t.
Proof.
  intros Hag Hh. unfold Holds in *. apply Forall_forall. intros [k e] Hin.
  rewrite Forall_forall in Hh. rewrite Hag; [by apply (Hh (k, e))|].
  rewrite <- (flat_ids p). apply elem_of_list_fmap. exists (k, e). done.
Qed.
Lemma Sub_Holds m p t q n : Sub p t q n -> Holds m p t -> Holds m q n.
Proof.
  induction 1 as [|p i g a v cs c q n Hc Hs IH]; [done|].
  rewrite Holds_children, HoldsAll_elem. intros [_ Hcs]. apply IH, Hcs, Hc.
Qed.
Lemma Sub_ids p t q n : Sub p t q n -> forall k, k ∈ ids n -> k ∈ ids t.
Proof.
  induction 1 as [|p i g a v cs c q n Hc Hs IH]; [done|]. intros k Hk. cbn.
  right. apply elem_of_flat_map. eauto.
Qed.
Lemma subst_notin i n' t : i ∉ ids t -> subst i n' t = t.
Proof.
  induction t as [j g a v cs IH] using itree_rect'. cbn. rewrite not_elem_of_cons. intros [Hj Hcs].
  destruct (N.eqb_spec j i); [congruence|]. f_equal. clear Hj n.
  induction IH as [|c cs Hc _ IHcs]; [done|]. cbn in *. rewrite not_elem_of_app in Hcs.
  destruct Hcs. rewrite Hc, IHcs; done.
Qed.
Lemma map_subst_notin i n' cs : i ∉ flat_map ids cs -> map (subst i n') cs = cs.
Proof.
  induction cs as [|c cs IH]; [done|]. cbn. rewrite not_elem_of_app. intros [? ?].
  rewrite subst_notin, IH; done.
Qed.
Lemma child_entry_subst i n' c : (i_id c = i -> i_id n' = i /\ i_tag n' = i_tag c) ->
  child_entry (subst i n' c) = child_entry c.
Proof.
  destruct c as [j g a v cs]. cbn. destruct (N.eqb_spec j i) as [->|]; [|done].
  intros Hn. destruct (Hn eq_refl) as [H1 H2]. unfold child_entry. cbn. by rewrite H1, H2.
Qed.

(** The subtree with a given id, and what replacing it does. *)
Lemma subst_spec i t : NoDup (ids t) -> i ∈ ids t -> forall p0, exists q n,
  Sub p0 t q n /\ i_id n = i
  /\ (exists l1 l2, ids t = l1 ++ ids n ++ l2 /\ forall n', ids (subst i n' t) = l1 ++ ids n' ++ l2)
  /\ (q = p0 /\ n = t \/ q ∈ ids t)
  /\ (forall n' m m', i_id n' = i -> i_tag n' = i_tag n -> Holds m p0 t -> Holds m' q n' ->
      (forall k, k ∈ ids t -> k ∉ ids n -> m' !! k = m !! k) -> Holds m' p0 (subst i n' t)).
Proof.
  induction t as [j g a v cs IH] using itree_rect'. intros Hnd Hin p0.
  destruct (N.eqb_spec j i) as [->|Hji].
  { exists p0, (INode i g a v cs). split; [constructor|]. split; [done|]. split.
    { exists [], []. cbn [app]. rewrite app_nil_r. split; [done|]. intros n'. cbn [subst].
      rewrite N.eqb_refl. by rewrite app_nil_r. }
    split; [by left|].
    intros n' m m' _ _ _ Hn' _. cbn [subst]. by rewrite N.eqb_refl. }
  cbn [ids] in Hnd, Hin. apply NoDup_cons in Hnd as [Hj Hnd].
  apply elem_of_cons in Hin as [->|Hin]; [done|].
  apply elem_of_flat_map in Hin as (c & Hc & Hic).
  apply elem_of_list_split in Hc as (c1 & c2 & ->).
  rewrite flat_map_app in Hnd, Hj. cbn [flat_map] in Hnd, Hj.
  apply NoDup_app in Hnd as (Hnd1 & Hd1 & Hnd2). apply NoDup_app in Hnd2 as (Hndc & Hd2 & Hnd2).
  assert (i ∉ flat_map ids c1) as Hi1.
  { intros Hi. apply (Hd1 i Hi). apply elem_of_app. by left. }
  assert (i ∉ flat_map ids c2) as Hi2 by (intros Hi; by apply (Hd2 i)).
  rewrite Forall_app in IH. destruct IH as [_ IH]. apply Forall_cons in IH as [IHc _].
  destruct (IHc Hndc Hic j) as (q & n & Hsub & Hid & (l1 & l2 & Hl & Hl') & Hq & Hsubst).
  exists q, n. split; [eapply Sub_child; [|exact Hsub]; apply elem_of_app; right; left|].
  split; [done|]. split.
  { exists (j :: flat_map ids c1 ++ l1), (l2 ++ flat_map ids c2). split.
    - cbn [ids]. rewrite flat_map_app. cbn [flat_map]. rewrite Hl. cbn. f_equal.
      rewrite <- !app_assoc. done.
    - intros n'. cbn [subst]. destruct (N.eqb_spec j i); [congruence|]. cbn [ids].
      rewrite map_app. cbn [map]. rewrite !map_subst_notin by done.
      rewrite flat_map_app. cbn [flat_map]. rewrite Hl'. cbn. f_equal. rewrite <- !app_assoc. done. }
  split.
  { right. cbn [ids]. destruct Hq as [[-> _]|Hq]; [left|]. right. rewrite flat_map_app. cbn.
    rewrite !elem_of_app. auto. }
  intros n' m m' Hn1 Hn2 Hh Hn' Hag. cbn [subst]. destruct (N.eqb_spec j i); [congruence|].
  rewrite map_app. cbn [map]. rewrite !map_subst_notin by done.
  apply Holds_children in Hh as [Hjm Hcs]. rewrite HoldsAll_elem in Hcs.
  assert (j ∉ ids n) as Hjn.
  { intros Hjn. apply Hj. rewrite !elem_of_app. right. left. eapply Sub_ids; eauto. }
  assert (forall x, x ∈ c1 \/ x ∈ c2 -> Holds m' j x) as Hother.
  { intros x Hx. eapply Holds_agree; [|apply (Hcs x); rewrite elem_of_app, elem_of_cons; tauto].
    intros k Hk. apply Hag.
    - cbn. right. apply elem_of_flat_map. exists x. rewrite elem_of_app, elem_of_cons. tauto.
    - intros Hkn. eapply Sub_ids in Hkn; [|exact Hsub]. destruct Hx as [Hx|Hx].
      + apply (Hd1 k); [apply elem_of_flat_map; eauto|]. apply elem_of_app. by left.
      + apply (Hd2 k Hkn). apply elem_of_flat_map; eauto. }
  apply Holds_children. split.
  - rewrite Hag; [|left|done]. rewrite Hjm. do 2 f_equal. rewrite !map_app. cbn [map]. f_equal. f_equal.
    symmetry. apply child_entry_subst. intros Hci. split; [done|].
    assert (n = c) as ->; [|done].
    { destruct c as [i' ? ? ? ccs]. cbn in Hci. subst i'.
      inversion Hsub as [|? ? ? ? ? ? c' ? ? Hc' Hs']; subst; [done|].
      exfalso. cbn in Hndc. apply NoDup_cons in Hndc as [Hnot _]. apply Hnot.
      apply elem_of_flat_map. exists c'. split; [done|]. 
      eapply Sub_ids; [eassumption|]. apply ids_head. }
  - apply HoldsAll_elem. intros x. rewrite elem_of_app, elem_of_cons. intros [Hx|[->|Hx]]; [auto| |auto].
    apply (Hsubst n' m m'); [done|done|apply Hcs; rewrite elem_of_app, elem_of_cons; tauto|done|].
    intros k Hk Hkn. apply Hag; [|done]. cbn. right. rewrite flat_map_app. cbn. rewrite !elem_of_app. tauto.
Qed.

(** A represented document with room for new ids. *)
Definition Repr (d : doc) (t : itree) : Prop := Represents d t /\ Bound d.

(** Look at one element of a represented document, and replace what is below it. *)
Lemma Repr_focus d it i : Repr d it -> i ∈ ids it -> exists q g a v cs,
  Sub 0 it q (INode i g a v cs)
  /\ d_elems d !! i = Some (mkElem i q g a v (map child_entry cs))
  /\ HoldsAll (d_elems d) i cs
  /\ NoDup (i :: flat_map ids cs)
  /\ (forall k, k ∈ flat_map ids cs -> k ∈ ids it)
  /\ q ∈ ids it
  /\ (forall d' a' v' cs',
        d_elems d' !! i = Some (mkElem i q g a' v' (map child_entry cs')) ->
        HoldsAll (d_elems d') i cs' -> NoDup (flat_map ids cs') ->
        (forall k, k ∈ flat_map ids cs' -> k ∈ flat_map ids cs \/ k ∉ ids it) ->
        (forall k, k ∈ ids it -> k ∉ i :: flat_map ids cs -> d_elems d' !! k = d_elems d !! k) ->
        Bound d' ->
        Repr d' (subst i (INode i g a' v' cs') it)).
Proof.
  intros [(H0 & Hnd & Hh) Hb] Hi.
  destruct (subst_spec i it Hnd Hi 0) as (q & n & Hsub & Hid & (l1 & l2 & Hl & Hl') & Hq & Hs).
  destruct n as [j g a v cs]. cbn in Hid. subst j.
  pose proof (Sub_Holds _ _ _ _ _ Hsub Hh) as Hn. apply Holds_children in Hn as [Hlk Hcs].
  assert (NoDup (i :: flat_map ids cs)) as Hndn.
  { rewrite Hl in Hnd. apply NoDup_app in Hnd as (_ & _ & Hnd). by apply NoDup_app in Hnd as (? & _). }
  exists q, g, a, v, cs. split; [done|]. split; [done|]. split; [done|]. split; [done|]. split.
  { intros k Hk. eapply Sub_ids; [exact Hsub|]. cbn. by right. }
  split.
  { destruct Hq as [[-> <-]|Hq]; [|done]. rewrite <- H0. apply ids_head. }
  intros d' a' v' cs' Hlk' Hcs' Hnd' Hnew Hag Hb'. split; [|done].
  assert (i ∉ flat_map ids cs') as Hics.
  { intros Hx. apply Hnew in Hx as [Hx|Hx]; [|done]. by apply NoDup_cons in Hndn as [? _]. }
  split; [|split].
  - destruct it as [r g0 a0 v0 cs0]. cbn in *. destruct (N.eqb_spec r i); [cbn; congruence|done].
  - rewrite Hl'. rewrite Hl in Hnd. cbn [ids] in Hnd |- *.
    apply NoDup_app in Hnd as (Hn1 & Hd1 & Hn2). apply NoDup_app in Hn2 as (Hnn & Hd2 & Hn2).
    assert (forall k, k ∈ i :: flat_map ids cs' -> k ∉ l1 /\ k ∉ l2) as Hfresh.
    { intros k. rewrite elem_of_cons. intros Hk. assert (k ∈ i :: flat_map ids cs \/ k ∉ ids it) as Hk'.
      { destruct Hk as [->|Hk]; [left; left|]. apply Hnew in Hk as [Hk|Hk]; [left; by right|by right]. }
      destruct Hk' as [Hk'|Hk'].
      - split; [intros Hx; apply (Hd1 k Hx); apply elem_of_app; by left|by apply Hd2].
      - rewrite Hl, !not_elem_of_app in Hk'. tauto. }
    apply NoDup_app. split; [done|]. split.
    { intros k Hk. rewrite not_elem_of_app. split; [intros Hx; by apply Hfresh in Hx as [? _]|].
      intros Hx. apply (Hd1 k Hk). apply elem_of_app. by right. }
    apply NoDup_app. split; [apply NoDup_cons; done|]. split; [|done].
    intros k Hk. by apply Hfresh in Hk as [_ ?].
  - apply (Hs _ (d_elems d) (d_elems d')); [done|done|done| |].
    + apply Holds_children. done.
    + intros k Hk Hk'. apply Hag; done.
Qed.
Lemma Repr_frame d d' it : Repr d it -> (forall k, k ∈ ids it -> d_elems d' !! k = d_elems d !! k) ->
  Bound d' -> Repr d' it.
Proof.
  intros [(H0 & Hnd & Hh) _] Hag Hb. split; [|done]. split; [done|]. split; [done|].
  by eapply Holds_agree.
Qed.
Lemma Repr_lookup d it i : Repr d it -> i ∈ ids it -> exists e, d_elems d !! i = Some e.
Proof. intros Hr Hi. destruct (Repr_focus d it i Hr Hi) as (?&?&?&?&?&_&?&_). eauto. Qed.
Lemma Repr_root d it : Repr d it -> 0 ∈ ids it.
Proof. intros [(H0 & _) _]. rewrite <- H0. apply ids_head. Qed.
Lemma Repr_ids_le d it k : Repr d it -> k ∈ ids it -> k <= d_running d.
Proof. intros Hr Hk. destruct (Repr_lookup _ _ _ Hr Hk) as [e He]. by apply Hr in He. Qed.

Lemma flat_map_middle (l1 l2 : list itree) t :
  flat_map ids (l1 ++ t :: l2) = flat_map ids l1 ++ ids t ++ flat_map ids l2.
Proof. by rewrite flat_map_app. Qed.

(** Insertion of a new leaf anywhere below [i]. *)
Lemma Repr_insert d it i e tag l e1 e2 : Repr d it -> i ∈ ids it -> d_elems d !! i = Some e ->
  let id := d_running d + 1 in
  e_children e = e1 ++ e2 -> l = e1 ++ (id, tag) :: e2 ->
  forall x, e_id x = id -> e_parent x = i -> e_tag x = tag -> e_children x = [] ->
  exists g a v l1 l2,
    d_elems d !! i = Some (mkElem i (e_parent e) g a v (map child_entry (l1 ++ l2)))
    /\ map child_entry l1 = e1 /\ map child_entry l2 = e2
    /\ Sub 0 it (e_parent e) (INode i g a v (l1 ++ l2))
    /\ l = map child_entry (l1 ++ INode id tag (e_attrs x) (e_value x) [] :: l2)
    /\ Repr (mkDoc id (d_ns d) (<[id := x]> (<[i := set_children e l]> (d_elems d))))
         (subst i (INode i g a v (l1 ++ INode id tag (e_attrs x) (e_value x) [] :: l2)) it)
    /\ id ∈ ids (subst i (INode i g a v (l1 ++ INode id tag (e_attrs x) (e_value x) [] :: l2)) it).
Proof.
  intros Hr Hi He id Hce -> x Hx1 Hx2 Hx3 Hx4.
  destruct (Repr_focus d it i Hr Hi) as (q & g & a & v & cs & Hsub & Hlk & Hcs & Hnd & Hin & Hq & Hrepl).
  rewrite He in Hlk. injection Hlk as ->. cbn in Hce.
  symmetry in Hce. assert (exists l1 l2, cs = l1 ++ l2 /\ map child_entry l1 = e1 /\ map child_entry l2 = e2)
    as (l1 & l2 & -> & <- & <-).
  { exists (take (length e1) cs), (drop (length e1) cs). split; [by rewrite take_drop|].
    rewrite <- firstn_map, <- skipn_map, <- Hce. by rewrite take_app, drop_app. }
  exists g, a, v, l1, l2. split; [by rewrite He|]. split; [done|]. split; [done|]. split; [done|].
  set (leaf := INode id tag (e_attrs x) (e_value x) []).
  assert (forall k, k ∈ ids it -> k < id) as Hlt.
  { intros k Hk. eapply Repr_ids_le in Hk; [|done]. unfold id. lia. }
  assert (i < id) as Hii by auto.
  split; [rewrite map_app; done|].
  assert (Repr (mkDoc id (d_ns d) (<[id := x]> (<[i := set_children (mkElem i q g a v (map child_entry (l1 ++ l2)))
     (map child_entry l1 ++ (id, tag) :: map child_entry l2)]> (d_elems d))))
     (subst i (INode i g a v (l1 ++ leaf :: l2)) it)) as HR.
  { apply NoDup_cons in Hnd as [Hni Hnd].
    apply Hrepl.
    - cbn. rewrite lookup_insert_ne by lia. rewrite lookup_insert. by rewrite !map_app.
    - apply HoldsAll_elem. intros c. rewrite elem_of_app, elem_of_cons. rewrite HoldsAll_elem in Hcs.
      assert (forall c, c ∈ l1 \/ c ∈ l2 -> Holds (<[id:=x]> (<[i:=set_children (mkElem i q g a v (map child_entry (l1 ++ l2)))
     (map child_entry l1 ++ (id, tag) :: map child_entry l2)]> (d_elems d))) i c) as Hold.
      { intros c' Hc'. assert (c' ∈ l1 ++ l2) as Hc'' by (by apply elem_of_app).
        eapply Holds_agree; [|by apply Hcs]. intros k Hk.
        assert (k ∈ flat_map ids (l1 ++ l2)) as Hk' by (apply elem_of_flat_map; eauto).
        rewrite !lookup_insert_ne; [done| |].
        - intros ->. done.
        - apply Hin, Hlt in Hk'. lia. }
      intros [Hc|[->|Hc]]; [apply Hold; tauto| |apply Hold; tauto].
      apply Holds_children. split; [|by apply Forall_nil]. cbn [d_elems]. rewrite lookup_insert. f_equal.
      destruct x; cbn in *; by subst.
    - rewrite flat_map_middle. cbn. rewrite flat_map_app in Hnd.
      apply NoDup_app in Hnd as (Hn1 & Hd & Hn2).
      assert (forall k, k ∈ flat_map ids l1 \/ k ∈ flat_map ids l2 -> k < id) as Hl.
      { intros k Hk. apply Hlt, Hin. rewrite flat_map_app. by apply elem_of_app. }
      apply NoDup_app. split; [done|]. split.
      + intros k Hk. rewrite not_elem_of_cons. split; [|by apply Hd].
        intros ->. specialize (Hl id (or_introl Hk)). lia.
      + apply NoDup_cons. split; [|done]. intros Hk. specialize (Hl id (or_intror Hk)). lia.
    - intros k. rewrite flat_map_middle, flat_map_app, !elem_of_app. cbn. rewrite elem_of_list_singleton.
      intros [?|[->|?]]; [tauto| |tauto]. right. intros Hk. apply Hlt in Hk. lia.
    - intros k Hk Hk'. cbn. rewrite !lookup_insert_ne; [done| |].
      + intros ->. apply Hk'. left.
      + apply Hlt in Hk. lia.
    - intros k y. cbn. destruct (decide (k = id)) as [->|Hk]; [lia|]. rewrite lookup_insert_ne by done.
      destruct (decide (k = i)) as [->|Hk']; [lia|]. rewrite lookup_insert_ne by done.
      intros Hy. destruct Hr as [_ Hb]. apply Hb in Hy. unfold id. lia. }
  split; [exact HR|].
  clear -HR Hi Hr. destruct Hr as [(_ & Hnd & _) _].
  destruct (subst_spec i it Hnd Hi 0) as (q' & n & _ & _ & (k1 & k2 & _ & Hl') & _).
  rewrite Hl'. rewrite !elem_of_app. right. left. cbn. right. rewrite flat_map_middle, !elem_of_app.
  right. left. cbn. left.
Qed.

(** Changing text or attributes in place. *)
Lemma Repr_update d it i e ns a' v' : Repr d it -> i ∈ ids it -> d_elems d !! i = Some e ->
  exists cs, e_children e = map child_entry cs /\
  Repr (mkDoc (d_running d) ns (<[i := mkElem i (e_parent e) (e_tag e) a' v' (e_children e)]> (d_elems d)))
       (subst i (INode i (e_tag e) a' v' cs) it)
  /\ i ∈ ids (subst i (INode i (e_tag e) a' v' cs) it).
Proof.
  intros Hr Hi He.
  destruct (Repr_focus d it i Hr Hi) as (q & g & a & v & cs & Hsub & Hlk & Hcs & Hnd & Hin & Hq & Hrepl).
  rewrite He in Hlk. injection Hlk as ->. cbn. exists cs. split; [done|]. apply NoDup_cons in Hnd as [Hni Hnd].
  split.
  - apply Hrepl; cbn.
    + by rewrite lookup_insert.
    + eapply HoldsAll_agree; [|shelve|exact Hcs]. instantiate (1 := [i]).
      intros k Hk. apply not_elem_of_cons in Hk as [Hk _]. by rewrite lookup_insert_ne.
      Unshelve. intros k Hk. rewrite elem_of_list_singleton. by intros ->.
    + done.
    + auto.
    + intros k _ Hk. apply not_elem_of_cons in Hk as [Hk _]. by rewrite lookup_insert_ne.
    + intros k y. cbn. destruct (decide (k = i)) as [->|Hk].
      * intros _. by eapply Repr_ids_le.
      * rewrite lookup_insert_ne by done. apply Hr.
  - destruct Hr as [(_ & Hnd' & _) _].
    destruct (subst_spec i it Hnd' Hi 0) as (q' & n & _ & _ & (k1 & k2 & _ & Hl') & _).
    rewrite Hl', !elem_of_app. right. left. cbn. left.
Qed.

(** A sub-collection or reordering of the children of [i]. *)
Lemma sublist_ids_NoDup cs cs' : Permutation cs cs' -> NoDup (flat_map ids cs) -> NoDup (flat_map ids cs').
Proof. intros Hp. by rewrite (Permutation_flat_map ids Hp). Qed.
Lemma Repr_children d d' it i e cs' : Repr d it -> i ∈ ids it -> d_elems d !! i = Some e ->
  d_elems d' !! i = Some (set_children e (map child_entry cs')) ->
  (forall cs, e_children e = map child_entry cs -> HoldsAll (d_elems d) i cs -> NoDup (flat_map ids cs) ->
     exists rest, Permutation cs (cs' ++ rest)
       /\ (forall k, k ∈ ids it -> k <> i -> k ∉ flat_map ids rest -> d_elems d' !! k = d_elems d !! k)) ->
  Bound d' ->
  Repr d' (subst i (INode i (e_tag e) (e_attrs e) (e_value e) cs') it).
Proof.
  intros Hr Hi He He' Hsel Hb.
  destruct (Repr_focus d it i Hr Hi) as (q & g & a & v & cs & Hsub & Hlk & Hcs & Hnd & Hin & Hq & Hrepl).
  rewrite He in Hlk. injection Hlk as ->. cbn in *. apply NoDup_cons in Hnd as [Hni Hnd].
  destruct (Hsel cs eq_refl Hcs Hnd) as (rest & Hperm & Hag).
  assert (NoDup (flat_map ids (cs' ++ rest))) as Hnd' by (by eapply sublist_ids_NoDup).
  rewrite flat_map_app in Hnd'. apply NoDup_app in Hnd' as (Hn1 & Hd & _).
  assert (forall k, k ∈ flat_map ids cs' \/ k ∈ flat_map ids rest -> k ∈ flat_map ids cs) as Hmem.
  { intros k Hk. rewrite (Permutation_flat_map ids Hperm), flat_map_app. by apply elem_of_app. }
  apply Hrepl.
  - exact He'.
  - rewrite HoldsAll_elem in Hcs |- *. intros c Hc. eapply Holds_agree; [|apply Hcs].
    + intros k Hk. assert (k ∈ flat_map ids cs') as Hk' by (apply elem_of_flat_map; eauto).
      apply Hag; [apply Hin, Hmem; tauto| |by apply Hd]. intros ->. apply Hni, Hmem. tauto.
    + rewrite Hperm. apply elem_of_app. by left.
  - done.
  - intros k Hk. left. apply Hmem. tauto.
  - intros k Hk Hk'. apply not_elem_of_cons in Hk' as [Hk1 Hk2]. apply Hag; [done|done|].
    intros Hx. apply Hk2, Hmem. tauto.
  - done.
Qed.

Lemma remove_elems_lookup l m es m' k : remove_elems l m = (es, m') ->
  m' !! k = if decide (k ∈ l) then None else m !! k.
Proof.
  revert m es. induction l as [|i l IH]; intros m es; cbn.
  - intros [= <- <-]. rewrite decide_False by apply not_elem_of_nil. done.
  - destruct (m !! i) as [e|] eqn:E.
    + destruct (remove_elems l (delete i m)) as [es' m''] eqn:Er. intros [= <- <-].
      rewrite (IH _ _ Er). destruct (decide (k ∈ l)) as [Hk|Hk].
      * rewrite decide_True by (by right). done.
      * destruct (decide (k = i)) as [->|Hki].
        -- rewrite lookup_delete, decide_True by left. done.
        -- rewrite lookup_delete_ne by done. rewrite decide_False; [done|].
           rewrite not_elem_of_cons. done.
    + intros Hr. rewrite (IH _ _ Hr). destruct (decide (k ∈ l)) as [Hk|Hk].
      * rewrite decide_True by (by right). done.
      * destruct (decide (k = i)) as [->|Hki].
        -- rewrite decide_True by left. done.
        -- rewrite decide_False; [done|]. rewrite not_elem_of_cons. done.
Qed.
Lemma remove_elems_elems l m es m' : remove_elems l m = (es, m') -> NoDup l ->
  es = omap (fun k => m !! k) l.
Proof.
  revert m es. induction l as [|i l IH]; intros m es; cbn; [by intros [= <- <-]|].
  intros Hr Hnd. apply NoDup_cons in Hnd as [Hi Hnd].
  destruct (m !! i) as [e|] eqn:E.
  - destruct (remove_elems l (delete i m)) as [es' m''] eqn:Er. injection Hr as <- <-. f_equal.
    rewrite (IH _ _ Er Hnd). apply list_omap_ext, Forall2_same_length_lookup_2; [done|].
    intros n x y Hx Hy. assert (x = y) as -> by congruence.
    apply elem_of_list_lookup_2 in Hx. rewrite lookup_delete_ne by (intros ->; done). done.
  - by apply (IH _ _ Hr).
Qed.
Lemma filter_map_entry (f : string -> bool) cs :
  List.filter (fun c : N * string => f c.2) (map child_entry cs)
  = map child_entry (List.filter (fun c => f (i_tag c)) cs).
Proof.
  induction cs as [|c cs IH]; [done|]. cbn. destruct (f (i_tag c)); cbn; by rewrite IH.
Qed.
Lemma filter_split_perm {A} (f : A -> bool) l :
  Permutation l (List.filter (fun x => negb (f x)) l ++ List.filter f l).
Proof.
  induction l as [|a l IH]; [done|]. cbn. destruct (f a); cbn.
  - rewrite <- Permutation_middle. by constructor.
  - by constructor.
Qed.
Lemma Repr_pop d it i e tag d' r : Repr d it -> i ∈ ids it -> d_elems d !! i = Some e ->
  pop_elements_by_tag tag (Some i) d = (d', r) ->
  exists cs, e_children e = map child_entry cs
  /\ Sub 0 it (e_parent e) (INode i (e_tag e) (e_attrs e) (e_value e) cs) /\
  Repr d' (subst i (INode i (e_tag e) (e_attrs e) (e_value e)
             (List.filter (fun c => negb (seqb (i_tag c) tag)) cs)) it).
Proof.
  intros Hr Hi He Hpop.
  destruct (Repr_focus d it i Hr Hi) as (q & g & a & v & cs & Hsub & Hlk & Hcs & Hnd & Hin & Hq & Hrepl).
  exists cs. assert (e = mkElem i q g a v (map child_entry cs)) as -> by congruence.
  cbn. split; [done|]. split; [done|]. unfold pop_elements_by_tag in Hpop. change (default 0 (Some i)) with i in Hpop.
  rewrite He in Hpop. unfold ids_by_tag in Hpop. change (default 0 (Some i)) with i in Hpop.
  rewrite He in Hpop. cbn [e_children] in Hpop.
  rewrite (filter_map_entry (fun t => seqb t tag)) in Hpop.
  rewrite map_map in Hpop.
  apply NoDup_cons in Hnd as [Hni Hnd].
  set (popped := List.filter (fun c => seqb (i_tag c) tag) cs) in *.
  set (kept := List.filter (fun c => negb (seqb (i_tag c) tag)) cs) in *.
  assert (Permutation cs (kept ++ popped)) as Hperm by (apply (filter_split_perm (fun c => seqb (i_tag c) tag))).
  destruct (map (fun x => (child_entry x).1) popped) as [|x xs] eqn:Ex.
  { injection Hpop as <- <-.
    assert (popped = []) as Hp0 by (by destruct popped).
    assert (kept = cs) as ->.
    { unfold kept, popped in *. clear -Hp0. induction cs as [|c cs IH]; [done|]. cbn in *.
      destruct (seqb (i_tag c) tag); [done|]. cbn. f_equal. auto. }
    apply Hrepl; auto. apply Hr. }
  rewrite <- Ex in Hpop.
  destruct (remove_elems _ _) as [es m] eqn:Erm. injection Hpop as <- <-.
  pose proof (fun k => remove_elems_lookup _ _ _ _ k Erm) as Hm.
  rewrite (filter_map_entry (fun t => negb (seqb t tag))) in Hm. fold kept in Hm.
  assert (forall k, k ∈ map (fun x => (child_entry x).1) popped -> k ∈ flat_map ids popped) as Hpid.
  { intros k Hk. apply elem_of_list_fmap in Hk as (c & -> & Hc). apply elem_of_flat_map. exists c.
    split; [done|]. apply ids_head. }
  assert (forall k, k ∈ flat_map ids popped -> k ∈ flat_map ids cs) as Hpc.
  { intros k Hk. rewrite (Permutation_flat_map ids Hperm), flat_map_app. apply elem_of_app. by right. }
  change (INode i g a v kept) with (INode i (e_tag (mkElem i q g a v (map child_entry cs)))
     (e_attrs (mkElem i q g a v (map child_entry cs))) (e_value (mkElem i q g a v (map child_entry cs))) kept).
  eapply Repr_children; [exact Hr|done|exact He| | |].
  - cbn. rewrite Hm. rewrite decide_False.
    + by rewrite lookup_insert.
    + intros Hk. apply Hni, Hpc, Hpid, Hk.
  - cbn. intros cs2 Heq Hh2 Hnd2. exists (List.filter (fun c => seqb (i_tag c) tag) cs2).
    assert (cs2 = cs) as ->.
    { clear -Heq Hh2 Hcs. revert cs2 Heq Hh2. induction cs as [|c cs IH]; intros [|c2 cs2] Heq Hh2; try done.
      cbn in Heq. injection Heq as Hid Htag Heq.
      apply HoldsAll_cons in Hcs as [Hc Hcs], Hh2 as [Hc2 Hcs2]. f_equal; [|auto].
      clear -Hc Hc2 Hid. revert c2 i Hc Hc2 Hid. induction c as [j g a v cs IH] using itree_rect'.
      intros [j2 g2 a2 v2 cs2] i Hc Hc2 Hid. cbn in Hid. subst j2.
      apply Holds_children in Hc as [He Hcs], Hc2 as [He2 Hcs2]. rewrite He in He2. injection He2 as <- <- <- Heq.
      f_equal. clear He. revert cs2 Heq Hcs2. induction IH as [|c cs Hc _ IHcs]; intros [|c2 cs2] Heq Hcs2; try done.
      cbn in Heq. injection Heq as Hid Htag Heq.
      apply HoldsAll_cons in Hcs as [Hc1 Hcs], Hcs2 as [Hc2 Hcs2]. f_equal; [|auto].
      eapply Hc; eauto. }
    fold popped. split; [exact Hperm|].
    intros k Hk Hki Hkr. rewrite Hm. rewrite decide_False by (intros Hx; by apply Hkr, Hpid).
    by rewrite lookup_insert_ne.
  - intros k y. cbn. rewrite Hm. destruct (decide _); [done|].
    destruct (decide (k = i)) as [->|Hk].
    + intros _. by eapply Repr_ids_le.
    + rewrite lookup_insert_ne by done. apply Hr.
Qed.

(** The tree a document represents is unique. *)
Lemma Holds_inj m p c c2 : Holds m p c -> Holds m p c2 -> i_id c = i_id c2 -> c = c2.
Proof.
  revert c2 p. induction c as [j g a v cs IH] using itree_rect'.
  intros [j2 g2 a2 v2 cs2] i Hc Hc2 Hid. cbn in Hid. subst j2.
  apply Holds_children in Hc as [He Hcs], Hc2 as [He2 Hcs2]. rewrite He in He2. injection He2 as <- <- <- Heq.
  f_equal. clear He. revert cs2 Heq Hcs2. induction IH as [|c cs Hc _ IHcs]; intros [|c2 cs2] Heq Hcs2; try done.
  cbn in Heq. injection Heq as Hid Htag Heq.
  apply HoldsAll_cons in Hcs as [Hc1 Hcs], Hcs2 as [Hc2 Hcs2]. f_equal; [|auto].
  eapply Hc; eauto.
Qed.
Lemma HoldsAll_inj m p cs cs2 : HoldsAll m p cs -> HoldsAll m p cs2 ->
  map child_entry cs = map child_entry cs2 -> cs = cs2.
Proof.
  revert cs2. induction cs as [|c cs IH]; intros [|c2 cs2] H1 H2 Heq; try done.
  cbn in Heq. injection Heq as Hid Htag Heq.
  apply HoldsAll_cons in H1 as [Hc1 Hcs], H2 as [Hc2 Hcs2]. f_equal; [by eapply Holds_inj|auto].
Qed.
Lemma Represents_inj d t t' : Represents d t -> Represents d t' -> t = t'.
Proof. intros (H1 & _ & H2) (H3 & _ & H4). eapply Holds_inj; eauto. congruence. Qed.
