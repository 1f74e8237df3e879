(** Invariants over histories: tree edits (C09), reading arbitrary bytes (C12), ordering (C10),
    namespaces (C11). *)
From Verif.Model Require Import XmlTree XmlWrite XmlRead.
From Verif.Spec Require Import XmlSpec XmlRepr XmlHistory.
From Verif.Proofs Require Import BaseFacts XmlWriteFacts XmlLexFacts XmlReadFacts XmlTreeFacts.

(** ** C10: order_child *)
Lemma insert_by_perm {A} (key : A -> N) a l : Permutation (insert_by key a l) (a :: l).
Proof.
  induction l as [|b l IH]; [done|]. cbn. destruct (key a <=? key b); [done|].
  rewrite IH. constructor.
Qed.
Lemma sort_by_perm {A} (key : A -> N) l : Permutation (sort_by key l) l.
Proof. induction l as [|a l IH]; [done|]. cbn. rewrite insert_by_perm. by constructor. Qed.
Lemma insert_by_sorted {A} (key : A -> N) a l :
  StronglySorted (fun x y => key x <= key y) l -> StronglySorted (fun x y => key x <= key y) (insert_by key a l).
Proof.
  induction 1 as [|b l Hl IH Hb]; cbn; [repeat constructor|].
  destruct (N.leb_spec (key a) (key b)).
  - constructor; [by constructor|]. constructor; [done|]. eapply Forall_impl; [exact Hb|]. cbn. lia.
  - constructor; [done|]. rewrite insert_by_perm. constructor; [lia|done].
Qed.
Lemma sort_by_sorted {A} (key : A -> N) l : StronglySorted (fun x y => key x <= key y) (sort_by key l).
Proof. induction l as [|a l IH]; [constructor|]. cbn. by apply insert_by_sorted. Qed.
Lemma insert_by_filter {A} (key : A -> N) k a l :
  List.filter (fun x => key x =? k) (insert_by key a l) = List.filter (fun x => key x =? k) (a :: l).
Proof.
  induction l as [|b l IH]; [done|]. cbn [insert_by]. destruct (N.leb_spec (key a) (key b)); [done|].
  cbn [List.filter] in *. rewrite IH. destruct (N.eqb_spec (key b) k), (N.eqb_spec (key a) k); try done. lia.
Qed.
Lemma sort_by_filter {A} (key : A -> N) k l :
  List.filter (fun x => key x =? k) (sort_by key l) = List.filter (fun x => key x =? k) l.
Proof. induction l as [|a l IH]; [done|]. cbn [sort_by foldr]. rewrite insert_by_filter. cbn [List.filter]. fold (sort_by key l). by rewrite IH. Qed.
(** Equal tags have equal keys, so a filter by tag is a filter of a filter by key. *)
Lemma filter_filter_tag {A} (key : A -> N) (p : A -> bool) k l :
  (forall x, p x = true -> key x = k) ->
  List.filter p (List.filter (fun x => key x =? k) l) = List.filter p l.
Proof.
  intros Hp. induction l as [|a l IH]; [done|]. cbn. destruct (p a) eqn:E.
  - rewrite (Hp a E), N.eqb_refl. cbn. by rewrite E, IH.
  - destruct (key a =? k); cbn; by rewrite ?E, IH.
Qed.
Lemma sort_by_stable {A} (key : A -> N) (p : A -> bool) l :
  (forall x y, p x = true -> p y = true -> key x = key y) ->
  List.filter p (sort_by key l) = List.filter p l.
Proof.
  intros Hp. destruct (List.filter p l) as [|a l'] eqn:E.
  - assert (Forall (fun x => p x = false) l) as Hl.
    { clear -E. induction l as [|b l IH]; [constructor|]. cbn in E. destruct (p b) eqn:Eb; [done|]. by constructor; [|auto]. }
    rewrite <- (sort_by_perm key l) in Hl. clear -Hl. induction Hl as [|b l' Hb _ IH]; [done|]. cbn. by rewrite Hb.
  - assert (p a = true) as Ha.
    { assert (In a (List.filter p l)) as Hin by (rewrite E; left; done). by apply filter_In in Hin as [_ ?]. }
    rewrite <- (filter_filter_tag key p (key a)) by auto.
    rewrite sort_by_filter, filter_filter_tag; auto.
Qed.

Lemma order_index_from_spec i l tag acc :
  order_index_from i l tag acc
  = match order_index_from 0 l tag None with Some j => Some (i + j) | None => acc end.
Proof.
  revert i acc. induction l as [|t l IH]; intros i acc; cbn [order_index_from]; [done|].
  rewrite (IH (i + 1)), (IH (0 + 1)).
  destruct (order_index_from 0 l tag None) as [j|]; [f_equal; lia|].
  destruct (seqb t tag); [f_equal; lia|done].
Qed.
Lemma LastAt_order l tag i : LastAt l tag i <-> order_index_from 0 l tag None = Some (N.of_nat i).
Proof.
  revert i. induction l as [|t l IH]; intros i.
  - cbn. split; [|done]. intros [Hi _]. by destruct i.
  - cbn [order_index_from]. rewrite order_index_from_spec. unfold LastAt.
    destruct (order_index_from 0 l tag None) as [j|] eqn:E.
    + split.
      * intros [Hi Hn]. destruct i as [|i].
        -- exfalso. assert (LastAt l tag (N.to_nat j)) as [Hj _] by (apply IH; f_equal; lia).
           apply (Hn (S (N.to_nat j))); [lia|done].
        -- f_equal. assert (LastAt l tag i) as Hl; [|apply IH in Hl; simplify_eq; lia].
           split; [done|]. intros k Hk Hx. apply (Hn (S k)); [lia|done].
      * intros [= Hj]. assert (exists i', i = S i' /\ j = N.of_nat i') as (i' & -> & ->)
          by (exists (pred i); lia).
        destruct (proj2 (IH i') eq_refl) as [Hi Hn]. split; [done|]. intros [|k] Hk; [lia|]. apply Hn. lia.
    + assert (forall k, nth_error l k <> Some tag) as Hnone.
      { clear -E IH. assert (forall l, (forall i, ~ LastAt l tag i) -> forall k, nth_error l k <> Some tag) as Hx.
        { clear. intros l. induction l as [|t l IHl] using rev_ind; intros Hno k Hk; [by destruct k|].
          destruct (String.eqb_spec t tag) as [->|Hne].
          - apply (Hno (length l)). split; [rewrite nth_error_app2 by lia; by rewrite Nat.sub_diag|].
            intros j Hj Hx. assert (nth_error (l ++ [tag]) j <> None) as Hy by congruence.
            apply nth_error_Some in Hy. rewrite app_length in Hy. cbn in Hy. lia.
          - assert (k < length (l ++ [t]))%nat as Hlen by (apply nth_error_Some; congruence).
            rewrite app_length in Hlen. cbn in Hlen. destruct (decide (k = length l)) as [->|Hkl].
            + rewrite nth_error_app2, Nat.sub_diag in Hk by lia. cbn in Hk. congruence.
            + rewrite nth_error_app1 in Hk by lia. apply (IHl) in Hk; [done|].
              intros i [Hi Hn]. apply (Hno i). split; [rewrite nth_error_app1; [done|apply nth_error_Some; congruence]|].
              intros j Hj Hx. destruct (decide (j < length l)%nat).
              * rewrite nth_error_app1 in Hx by lia. by apply (Hn j).
              * assert (j = length l) as ->.
                { assert (nth_error (l ++ [t]) j <> None) as Hy by congruence.
                  apply nth_error_Some in Hy. rewrite app_length in Hy. cbn in Hy. lia. }
                rewrite nth_error_app2, Nat.sub_diag in Hx by lia. cbn in Hx. congruence. }
        apply Hx. intros i Hi. by apply IH in Hi. }
      destruct (seqb t tag) eqn:Et.
      * apply seqb_true in Et as ->. split.
        -- intros [Hi _]. destruct i as [|i]; [done|]. cbn in Hi. by apply Hnone in Hi.
        -- intros [= Hi]. assert (i = 0)%nat as -> by lia. split; [done|].
           intros [|j] Hj; [lia|]. apply Hnone.
      * apply seqb_false in Et. split; [|done]. intros [Hi _]. destruct i as [|i]; cbn in Hi; [congruence|].
        by apply Hnone in Hi.
Qed.
Lemma order_key_precede order x y : N.of_nat (length order) <= usize_max ->
  order_index order x <= order_index order y -> MayPrecede order x y.
Proof.
  intros Hlen Hle j Hj. assert (j < length order)%nat as Hjl.
  { apply nth_error_Some. destruct Hj as [Hj _]. congruence. }
  apply LastAt_order in Hj as Hj'. unfold order_index in Hle. rewrite Hj' in Hle. cbn in Hle.
  destruct (order_index_from 0 order x None) as [i|] eqn:E; cbn in Hle; [|lia].
  exists (N.to_nat i). split; [apply LastAt_order; rewrite E; f_equal; lia|lia].
Qed.

Lemma order_index_from_none l tag : existsb (String.eqb tag) l = false -> order_index_from 0 l tag None = None.
Proof.
  induction l as [|t l IH]; [done|]. cbn [existsb order_index_from]. rewrite orb_false_iff. intros [Ht Hl].
  rewrite order_index_from_spec, IH by done. unfold seqb. by rewrite String.eqb_sym, Ht.
Qed.
Lemma order_child_spec (order : list string) (id : N) (d d' : doc) r e :
  N.of_nat (length order) <= usize_max -> order <> [] ->
  d_elems d !! id = Some e -> order_child order id d = (d', r) ->
  exists cs, d_elems d' = <[id := set_children e cs]> (d_elems d)
    /\ Permutation cs (e_children e)
    /\ StronglySorted (fun x y : N * string => MayPrecede order x.2 y.2) cs
    /\ (forall tag, List.filter (fun c : N * string => String.eqb c.2 tag) cs
                    = List.filter (fun c : N * string => String.eqb c.2 tag) (e_children e))
    /\ List.filter (fun c : N * string => negb (existsb (String.eqb c.2) order)) cs
       = List.filter (fun c : N * string => negb (existsb (String.eqb c.2) order)) (e_children e).
Proof.
  intros Hlen Hne He. unfold order_child. rewrite He.
  destruct (e_children e) as [|c cs] eqn:Ec.
  { intros [= <- <-]. exists []. rewrite insert_id.
    - repeat split; constructor.
    - rewrite He. f_equal. destruct e; cbn in *; by subst. }
  destruct order as [|t ts]; [done|]. set (order := t :: ts) in *.
  set (key := fun c : N * string => order_index order c.2). intros [= <- <-].
  exists (sort_by key (c :: cs)). split; [done|]. split; [apply sort_by_perm|]. split; [|split].
  - pose proof (sort_by_sorted key (c :: cs)) as Hs. induction Hs as [|x l Hl IH Hx]; [constructor|].
    constructor; [done|]. eapply Forall_impl; [exact Hx|]. intros y Hy. by apply order_key_precede.
  - intros tag. apply sort_by_stable. intros x y Hx Hy. apply String.eqb_eq in Hx, Hy. unfold key. congruence.
  - apply sort_by_stable. intros x y Hx Hy. apply negb_true_iff in Hx, Hy. unfold key, order_index.
    by rewrite !order_index_from_none.
Qed.

(** ** C09 *)
Record Uniq (d : doc) : Prop := {
  uq_range : forall p e c, d_elems d !! p = Some e -> c ∈ (e_children e).*1 -> 0 < c <= d_running d;
  uq_one : forall p p' e e' c, d_elems d !! p = Some e -> d_elems d !! p' = Some e' ->
     c ∈ (e_children e).*1 -> c ∈ (e_children e').*1 -> p = p';
}.
Definition HInv (d : doc) : Prop := Bound d /\ Uniq d /\ Sound d.

Lemma Sub_parent p t q n : Sub p t q n -> (q = p /\ n = t) \/
  exists p' g a v cs, Sub p t p' (INode q g a v cs) /\ n ∈ cs.
Proof.
  induction 1 as [|p i g a v cs c q n Hc Hs IH]; [by left|]. right.
  destruct IH as [[-> ->]|(p' & g' & a' & v' & cs' & Hs' & Hn)].
  - exists p, g, a, v, cs. split; [constructor|done].
  - exists p', g', a', v', cs'. split; [|done]. by eapply Sub_child.
Qed.
Lemma reachable_parent d it k : Repr d it -> k ∈ ids it -> k <> 0 ->
  exists q e, q ∈ ids it /\ d_elems d !! q = Some e /\ k ∈ (e_children e).*1.
Proof.
  intros Hr Hk H0. destruct (Repr_focus d it k Hr Hk) as (q & g & a & v & cs & Hsub & _).
  destruct Hr as [(Hr0 & Hnd & Hh) _].
  destruct (Sub_parent _ _ _ _ Hsub) as [[-> <-]|(p' & g' & a' & v' & cs' & Hs' & Hn)].
  - cbn in Hr0. congruence.
  - exists q. eexists. split; [eapply Sub_ids; [exact Hs'|]; cbn; left|].
    apply (Sub_Holds (d_elems d)) in Hs'; [|done]. apply Holds_children in Hs' as [Hlk _]. split; [exact Hlk|].
    cbn. apply elem_of_list_fmap. exists (k, g). split; [done|]. apply elem_of_list_fmap.
    exists (INode k g a v cs). done.
Qed.

Section hist.
Context `{Env}.

Lemma HInv_new : HInv new_doc.
Proof.
  split; [|split].
  - intros k e. cbn. by rewrite lookup_empty.
  - split; intros p; cbn; [intros e c|intros p' e e' c]; by rewrite lookup_empty.
  - by left.
Qed.
Lemma HInv_repr d it : HInv d -> Represents d it -> Repr d it.
Proof. intros (Hb & _) Hr. done. Qed.
Lemma Repr_sound d it : Repr d it -> Sound d.
Proof. intros [Hr _]. right. by exists it. Qed.

Lemma HInv_root tag d : HInv d -> HInv (create_root tag d).1.
Proof.
  intros (Hb & [Hu1 Hu2] & Hs). unfold create_root, new_elem. destruct (is_valid_xml_name tag); [|done]. cbn.
  split; [|split].
  - intros k e. cbn. destruct (decide (k = 0)) as [->|Hk]; [lia|]. rewrite lookup_insert_ne by done. apply Hb.
  - split; cbn.
    + intros p e c. destruct (decide (p = 0)) as [->|Hp].
      * rewrite lookup_insert. intros [= <-]. cbn. intros Hc. by apply elem_of_nil in Hc.
      * rewrite lookup_insert_ne by done. apply Hu1.
    + intros p p' e e' c. destruct (decide (p = 0)) as [->|Hp].
      { rewrite lookup_insert. intros [= <-]. cbn. intros _ Hc. by apply elem_of_nil in Hc. }
      destruct (decide (p' = 0)) as [->|Hp'].
      { rewrite lookup_insert. intros _ [= <-]. cbn. intros _ Hc. by apply elem_of_nil in Hc. }
      rewrite !lookup_insert_ne by done. apply Hu2.
  - right. exists (INode 0 tag None None []). split; [done|]. split; [apply NoDup_singleton|].
    apply Holds_children. split; [cbn; by rewrite lookup_insert|by apply Forall_nil].
Qed.

Definition inserts (id : N) (tag : string) (l l' : list (N * string)) : Prop :=
  exists e1 e2, l = e1 ++ e2 /\ l' = e1 ++ (id, tag) :: e2.

Lemma HInv_insert place tag parent d :
  (forall id l l', place id l = Ok l' -> inserts id tag l l') ->
  HInv d -> let r := insert_with place tag parent d in
  HInv r.1 /\ d_running d <= d_running r.1 /\ (forall i, r.2 = Ok i -> d_running d < i <= d_running r.1).
Proof.
  intros Hplace Hinv. cbn. unfold insert_with. set (pid := default 0 parent).
  destruct (d_elems d !! pid) as [e|] eqn:He; [|cbn; split; [done|split; [lia|done]]].
  unfold new_elem. destruct (is_valid_xml_name tag); [|cbn; split; [done|split; [lia|done]]].
  set (id := d_running d + 1).
  assert (HInv (mkDoc id (d_ns d) (d_elems d))) as Hbump.
  { destruct Hinv as (Hb & [Hu1 Hu2] & Hs). split; [|split].
    - intros k x Hx. apply Hb in Hx. cbn. unfold id. lia.
    - split; cbn; [|done]. intros p x c Hx Hc. specialize (Hu1 p x c Hx Hc). unfold id. lia.
    - destruct Hs as [Hs|[t Ht]]; [by left|right; by exists t]. }
  destruct (place id (e_children e)) as [l'| |] eqn:Hp;
    [|cbn; split; [done|split; [unfold id; lia|done]]..].
  apply Hplace in Hp as (e1 & e2 & Hce & ->). cbn. split; [|split; [unfold id; lia|intros i [= <-]; unfold id; lia]].
  destruct Hinv as (Hb & [Hu1 Hu2] & Hs).
  assert (pid < id) as Hpid by (apply Hb in He; unfold id; lia).
  set (e' := set_children e (e1 ++ (id, tag) :: e2)).
  assert (forall c, c ∈ (e_children e').*1 -> c = id \/ c ∈ (e_children e).*1) as Hce'.
  { intros c. unfold e'. cbn. rewrite Hce, !fmap_app, fmap_cons, !elem_of_app, elem_of_cons. cbn. tauto. }
  assert (forall p x c, (<[id:=mkElem id pid tag None None []]> (<[pid:=e']> (d_elems d))) !! p = Some x ->
     c ∈ (e_children x).*1 -> (c = id /\ p = pid) \/ (exists y, d_elems d !! p = Some y /\ c ∈ (e_children y).*1)) as Hlk.
  { intros p x c. destruct (decide (p = id)) as [->|Hpi].
    { rewrite lookup_insert. intros [= <-]. cbn. intros Hc. by apply elem_of_nil in Hc. }
    rewrite lookup_insert_ne by done. destruct (decide (p = pid)) as [->|Hpp].
    - rewrite lookup_insert. intros [= <-] Hc. apply Hce' in Hc as [->|Hc]; [by left|]. right. eauto.
    - rewrite lookup_insert_ne by done. intros Hx Hc. right. eauto. }
  split; [|split].
  - intros k x. cbn. destruct (decide (k = id)) as [->|Hk]; [lia|]. rewrite lookup_insert_ne by done.
    destruct (decide (k = pid)) as [->|Hk']; [lia|]. rewrite lookup_insert_ne by done.
    intros Hx. apply Hb in Hx. unfold id. lia.
  - split; cbn.
    + intros p x c Hx Hc. apply (Hlk p x c Hx) in Hc as [[-> ->]|(y & Hy & Hc)]; [unfold id; lia|].
      specialize (Hu1 _ _ _ Hy Hc). unfold id. lia.
    + intros p p' x x' c Hx Hx' Hc Hc'.
      apply (Hlk p x c Hx) in Hc. apply (Hlk p' x' c Hx') in Hc'.
      destruct Hc as [[-> ->]|(y & Hy & Hc)], Hc' as [[? ->]|(y' & Hy' & Hc')]; [done| | |by eapply Hu2].
      * specialize (Hu1 _ _ _ Hy' Hc'). unfold id in Hu1. lia.
      * subst c. specialize (Hu1 _ _ _ Hy Hc). unfold id in Hu1. lia.
  - destruct Hs as [Hs|[t Ht]].
    { rewrite Hs, lookup_empty in He. done. }
    assert (Repr d t) as Hr by done.
    destruct (decide (pid ∈ ids t)) as [Hin|Hnin].
    + edestruct (Repr_insert d t pid e tag (e1 ++ (id, tag) :: e2) e1 e2 Hr Hin He Hce eq_refl)
        as (g & a & v & l1 & l2 & _ & _ & _ & _ & _ & HR & _); [..|eapply Repr_sound, HR]; done.
    + eapply (Repr_sound _ t), Repr_frame; [exact Hr| |].
      * intros k Hk. cbn. rewrite !lookup_insert_ne; [done|by intros <-|].
        eapply Repr_ids_le in Hk; [|done]. unfold id. lia.
      * intros k x. cbn. destruct (decide (k = id)) as [->|Hk]; [lia|]. rewrite lookup_insert_ne by done.
        destruct (decide (k = pid)) as [->|Hk']; [lia|]. rewrite lookup_insert_ne by done.
        intros Hx. apply Hb in Hx. unfold id. lia.
Qed.

(** Replacing an element by one with the same links, and a sub-collection of its children. *)
Lemma HInv_update d i e ns e' : HInv d -> d_elems d !! i = Some e ->
  e_id e' = e_id e -> e_parent e' = e_parent e -> e_tag e' = e_tag e ->
  Permutation (e_children e') (e_children e) ->
  HInv (mkDoc (d_running d) ns (<[i := e']> (d_elems d))).
Proof.
  intros (Hb & [Hu1 Hu2] & Hs) He Hid Hpar Htag Hperm.
  assert (forall p x, <[i:=e']> (d_elems d) !! p = Some x -> exists y, d_elems d !! p = Some y /\
     (forall c, c ∈ (e_children x).*1 <-> c ∈ (e_children y).*1)) as Hlk.
  { intros p x. destruct (decide (p = i)) as [->|Hp].
    - rewrite lookup_insert. intros [= <-]. exists e. split; [done|]. intros c. by rewrite Hperm.
    - rewrite lookup_insert_ne by done. eauto. }
  assert (Bound (mkDoc (d_running d) ns (<[i := e']> (d_elems d)))) as Hb'.
  { intros k x Hx. apply Hlk in Hx as (y & Hy & _). by apply Hb in Hy. }
  split; [done|]. split.
  - split; cbn.
    + intros p x c Hx Hc. apply Hlk in Hx as (y & Hy & Hcc). apply Hcc in Hc. by eapply Hu1.
    + intros p p' x x' c Hx Hx' Hc Hc'. apply Hlk in Hx as (y & Hy & Hcc), Hx' as (y' & Hy' & Hcc').
      apply Hcc in Hc. apply Hcc' in Hc'. by eapply Hu2.
  - destruct Hs as [Hs|[t Ht]]; [by rewrite Hs, lookup_empty in He|].
    assert (Repr d t) as Hr by done.
    destruct (decide (i ∈ ids t)) as [Hin|Hnin].
    + destruct (Repr_focus d t i Hr Hin) as (q & g & a & v & cs & Hsub & Hlki & Hcs & Hnd & Hin' & Hq & Hrepl).
      rewrite He in Hlki. injection Hlki as ->. cbn in Hid, Hpar, Htag, Hperm.
      apply NoDup_cons in Hnd as [Hni Hnd].
      apply Permutation_map_inv in Hperm as (cs' & Hcs' & Hp).
      eapply Repr_sound, (Hrepl _ (e_attrs e') (e_value e') cs').
      * cbn. rewrite lookup_insert. f_equal. destruct e'; cbn in *; by subst.
      * rewrite HoldsAll_elem in Hcs |- *. intros c Hc. rewrite <- Hp in Hc.
        eapply Holds_agree; [|by apply Hcs]. intros k Hk. cbn. rewrite lookup_insert_ne; [done|].
        intros <-. apply Hni, elem_of_flat_map. eauto.
      * by rewrite <- (Permutation_flat_map ids Hp).
      * intros k. rewrite <- (Permutation_flat_map ids Hp). by left.
      * intros k _ Hk. apply not_elem_of_cons in Hk as [Hk _]. cbn. by rewrite lookup_insert_ne.
      * done.
    + eapply (Repr_sound _ t), Repr_frame; [exact Hr| |done].
      intros k Hk. cbn. rewrite lookup_insert_ne; [done|]. by intros <-.
Qed.

Lemma HInv_pop tag parent d : HInv d ->
  HInv (pop_elements_by_tag tag parent d).1 /\ d_running (pop_elements_by_tag tag parent d).1 = d_running d.
Proof.
  intros Hinv. destruct (pop_elements_by_tag tag parent d) as [d' r] eqn:Hpop. cbn.
  assert (Hpop' := Hpop). unfold pop_elements_by_tag in Hpop. unfold ids_by_tag in Hpop.
  set (pid := default 0 parent) in *.
  destruct (d_elems d !! pid) as [e|] eqn:He; [|by simplify_eq].
  destruct (map fst (List.filter _ (e_children e))) as [|x0 xs] eqn:Ex; [by simplify_eq|].
  rewrite <- Ex in Hpop.
  destruct (remove_elems _ _) as [es m] eqn:Erm. injection Hpop as <- <-. cbn. split; [|done].
  set (rem := map fst (List.filter (fun c : N * string => seqb c.2 tag) (e_children e))) in *.
  set (e' := set_children e (List.filter (fun c : N * string => negb (seqb c.2 tag)) (e_children e))) in *.
  pose proof (fun k => remove_elems_lookup _ _ _ _ k Erm) as Hm.
  assert (forall k, k ∈ rem -> k ∈ (e_children e).*1) as Hrem.
  { intros k Hk. apply elem_of_list_fmap in Hk as (c & -> & Hc). apply elem_of_list_fmap. exists c.
    split; [done|]. apply elem_of_list_In, filter_In in Hc as [Hc _]. by apply elem_of_list_In. }
  destruct Hinv as (Hb & [Hu1 Hu2] & Hs).
  assert (forall p x, m !! p = Some x -> exists y, d_elems d !! p = Some y /\
     (forall c, c ∈ (e_children x).*1 -> c ∈ (e_children y).*1)) as Hlk.
  { intros p x. rewrite Hm. destruct (decide (p ∈ rem)); [done|]. destruct (decide (p = pid)) as [->|Hp].
    - rewrite lookup_insert. intros [= <-]. exists e. split; [done|]. intros c Hc.
      apply elem_of_list_fmap in Hc as (y & -> & Hc). apply elem_of_list_fmap. exists y. split; [done|].
      unfold e' in Hc. cbn in Hc. apply elem_of_list_In, filter_In in Hc as [Hc _]. by apply elem_of_list_In.
    - rewrite lookup_insert_ne by done. eauto. }
  assert (Bound (with_elems d m)) as Hb'.
  { intros k x Hx. apply Hlk in Hx as (y & Hy & _). by apply Hb in Hy. }
  split; [done|]. split.
  - split; cbn.
    + intros p x c Hx Hc. apply Hlk in Hx as (y & Hy & Hcc). apply Hcc in Hc. by eapply Hu1.
    + intros p p' x' x'' c Hx Hx' Hc Hc'. apply Hlk in Hx as (y & Hy & Hcc), Hx' as (y' & Hy' & Hcc').
      apply Hcc in Hc. apply Hcc' in Hc'. by eapply Hu2.
  - destruct Hs as [Hs|[t Ht]]; [by rewrite Hs, lookup_empty in He|].
    assert (Repr d t) as Hr by done.
    destruct (decide (pid ∈ ids t)) as [Hin|Hnin].
    + assert (pop_elements_by_tag tag (Some pid) d = (with_elems d m, Ok (match es with [] => None | _ :: _ => Some es end))) as Hp2.
      { unfold pop_elements_by_tag, ids_by_tag. change (default 0 (Some pid)) with pid. rewrite He.
        fold rem. rewrite Ex. rewrite <- Ex. fold e'. by rewrite Erm. }
      destruct (Repr_pop d t pid e tag _ _ Hr Hin He Hp2) as (cs & _ & _ & HR). by eapply Repr_sound.
    + eapply (Repr_sound _ t), Repr_frame; [exact Hr| |done].
      intros k Hk. cbn. rewrite Hm, decide_False.
      * rewrite lookup_insert_ne; [done|]. by intros <-.
      * intros Hkr. apply Hrem in Hkr as Hkc. destruct (decide (k = 0)) as [->|Hk0].
        { specialize (Hu1 _ _ _ He Hkc). lia. }
        destruct (reachable_parent d t k Hr Hk Hk0) as (q & eq & Hq & Heq & Hkq).
        assert (q = pid) as -> by (by eapply Hu2). done.
Qed.

Lemma place_append_inserts tag id l : inserts id tag l (place_append tag id l).
Proof. exists l, []. by rewrite app_nil_r. Qed.
Lemma place_before_found_spec tag f id l l' : place_before_found tag f id l = Some l' ->
  exists e1 c e2, l = e1 ++ c :: e2 /\ c.2 = f /\ Forall (fun x => x.2 <> f) e1 /\ l' = e1 ++ (id, tag) :: c :: e2.
Proof.
  revert l'. induction l as [|c l IH]; intros l'; cbn; [done|].
  destruct (seqb c.2 f) eqn:E.
  - intros [= <-]. exists [], c, l. apply seqb_true in E. repeat split; [done|constructor].
  - destruct (place_before_found tag f id l) as [r|]; [|done]. intros [= <-].
    destruct (IH r eq_refl) as (e1 & c' & e2 & -> & Hc & Hf & ->). exists (c :: e1), c', e2.
    apply seqb_false in E. repeat split; [done|by constructor].
Qed.
Lemma place_before_inserts tag f id l : inserts id tag l (place_before tag f id l).
Proof.
  unfold place_before. destruct (place_before_found tag f id l) as [r|] eqn:E.
  - apply place_before_found_spec in E as (e1 & c & e2 & -> & _ & _ & ->). by exists e1, (c :: e2).
  - by exists [], l.
Qed.
Lemma place_after_found_spec tag f id l l' : place_after_found tag f id l = Some l' ->
  exists e1 c e2, l = e1 ++ c :: e2 /\ c.2 = f /\ Forall (fun x => x.2 <> f) e2 /\ l' = e1 ++ c :: (id, tag) :: e2.
Proof.
  revert l'. induction l as [|c l IH]; intros l'; cbn; [done|].
  destruct (place_after_found tag f id l) as [r|] eqn:E.
  - intros [= <-]. destruct (IH r eq_refl) as (e1 & c' & e2 & -> & Hc & Hf & ->).
    exists (c :: e1), c', e2. done.
  - destruct (seqb c.2 f) eqn:Es; [|done]. intros [= <-]. exists [], c, l. apply seqb_true in Es.
    repeat split; [done|]. clear -E. induction l as [|x l IH]; [constructor|]. cbn in E.
    destruct (place_after_found tag f id l); [done|]. destruct (seqb x.2 f) eqn:Ex; [done|].
    constructor; [by apply seqb_false|auto].
Qed.
Lemma place_after_inserts tag f id l : inserts id tag l (place_after tag f id l).
Proof.
  unfold place_after. destruct (place_after_found tag f id l) as [r|] eqn:E.
  - apply place_after_found_spec in E as (e1 & c & e2 & -> & _ & _ & ->). exists (e1 ++ [c]), e2.
    by rewrite <- !app_assoc.
  - exists l, []. by rewrite app_nil_r.
Qed.
Lemma place_at_inserts tag pos id l l' : place_at tag pos id l = Ok l' -> inserts id tag l l'.
Proof.
  unfold place_at. destruct (Nat.leb pos (length l)); [|done]. intros [= <-].
  exists (take pos l), (drop pos l). by rewrite take_drop.
Qed.

Lemma pop_effect tag i d d' r it : HInv d -> Represents d it -> i ∈ ids it ->
  pop_elements_by_tag tag (Some i) d = (d', r) ->
  exists q g a v cs, Sub 0 it q (INode i g a v cs)
    /\ Represents d' (subst i (INode i g a v (List.filter (fun c => negb (seqb (i_tag c) tag)) cs)) it).
Proof.
  intros Hinv Ht Hi Hp. assert (Repr d it) as Hr by (by apply HInv_repr).
  destruct (Repr_lookup d it i Hr Hi) as [e He].
  destruct (Repr_pop d it i e tag d' r Hr Hi He Hp) as (cs & _ & Hsub & HR & _). eauto 10.
Qed.
Lemma Forall_child_entry f (l : list itree) : Forall (fun x : N * string => x.2 <> f) (map child_entry l) ->
  Forall (fun x => i_tag x <> f) l.
Proof. rewrite !Forall_forall. intros Hf x Hx. apply (Hf (child_entry x)). apply elem_of_list_fmap. eauto. Qed.
Lemma insert_with_effect place tag parent d d' id it : HInv d -> Represents d it ->
  (forall id l l', place id l = Ok l' -> inserts id tag l l') ->
  default 0 parent ∈ ids it -> insert_with place tag parent d = (d', Ok id) ->
  exists q g a v l1 l2, Sub 0 it q (INode (default 0 parent) g a v (l1 ++ l2))
    /\ place id (map child_entry (l1 ++ l2)) = Ok (map child_entry l1 ++ (id, tag) :: map child_entry l2)
    /\ id ∉ ids it
    /\ Represents d' (subst (default 0 parent) (INode (default 0 parent) g a v
         (l1 ++ INode id tag None None [] :: l2)) it).
Proof.
  intros Hinv Ht Hplace Hin. unfold insert_with. set (pid := default 0 parent) in *.
  destruct (d_elems d !! pid) as [e|] eqn:He; [|done].
  unfold new_elem. destruct (is_valid_xml_name tag); [|done].
  set (id' := d_running d + 1).
  destruct (place id' (e_children e)) as [l'| |] eqn:Hp; [|done|done]. intros [= <- <-].
  assert (Hp' := Hp). apply Hplace in Hp' as (e1 & e2 & Hce & ->).
  assert (Repr d it) as Hr by (by apply HInv_repr).
  edestruct (Repr_insert d it pid e tag _ e1 e2 Hr Hin He Hce eq_refl (mkElem id' pid tag None None []))
    as (g & a & v & l1 & l2 & Hlk & <- & <- & Hsub & _ & HR & _); [done..|].
  rewrite He in Hlk. injection Hlk as Hlk.
  exists (e_parent e), g, a, v, l1, l2. split; [done|]. split.
  { rewrite <- Hp. f_equal. rewrite Hlk. done. }
  split; [|by apply HR]. intros Hid. eapply Repr_ids_le in Hid; [|done]. unfold id' in Hid. lia.
Qed.
Lemma child_split_eq (e1 e2 : list (N * string)) id tag l1 l2 : id ∉ l1.*1 -> id ∉ l2.*1 ->
  e1 ++ (id, tag) :: e2 = l1 ++ (id, tag) :: l2 -> e1 = l1 /\ e2 = l2.
Proof.
  intros H1 H2. revert l1 H1. induction e1 as [|x e1 IH]; intros [|y l1] H1 Heq; cbn in *.
  - by injection Heq.
  - injection Heq as <- _. rewrite not_elem_of_cons in H1. by destruct H1.
  - injection Heq as _ <-. exfalso. apply H2. rewrite fmap_app, fmap_cons, elem_of_app, elem_of_cons. cbn. tauto.
  - injection Heq as -> Heq. rewrite not_elem_of_cons in H1. destruct (IH l1) as [-> ->]; tauto.
Qed.
Lemma insertion_effect o tag parent d d' id it : HInv d -> Represents d it ->
  insertion o = Some (tag, parent) -> default 0 parent ∈ ids it -> apply_op o d = (d', Some id) ->
  exists q g a v l1 l2, Sub 0 it q (INode (default 0 parent) g a v (l1 ++ l2))
    /\ placed o l1 l2 /\ id ∉ ids it
    /\ Represents d' (subst (default 0 parent) (INode (default 0 parent) g a v
         (l1 ++ INode id tag None None [] :: l2)) it).
Proof.
  intros Hinv Ht Ho Hin Happ.
  assert (forall place, (forall id l l', place id l = Ok l' -> inserts id tag l l') ->
    new_id (insert_with place tag parent d) = (d', Some id) ->
    (forall l1 l2 : list itree, id ∉ map i_id l1 -> id ∉ map i_id l2 ->
      place id (map child_entry (l1 ++ l2)) = Ok (map child_entry l1 ++ (id, tag) :: map child_entry l2) -> placed o l1 l2) ->
    exists q g a v l1 l2, Sub 0 it q (INode (default 0 parent) g a v (l1 ++ l2))
    /\ placed o l1 l2 /\ id ∉ ids it
    /\ Represents d' (subst (default 0 parent) (INode (default 0 parent) g a v
         (l1 ++ INode id tag None None [] :: l2)) it)) as Hgen.
  { intros place Hpl Hr Hpd. unfold new_id in Hr.
    destruct (insert_with place tag parent d) as [d1 [i|e|e]] eqn:Ei; cbn in Hr; [|done|done].
    injection Hr as <- <-.
    destruct (insert_with_effect place tag parent d d1 i it Hinv Ht Hpl Hin Ei)
      as (q & g & a & v & l1 & l2 & H1 & H2 & H3 & H4).
    exists q, g, a, v, l1, l2. split; [done|]. split; [|done].
    assert (forall c, c ∈ l1 ++ l2 -> i_id c <> i) as Hne.
    { intros c Hc <-. apply H3. eapply Sub_ids; [exact H1|]. cbn. right. apply elem_of_flat_map. exists c.
      split; [done|apply ids_head]. }
    apply Hpd; [| |done].
    - intros Hx. apply elem_of_list_fmap in Hx as (c & -> & Hc). eapply (Hne c); [apply elem_of_app; by left|done].
    - intros Hx. apply elem_of_list_fmap in Hx as (c & -> & Hc). eapply (Hne c); [apply elem_of_app; by right|done]. }
  assert (forall l : list itree, (map child_entry l).*1 = map i_id l) as Hfst.
  { intros l. unfold fmap. by rewrite map_map. }
  destruct o; cbn [insertion] in Ho; try done; injection Ho as -> ->; cbn [apply_op] in Happ;
    (eapply Hgen; [|exact Happ|]).
  - intros i l l' [= <-]. apply place_append_inserts.
  - intros l1 l2 Hn1 Hn2 [= Heq]. unfold place_append in Heq. cbn.
    change [(id, tag)] with ((id, tag) :: []) in Heq.
    apply child_split_eq in Heq as [_ Heq]; [|by rewrite Hfst..]. symmetry in Heq. by apply map_eq_nil in Heq.
  - intros i l l' [= <-]. apply place_before_inserts.
  - intros l1 l2 Hn1 Hn2 [= Heq]. unfold place_before in Heq. cbn.
    destruct (place_before_found _ _ _ _) as [r|] eqn:E.
    + subst r. apply place_before_found_spec in E as (e1 & c & e2 & _ & Hc & Hf & Heq). symmetry in Heq.
      apply child_split_eq in Heq as [-> Heq]; [|by rewrite Hfst..].
      destruct l2 as [|x l2]; [done|]. injection Heq as -> ->. left. exists x, l2. split; [done|].
      split; [done|by apply Forall_child_entry].
    + right. change ((id, tag) :: map child_entry (l1 ++ l2)) with ([] ++ (id, tag) :: map child_entry (l1 ++ l2)) in Heq.
      apply child_split_eq in Heq as [Heq _]; [|by rewrite Hfst..]. symmetry in Heq. apply map_eq_nil in Heq as ->.
      split; [done|]. apply Forall_child_entry. cbn in E. clear -E. induction (map child_entry l2) as [|c l IH]; [constructor|].
      cbn in E. destruct (seqb c.2 find) eqn:Es; [done|]. constructor; [by apply seqb_false|].
      apply IH. by destruct (place_before_found _ _ _ _).
  - intros i l l' [= <-]. apply place_after_inserts.
  - intros l1 l2 Hn1 Hn2 [= Heq]. unfold place_after in Heq. cbn.
    destruct (place_after_found _ _ _ _) as [r|] eqn:E.
    + subst r. apply place_after_found_spec in E as (e1 & c & e2 & _ & Hc & Hf & Heq).
      assert (e1 ++ c :: (id, tag) :: e2 = (e1 ++ [c]) ++ (id, tag) :: e2) as Hasc by (by rewrite <- app_assoc).
      rewrite Hasc in Heq. symmetry in Heq. apply child_split_eq in Heq as [Heq ->]; [|by rewrite Hfst..].
      left. symmetry in Heq. apply map_eq_app in Heq as (r & cs & -> & <- & Hcs).
      apply map_eq_cons in Hcs as (x & xs & -> & <- & Hxs). apply map_eq_nil in Hxs as ->.
      exists x, r. split; [done|]. split; [done|by apply Forall_child_entry].
    + right. change [(id, tag)] with ((id, tag) :: []) in Heq.
      apply child_split_eq in Heq as [_ Heq]; [|by rewrite Hfst..]. symmetry in Heq. apply map_eq_nil in Heq as ->.
      split; [done|]. apply Forall_child_entry. rewrite app_nil_r in E. clear -E.
      induction (map child_entry l1) as [|c l IH]; [constructor|]. cbn in E.
      destruct (place_after_found _ _ _ l); [done|]. destruct (seqb c.2 find) eqn:Es; [done|].
      constructor; [by apply seqb_false|auto].
  - intros i l l'. apply place_at_inserts.
  - intros l1 l2 Hn1 Hn2. unfold place_at. cbn. destruct (Nat.leb_spec pos (length (map child_entry (l1 ++ l2)))) as [Hle|]; [|done].
    intros [= Heq]. apply child_split_eq in Heq as [Heq _]; [|by rewrite Hfst..].
    apply (f_equal length) in Heq. rewrite take_length, map_length in Heq. rewrite map_length in *. lia.
Qed.

Lemma apply_op_inv o d : HInv d ->
  HInv (apply_op o d).1 /\ d_running d <= d_running (apply_op o d).1
  /\ (forall i, (apply_op o d).2 = Some i -> d_running d < i <= d_running (apply_op o d).1).
Proof.
  intros Hinv.
  assert (forall place tag parent, (forall id l l', place id l = Ok l' -> inserts id tag l l') ->
    let r := new_id (insert_with place tag parent d) in
    HInv r.1 /\ d_running d <= d_running r.1 /\ (forall i, r.2 = Some i -> d_running d < i <= d_running r.1)) as Hins.
  { intros place tag parent Hp. destruct (HInv_insert place tag parent d Hp Hinv) as (H1 & H2 & H3).
    cbn. split; [done|]. split; [done|]. intros i. cbn in H3.
    destruct (insert_with place tag parent d).2 eqn:E; [|done|done]. intros [= ->]. by apply H3. }
  destruct o; cbn [apply_op].
  - unfold fst_res. cbn. split; [by apply HInv_root|]. split; [|done].
    unfold create_root, new_elem. destruct (is_valid_xml_name tag); cbn; lia.
  - apply Hins. intros id l l' [= <-]. apply place_append_inserts.
  - apply Hins. intros id l l' [= <-]. apply place_before_inserts.
  - apply Hins. intros id l l' [= <-]. apply place_after_inserts.
  - apply Hins. intros id l l'. apply place_at_inserts.
  - unfold fst_res. cbn. unfold set_attributes. destruct (negb _); [cbn; split; [done|split; [lia|done]]|].
    destruct (d_elems d !! id) as [e|] eqn:He; cbn; [|split; [done|split; [lia|done]]].
    split; [|split; [lia|done]]. by eapply HInv_update.
  - unfold fst_res. cbn. unfold insert_attribute.
    destruct (d_elems d !! id) as [e|] eqn:He; cbn; [|split; [done|split; [lia|done]]].
    destruct (e_attrs e) as [a|] eqn:Ea; cbn; [|split; [done|split; [lia|done]]].
    split; [|split; [lia|done]]. by eapply HInv_update.
  - unfold fst_res. cbn. unfold set_value.
    destruct (d_elems d !! id) as [e|] eqn:He; cbn; [|split; [done|split; [lia|done]]].
    split; [|split; [lia|done]]. by eapply HInv_update.
  - unfold fst_res. cbn. destruct (HInv_pop tag parent d Hinv) as [H1 H2]. split; [done|].
    split; [rewrite H2; lia|done].
  - unfold fst_res, order_child.
    destruct (d_elems d !! id) as [e|] eqn:He; cbn [fst snd]; [|split; [done|split; [lia|done]]].
    destruct (e_children e) as [|c cs] eqn:Ec; cbn [fst snd]; [split; [done|split; [lia|done]]|].
    destruct skeleton as [|t ts]; cbn [fst snd]; [split; [done|split; [lia|done]]|].
    split; [|split; [cbn [with_elems d_running]; lia|done]]. eapply HInv_update; try done. cbn [set_children e_children].
    rewrite Ec. apply sort_by_perm.
Qed.
Lemma run_ops_inv os d : HInv d -> HInv (run_ops os d).1
  /\ d_running d <= d_running (run_ops os d).1
  /\ StronglySorted N.lt (run_ops os d).2
  /\ Forall (fun i => d_running d < i <= d_running (run_ops os d).1) (run_ops os d).2.
Proof.
  revert d. induction os as [|o os IH]; intros d Hinv; cbn [run_ops].
  { cbn. split; [done|]. split; [lia|]. split; constructor. }
  destruct (apply_op_inv o d Hinv) as (H1 & H2 & H3).
  destruct (apply_op o d) as [d1 i]. cbn in *.
  destruct (IH d1 H1) as (H4 & H5 & H6 & H7). destruct (run_ops os d1) as [d2 is]. cbn in *.
  split; [done|]. split; [lia|]. destruct i as [i|].
  - specialize (H3 i eq_refl). split.
    + constructor; [done|]. eapply Forall_impl; [exact H7|]. cbn. lia.
    + constructor; [lia|]. eapply Forall_impl; [exact H7|]. cbn. lia.
  - split; [done|]. eapply Forall_impl; [exact H7|]. cbn. lia.
Qed.

(** ** C12: reading arbitrary bytes is a history of edits *)
Lemma run_add_inv d m attrs : HInv d ->
  (forall id, (m d).2 = Ok id -> exists e, d_elems (m d).1 !! id = Some e) ->
  HInv (m d).1 -> (forall e, (m d).2 <> Panic e) ->
  match run_add d m attrs with Ok (d', _) => HInv d' | Err _ => True | Panic _ => False end.
Proof.
  intros Hd Hid Hm Hnp. unfold run_add. destruct (m d) as [d1 [id|e|e]] eqn:E; cbn in *; [|done|by eapply Hnp].
  destruct (apply_op_inv (OpAttrs id attrs) d1 Hm) as [H1 _]. cbn [apply_op fst_res fst] in H1.
  destruct (Hid id eq_refl) as [x Hx].
  destruct (set_attributes id attrs d1) as [d2 [[]|e|e]] eqn:Es; cbn in *; [done|done|].
  unfold set_attributes in Es. destruct (negb _); [done|]. by rewrite Hx in Es.
Qed.
Lemma create_root_ok name d id : (create_root name d).2 = Ok id ->
  exists e, d_elems (create_root name d).1 !! id = Some e.
Proof.
  unfold create_root, new_elem. destruct (is_valid_xml_name name); [|done]. cbn. intros [= <-].
  rewrite lookup_insert. eauto.
Qed.
Lemma append_child_ok name p d id : (append_child name p d).2 = Ok id ->
  exists e, d_elems (append_child name p d).1 !! id = Some e.
Proof.
  unfold append_child, insert_with. destruct (d_elems d !! _); [|done].
  unfold new_elem. destruct (is_valid_xml_name name); [|done]. cbn. intros [= <-].
  rewrite lookup_insert. eauto.
Qed.
Lemma append_child_no_panic name p d m : (append_child name p d).2 <> Panic m.
Proof.
  unfold append_child, insert_with. destruct (d_elems d !! _); [|done].
  unfold new_elem. by destruct (is_valid_xml_name name).
Qed.
Lemma create_root_no_panic name d m : (create_root name d).2 <> Panic m.
Proof. unfold create_root, new_elem. by destruct (is_valid_xml_name name). Qed.
Lemma parse_step_inv ev p : HInv (ps_doc p) ->
  match parse_step ev p with
  | Ok (inl p') => HInv (ps_doc p')
  | Ok (inr d) => HInv d
  | Err _ => True
  | Panic _ => False
  end.
Proof.
  intros Hinv. destruct ev as [name raw|name raw|name|raw| |]; cbn [parse_step]; [..|done|done].
  - unfold get_attributes. destruct (parse_attrs_from _ _ _) as [l|]; cbn; [|done].
    assert (match run_add (ps_doc p) (if ps_root p then append_child name (Some (ps_active p)) else create_root name) (attrs_of l)
            with Ok (d', _) => HInv d' | Err _ => True | Panic _ => False end) as Hra.
    { destruct (ps_root p).
      - apply run_add_inv; [done|apply append_child_ok| |apply append_child_no_panic].
        by apply (apply_op_inv (OpAppend name (Some (ps_active p)))).
      - apply run_add_inv; [done|apply create_root_ok| |apply create_root_no_panic].
        by apply (apply_op_inv (OpRoot name)). }
    destruct (run_add _ _ _) as [[d' id]|e|e]; done.
  - unfold get_attributes. destruct (parse_attrs_from _ _ _) as [l|]; cbn; [|done].
    assert (match run_add (ps_doc p) (append_child name (Some (ps_active p))) (attrs_of l)
            with Ok (d', _) => HInv d' | Err _ => True | Panic _ => False end) as Hra.
    { apply run_add_inv; [done|apply append_child_ok| |apply append_child_no_panic].
      by apply (apply_op_inv (OpAppend name (Some (ps_active p)))). }
    destruct (run_add _ _ _) as [[d' id]|e|e]; done.
  - destruct (ps_open p); [done|]. destruct (negb _); [done|].
    destruct (d_elems (ps_doc p) !! ps_active p) as [e|]; [|done]. by destruct (seqb _ _).
  - destruct (unescape raw) as [t|]; [|done].
    destruct (d_elems (ps_doc p) !! ps_active p) as [e|] eqn:He; [|done]. cbn.
    destruct (apply_op_inv (OpValue (ps_active p) t) (ps_doc p) Hinv) as [Hx _].
    cbn [apply_op fst_res fst] in Hx. unfold set_value in Hx. by rewrite He in Hx.
Qed.
Lemma read_event_no_panic s m : read_event s <> Panic m.
Proof.
  unfold read_event. destruct (skip_ws s) as [|a s']; [done|]. destruct (aeqb a "<").
  - unfold read_markup. repeat case_match; done.
  - by destruct (span_text _).
Qed.
Lemma parse_loop_inv fuel s p : HInv (ps_doc p) -> (String.length s < fuel)%nat ->
  match parse_loop fuel s p with Ok d => HInv d | Err _ => True | Panic _ => False end.
Proof.
  revert s p. induction fuel as [|fuel IH]; intros s p Hp Hf; [lia|]. cbn [parse_loop].
  destruct (read_event s) as [[ev rest]|e|e] eqn:Ev; cbn; [|done|by apply read_event_no_panic in Ev].
  pose proof (parse_step_inv ev p Hp) as Hs.
  destruct (parse_step ev p) as [[p'|d]|e|e] eqn:Es; cbn in *; try done.
  apply IH; [done|]. assert (ev <> EvEof) as Hne by (intros ->; done).
  destruct (read_event_len s ev rest Ev); [done|lia].
Qed.
Lemma read_doc_inv s : match read_doc s with Ok d => HInv d | Err _ => True | Panic _ => False end.
Proof. unfold read_doc. apply parse_loop_inv; [apply HInv_new|lia]. Qed.
Lemma Sound_writes d : Sound d -> exists out, write_doc d = Ok out.
Proof.
  intros [He|[t Ht]].
  - unfold write_doc, build_xml_tree, get_root, get_element. rewrite He, lookup_empty. cbn. eauto.
  - rewrite (write_doc_render d t Ht). eauto.
Qed.
End hist.
