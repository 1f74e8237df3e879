From Verif.Model Require Import XmlTree XmlWrite.
From Verif.Spec Require Import XmlSpec XmlRepr.
From Verif.Proofs Require Import BaseFacts.

Lemma escape_spec s : escape s = spec_escape s.
Proof.
  induction s as [|a s IH]; [done|]. cbn [escape spec_escape]. rewrite IH.
  unfold escape_byte, entity_of, aeqb.
  destruct (Ascii.eqb_spec a "<") as [->|]; [done|].
  destruct (Ascii.eqb_spec a ">") as [->|]; [done|].
  destruct (Ascii.eqb_spec a "'") as [->|]; [done|].
  destruct (Ascii.eqb_spec a "&") as [->|]; [done|].
  destruct (Ascii.eqb_spec a """") as [->|]; done.
Qed.
Lemma join_spaced l : join " " l = spaced l.
Proof.
  induction l as [|a l IH]; [done|]. cbn [join spaced]. destruct l; [done|].
  by rewrite IH.
Qed.
Lemma map_ns_text l : map ns_text l = map spec_ns l.
Proof.
  apply map_ext. intros [k v]. unfold ns_text, spec_ns, seqb, default_ns_key, quoted, dquote. cbn [fst snd].
  destruct (String.eqb_spec k "<Default>"); [done|]. by rewrite <- app_assoc_s.
Qed.
Lemma map_attr_text l : map attr_text l = map spec_attr l.
Proof.
  apply map_ext. intros [k v]. unfold attr_text, spec_attr, quoted, dquote. by rewrite escape_spec.
Qed.

(** ** rendering as a function *)
Section render.
Context `{Env}.

Fixpoint render (t : tree) : string :=
  match t with
  | Node g a v cs =>
      match v, cs with
      | None, [] => open_tag None g a true
      | Some s, _ => open_tag None g a false +:+ value_close s g
      | None, _ => open_tag None g a false +:+ sconcat (map render cs) +:+ value_close "" g
      end
  end.
Definition render_all (ts : list tree) : string := sconcat (map render ts).
Definition render_root (ns : gmap string string) (t : tree) : string :=
  match t with
  | Node g a v cs =>
      match v, cs with
      | None, [] => open_tag (Some ns) g a true
      | Some s, _ => open_tag (Some ns) g a false +:+ value_close s g
      | None, _ => open_tag (Some ns) g a false +:+ render_all cs +:+ value_close "" g
      end
  end.

Lemma sorted_entries_order (m : gmap string string) : AttrOrder m (sorted_entries m).
Proof. split; [apply sorted_entries_perm|apply sorted_entries_sorted]. Qed.

Lemma open_tag_head ns g a close :
  exists h, Head (match ns with Some n => Some (hash_entries (written_ns n)) | None => None end) g a h
            /\ open_tag ns g a close = h +:+ (if close then " />" else " >").
Proof.
  eexists. split.
  - apply (Head_intro _ g a (match a with Some m => sorted_entries m | None => [] end)).
    destruct a; [apply sorted_entries_order|done].
  - unfold open_tag. rewrite <- !app_assoc_s. do 2 f_equal.
    destruct ns as [n|], a as [m|]; rewrite ?join_spaced, ?map_ns_text, ?map_attr_text; done.
Qed.
Lemma sconcat_cons a l : sconcat (a :: l) = a +:+ sconcat l.
Proof. done. Qed.
Lemma render_renders_mut ns t : Renders None t (render t) /\
  Renders (Some (hash_entries (written_ns ns))) t (render_root ns t).
Proof.
  induction t as [g a v cs IH] using tree_rect'.
  assert (RendersAll cs (render_all cs)) as Hcs.
  { clear -IH. induction IH as [|c cs Hc _ IHcs]; [constructor|].
    unfold render_all. cbn [map]. rewrite sconcat_cons. constructor; [apply Hc|done]. }
  assert (forall ns' , Renders (match ns' with Some n => Some (hash_entries (written_ns n)) | None => None end)
     (Node g a v cs)
     (match v, cs with
      | None, [] => open_tag ns' g a true
      | Some s, _ => open_tag ns' g a false +:+ value_close s g
      | None, _ => open_tag ns' g a false +:+ render_all cs +:+ value_close "" g
      end)) as Hgen.
  { intros ns'. destruct v as [s|].
    - destruct (open_tag_head ns' g a false) as (h & Hh & ->).
      rewrite <- app_assoc_s. unfold value_close. rewrite escape_spec. by constructor.
    - destruct cs as [|c cs].
      + destruct (open_tag_head ns' g a true) as (h & Hh & ->). by constructor.
      + destruct (open_tag_head ns' g a false) as (h & Hh & ->).
        rewrite <- app_assoc_s. unfold value_close. by constructor. }
  split; [apply (Hgen None)|apply (Hgen (Some ns))].
Qed.

(** ** the loop *)
Fixpoint cost (t : itree) : nat :=
  match t with
  | INode _ _ _ (Some _) _ => 1
  | INode _ _ _ None [] => 1
  | INode _ _ _ None cs => 2 + foldr (fun c n => cost c + n) 0 cs
  end%nat.
Definition cost_all (cs : list itree) : nat := foldr (fun c n => cost c + n)%nat 0%nat cs.
Definition nodes (t : itree) : nat := length (ids t).

Lemma cost_le t : (cost t <= 2 * nodes t)%nat.
Proof.
  induction t as [i g a v cs IH] using itree_rect'. unfold nodes. cbn [ids length].
  destruct v as [s|]; [cbn; lia|]. destruct cs as [|c cs]; [cbn; lia|].
  assert (foldr (fun c n => cost c + n)%nat 0%nat (c :: cs) <= 2 * length (flat_map ids (c :: cs)))%nat.
  { clear -IH. induction IH as [|x l Hx _ IHl]; [done|]. cbn [foldr flat_map]. rewrite app_length.
    unfold nodes in Hx. lia. }
  cbn [cost]. lia.
Qed.
Lemma cost_all_le cs : (cost_all cs <= 2 * length (flat_map ids cs))%nat.
Proof.
  induction cs as [|c cs IH]; [done|]. unfold cost_all in *. cbn [foldr flat_map].
  rewrite app_length. pose proof (cost_le c). unfold nodes in *. lia.
Qed.

(** two collections agree outside a set of ids *)
Definition agree_off (l : list N) (m m' : gmap N elem) : Prop :=
  forall k, k ∉ l -> m' !! k = m !! k.
Lemma flat_ids p t : (flat p t).*1 = ids t.
Proof.
  revert p. induction t as [i g a v cs IH] using itree_rect'; intros p.
  cbn [flat ids fmap list_fmap fst]. f_equal.
  induction IH as [|c cs Hc _ IHcs]; [done|]. cbn [flat_map]. rewrite fmap_app, Hc, IHcs. done.
Qed.
Definition HoldsAll (m : gmap N elem) (p : N) (cs : list itree) : Prop :=
  Forall (fun q => m !! q.1 = Some q.2) (flat_map (flat p) cs).
Lemma flat_all_ids p cs : (flat_map (flat p) cs).*1 = flat_map ids cs.
Proof. induction cs as [|c cs IH]; [done|]. cbn [flat_map]. rewrite fmap_app, flat_ids, IH. done. Qed.
Lemma HoldsAll_agree l m m' p cs :
  agree_off l m m' -> (forall k, k ∈ flat_map ids cs -> k ∉ l) -> HoldsAll m p cs -> HoldsAll m' p cs.
Proof.
  intros Hag Hdis Hh. unfold HoldsAll in *. apply Forall_forall. intros [k e] Hin.
  rewrite Forall_forall in Hh. specialize (Hh _ Hin). cbn [fst snd] in Hh |- *.
  rewrite Hag; [done|]. apply Hdis. rewrite <- (flat_all_ids p).
  apply elem_of_list_fmap. exists (k, e). split; [done|exact Hin].
Qed.
Lemma Holds_children m p i g a v cs :
  Holds m p (INode i g a v cs) <->
  m !! i = Some (mkElem i p g a v (map child_entry cs)) /\ HoldsAll m i cs.
Proof. unfold Holds. cbn [flat]. rewrite Forall_cons. done. Qed.
Lemma HoldsAll_cons m p c cs : HoldsAll m p (c :: cs) <-> Holds m p c /\ HoldsAll m p cs.
Proof. unfold HoldsAll, Holds. cbn [flat_map]. by rewrite Forall_app. Qed.
Lemma not_in_app {A} (x : A) l k : x ∉ l ++ k <-> x ∉ l /\ x ∉ k.
Proof. rewrite elem_of_app. tauto. Qed.
Lemma agree_off_trans l l' m m' m'' :
  agree_off l m m' -> agree_off l' m' m'' -> agree_off (l ++ l') m m''.
Proof. intros H1 H2 k Hk. apply not_in_app in Hk as [??]. rewrite H2 by done. by apply H1. Qed.
Lemma agree_off_weaken l l' m m' :
  agree_off l m m' -> (forall k, k ∈ l -> k ∈ l') -> agree_off l' m m'.
Proof. intros H1 H2 k Hk. apply H1. auto. Qed.

(** All remaining children [cs] of [p] are consumed: the loop emits their renderings in order
    and is back at [p]. *)
Lemma write_loop_children n : forall cs, (length (flat_map ids cs) <= n)%nat ->
  forall p e d b out,
  d_elems d !! p = Some e -> e_children e = map child_entry cs ->
  HoldsAll (d_elems d) p cs ->
  NoDup (p :: flat_map ids cs) -> 0 ∉ flat_map ids cs ->
  exists d',
    d_ns d' = d_ns d
    /\ agree_off (p :: flat_map ids cs) (d_elems d) (d_elems d')
    /\ d_elems d' !! p = Some (set_children e [])
    /\ write_loop (cost_all cs + b) d p out = write_loop b d' p (out +:+ render_all (map erase cs)).
Proof.
  induction n as [|n IHn]; intros cs Hn p e d b out Hp Hce Hh Hnd H0.
  { destruct cs as [|[i g a v ccs] cs]; [|cbn in Hn; lia].
    exists d. split; [done|]. split; [by intros k _|]. split.
    - rewrite Hp. f_equal. destruct e. cbn in *. by subst.
    - cbn. by rewrite app_nil_r_s. }
  destruct cs as [|[i g a v ccs] cs].
  { exists d. split; [done|]. split; [by intros k _|]. split.
    - rewrite Hp. f_equal. destruct e. cbn in *. by subst.
    - cbn. by rewrite app_nil_r_s. }
  apply HoldsAll_cons in Hh as [Hhc Hhcs].
  apply Holds_children in Hhc as [Hi Hccs].
  cbn [flat_map ids] in Hnd, H0, Hn. rewrite <- app_comm_cons in *. cbn [length] in Hn.
  rewrite app_length in Hn.
  rewrite NoDup_cons in Hnd. destruct Hnd as [Hpn Hnd].
  rewrite not_elem_of_cons, not_in_app in Hpn. destruct Hpn as (Hpi & Hpccs & Hpcs).
  rewrite not_elem_of_cons, not_in_app in H0. destruct H0 as (H0i & H0ccs & H0cs).
  rewrite NoDup_cons, NoDup_app, not_in_app in Hnd.
  destruct Hnd as ((Hic & Hics) & Hndc & Hdis & Hndcs).
  cbn [map] in Hce. unfold child_entry at 1 in Hce. cbn [i_id i_tag] in Hce.
  set (e1 := set_children e (map child_entry cs)).
  set (d1 := with_elems d (<[p := e1]> (d_elems d))).
  assert (agree_off [p] (d_elems d) (d_elems d1)) as Hag1.
  { intros k Hk. apply not_elem_of_cons in Hk as [Hk _]. unfold d1. cbn. by rewrite lookup_insert_ne. }
  assert (d_elems d1 !! p = Some e1) as Hp1 by (unfold d1; cbn; by rewrite lookup_insert).
  assert (d_elems d1 !! i = Some (mkElem i p g a v (map child_entry ccs))) as Hi1.
  { rewrite Hag1; [done|]. rewrite elem_of_list_singleton. congruence. }
  assert (HoldsAll (d_elems d1) p cs) as Hhcs1.
  { eapply HoldsAll_agree; [exact Hag1| |exact Hhcs].
    intros k Hk Hk'. apply elem_of_list_singleton in Hk' as ->. done. }
  assert (HoldsAll (d_elems d1) i ccs) as Hccs1.
  { eapply HoldsAll_agree; [exact Hag1| |exact Hccs].
    intros k Hk Hk'. apply elem_of_list_singleton in Hk' as ->. done. }
  assert (NoDup (p :: flat_map ids cs)) as Hnd1 by (apply NoDup_cons; done).
  assert (set_children e1 [] = set_children e []) as He1 by done.
  cbn [map erase]. unfold render_all. cbn [map]. rewrite sconcat_cons. fold (render_all (map erase cs)).
  (* leaf-like child: one iteration *)
  assert (forall piece,
    (forall b', write_loop (S b') d p out = write_loop b' d1 p (out +:+ piece)) ->
    cost_all (INode i g a v ccs :: cs) = S (cost_all cs) ->
    render (Node g a v (map erase ccs)) = piece ->
    exists d',
      d_ns d' = d_ns d
      /\ agree_off (p :: i :: flat_map ids ccs ++ flat_map ids cs) (d_elems d) (d_elems d')
      /\ d_elems d' !! p = Some (set_children e [])
      /\ write_loop (cost_all (INode i g a v ccs :: cs) + b) d p out
         = write_loop b d' p (out +:+ render (Node g a v (map erase ccs)) +:+ render_all (map erase cs)))
    as Hleaf.
  { intros piece Hstep Hcost Hpiece.
    destruct (IHn cs ltac:(lia) p e1 d1 b (out +:+ piece)) as (d' & Hns & Hag & Hlk & Hrun);
      [done|done|done|done|done|].
    exists d'. split; [by rewrite Hns|]. split.
    { eapply agree_off_weaken; [eapply agree_off_trans; [exact Hag1|exact Hag]|].
      intros k. rewrite !elem_of_app, !elem_of_cons, elem_of_app, elem_of_nil. tauto. }
    split; [by rewrite Hlk|].
    rewrite Hcost. cbn [Nat.add]. rewrite Hstep, Hrun, Hpiece. by rewrite <- app_assoc_s. }
  destruct v as [s|]; [|destruct ccs as [|c1 ccs1]].
  - (* element with text *)
    apply (Hleaf (open_tag None g a false +:+ value_close s g)); [|done|done].
    intros b'. cbn [write_loop]. rewrite Hp, Hce. fold e1. fold d1. rewrite Hi1.
    unfold is_empty_tag. cbn [e_children e_value]. cbn [e_value e_tag].
    unfold generate_element. cbn [e_tag e_attrs].
    destruct (map child_entry ccs); by rewrite <- app_assoc_s.
  - (* empty element *)
    apply (Hleaf (open_tag None g a true)); [|done|done].
    intros b'. cbn [write_loop]. rewrite Hp, Hce. fold e1. fold d1. rewrite Hi1.
    unfold is_empty_tag. cbn [e_children e_value]. cbn [map]. done.
  - (* element with children *)
    clear Hleaf. set (ccs := c1 :: ccs1) in *.
    set (out1 := out +:+ open_tag None g a false).
    assert (NoDup (i :: flat_map ids ccs)) as Hnd2 by (apply NoDup_cons; done).
    destruct (IHn ccs ltac:(lia) i (mkElem i p g a None (map child_entry ccs)) d1
                (S (cost_all cs + b)) out1)
      as (d2 & Hns2 & Hag2 & Hlk2 & Hrun2); [done|done|done|done|done|].
    assert (d_elems d2 !! p = Some e1) as Hp2.
    { rewrite Hag2; [done|]. by rewrite not_elem_of_cons. }
    assert (HoldsAll (d_elems d2) p cs) as Hhcs2.
    { eapply HoldsAll_agree; [exact Hag2| |exact Hhcs1].
      intros k Hk. rewrite not_elem_of_cons. split; [by intros ->|].
      intros Hk'. by apply (Hdis k). }
    destruct (IHn cs ltac:(lia) p e1 d2 b
      ((out1 +:+ render_all (map erase ccs)) +:+ value_close "" g))
      as (d3 & Hns3 & Hag3 & Hlk3 & Hrun3); [done|done|done|done|done|].
    exists d3. split; [by rewrite Hns3, Hns2|]. split.
    { eapply agree_off_weaken;
        [eapply agree_off_trans; [exact Hag1|eapply agree_off_trans; [exact Hag2|exact Hag3]]|].
      intros k. cbn [flat_map ids].
      repeat (rewrite elem_of_app || rewrite elem_of_cons || rewrite elem_of_nil). tauto. }
    split; [by rewrite Hlk3|].
    assert (cost_all (INode i g a None ccs :: cs) + b
            = S (cost_all ccs + S (cost_all cs + b)))%nat as ->.
    { unfold cost_all, ccs. cbn [foldr cost]. lia. }
    cbn [write_loop]. rewrite Hp, Hce. fold e1. fold d1. rewrite Hi1.
    unfold is_empty_tag. cbn [e_children e_value]. unfold ccs at 1. cbn [map e_value].
    unfold generate_element. cbn [e_tag e_attrs]. fold out1.
    etrans; [exact Hrun2|]. cbn [write_loop]. rewrite Hlk2. cbn [set_children e_children].
    destruct (i =? 0) eqn:Ei0; [apply N.eqb_eq in Ei0; congruence|].
    cbn [e_parent e_tag]. etrans; [exact Hrun3|]. f_equal.
    unfold out1. cbn [render]. unfold ccs at 2. cbn [map]. unfold render_all.
    rewrite <- !app_assoc_s. done.
Qed.

Lemma ids_size_le m p t : Holds m p t -> NoDup (ids t) -> (length (ids t) <= size m)%nat.
Proof.
  intros Hh Hnd. rewrite <- (size_dom (D := gset N)).
  rewrite <- (size_list_to_set (C := gset N)) by done.
  apply subseteq_size. intros k Hk. apply elem_of_list_to_set in Hk.
  rewrite <- (flat_ids p) in Hk. apply elem_of_list_fmap in Hk as ([k' e] & -> & Hin).
  unfold Holds in Hh. rewrite Forall_forall in Hh. specialize (Hh _ Hin).
  by apply elem_of_dom_2 in Hh.
Qed.

Lemma write_doc_render d it : Represents d it ->
  write_doc d = Ok (prolog +:+ render_root (d_ns d) (erase it)).
Proof.
  intros (Hid & Hnd & Hh). pose proof (ids_size_le _ _ _ Hh Hnd) as Hsz.
  destruct it as [i g a v cs]. cbn in Hid. subst i.
  apply Holds_children in Hh as [H0 Hcs].
  unfold write_doc, build_xml_tree, get_root, get_element. rewrite H0.
  unfold is_empty_tag. cbn [e_children e_value]. cbn [e_value e_tag]. unfold generate_element. cbn [e_tag e_attrs].
  cbn [erase render_root].
  destruct v as [s|].
  { assert ((match map child_entry cs with [] => false | _ => false end) = false) as Hf
      by (by destruct (map child_entry cs)).
    destruct (map child_entry cs); by rewrite <- app_assoc_s. }
  destruct cs as [|c1 cs1]; [done|]. cbn [map]. set (cs := c1 :: cs1) in *.
  cbn [ids] in Hnd, Hsz. apply NoDup_cons in Hnd as [H0n Hnd].
  destruct (write_loop_children (length (flat_map ids cs)) cs (le_n _) 0
     (mkElem 0 0 g a None (map child_entry cs)) d
     (size (d_elems d) * 2 - cost_all cs) (prolog +:+ open_tag (Some (d_ns d)) g a false))
    as (d' & Hns & Hag & Hlk & Hrun); [done|done|done|by apply NoDup_cons|done|].
  pose proof (cost_all_le cs) as Hcost. cbn [length] in Hsz.
  replace (cost_all cs + (size (d_elems d) * 2 - cost_all cs))%nat
    with (size (d_elems d) * 2)%nat in Hrun by lia.
  rewrite Hrun.
  destruct (size (d_elems d) * 2 - cost_all cs)%nat as [|b] eqn:Hb; [lia|].
  cbn [write_loop]. rewrite Hlk. cbn [set_children e_children rbind].
  change (0 =? 0) with true. cbv iota. cbn [rbind].
  f_equal. rewrite <- !app_assoc_s. done.
Qed.
End render.
