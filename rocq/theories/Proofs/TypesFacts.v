(** The content types part of a saved package, and what loading makes of it. *)
From Verif.Model Require Import Package.
From Verif.Spec Require Import PackageSpec XmlSpec XmlRepr.
From Verif.Proofs Require Import BaseFacts XmlWriteFacts XmlReadFacts XmlTreeFacts XmlNsFacts DocBuild PartFacts
  PackageFacts.

Section with_env.
Context `{E : Env}.
Definition arch_exts (a : gmap string entry) : list (string * string) :=
  env_order2 (remove_dups (map (fun ne : string * entry => (en_ext ne.2, en_ext_type ne.2)) (hash_entries a))).
Definition arch_ovs (a : gmap string entry) : list (string * string) :=
  omap (fun ne : string * entry => match en_ct ne.2 with Some t => Some ("/" +:+ ne.1, t) | None => None end)
    (hash_entries a).
Lemma arch_exts_elem a xt : xt ∈ arch_exts a <-> exists n e, a !! n = Some e /\ xt = (en_ext e, en_ext_type e).
Proof.
  unfold arch_exts. rewrite env_order2_perm, elem_of_remove_dups, elem_of_list_fmap. split.
  - intros ([n e] & -> & Hin). apply hash_entries_lookup in Hin. eauto.
  - intros (n & e & He & ->). exists (n, e). split; [done|]. by apply hash_entries_lookup.
Qed.
Lemma arch_ovs_elem a p t : (p, t) ∈ arch_ovs a <-> exists n e, a !! n = Some e /\ en_ct e = Some t /\ p = "/" +:+ n.
Proof.
  unfold arch_ovs. rewrite elem_of_list_omap. split.
  - intros ([n e] & Hin & Hct). cbn in Hct. destruct (en_ct e) as [t'|] eqn:Et; [|done]. injection Hct as <- <-.
    apply hash_entries_lookup in Hin. eauto.
  - intros (n & e & He & Ht & ->). exists (n, e). cbn. rewrite Ht. split; [|done]. by apply hash_entries_lookup.
Qed.
Lemma arch_ovs_nodup a : NoDup (arch_ovs a).*1.
Proof.
  unfold arch_ovs. pose proof (hash_entries_NoDup a) as Hnd. induction (hash_entries a) as [|[n e] l IH]; [constructor|].
  cbn in Hnd. apply NoDup_cons in Hnd as [Hn Hnd]. cbn. destruct (en_ct e) as [t|]; [|by apply IH].
  cbn. apply NoDup_cons. split; [|by apply IH]. intros Hin. apply Hn.
  apply elem_of_list_fmap in Hin as ([p t'] & Hp & Hin). cbn in Hp. subst p. apply elem_of_list_omap in Hin as ([n' e'] & Hin & Hx).
  cbn in Hx. destruct (en_ct e'); [|done]. injection Hx as -> _.
  apply elem_of_list_fmap. by exists (n, e').
Qed.
Lemma filter_speaks (f : string * string -> bool) (l : list (string * string)) p t : NoDup l.*1 -> (p, t) ∈ l ->
  (forall x, f x = seqb x.1 p) -> List.filter f l = [(p, t)].
Proof.
  intros Hnd Hin Hf. induction l as [|[p' t'] l IH]; [by apply elem_of_nil in Hin|].
  cbn in Hnd. apply NoDup_cons in Hnd as [Hn Hnd]. cbn [List.filter]. rewrite Hf. cbn [fst].
  apply elem_of_cons in Hin as [[= <- <-]|Hin].
  - unfold seqb. rewrite String.eqb_refl. f_equal. apply filter_none. intros [q u] Hq. rewrite Hf. cbn. apply String.eqb_neq.
    intros ->. apply Hn. apply elem_of_list_fmap. by exists (p, u).
  - destruct (String.eqb_spec p' p) as [->|Hne].
    + exfalso. apply Hn. apply elem_of_list_fmap. by exists (p, t).
    + unfold seqb. rewrite (proj2 (String.eqb_neq _ _) Hne). by apply IH.
Qed.
Lemma filter_speaks_none (f : string * string -> bool) (l : list (string * string)) p : (forall t, (p, t) ∉ l) ->
  (forall x, f x = seqb x.1 p) -> List.filter f l = [].
Proof.
  intros Hin Hf. apply filter_none. intros [q u] Hq. rewrite Hf. cbn. apply String.eqb_neq. intros ->. by apply (Hin u).
Qed.
Lemma save_archive_text a b : save_archive a = Ok b -> exists l,
  env_unzip b = Some (l ++ [(content_types_name, prolog +:+ render_root types_ns (types_tree (arch_exts a) (arch_ovs a)))])
  /\ a !! content_types_name = None
  /\ (forall name data, (name, data) ∈ l <-> exists e, a !! name = Some e /\ part_bytes e = Ok data).
Proof.
  intros Hs. destruct (save_archive_files a b Hs) as (l & types & Hu & Ht & Hn & Hl).
  rewrite create_content_types_spec in Ht. injection Ht as <-. eauto.
Qed.

(** ** Loading *)
Lemma escape_seqb x y : plain_text y -> plain_text x -> spec_escape x = y <-> x = y.
Proof. intros Hy Hx. unfold plain_text in *. by rewrite (spec_escape_fixed x). Qed.
Lemma default_reread xt : default_entry (t_attrs (reread (default_tree xt))) = Ok (spec_escape xt.1, spec_escape xt.2).
Proof. done. Qed.
Lemma rmapM_map_ok {A B C} (f : B -> res C) (g : A -> B) (h : A -> C) l : (forall x, x ∈ l -> f (g x) = Ok (h x)) ->
  rmapM f (map g l) = Ok (map h l).
Proof.
  induction l as [|x l IH]; intros Hf; [done|]. cbn. rewrite (Hf x) by left. cbn. rewrite IH; [done|].
  intros y Hy. apply Hf. by right.
Qed.
Lemma filter_all {A} (f : A -> bool) l : (forall x, x ∈ l -> f x = true) -> List.filter f l = l.
Proof.
  induction l as [|x l IH]; intros Hf; [done|]. cbn. rewrite (Hf x) by left. f_equal. apply IH. intros y Hy. apply Hf. by right.
Qed.
Lemma tag_reread t : t_tag (reread t) = t_tag t.
Proof. destruct t as [g a v cs]. cbn. by destruct v. Qed.
Lemma extensions_reread exts ovs : extensions_of (map reread (map default_tree exts ++ map override_tree ovs))
  = Ok (map (fun xt => (spec_escape xt.1, spec_escape xt.2)) exts).
Proof.
  unfold extensions_of. rewrite map_app, List.filter_app. rewrite filter_all, (filter_none _ (map reread (map override_tree ovs))).
  - rewrite app_nil_r, !map_map. by apply (rmapM_map_ok default_entry).
  - intros x Hx. apply elem_of_list_fmap in Hx as (y & -> & Hy). apply elem_of_list_fmap in Hy as (z & -> & _). done.
  - intros x Hx. apply elem_of_list_fmap in Hx as (y & -> & Hy). apply elem_of_list_fmap in Hy as (z & -> & _). done.
Qed.
Lemma overrides_reread exts ovs :
  List.filter (fun t => negb (seqb (t_tag t) "Default")) (map reread (map default_tree exts ++ map override_tree ovs))
  = map (fun nt => reread (override_tree nt)) ovs.
Proof.
  rewrite map_app, List.filter_app. rewrite filter_none, filter_all; [by rewrite map_map| |].
  - intros x Hx. apply elem_of_list_fmap in Hx as (y & -> & Hy). apply elem_of_list_fmap in Hy as (z & -> & _). done.
  - intros x Hx. apply elem_of_list_fmap in Hx as (y & -> & Hy). apply elem_of_list_fmap in Hy as (z & -> & _). done.
Qed.
Lemma plain_slash s : plain_text s -> plain_text ("/" +:+ s).
Proof. done. Qed.
Lemma override_of_saved a name : (forall n e, a !! n = Some e -> plain_text n) -> plain_text name ->
  override_of (map (fun nt => reread (override_tree nt)) (arch_ovs a)) name
  = Ok (match a !! name with Some e => spec_escape <$> en_ct e | None => None end).
Proof.
  intros Hp Hn. unfold override_of. rewrite filter_map_comm, last_map.
  set (f := fun x => has_attr _ _ _).
  assert (forall x, x ∈ arch_ovs a -> f x = seqb x.1 ("/" +:+ name)) as Hf.
  { intros [p t] Hin. apply arch_ovs_elem in Hin as (n & e & He & _ & ->). unfold f.
    change (seqb (spec_escape ("/" +:+ n)) ("/" +:+ name) = seqb ("/" +:+ n) ("/" +:+ name)).
    rewrite spec_escape_fixed; [done|]. apply plain_slash. by eapply Hp. }
  rewrite (filter_ext_in' f (fun x => seqb x.1 ("/" +:+ name)) _ Hf).
  destruct (a !! name) as [e|] eqn:Ea; [destruct (en_ct e) as [t|] eqn:Et|].
  - rewrite (filter_speaks _ _ ("/" +:+ name) t); [done|apply arch_ovs_nodup| |done]. apply arch_ovs_elem. eauto.
  - rewrite (filter_speaks_none _ _ ("/" +:+ name)); [done| |done]. intros t Hin. apply arch_ovs_elem in Hin as (n & e' & He & Ht & Hx).
    change (String "/" name = String "/" n) in Hx. injection Hx as <-. congruence.
  - rewrite (filter_speaks_none _ _ ("/" +:+ name)); [done| |done]. intros t Hin. apply arch_ovs_elem in Hin as (n & e' & He & Ht & Hx).
    change (String "/" name = String "/" n) in Hx. injection Hx as <-. congruence.
Qed.
Lemma types_ns_ok : ns_ok types_ns.
Proof. unfold types_ns. intros k v Hk. apply lookup_singleton_Some in Hk as [<- <-]. split; [done|]. by left. Qed.
Lemma find_types (l : list (string * string)) t : (forall n x, (n, x) ∈ l -> n <> content_types_name) ->
  List.find (fun f : string * string => seqb f.1 content_types_name) (l ++ [(content_types_name, t)]) = Some (content_types_name, t).
Proof.
  intros Hl. induction l as [|[n x] l IH]; [done|]. cbn [app List.find fst].
  unfold seqb at 1. rewrite (proj2 (String.eqb_neq n content_types_name)); [|apply (Hl n x); left]. apply IH. intros n' x' Hin. apply (Hl n' x'). by right.
Qed.
Lemma foldl_insert_lookup {V} (l : list (string * V)) (m : gmap string V) n v : NoDup l.*1 -> (n, v) ∈ l ->
  foldl (fun m ne => <[ne.1 := ne.2]> m) m l !! n = Some v.
Proof.
  assert (forall (l : list (string * V)) (m : gmap string V) n, n ∉ l.*1 -> foldl (fun m ne => <[ne.1 := ne.2]> m) m l !! n = m !! n) as Hout.
  { clear. induction l as [|[k w] l IH]; intros m n Hn; [done|]. cbn in *. apply not_elem_of_cons in Hn as [Hk Hn].
    rewrite IH by done. by rewrite lookup_insert_ne. }
  revert m. induction l as [|[k w] l IH]; intros m Hnd Hin; [by apply elem_of_nil in Hin|].
  cbn in Hnd. apply NoDup_cons in Hnd as [Hk Hnd]. cbn [foldl fst snd]. apply elem_of_cons in Hin as [[= -> ->]|Hin]; [|by apply IH].
  rewrite Hout by done. apply lookup_insert.
Qed.
Lemma foldl_insert_none {V} (l : list (string * V)) (m : gmap string V) n : n ∉ l.*1 ->
  foldl (fun m ne => <[ne.1 := ne.2]> m) m l !! n = m !! n.
Proof.
  revert m. induction l as [|[k w] l IH]; intros m Hn; [done|]. cbn in *. apply not_elem_of_cons in Hn as [Hk Hn].
  rewrite IH by done. by rewrite lookup_insert_ne.
Qed.
(** Save and load: every part comes back under its name with its bytes, its override (escaped),
    and the default entry found for its extension. *)
Lemma save_load a b : a <> ∅ -> (forall n e, a !! n = Some e -> plain_text n) -> save_archive a = Ok b ->
  exists a', load_archive b = Ok a' /\
    forall n, match a !! n with
    | Some e => exists data, part_bytes e = Ok data /\
        let x := extension_of (map (fun xt => (spec_escape xt.1, spec_escape xt.2)) (arch_exts a)) n in
        a' !! n = Some (pack x.1 x.2 (spec_escape <$> en_ct e) data)
    | None => a' !! n = None
    end.
Proof.
  intros Hne Hp Hs. destruct (save_archive_text a b Hs) as (l & Hu & Hct & Hl).
  assert (arch_exts a <> []) as Hx.
  { intros Hx. apply Hne. apply map_empty. intros n. destruct (a !! n) as [e|] eqn:Ea; [|done].
    assert ((en_ext e, en_ext_type e) ∈ arch_exts a) as Hin by (apply arch_exts_elem; eauto). rewrite Hx in Hin. by apply elem_of_nil in Hin. }
  destruct (Doc_read types_ns (types_tree (arch_exts a) (arch_ovs a))) as (d & Hr & Hd & _);
    [apply types_tree_ok|apply types_ns_ok| |].
  { right. unfold types_tree. cbn. destruct (arch_exts a); [done|]. done. }
  set (types := prolog +:+ _) in *.
  assert (forall n x, (n, x) ∈ l -> n <> content_types_name) as Hno.
  { intros n x Hin ->. apply Hl in Hin as (e & He & _). congruence. }
  pose proof (load_archive_pure b (l ++ [(content_types_name, types)]) types d _ _ _ _ Hu (find_types l types Hno) Hr Hd) as Hload.
  rewrite extensions_reread in Hload. cbn [rbind] in Hload. rewrite overrides_reread in Hload.
  assert (List.filter (fun f : string * string => negb (seqb content_types_name f.1)) (l ++ [(content_types_name, types)]) = l) as Hfl.
  { rewrite List.filter_app. rewrite (filter_all _ l). { change (l ++ [] = l). apply app_nil_r. }
    intros [n x] Hin. cbn [fst]. apply Bool.negb_true_iff, String.eqb_neq. intros Heq. by apply (Hno n x Hin). }
  rewrite Hfl in Hload. set (exts := map _ (arch_exts a)) in *. set (ovs := map _ (arch_ovs a)) in *.
  set (g := fun nb : string * string => (nb.1, pack (extension_of exts nb.1).1 (extension_of exts nb.1).2
     (match a !! nb.1 with Some e => spec_escape <$> en_ct e | None => None end) nb.2)).
  assert (rmapM (loaded_entry exts ovs) l = Ok (map g l)) as Hm.
  { apply rmapM_ok. intros [n x] Hin. unfold loaded_entry. cbn [fst snd]. unfold ovs. rewrite override_of_saved; [done|done|].
    apply Hl in Hin as (e & He & _). by eapply Hp. }
  rewrite Hm in Hload. cbn [rmap] in Hload. eexists. split; [exact Hload|]. intros n.
  assert (NoDup (map g l).*1) as Hnd.
  { assert ((map g l).*1 = l.*1) as ->. { change ((map g l).*1) with (map fst (map g l)). by rewrite map_map. }
    apply env_unzip_nodup in Hu. rewrite fmap_app in Hu. by apply NoDup_app in Hu as (? & _). }
  destruct (a !! n) as [e|] eqn:Ea.
  - assert (exists data, (n, data) ∈ l) as (data & Hin).
    { unfold save_archive in Hs. destruct (rmapM _ (hash_entries a)) as [l0| |] eqn:E0; [|done|done].
      apply hash_entries_lookup in Ea. destruct (rmapM_in _ _ _ _ E0 Ea) as (y & Hy & _). cbn in Hy.
      destruct (part_bytes e) as [bs| |] eqn:Eb; [|done|done]. exists bs. apply Hl. exists e. split; [|done].
      by apply hash_entries_lookup. }
    exists data. assert (Hin' := Hin). apply Hl in Hin' as (e' & He' & Hb'). rewrite Ea in He'. injection He' as <-. split; [done|].
    cbv zeta. apply foldl_insert_lookup; [done|].
    apply elem_of_list_fmap. exists (n, data). unfold g. cbn [fst snd]. rewrite Ea. done.
  - rewrite foldl_insert_none; [apply lookup_empty|]. intros Hin.
    assert ((map g l).*1 = l.*1) as Hg. { change ((map g l).*1) with (map fst (map g l)). by rewrite map_map. }
    rewrite Hg in Hin. apply elem_of_list_fmap in Hin as ([n' x] & -> & Hin). apply Hl in Hin as (e & He & _). cbn in Ea. congruence.
Qed.
Lemma find_ext (l : list (string * string)) x t : (x, t) ∈ l -> (forall t', (x, t') ∈ l -> t' = t) ->
  List.find (fun y : string * string => seqb y.1 x) l = Some (x, t).
Proof.
  induction l as [|[y u] l IH]; intros Hin Hf; [by apply elem_of_nil in Hin|]. cbn [List.find fst].
  destruct (String.eqb_spec y x) as [->|Hne].
  - unfold seqb. rewrite String.eqb_refl. rewrite (Hf u) by left. done.
  - unfold seqb. rewrite (proj2 (String.eqb_neq _ _) Hne). apply IH.
    + apply elem_of_cons in Hin as [[= -> ->]|Hin]; done.
    + intros t' Ht'. apply Hf. by right.
Qed.
End with_env.
