(** What every successful read gives: a tree with valid names. And how to compute that tree, for
    the templates built into the library. *)
From Verif.Model Require Import XmlView XmlRead.
From Verif.Spec Require Import XmlSpec XmlRepr XmlHistory.
From Verif.Proofs Require Import BaseFacts XmlWriteFacts XmlReadFacts XmlTreeFacts XmlNsFacts XmlHistFacts DocBuild.

Section with_env.
Context `{E : Env}.
Definition GoodElem (e : elem) : Prop := is_valid_xml_name (e_tag e) = true /\ attrs_ok (e_attrs e) /\ e_attrs e <> None.
Definition NInv (d : doc) : Prop := forall k e, d_elems d !! k = Some e -> GoodElem e.

Lemma set_attributes_good id attrs d d' : set_attributes id attrs d = (d', Ok tt) ->
  (forall k e, d_elems d !! k = Some e -> k <> id -> GoodElem e) ->
  (forall e, d_elems d !! id = Some e -> is_valid_xml_name (e_tag e) = true) -> NInv d'.
Proof.
  intros Hs Ho Hi. unfold set_attributes in Hs.
  destruct (forallb is_valid_xml_name (env_order (map_keys attrs))) eqn:Hval; [|done]. cbn [negb] in Hs.
  destruct (d_elems d !! id) as [e0|] eqn:E0; [|done]. injection Hs as <-. intros k e. cbn [d_elems].
  destruct (decide (k = id)) as [->|Hk].
  - rewrite lookup_insert. intros [= <-]. cbn [set_elem_attrs e_tag e_attrs]. split; [destruct e0; by apply (Hi _ eq_refl)|]. split; [|by destruct e0].
    destruct e0; cbn. intros k v Hkv. apply map_filter_lookup_Some in Hkv as [Hkv Hns]. cbn in Hns. split; [|done].
    rewrite forallb_forall in Hval. apply Hval, elem_of_list_In. rewrite env_order_perm. apply map_keys_elem. eauto.
  - rewrite lookup_insert_ne by done. intros He. by apply (Ho k).
Qed.
Lemma run_add_good d m attrs d' id : NInv d -> run_add d m attrs = Ok (d', id) ->
  (forall d1 i, m d = (d1, Ok i) -> (forall k e, d_elems d1 !! k = Some e -> k <> i -> GoodElem e)
      /\ (forall e, d_elems d1 !! i = Some e -> is_valid_xml_name (e_tag e) = true)) -> NInv d'.
Proof.
  intros Hd Hr Hm. unfold run_add in Hr. destruct (m d) as [d1 [i|e|e]] eqn:Em; [|done|done].
  destruct (set_attributes i attrs d1) as [d2 [[]|e|e]] eqn:Es; [|done|done]. injection Hr as <- <-.
  destruct (Hm d1 i eq_refl) as [H1 H2]. by eapply set_attributes_good.
Qed.
Lemma append_child_good name p d d1 i : NInv d -> append_child name p d = (d1, Ok i) ->
  (forall k e, d_elems d1 !! k = Some e -> k <> i -> GoodElem e) /\ (forall e, d_elems d1 !! i = Some e -> is_valid_xml_name (e_tag e) = true).
Proof.
  intros Hd. unfold append_child, insert_with. cbv zeta. destruct (d_elems d !! default 0 p) as [ep|] eqn:Ep; [|done].
  unfold new_elem. destruct (is_valid_xml_name name) eqn:Ev; [|done]. intros [= <- <-]. cbn [d_elems]. split.
  - intros k e. intros Hk Hne. rewrite lookup_insert_ne in Hk by done. destruct (decide (k = default 0 p)) as [->|Hk'].
    + rewrite lookup_insert in Hk. injection Hk as <-. apply (Hd _ _ Ep).
    + rewrite lookup_insert_ne in Hk by done. by apply (Hd k).
  - intros e. rewrite lookup_insert. by intros [= <-].
Qed.
Lemma create_root_good name d d1 i : NInv d -> create_root name d = (d1, Ok i) ->
  (forall k e, d_elems d1 !! k = Some e -> k <> i -> GoodElem e) /\ (forall e, d_elems d1 !! i = Some e -> is_valid_xml_name (e_tag e) = true).
Proof.
  intros Hd. unfold create_root, new_elem. destruct (is_valid_xml_name name) eqn:Ev; [|done]. intros [= <- <-]. cbn [with_elems d_elems]. split.
  - intros k e Hk Hne. rewrite lookup_insert_ne in Hk by done. by apply (Hd k).
  - intros e. rewrite lookup_insert. by intros [= <-].
Qed.
Lemma parse_step_good ev p : NInv (ps_doc p) ->
  match parse_step ev p with Ok (inl p') => NInv (ps_doc p') | Ok (inr d) => NInv d | _ => True end.
Proof.
  intros Hd. destruct ev as [name raw|name raw|name|raw| |]; cbn [parse_step]; [..|done|done].
  - destruct (get_attributes raw) as [m|e|e]; cbn [rbind]; [|done|done].
    destruct (run_add _ _ _) as [[d' id]|e|e] eqn:Er; cbn [rbind]; [|done|done]. cbn [ps_doc].
    eapply run_add_good; [exact Hd|exact Er|]. intros d1 i. destruct (ps_root p); [by apply append_child_good|by apply create_root_good].
  - destruct (get_attributes raw) as [m|e|e]; cbn [rbind]; [|done|done].
    destruct (run_add _ _ _) as [[d' id]|e|e] eqn:Er; cbn [rbind]; [|done|done]. cbn [ps_doc].
    eapply run_add_good; [exact Hd|exact Er|]. intros d1 i. by apply append_child_good.
  - destruct (ps_open p); [done|]. destruct (negb _); [done|].
    destruct (d_elems (ps_doc p) !! ps_active p) as [e|]; [|done]. by destruct (seqb _ _).
  - destruct (unescape raw) as [t|]; [|done].
    destruct (d_elems (ps_doc p) !! ps_active p) as [e|] eqn:He; [|done]. cbn [ps_doc].
    intros k e'. cbn [with_elems d_elems]. destruct (decide (k = ps_active p)) as [->|Hk].
    + rewrite lookup_insert. intros [= <-]. by apply (Hd _ _ He).
    + rewrite lookup_insert_ne by done. apply Hd.
Qed.
Lemma read_doc_good s d : read_doc s = Ok d -> NInv d.
Proof.
  unfold read_doc. generalize (match strip_prefix bom s with Some r => r | None => s end) as s'.
  assert (forall fuel s p, NInv (ps_doc p) -> match parse_loop fuel s p with Ok d => NInv d | _ => True end) as Hl.
  { clear. induction fuel as [|fuel IH]; intros s p Hp; [done|]. cbn [parse_loop].
    destruct (read_event s) as [[ev rest]|e|e]; cbn [rbind]; [|done|done].
    pose proof (parse_step_good ev p Hp) as Hs. destruct (parse_step ev p) as [[p'|d]|e|e]; cbn [rbind]; try done. by apply IH. }
  intros s' Hr. pose proof (Hl (S (String.length s')) s' (mkPstate new_doc false 0 [])) as H. rewrite Hr in H. apply H.
  intros k e. cbn. by rewrite lookup_empty.
Qed.
(** Every element of the tree has an attribute map. *)
Fixpoint attrs_present (t : tree) : Prop :=
  match t with Node _ a _ cs => a <> None /\ (fix go l := match l with [] => True | c :: l => attrs_present c /\ go l end) cs end.
Lemma attrs_present_node g a v cs : attrs_present (Node g a v cs) <-> a <> None /\ Forall attrs_present cs.
Proof.
  cbn [attrs_present]. assert (forall l, (fix go l := match l with [] => True | c :: l => attrs_present c /\ go l end) l <-> Forall attrs_present l) as Hx.
  { induction l as [|c l IH]; [split; [constructor|done]|]. rewrite IH, Forall_cons. done. }
  by rewrite Hx.
Qed.
Lemma NInv_names m p it : (forall k e, m !! k = Some e -> GoodElem e) -> Holds m p it -> names_ok (erase it) /\ attrs_present (erase it).
Proof.
  intros Hm. revert p. induction it as [i g a v cs IH] using itree_rect'. intros p Hh. apply Holds_children in Hh as [Hi Hcs].
  destruct (Hm _ _ Hi) as (H1 & H2 & H3). cbn in H1, H2, H3.
  assert (Forall (fun t => names_ok t /\ attrs_present t) (map erase cs)) as Hc.
  { apply Forall_forall. intros t Ht. apply elem_of_list_fmap in Ht as (c & -> & Hc). rewrite Forall_forall in IH.
    apply (IH c Hc i). by apply (proj1 (HoldsAll_elem _ _ _) Hcs). }
  cbn [erase]. split.
  - apply names_ok_node. split; [done|]. split; [done|]. eapply Forall_impl; [exact Hc|]. by intros x [? _].
  - apply attrs_present_node. split; [done|]. eapply Forall_impl; [exact Hc|]. by intros x [_ ?].
Qed.
(** Whatever text was read, the result is empty or a tree with valid names. *)
Lemma read_doc_tree s d : read_doc s = Ok d -> d_elems d = ∅ \/ exists t, Doc d t /\ names_ok t /\ attrs_present t.
Proof.
  intros Hr. pose proof (read_doc_inv s) as Hi. rewrite Hr in Hi. destruct Hi as (Hb & _ & [He|[it Hit]]); [by left|].
  right. exists (erase it). split; [by exists it|]. destruct Hit as (_ & _ & Hh). eapply NInv_names; [|exact Hh].
  by apply (read_doc_good s).
Qed.

(** ** Templates *)
Definition doc_tree (d : doc) : option tree :=
  match get_root d with
  | Some e => match subtree (S (size (d_elems d))) (d_elems d) e with Ok t => Some t | _ => None end
  | None => None
  end.
Lemma doc_tree_Doc d t : Doc d t -> doc_tree d = Some t.
Proof.
  intros ([i g a v cs] & Hr & <-). assert (Hr' := Hr). apply Repr_node in Hr' as (-> & H0 & _ & _ & _).
  destruct Hr as [(_ & Hnd & Hh) _]. unfold doc_tree, get_root, get_element. rewrite H0.
  pose proof (subtree_holds _ (d_elems d) 0 (S (size (d_elems d))) Hh) as Hs. cbn [i_id i_tag erase t_attrs t_value] in Hs.
  rewrite Hs; [done|]. assert (length (ids (INode 0 g a v cs)) <= size (d_elems d))%nat; [|lia].
  apply NoDup_size; [done|]. intros k Hk. by eapply Holds_keys.
Qed.
Lemma read_doc_computed s d t : read_doc s = Ok d -> doc_tree d = Some t -> Doc d t /\ names_ok t /\ attrs_present t.
Proof.
  intros Hr Ht. destruct (read_doc_tree s d Hr) as [He|(t' & Hd & Hn)].
  - unfold doc_tree, get_root, get_element in Ht. by rewrite He, lookup_empty in Ht.
  - rewrite (doc_tree_Doc d t' Hd) in Ht. by injection Ht as <-.
Qed.
Definition ns_okb (ns : gmap string string) : bool :=
  forallb (fun kv : string * string => has_no_dquote kv.2 && (seqb kv.1 default_ns_key || is_valid_xml_name ("xmlns:" +:+ kv.1))) (map_to_list ns).
Lemma ns_okb_ok ns : ns_okb ns = true -> ns_ok ns.
Proof.
  unfold ns_okb. rewrite forallb_forall. intros H k v Hkv. specialize (H (k, v)). cbn [fst snd] in H.
  rewrite <- elem_of_list_In, elem_of_map_to_list in H. apply H in Hkv as [H1 H2]%andb_true_iff. split; [done|].
  apply orb_true_iff in H2 as [H2|H2]; [left; by apply String.eqb_eq|by right].
Qed.
(** ** Reading a template does not depend on the hash order: its tags never declare two namespaces
    under one prefix. *)
Definition ns_target (k : string) : string :=
  match split_byte ":" k with _ :: alias :: _ => alias | _ => default_ns_key end.
Definition ns_step (attrs : gmap string string) (k : string) (ns : gmap string string) : gmap string string :=
  match split_byte ":" k with
  | _ :: alias :: _ => match ns !! alias with Some _ => ns | None => <[alias := default "" (attrs !! k)]> ns end
  | _ => <[default_ns_key := default "" (attrs !! k)]> ns
  end.
Lemma register_ns_cons k l attrs ns : register_ns (k :: l) attrs ns = register_ns l attrs (ns_step attrs k ns).
Proof. done. Qed.
Lemma ns_step_other attrs k ns x : x <> ns_target k -> ns_step attrs k ns !! x = ns !! x.
Proof.
  unfold ns_step, ns_target. destruct (split_byte ":" k) as [|? [|alias ?]]; intros Hx; try by rewrite lookup_insert_ne.
  destruct (ns !! alias); [done|]. by rewrite lookup_insert_ne.
Qed.
Lemma ns_step_here attrs k ns ns' : ns !! ns_target k = ns' !! ns_target k ->
  ns_step attrs k ns !! ns_target k = ns_step attrs k ns' !! ns_target k.
Proof.
  unfold ns_step, ns_target. destruct (split_byte ":" k) as [|? [|alias ?]]; intros Hx; try by rewrite !lookup_insert.
  rewrite <- Hx. destruct (ns !! alias) eqn:Ea; [by rewrite Ea, <- Hx|]. by rewrite !lookup_insert.
Qed.
Lemma ns_step_comm attrs k k' ns : ns_target k <> ns_target k' ->
  ns_step attrs k (ns_step attrs k' ns) = ns_step attrs k' (ns_step attrs k ns).
Proof.
  intros Hk. apply map_eq. intros x. destruct (decide (x = ns_target k)) as [->|H1].
  - rewrite (ns_step_other _ k' _ (ns_target k)) by done. apply ns_step_here. by rewrite ns_step_other.
  - rewrite (ns_step_other _ k) by done. destruct (decide (x = ns_target k')) as [->|H2].
    + apply ns_step_here. by rewrite ns_step_other by done.
    + by rewrite !ns_step_other by done.
Qed.
Lemma register_ns_perm l l' attrs : Permutation l l' -> NoDup (map ns_target l) -> forall ns, register_ns l attrs ns = register_ns l' attrs ns.
Proof.
  induction 1 as [|k l l' Hp IH|k k' l|l1 l2 l3 H1 IH1 H2 IH2]; intros Hnd ns.
  - done.
  - rewrite !register_ns_cons. apply IH. by apply NoDup_cons in Hnd as [_ ?].
  - rewrite !register_ns_cons. f_equal. apply ns_step_comm. cbn in Hnd. apply NoDup_cons in Hnd as [Hn _].
    apply not_elem_of_cons in Hn as [Hn _]. done.
  - rewrite IH1 by done. apply IH2. assert (Permutation (map ns_target l1) (map ns_target l2)) as Hp by (by apply Permutation_map).
    by rewrite <- Hp.
Qed.
Definition id_env : Env := {|
  env_mode := env_mode; env_alpha := env_alpha; env_now := env_now; env_now_chars := env_now_chars;
  env_order := fun l => l; env_order_perm := fun l => Permutation_refl l;
  env_gzip := env_gzip; env_gunzip := env_gunzip; env_gunzip_gzip := env_gunzip_gzip;
  env_order2 := env_order2; env_order2_perm := env_order2_perm;
  env_zip := env_zip; env_unzip := env_unzip; env_unzip_zip := env_unzip_zip; env_unzip_nodup := env_unzip_nodup;
  env_f32 := env_f32; env_f32_idem := env_f32_idem; env_f32_bytes := env_f32_bytes |}.
Definition attrs_det (attrs : gmap string string) : bool :=
  bool_decide (NoDup (map ns_target (List.filter is_ns_key (map_keys attrs)))).
Lemma forallb_perm {A} (f : A -> bool) l l' : Permutation l l' -> forallb f l = forallb f l'.
Proof. induction 1; cbn; [done|by f_equal|rewrite !andb_assoc; f_equal; apply andb_comm|congruence]. Qed.
Lemma filter_perm {A} (f : A -> bool) l l' : Permutation l l' -> Permutation (List.filter f l) (List.filter f l').
Proof.
  induction 1 as [|x l l' Hp IH|x y l|l1 l2 l3 H1 IH1 H2 IH2]; cbn [List.filter]; [done| | |by etrans].
  - destruct (f x); [by constructor|done].
  - destruct (f x), (f y); try done. by constructor.
Qed.
Lemma name_tail_det cs : forall n, @name_tail_ok id_env n cs = @name_tail_ok E n cs.
Proof.
  induction cs as [|c cs IH]; intros n; [done|]. cbn [name_tail_ok]. rewrite !IH. done.
Qed.
Lemma valid_name_det s : @is_valid_xml_name id_env s = @is_valid_xml_name E s.
Proof. unfold is_valid_xml_name. destruct (chars s); [done|]. by rewrite name_tail_det. Qed.
Lemma forallb_valid_det l : forallb (@is_valid_xml_name id_env) l = forallb (@is_valid_xml_name E) l.
Proof. induction l as [|x l IH]; [done|]. cbn [forallb]. by rewrite IH, valid_name_det. Qed.
Lemma new_elem_det i p t : @new_elem id_env i p t = @new_elem E i p t.
Proof. unfold new_elem. by rewrite valid_name_det. Qed.
Lemma create_root_det t d : @create_root id_env t d = @create_root E t d.
Proof. unfold create_root. by rewrite new_elem_det. Qed.
Lemma append_child_det t p d : @append_child id_env t p d = @append_child E t p d.
Proof. unfold append_child, insert_with. by rewrite new_elem_det. Qed.
Lemma set_attributes_det id attrs d : attrs_det attrs = true -> set_attributes id attrs d = @set_attributes id_env id attrs d.
Proof.
  intros Hd. apply bool_decide_eq_true in Hd. unfold set_attributes. cbn [env_order id_env].
  rewrite forallb_valid_det.
  rewrite (forallb_perm is_valid_xml_name _ _ (env_order_perm (map_keys attrs))). destruct (negb _); [done|].
  rewrite (register_ns_perm _ (List.filter is_ns_key (map_keys attrs))); [done|apply filter_perm, env_order_perm|].
  assert (Permutation (map ns_target (List.filter is_ns_key (env_order (map_keys attrs)))) (map ns_target (List.filter is_ns_key (map_keys attrs)))) as ->; [|done].
  apply Permutation_map, filter_perm, env_order_perm.
Qed.
Fixpoint events_det (fuel : nat) (s : string) : bool :=
  match fuel with
  | O => true
  | S fuel =>
      match read_event s with
      | Ok (EvStart _ raw, rest) | Ok (EvEmpty _ raw, rest) =>
          match get_attributes raw with Ok a => attrs_det a | _ => true end && events_det fuel rest
      | Ok (_, rest) => events_det fuel rest
      | _ => true
      end
  end.
Lemma run_add_det d m m' attrs : m d = m' d -> attrs_det attrs = true -> run_add d m attrs = @run_add id_env d m' attrs.
Proof. intros Hm Ha. unfold run_add. rewrite Hm. destruct (m' d) as [d1 [i| |]]; [|done|done]. by rewrite set_attributes_det. Qed.
Lemma parse_loop_det fuel : forall s p, events_det fuel s = true -> parse_loop fuel s p = @parse_loop id_env fuel s p.
Proof.
  induction fuel as [|fuel IH]; intros s p Hd; [done|]. cbn [parse_loop events_det] in Hd |- *.
  destruct (read_event s) as [[ev rest]| |]; [|done|done]. cbn [rbind].
  assert (parse_step ev p = @parse_step id_env ev p /\ events_det fuel rest = true) as [-> Hr].
  { destruct ev as [name raw|name raw|name|raw| |]; try done.
    - apply andb_true_iff in Hd as [Ha Hd]. split; [|done]. cbn [parse_step]. destruct (get_attributes raw) as [a| |]; [|done|done]. cbn [rbind].
      by rewrite (run_add_det _ _ (if ps_root p then @append_child id_env name (Some (ps_active p)) else @create_root id_env name) a); [|destruct (ps_root p); [by rewrite append_child_det|by rewrite create_root_det]|].
    - apply andb_true_iff in Hd as [Ha Hd]. split; [|done]. cbn [parse_step]. destruct (get_attributes raw) as [a| |]; [|done|done]. cbn [rbind].
      by rewrite (run_add_det _ _ (@append_child id_env name (Some (ps_active p))) a); [|by rewrite append_child_det|]. }
  destruct (@parse_step id_env ev p) as [[p'|d]| |]; [|done|done|done]. cbn [rbind]. by apply IH.
Qed.
Definition template_ok (s : string) : bool :=
  let s := match strip_prefix bom s with Some r => r | None => s end in events_det (S (String.length s)) s.
Lemma read_doc_det s : template_ok s = true -> read_doc s = @read_doc id_env s.
Proof. intros Hs. unfold read_doc. by apply parse_loop_det. Qed.
Lemma template_read s (P : doc -> tree -> Prop) :
  template_ok s = true ->
  match @read_doc id_env s with
  | Ok d => match doc_tree d with Some t => ns_okb (d_ns d) = true /\ P d t | None => False end
  | _ => False
  end ->
  exists d t, read_doc s = Ok d /\ Doc d t /\ names_ok t /\ attrs_present t /\ ns_ok (d_ns d) /\ P d t.
Proof.
  intros Hs. rewrite <- (read_doc_det s Hs). destruct (read_doc s) as [d| |] eqn:Er; [|done|done]. destruct (doc_tree d) as [t|] eqn:Et; [|done].
  intros [Hn Hp]. destruct (read_doc_computed _ d t Er Et) as (Hd & Hna & Hat). exists d, t. split; [done|]. split; [done|]. split; [done|].
  split; [done|]. split; [by apply ns_okb_ok|]. done.
Qed.
End with_env.
