(** Namespace declarations collected while reading (C11), and drift of attribute text (C08). *)
From Verif.Model Require Import XmlTree XmlWrite XmlRead.
From Verif.Spec Require Import XmlSpec XmlRepr XmlHistory.
From Verif.Proofs Require Import BaseFacts XmlWriteFacts XmlLexFacts XmlReadFacts.

Definition orelse {A} (x y : option A) : option A := match x with Some a => Some a | None => y end.

Section ns.
Context `{Env}.
Lemma register_ns_prefix l attrs ns p :
  p <> default_ns_key -> Forall ns_key_ok l -> (forall k, k ∈ l -> is_Some (attrs !! nskey k)) ->
  register_ns (map nskey l) attrs ns !! p
  = orelse (ns !! p) (if decide (p ∈ l) then attrs !! nskey p else None).
Proof.
  intros Hp. revert ns. induction l as [|k l IH]; intros ns Hok Hin.
  { cbn. destruct (ns !! p); [done|]. by rewrite decide_False by apply not_elem_of_nil. }
  apply Forall_cons in Hok as [Hko Hok]. destruct (Hin k ltac:(left)) as [v Hv].
  assert (forall k, k ∈ l -> is_Some (attrs !! nskey k)) as Hin' by (intros; apply Hin; by right).
  cbn [map register_ns]. rewrite Hv. change (default "" (Some v)) with v.
  destruct (decide (k = default_ns_key)) as [->|Hk].
  - change (split_byte ":" (nskey default_ns_key)) with ["xmlns"]. cbv iota beta.
    rewrite IH by done. rewrite lookup_insert_ne by done. f_equal.
    destruct (decide (p ∈ l)); [rewrite decide_True by (by right); done|].
    rewrite decide_False; [done|]. rewrite not_elem_of_cons. done.
  - assert (split_byte ":" (nskey k) = ["xmlns"; k]) as ->.
    { unfold nskey. apply seqb_false in Hk as ->. destruct Hko as [->|Hko]; [done|].
      apply prefix_no_colon in Hko. cbn. by rewrite split_byte_none. }
    rewrite IH by done. destruct (ns !! k) eqn:Enk.
    + destruct (decide (p ∈ l)); [rewrite decide_True by (by right); done|].
      destruct (decide (p = k)) as [->|Hpk]; [by rewrite Enk|].
      rewrite (decide_False (P:=p ∈ k :: l)); [done|]. rewrite not_elem_of_cons. done.
    + destruct (decide (p = k)) as [->|Hpk].
      * rewrite lookup_insert, Enk. cbn [orelse]. rewrite decide_True by left. by rewrite Hv.
      * rewrite lookup_insert_ne by done. f_equal.
        destruct (decide (p ∈ l)); [rewrite decide_True by (by right); done|].
        rewrite decide_False; [done|]. rewrite not_elem_of_cons. done.
Qed.
Lemma register_ns_default l attrs ns :
  Forall ns_key_ok l -> (forall k, k ∈ l -> is_Some (attrs !! nskey k)) ->
  register_ns (map nskey l) attrs ns !! default_ns_key
  = if decide (default_ns_key ∈ l) then attrs !! "xmlns" else ns !! default_ns_key.
Proof.
  revert ns. induction l as [|k l IH]; intros ns Hok Hin.
  { cbn. by rewrite decide_False by apply not_elem_of_nil. }
  apply Forall_cons in Hok as [Hko Hok]. destruct (Hin k ltac:(left)) as [v Hv].
  assert (forall k, k ∈ l -> is_Some (attrs !! nskey k)) as Hin' by (intros; apply Hin; by right).
  cbn [map register_ns]. rewrite Hv. change (default "" (Some v)) with v.
  destruct (decide (k = default_ns_key)) as [->|Hk].
  - change (split_byte ":" (nskey default_ns_key)) with ["xmlns"]. cbv iota beta.
    rewrite IH by done. rewrite lookup_insert.
    rewrite (decide_True (P:=default_ns_key ∈ default_ns_key :: l)) by left.
    change (nskey default_ns_key) with "xmlns" in Hv. rewrite Hv. by destruct (decide _).
  - assert (split_byte ":" (nskey k) = ["xmlns"; k]) as ->.
    { unfold nskey. apply seqb_false in Hk as ->. destruct Hko as [->|Hko]; [done|].
      apply prefix_no_colon in Hko. cbn. by rewrite split_byte_none. }
    rewrite IH by done.
    assert ((if decide (default_ns_key ∈ k :: l) then attrs !! "xmlns" else ns !! default_ns_key)
       = if decide (default_ns_key ∈ l) then attrs !! "xmlns" else ns !! default_ns_key) as ->.
    { destruct (decide (default_ns_key ∈ l)); [rewrite decide_True by (by right); done|].
      rewrite decide_False; [done|]. rewrite not_elem_of_cons. done. }
    destruct (ns !! k); [done|]. by rewrite lookup_insert_ne by done.
Qed.

Lemma valid_ns_key k : is_valid_xml_name k = true -> is_ns_key k = true -> regular_key k ->
  exists p, k = nskey p /\ ns_key_ok p.
Proof.
  intros Hv Hn Hr. destruct (Hr Hn) as [->|Hp].
  - exists default_ns_key. split; [done|]. by left.
  - unfold starts_with in Hp. destruct (strip_prefix "xmlns:" k) as [p|] eqn:E; [|done].
    apply strip_prefix_Some in E as ->. exists p. split; [|by right].
    unfold nskey. destruct (seqb p default_ns_key) eqn:Ep; [|done].
    apply seqb_true in Ep as ->. apply valid_name_bytes in Hv. by vm_compute in Hv.
Qed.
Lemma ns_keys_image (keys : list string) : Forall (fun k => is_valid_xml_name k = true /\ is_ns_key k = true /\ regular_key k) keys ->
  exists l, keys = map nskey l /\ Forall ns_key_ok l.
Proof.
  induction 1 as [|k keys (Hv & Hn & Hr) _ (l & -> & Hl)]; [exists []; by split; [|constructor]|].
  destruct (valid_ns_key k Hv Hn Hr) as (p & -> & Hp). exists (p :: l). split; [done|]. by constructor.
Qed.
Lemma map_keys_elem {V} (m : gmap string V) k : k ∈ map_keys m <-> is_Some (m !! k).
Proof.
  unfold map_keys. split.
  - intros Hk. apply elem_of_list_fmap in Hk as ([k' v] & -> & Hk). apply elem_of_map_to_list in Hk. eauto.
  - intros [v Hv]. apply elem_of_list_fmap. exists (k, v). split; [done|]. by apply elem_of_map_to_list.
Qed.
(** What a successful attribute assignment does to the namespaces. *)
Lemma set_attributes_ns id attrs d d' : set_attributes id attrs d = (d', Ok tt) ->
  map_Forall (fun k _ => regular_key k) attrs ->
  (forall p, p <> default_ns_key -> sexists (fun a => aeqb a ":") p = false ->
     d_ns d' !! p = orelse (d_ns d !! p) (attrs !! ("xmlns:" +:+ p)))
  /\ d_ns d' !! default_ns_key = orelse (attrs !! "xmlns") (d_ns d !! default_ns_key).
Proof.
  intros Hs Hreg. unfold set_attributes in Hs.
  destruct (forallb is_valid_xml_name (env_order (map_keys attrs))) eqn:Hval; [|done]. cbn [negb] in Hs.
  destruct (d_elems d !! id); [|done]. injection Hs as <-. cbn [d_ns].
  set (keys := List.filter is_ns_key (env_order (map_keys attrs))).
  assert (forall k, k ∈ keys <-> is_Some (attrs !! k) /\ is_ns_key k = true) as Hkeys.
  { intros k. unfold keys. rewrite elem_of_list_In, filter_In, <- elem_of_list_In.
    rewrite env_order_perm. by rewrite map_keys_elem. }
  rewrite forallb_forall in Hval.
  destruct (ns_keys_image keys) as (l & El & Hl).
  { apply Forall_forall. intros k Hk. assert (Hk' := Hk). unfold keys in Hk'.
    apply elem_of_list_In, filter_In in Hk' as [Hk1 Hk2].
    split; [by apply Hval|]. split; [done|]. apply Hkeys in Hk as [[v Hv] _]. by apply (Hreg _ _ Hv). }
  rewrite El. assert (forall k, k ∈ l -> is_Some (attrs !! nskey k)) as Hin.
  { intros k Hk. apply Hkeys. rewrite El. apply elem_of_list_fmap. eauto. }
  assert (forall p, is_ns_key (nskey p) = true -> (p ∈ l <-> is_Some (attrs !! nskey p))) as Hmem.
  { intros p Hp. split; [apply Hin|]. intros Hs. assert (nskey p ∈ keys) as Hk by (by apply Hkeys).
    rewrite El in Hk. apply elem_of_list_fmap in Hk as (p' & Heq & Hk). by apply nskey_inj in Heq as ->. }
  split.
  - intros p Hp Hc. rewrite register_ns_prefix by done. f_equal.
    assert (nskey p = "xmlns:" +:+ p) as Hnk by (unfold nskey; by apply seqb_false in Hp as ->).
    destruct (decide (p ∈ l)) as [Hpl|Hpl]; [by rewrite Hnk|].
    destruct (attrs !! ("xmlns:" +:+ p)) eqn:E; [|done]. exfalso. apply Hpl. apply Hmem.
    + by rewrite nskey_is_ns.
    + rewrite Hnk, E. eauto.
  - rewrite register_ns_default by done. destruct (decide (default_ns_key ∈ l)) as [Hd|Hd].
    + destruct (Hin _ Hd) as [v Hv]. change (nskey default_ns_key) with "xmlns" in Hv. by rewrite Hv.
    + destruct (attrs !! "xmlns") eqn:E; [|done]. exfalso. apply Hd, Hmem; [done|].
      change (nskey default_ns_key) with "xmlns". eauto.
Qed.

(** One event. *)
Lemma run_add_ns d m attrs d' id : (forall d1 r, m d = (d1, r) -> d_ns d1 = d_ns d) ->
  run_add d m attrs = Ok (d', id) -> map_Forall (fun k _ => regular_key k) attrs ->
  (forall p, p <> default_ns_key -> sexists (fun a => aeqb a ":") p = false ->
     d_ns d' !! p = orelse (d_ns d !! p) (attrs !! ("xmlns:" +:+ p)))
  /\ d_ns d' !! default_ns_key = orelse (attrs !! "xmlns") (d_ns d !! default_ns_key).
Proof.
  intros Hm Hr Hreg. unfold run_add in Hr. destruct (m d) as [d1 [i|e|e]] eqn:E; [|done|done].
  rewrite <- (Hm _ _ eq_refl). destruct (set_attributes i attrs d1) as [d2 [[]|e|e]] eqn:Es; [|done|done].
  injection Hr as <- <-. by eapply set_attributes_ns.
Qed.
Lemma append_child_ns name p d d1 r : append_child name p d = (d1, r) -> d_ns d1 = d_ns d.
Proof.
  unfold append_child, insert_with. destruct (d_elems d !! _); [|by intros [= <- _]].
  unfold new_elem. destruct (is_valid_xml_name name); by intros [= <- _].
Qed.
Lemma create_root_ns name d d1 r : create_root name d = (d1, r) -> d_ns d1 = d_ns d.
Proof. unfold create_root, new_elem. destruct (is_valid_xml_name name); by intros [= <- _]. Qed.

Lemma parse_step_ns ev p p' : parse_step ev p = Ok (inl p') ->
  (match tag_attrs ev with Some m => map_Forall (fun k _ => regular_key k) m | None => True end) ->
  (forall x, x <> default_ns_key -> sexists (fun a => aeqb a ":") x = false ->
     d_ns (ps_doc p') !! x = orelse (d_ns (ps_doc p) !! x) (tag_attrs ev ≫= fun m => m !! ("xmlns:" +:+ x)))
  /\ d_ns (ps_doc p') !! default_ns_key
     = orelse (tag_attrs ev ≫= fun m => m !! "xmlns") (d_ns (ps_doc p) !! default_ns_key).
Proof.
  assert (forall ns : gmap string string, (forall x, x <> default_ns_key -> sexists (fun a => aeqb a ":") x = false ->
     ns !! x = orelse (ns !! x) None) /\ ns !! default_ns_key = orelse None (ns !! default_ns_key)) as Hsame.
  { intros ns. split; [|done]. intros x _ _. by destruct (ns !! x). }
  destruct ev as [name raw|name raw|name|raw| |]; cbn [parse_step tag_attrs]; intros Hs Hreg.
  - destruct (get_attributes raw) as [m|e|e]; cbn in *; [|done|done].
    destruct (run_add _ _ _) as [[d' id]|e|e] eqn:E; cbn in Hs; [|done|done]. injection Hs as <-. cbn.
    eapply run_add_ns; [|exact E|done]. intros d1 r. destruct (ps_root p); [apply append_child_ns|apply create_root_ns].
  - destruct (get_attributes raw) as [m|e|e]; cbn in *; [|done|done].
    destruct (run_add _ _ _) as [[d' id]|e|e] eqn:E; cbn in Hs; [|done|done]. injection Hs as <-. cbn.
    eapply run_add_ns; [|exact E|done]. intros d1 r. apply append_child_ns.
  - destruct (ps_open p); [done|]. destruct (negb _); [done|].
    destruct (d_elems _ !! _); [|done]. destruct (seqb _ _); [|done]. injection Hs as <-. cbn. apply Hsame.
  - destruct (unescape raw); [|done]. destruct (d_elems _ !! _); [|done]. injection Hs as <-. cbn. apply Hsame.
  - injection Hs as <-. cbn. apply Hsame.
  - done.
Qed.

Lemma first_binding_app k l l' : first_binding k (l ++ l') = orelse (first_binding k l) (first_binding k l').
Proof. induction l as [|m l IH]; [done|]. cbn. by destruct (m !! k). Qed.
Lemma last_binding_cons k m l : last_binding k (m :: l) = orelse (last_binding k l) (m !! k).
Proof. unfold last_binding. cbn. rewrite first_binding_app. cbn. by destruct (m !! k). Qed.
Lemma orelse_assoc {A} (x y z : option A) : orelse (orelse x y) z = orelse x (orelse y z).
Proof. by destruct x. Qed.

Lemma parse_loop_ns fuel s p d : parse_loop fuel s p = Ok d ->
  exists evs, Tokens s evs /\
  (Forall (map_Forall (fun k _ => regular_key k)) (omap tag_attrs evs) ->
   (forall x, x <> default_ns_key -> sexists (fun a => aeqb a ":") x = false ->
     d_ns d !! x = orelse (d_ns (ps_doc p) !! x) (first_binding ("xmlns:" +:+ x) (omap tag_attrs evs)))
   /\ d_ns d !! default_ns_key = orelse (last_binding "xmlns" (omap tag_attrs evs)) (d_ns (ps_doc p) !! default_ns_key)).
Proof.
  revert s p. induction fuel as [|fuel IH]; intros s p Hl; [done|]. cbn [parse_loop] in Hl.
  destruct (read_event s) as [[ev rest]|e|e] eqn:Ev; cbn in Hl; [|done|done].
  destruct (parse_step ev p) as [[p'|d']|e|e] eqn:Es; cbn in Hl; [| |done|done].
  - destruct (IH rest p' Hl) as (evs & Ht & Hns). exists (ev :: evs). split.
    { econstructor; [exact Ev| |done]. by intros ->. }
    intros Hreg. assert (match tag_attrs ev with Some m => map_Forall (fun k _ => regular_key k) m | None => True end
       /\ Forall (map_Forall (fun k _ => regular_key k)) (omap tag_attrs evs)) as [Hr1 Hr2].
    { cbn in Hreg. destruct (tag_attrs ev); [|done]. by apply Forall_cons in Hreg. }
    destruct (Hns Hr2) as [H1 H2]. destruct (parse_step_ns ev p p' Es Hr1) as [H3 H4]. split.
    + intros x Hx Hc. rewrite H1, H3 by done. rewrite orelse_assoc. f_equal. cbn.
      by destruct (tag_attrs ev).
    + rewrite H2, H4. rewrite <- orelse_assoc. f_equal.
      assert (omap tag_attrs (ev :: evs) = match tag_attrs ev with Some m => m :: omap tag_attrs evs | None => omap tag_attrs evs end) as -> by done.
      destruct (tag_attrs ev) as [m|]; cbn [mbind option_bind]; [by rewrite last_binding_cons|].
      by destruct (last_binding _ _).
  - injection Hl as <-. destruct ev; cbn in Es; try done.
    + exfalso. destruct (get_attributes attrs); [|done|done]. cbn in Es. by destruct (run_add _ _ _) as [[]| |].
    + exfalso. destruct (get_attributes attrs); [|done|done]. cbn in Es. by destruct (run_add _ _ _) as [[]| |].
    + exfalso. destruct (ps_open p); [done|]. destruct (negb _); [done|].
      destruct (d_elems _ !! _); [|done]. by destruct (seqb _ _).
    + exfalso. destruct (unescape raw); [|done]. by destruct (d_elems _ !! _).
    + injection Es as <-. exists []. split; [by econstructor|]. intros _. cbn. split; [|done].
      intros x _ _. by destruct (d_ns (ps_doc p) !! x).
Qed.
End ns.

(** ** C08 *)
Lemma spec_escape_length s : (String.length s <= String.length (spec_escape s))%nat.
Proof.
  induction s as [|a s IH]; [done|]. cbn [spec_escape]. unfold entity_of.
  repeat (destruct (Ascii.eqb _ _); [cbn in *; lia|]). cbn. lia.
Qed.
Lemma spec_escape_grows s : sexists is_special s = true -> (String.length s + 3 <= String.length (spec_escape s))%nat.
Proof.
  induction s as [|a s IH]; [done|]. cbn [sexists spec_escape]. unfold is_special.
  pose proof (spec_escape_length s) as Hl. destruct (entity_of a) as [e|] eqn:E.
  - intros _. unfold entity_of in E. repeat (destruct (Ascii.eqb _ _); [injection E as <-; cbn; lia|]). done.
  - cbn. intros Hs. apply IH in Hs. lia.
Qed.
Lemma spec_escape_amp s : sexists is_special s = true -> sexists is_special (spec_escape s) = true.
Proof.
  induction s as [|a s IH]; [done|]. cbn [sexists spec_escape]. unfold is_special at 1.
  destruct (entity_of a) as [e|] eqn:E.
  - intros _. unfold entity_of in E. repeat (destruct (Ascii.eqb _ _); [injection E as <-; reflexivity|]). done.
  - cbn [orb sexists]. intros Hs. rewrite IH by done. apply orb_true_r.
Qed.
Lemma spec_escape_fixed s : sexists is_special s = false -> spec_escape s = s.
Proof.
  induction s as [|a s IH]; [done|]. cbn [sexists spec_escape]. unfold is_special at 1.
  destruct (entity_of a); [done|]. cbn. intros Hs. by rewrite IH.
Qed.

Lemma at_path_reread p t n : at_path p t = Some n -> at_path p (reread t) = Some (reread n).
Proof.
  revert t. induction p as [|i p IH]; intros t; cbn [at_path]; [by intros [= ->]|].
  destruct t as [g a [v|] cs]; [done|]. cbn [reread]. rewrite nth_error_map.
  destruct (nth_error cs i) as [c|]; cbn; [|done]. apply IH.
Qed.
Lemma attr_at_reread p k t v : attr_at p k t = Some v -> attr_at p k (reread t) = Some (spec_escape v).
Proof.
  unfold attr_at. destruct (at_path p t) as [[g [a|] w cs]|] eqn:E; [|done|done].
  apply at_path_reread in E as ->. intros Hk. cbn [reread].
  destruct w; change (default ∅ (Some a)) with a; by rewrite lookup_fmap, Hk.
Qed.
Section cycles.
Context `{Env}.
Lemma names_ok_reread t : names_ok t -> names_ok (reread t).
Proof.
  induction t as [g a v cs IH] using tree_rect'. rewrite names_ok_node. intros (Hg & Ha & Hcs).
  assert (attrs_ok (Some (spec_escape <$> default ∅ a))) as Ha'.
  { destruct a as [m|]; cbn in *.
    - intros k w. rewrite lookup_fmap. destruct (m !! k) eqn:E; [|done]. intros _. by eapply Ha.
    - rewrite fmap_empty. apply map_Forall_empty. }
  cbn [reread]. destruct v as [s|]; apply names_ok_node; split; try done; split; try done.
  apply Forall_forall. intros c Hc. apply elem_of_list_fmap in Hc as (c' & -> & Hc).
  rewrite Forall_forall in IH, Hcs. auto.
Qed.
Lemma cycle_attr d it p k v bytes d1 : Represents d it -> names_ok (erase it) -> ns_ok (d_ns d) ->
  attr_at p k (erase it) = Some v ->
  write_doc d = Ok bytes -> read_doc bytes = Ok d1 ->
  exists it1, Represents d1 it1 /\ names_ok (erase it1) /\ ns_ok (d_ns d1)
     /\ attr_at p k (erase it1) = Some (spec_escape v).
Proof.
  intros Hr Hn Hns Hv Hw Hrd. rewrite (write_doc_render d it Hr) in Hw. injection Hw as <-.
  destruct (erase it) as [g a w cs] eqn:Et.
  destruct w as [w|]; [|destruct cs as [|c cs]].
  - destruct (read_render_root (d_ns d) (Node g a (Some w) cs)) as (d' & it' & H1 & H2 & H3 & H4 & H5);
      [done|done|by left|].
    rewrite Hrd in H1. injection H1 as <-. exists it'. rewrite H4, H5. split; [done|].
    split; [by apply names_ok_reread|]. split; [by apply written_ns_ok|]. by apply attr_at_reread.
  - destruct (read_empty_root (d_ns d) g a Hn Hns) as [m Hm]. congruence.
  - destruct (read_render_root (d_ns d) (Node g a None (c :: cs))) as (d' & it' & H1 & H2 & H3 & H4 & H5);
      [done|done|by right|].
    rewrite Hrd in H1. injection H1 as <-. exists it'. rewrite H4, H5. split; [done|].
    split; [by apply names_ok_reread|]. split; [by apply written_ns_ok|]. by apply attr_at_reread.
Qed.
Lemma cycles_attr n d d' : Cycles n d d' -> forall it p k v,
  Represents d it -> names_ok (erase it) -> ns_ok (d_ns d) -> attr_at p k (erase it) = Some v ->
  exists it', Represents d' it' /\ attr_at p k (erase it') = Some (Nat.iter n spec_escape v).
Proof.
  induction 1 as [d|n d bytes d1 d2 Hw Hrd Hc IH]; intros it p k v Hr Hn Hns Hv; [eauto|].
  destruct (cycle_attr _ _ _ _ _ _ _ Hr Hn Hns Hv Hw Hrd) as (it1 & H1 & H2 & H3 & H4).
  destruct (IH it1 p k _ H1 H2 H3 H4) as (it' & H5 & H6). exists it'. split; [done|]. rewrite H6.
  f_equal. by rewrite Nat.iter_succ_r.
Qed.
End cycles.
Lemma iter_escape_special n v : sexists is_special v = true -> sexists is_special (Nat.iter n spec_escape v) = true.
Proof. intros Hv. induction n as [|n IH]; [done|]. cbn. by apply spec_escape_amp. Qed.
Lemma iter_escape_len n v : sexists is_special v = true ->
  (String.length v + 3 * n <= String.length (Nat.iter n spec_escape v))%nat.
Proof.
  intros Hv. induction n as [|n IH]; [cbn; lia|]. rewrite Nat.iter_succ.
  pose proof (spec_escape_grows _ (iter_escape_special n v Hv)). lia.
Qed.
Lemma iter_escape_plain n v : sexists is_special v = false -> Nat.iter n spec_escape v = v.
Proof. intros Hv. induction n as [|n IH]; [done|]. rewrite Nat.iter_succ, IH. by apply spec_escape_fixed. Qed.
Lemma spec_escape_safe s : SafeText (spec_escape s).
Proof.
  induction s as [|a s IH]; [constructor|]. cbn [spec_escape]. destruct (entity_of a) as [e|] eqn:E.
  - apply Safe_entity; [|done]. unfold entity_of in E.
    repeat (destruct (Ascii.eqb _ _); [injection E as <-; set_solver|]). done.
  - apply Safe_plain; [|done]. unfold is_special. by rewrite E.
Qed.
