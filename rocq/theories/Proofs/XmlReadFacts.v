(** The reader: it never runs out of fuel, and it rebuilds what the writer wrote. *)
From Verif.Model Require Import XmlTree XmlWrite XmlRead.
From Verif.Spec Require Import XmlSpec XmlRepr.
From Verif.Proofs Require Import BaseFacts XmlWriteFacts XmlLexFacts.

(** ** every event consumes input *)
Lemma skip_ws_len s : (String.length (skip_ws s) <= String.length s)%nat.
Proof. induction s as [|a s IH]; cbn; [lia|]. destruct (is_ws a); cbn; lia. Qed.
Lemma span_text_len s t r : span_text s = (t, r) ->
  (String.length s = String.length t + String.length r)%nat.
Proof.
  revert t r. induction s as [|a s IH]; intros t r; cbn; [by intros [= <- <-]|].
  destruct (aeqb a "<"); [by intros [= <- <-]|].
  destruct (span_text s) as [t' r']. intros [= <- <-]. cbn. by rewrite (IH t' r').
Qed.
Lemma split_at_sub_len p s l r : split_at_sub p s = Some (l, r) ->
  (String.length r <= String.length s)%nat.
Proof.
  revert l. induction s as [|a s IH]; intros l; cbn [split_at_sub].
  - destruct (strip_prefix p "") eqn:E; [|done]. intros [= <- <-].
    apply strip_prefix_Some in E. rewrite E, slength_app. lia.
  - destruct (strip_prefix p (String a s)) eqn:E.
    + intros [= <- <-]. apply strip_prefix_Some in E. rewrite E, slength_app. lia.
    + destruct (split_at_sub p s) as [[l' r']|]; [|done]. intros [= <- ->]. cbn.
      specialize (IH l' eq_refl). lia.
Qed.
Lemma split_at_byte_len p s l b r : split_at_byte p s = Some (l, b, r) ->
  (String.length r < String.length s)%nat.
Proof.
  revert l. induction s as [|a s IH]; intros l; cbn; [done|].
  destruct (p a); [intros [= <- <- <-]; lia|].
  destruct (split_at_byte p s) as [[[l' b'] r']|]; [|done]. intros [= <- -> ->].
  specialize (IH l' eq_refl). lia.
Qed.
Lemma scan_tag_len q s c r : scan_tag q s = Some (c, r) ->
  (String.length r < String.length s)%nat.
Proof.
  revert q c. induction s as [|a s IH]; intros q c; cbn [scan_tag String.length]; [done|].
  assert (forall q', match scan_tag q' s with Some (c, r) => Some (String a c, r) | None => None end
     = Some (c, r) -> (String.length r < S (String.length s))%nat) as Hn.
  { intros q'. destruct (scan_tag q' s) as [[c' r']|] eqn:E; [|done]. intros [= <- ->].
    specialize (IH _ _ E). lia. }
  destruct q as [b|]; [destruct (aeqb a b); apply Hn|].
  destruct (aeqb a ">"); [intros [= <- <-]; lia|]. destruct (_ || _); apply Hn.
Qed.
Lemma scan_doctype_len b s r : scan_doctype b s = Some r -> (String.length r < String.length s)%nat.
Proof.
  revert b. induction s as [|a s IH]; intros b; cbn; [done|].
  repeat case_match; intros Hr; try (apply IH in Hr; lia). simplify_eq. lia.
Qed.
Lemma read_markup_len s ev r : read_markup s = Ok (ev, r) ->
  (String.length r <= String.length s)%nat.
Proof.
  unfold read_markup. destruct s as [|c s1]; [done|].
  destruct (aeqb c "!").
  { destruct s1 as [|d s2]; [done|].
    destruct (aeqb d "-").
    { destruct s2 as [|e s3]; [done|]. destruct (aeqb e "-"); [|done].
      destruct (split_at_sub "-->" s3) as [[x y]|] eqn:E; [|done]. intros [= <- <-].
      apply split_at_sub_len in E. cbn. lia. }
    destruct (aeqb d "[").
    { destruct (split_at_sub "]]>" s2) as [[x y]|] eqn:E; [|done]. case_match; [|done].
      intros [= <- <-]. apply split_at_sub_len in E. cbn. lia. }
    destruct (_ || _); [|done].
    destruct (scan_doctype 0 s2) as [y|] eqn:E; [|done]. case_match; [|done].
    intros [= <- <-]. apply scan_doctype_len in E. cbn. lia. }
  destruct (aeqb c "?").
  { destruct (split_at_sub "?>" (String c s1)) as [[[|x1 x2] y]|] eqn:E; [done| |done].
    intros [= <- <-]. by apply split_at_sub_len in E. }
  destruct (aeqb c "/").
  { destruct (split_at_byte _ s1) as [[[x b] y]|] eqn:E; [|done]. intros [= <- <-].
    apply split_at_byte_len in E. cbn. lia. }
  destruct (scan_tag None (String c s1)) as [[x y]|] eqn:E; [|done].
  apply scan_tag_len in E.
  destruct (strip_suffix "/" x) as [x'|].
  - destruct (split_name x'). intros [= <- <-]. lia.
  - destruct (split_name x). intros [= <- <-]. lia.
Qed.
Lemma read_event_len s ev r : read_event s = Ok (ev, r) ->
  ev = EvEof \/ (String.length r < String.length s)%nat.
Proof.
  unfold read_event. pose proof (skip_ws_len s) as Hl.
  destruct (skip_ws s) as [|a s'] eqn:E; [intros [= <- <-]; by left|]. cbn in Hl.
  destruct (aeqb a "<") eqn:Ea.
  - intros Hr. apply read_markup_len in Hr. right. lia.
  - cbn [span_text]. rewrite Ea. destruct (span_text s') as [t r'] eqn:Et. intros [= <- <-].
    apply span_text_len in Et. right. lia.
Qed.

Section reader.
Context `{Env}.

Lemma parse_fuel f1 f2 s p : (String.length s < f1)%nat -> (String.length s < f2)%nat ->
  parse_loop f1 s p = parse_loop f2 s p.
Proof.
  revert f2 s p. induction f1 as [|f1 IH]; intros f2 s p H1 H2; [lia|].
  destruct f2 as [|f2]; [lia|]. cbn [parse_loop].
  destruct (read_event s) as [[ev r]| |] eqn:E; [|done|done]. cbn [rbind].
  destruct (parse_step ev p) as [[p'|d]| |] eqn:Es; [|done|done|done]. cbn [rbind].
  apply read_event_len in E as [->|E]; [done|]. apply IH; lia.
Qed.
Definition parse (s : string) (p : pstate) : res doc := parse_loop (S (String.length s)) s p.
Lemma parse_unfold s p : parse s p =
  rbind (read_event s) (fun '(ev, r) =>
  rbind (parse_step ev p) (fun x => match x with inr d => Ok d | inl p' => parse r p' end)).
Proof.
  unfold parse at 1. cbn [parse_loop].
  destruct (read_event s) as [[ev r]| |] eqn:E; [|done|done]. cbn [rbind].
  destruct (parse_step ev p) as [[p'|d]| |] eqn:Es; [|done|done|done]. cbn [rbind].
  apply read_event_len in E as [->|E]; [done|]. apply parse_fuel; lia.
Qed.
Lemma parse_step_eq s ev r p p' : read_event s = Ok (ev, r) -> parse_step ev p = Ok (inl p') ->
  parse s p = parse r p'.
Proof. intros H1 H2. rewrite parse_unfold, H1. cbn [rbind]. by rewrite H2. Qed.

(** ** attributes as written *)
Definition attr_lists (a : option (gmap string string)) : list (list (string * string)) :=
  match a with Some m => [map (fun kv => (kv.1, escape kv.2)) (sorted_entries m)] | None => [] end.
Definition nskey (k : string) : string :=
  if seqb k default_ns_key then "xmlns" else "xmlns:" +:+ k.
Definition ns_list (ns : gmap string string) : list (string * string) :=
  map (fun kv => (nskey kv.1, kv.2)) (hash_entries (written_ns ns)).

Lemma raw_attr_attr l : map raw_attr (map (fun kv => (kv.1, escape kv.2)) l) = map attr_text l.
Proof. rewrite map_map. done. Qed.
Lemma raw_attr_ns l : map raw_attr (map (fun kv => (nskey kv.1, kv.2)) l) = map ns_text l.
Proof.
  rewrite map_map. apply map_ext. intros [k v]. unfold raw_attr, ns_text, nskey. cbn [fst snd].
  destruct (seqb k default_ns_key); [done|]. by rewrite <- app_assoc_s.
Qed.
Lemma open_tag_raw g a close :
  open_tag None g a close = "<" +:+ g +:+ raw_tail (attr_lists a) +:+ (if close then " />" else " >").
Proof.
  unfold open_tag. do 2 f_equal. destruct a as [m|]; cbn [attr_lists]; [|done].
  unfold raw_tail. cbn [map]. rewrite sconcat_cons. cbn [sconcat foldr]. rewrite app_nil_r_s.
  by rewrite raw_attr_attr, join_spaced.
Qed.
Lemma open_tag_raw_root ns g a close :
  open_tag (Some ns) g a close
  = "<" +:+ g +:+ raw_tail (ns_list ns :: attr_lists a) +:+ (if close then " />" else " >").
Proof.
  unfold open_tag. do 2 f_equal. unfold raw_tail. cbn [map].
  rewrite sconcat_cons. unfold ns_list. rewrite raw_attr_ns, join_spaced, <- !app_assoc_s.
  do 2 f_equal. destruct a as [m|]; cbn [attr_lists map]; [|done].
  rewrite sconcat_cons. cbn [sconcat foldr]. rewrite app_nil_r_s, raw_attr_attr, join_spaced.
  done.
Qed.
Lemma fst_escape l : (map (fun kv : string * string => (kv.1, escape kv.2)) l).*1 = l.*1.
Proof. induction l as [|[k v] l IH]; [done|]. cbn. by f_equal. Qed.
Lemma raw_ok_valid k v : is_valid_xml_name k = true -> has_no_dquote v = true -> raw_ok (k, v).
Proof.
  intros Hk Hv. split; [by apply valid_name_nonempty|]. split; [by apply valid_name_bytes|done].
Qed.
Lemma attr_lists_ok a : attrs_ok a -> Forall (Forall raw_ok) (attr_lists a).
Proof.
  destruct a as [m|]; cbn; intros Ha; [|constructor]. constructor; [|constructor].
  apply Forall_forall. intros kv Hin. apply elem_of_list_fmap in Hin as ([k v] & -> & Hin).
  cbn. rewrite sorted_entries_lookup in Hin. apply Ha in Hin as [Hk _].
  apply raw_ok_valid; [done|]. apply escape_no_dquote.
Qed.
Lemma attr_lists_NoDup a : NoDup (concat (attr_lists a)).*1.
Proof.
  destruct a as [m|]; cbn; [|constructor]. rewrite app_nil_r, fst_escape. apply sorted_entries_NoDup.
Qed.
Lemma attr_lists_map a : list_to_map (concat (attr_lists a)) = spec_escape <$> default ∅ a.
Proof.
  destruct a as [m|]; cbn; [|by rewrite fmap_empty]. rewrite app_nil_r.
  rewrite <- (list_to_map_sorted_entries m) at 2. rewrite <- list_to_map_fmap. f_equal.
  apply map_ext. intros [k v]. cbn. by rewrite escape_spec.
Qed.
Lemma get_attributes_written a : attrs_ok a ->
  get_attributes (raw_tail (attr_lists a) +:+ " ") = Ok (spec_escape <$> default ∅ a).
Proof.
  intros Ha. rewrite get_attributes_raw_tail; [|by apply attr_lists_ok|apply attr_lists_NoDup|by right].
  by rewrite attr_lists_map.
Qed.

(** ** adding one element *)
Lemma map_keys_elem {V} (m : gmap string V) k : k ∈ map_keys m <-> is_Some (m !! k).
Proof.
  unfold map_keys. rewrite elem_of_list_fmap. split.
  - intros ([k' v] & -> & Hin). apply elem_of_map_to_list in Hin. eauto.
  - intros [v Hv]. exists (k, v). split; [done|]. by apply elem_of_map_to_list.
Qed.
Lemma map_keys_NoDup {V} (m : gmap string V) : NoDup (map_keys m).
Proof. apply NoDup_fst_map_to_list. Qed.
Lemma forallb_Forall {A} (f : A -> bool) l : forallb f l = true <-> Forall (fun x => f x = true) l.
Proof.
  induction l as [|a l IH]; cbn; [split; [constructor|done]|].
  rewrite andb_true_iff, IH, Forall_cons. done.
Qed.
Lemma env_order_keys_valid (m : gmap string string) :
  map_Forall (fun k _ => is_valid_xml_name k = true) m ->
  forallb is_valid_xml_name (env_order (map_keys m)) = true.
Proof.
  intros Hm. apply forallb_Forall, Forall_forall. intros k Hk.
  rewrite (env_order_perm (map_keys m)) in Hk. apply map_keys_elem in Hk as [v Hv]. by apply (Hm k v).
Qed.
Lemma filter_none {A} (f : A -> bool) l : (forall x, x ∈ l -> f x = false) -> List.filter f l = [].
Proof.
  induction l as [|a l IH]; intros Hl; [done|]. cbn. rewrite Hl by left.
  apply IH. intros x Hx. apply Hl. by right.
Qed.
Definition plain_attrs (m : gmap string string) : Prop :=
  map_Forall (fun k _ => is_valid_xml_name k = true /\ is_ns_key k = false) m.
Lemma set_attributes_plain id m d e : plain_attrs m -> d_elems d !! id = Some e ->
  set_attributes id m d
  = (with_elems d (<[id := set_elem_attrs e (Some m)]> (d_elems d)), Ok tt).
Proof.
  intros Hm He. unfold set_attributes.
  rewrite env_order_keys_valid.
  2:{ intros k v Hk. by apply (Hm k v). }
  cbn [negb]. rewrite He.
  rewrite (filter_none is_ns_key).
  2:{ intros k Hk. rewrite (env_order_perm (map_keys m)) in Hk.
      apply map_keys_elem in Hk as [v Hv]. by apply (Hm k v). }
  cbn [register_ns]. rewrite map_filter_id; [done|]. intros k v Hk. by apply (Hm k v).
Qed.

Definition Bound (d : doc) : Prop := forall k e, d_elems d !! k = Some e -> k <= d_running d.

Definition add_elem (d : doc) (p : N) (e : elem) (g : string) (a : gmap string string)
    (v : option string) : doc :=
  let id := d_running d + 1 in
  mkDoc id (d_ns d)
    (<[id := mkElem id p g (Some a) v []]>
      (<[p := set_children e (e_children e ++ [(id, g)])]> (d_elems d))).
Lemma run_add_append d p e g a :
  is_valid_xml_name g = true -> plain_attrs a -> d_elems d !! p = Some e ->
  run_add d (append_child g (Some p)) a = Ok (add_elem d p e g a None, d_running d + 1).
Proof.
  intros Hg Ha Hp. unfold run_add, append_child, insert_with.
  change (default 0 (Some p)) with p. cbv zeta.
  unfold new_elem. rewrite Hp, Hg.
  erewrite set_attributes_plain; [|done|cbn; by rewrite lookup_insert].
  cbn. unfold add_elem, with_elems. cbn. rewrite insert_insert. done.
Qed.

(** ** what parsing a piece of content under element [p] does *)
Record Added (d : doc) (p : N) (e : elem) (d' : doc) (its : list itree) : Prop := {
  add_ns : d_ns d' = d_ns d;
  add_run : d_running d <= d_running d';
  add_bound : Bound d';
  add_parent : d_elems d' !! p = Some (set_children e (e_children e ++ map child_entry its));
  add_holds : HoldsAll (d_elems d') p its;
  add_nodup : NoDup (flat_map ids its);
  add_range : forall k, k ∈ flat_map ids its -> d_running d < k <= d_running d';
  add_frame : agree_off (p :: flat_map ids its) (d_elems d) (d_elems d');
}.
Lemma Added_nil d p e : Bound d -> d_elems d !! p = Some e -> Added d p e d [].
Proof.
  intros Hb Hp. split; cbn; try done; try lia.
  - rewrite app_nil_r. by destruct e.
  - apply Forall_nil. done.
  - constructor.
  - intros k Hk. by apply elem_of_nil in Hk.
Qed.
Lemma Added_cons d p e d1 it d2 its : Bound d -> d_elems d !! p = Some e ->
  Added d p e d1 [it] ->
  Added d1 p (set_children e (e_children e ++ [child_entry it])) d2 its ->
  Added d p e d2 (it :: its).
Proof.
  intros Hb Hp [Hns1 Hr1 Hb1 Hp1 Hh1 Hn1 Hg1 Hf1] [Hns2 Hr2 Hb2 Hp2 Hh2 Hn2 Hg2 Hf2].
  cbn [flat_map] in *. rewrite app_nil_r in *.
  assert (p <= d_running d) as Hpr by (by eapply Hb).
  assert (forall k, k ∈ ids it -> k ∉ p :: flat_map ids its) as Hdis.
  { intros k Hk. apply Hg1 in Hk. rewrite not_elem_of_cons. split; [lia|].
    intros Hk'. apply Hg2 in Hk'. lia. }
  split.
  - congruence.
  - lia.
  - done.
  - rewrite Hp2. cbn. by rewrite <- app_assoc.
  - apply HoldsAll_cons. split; [|done].
    assert (HoldsAll (d_elems d2) p [it]) as Hh.
    { eapply HoldsAll_agree; [exact Hf2| |exact Hh1]. cbn. rewrite app_nil_r. done. }
    unfold HoldsAll in Hh. cbn in Hh. by rewrite app_nil_r in Hh.
  - cbn. apply NoDup_app. split; [done|]. split; [|done].
    intros k Hk Hk'. apply (Hdis k Hk). by right.
  - intros k. cbn. rewrite elem_of_app. intros [Hk|Hk]; [apply Hg1 in Hk|apply Hg2 in Hk]; lia.
  - intros k. cbn. rewrite not_elem_of_cons, not_elem_of_app. intros (? & ? & ?).
    rewrite Hf2 by (by rewrite not_elem_of_cons). apply Hf1. by rewrite not_elem_of_cons.
Qed.
(** One element: after [add_elem], anything done below the new element. *)
Lemma Added_node d p e g a v d2 its : Bound d -> d_elems d !! p = Some e ->
  let id := d_running d + 1 in
  let d1 := add_elem d p e g a None in
  d_ns d2 = d_ns d -> id <= d_running d2 -> Bound d2 ->
  d_elems d2 !! id = Some (mkElem id p g (Some a) v (map child_entry its)) ->
  HoldsAll (d_elems d2) id its ->
  NoDup (flat_map ids its) ->
  (forall k, k ∈ flat_map ids its -> id < k <= d_running d2) ->
  agree_off (id :: flat_map ids its) (d_elems d1) (d_elems d2) ->
  Added d p e d2 [INode id g (Some a) v its].
Proof.
  intros Hb Hp id d1 Hns Hr Hb2 Hid Hh Hnd Hrg Hf.
  assert (p <= d_running d) as Hpr by (by eapply Hb).
  assert (p ∉ id :: flat_map ids its) as Hpn.
  { rewrite not_elem_of_cons. split; [unfold id; lia|]. intros Hk. apply Hrg in Hk. unfold id in Hk. lia. }
  split; try done.
  - unfold id in Hr. lia.
  - rewrite Hf by done. unfold d1, add_elem. cbn. rewrite lookup_insert_ne by lia.
    by rewrite lookup_insert.
  - apply HoldsAll_cons. split; [|apply Forall_nil; done]. by apply Holds_children.
  - cbn. rewrite app_nil_r. apply NoDup_cons. split; [|done].
    intros Hk. apply Hrg in Hk. lia.
  - intros k. cbn. rewrite app_nil_r, elem_of_cons. intros [->|Hk]; [unfold id in *; lia|].
    apply Hrg in Hk. unfold id in *. lia.
  - cbn [flat_map ids]. rewrite app_nil_r. intros k. rewrite not_elem_of_cons. intros [Hkp Hk].
    rewrite Hf by done. unfold d1, add_elem. cbn.
    apply not_elem_of_cons in Hk as [Hk _]. rewrite lookup_insert_ne by done.
    by rewrite lookup_insert_ne.
Qed.
Lemma add_elem_bound d p e g a v : Bound d -> d_elems d !! p = Some e -> Bound (add_elem d p e g a v).
Proof.
  intros Hb Hp k x. unfold add_elem. cbn.
  destruct (decide (k = d_running d + 1)) as [->|Hk]; [lia|]. rewrite lookup_insert_ne by done.
  destruct (decide (k = p)) as [->|Hk']; [|rewrite lookup_insert_ne by done; intros Hx; apply Hb in Hx; lia].
  intros _. apply Hb in Hp. lia.
Qed.

Lemma names_ok_node g a v cs : names_ok (Node g a v cs) <->
  is_valid_xml_name g = true /\ attrs_ok a /\ Forall names_ok cs.
Proof.
  cbn. apply and_iff_compat_l, and_iff_compat_l. induction cs as [|c cs IH].
  - split; [constructor|done].
  - rewrite Forall_cons. by rewrite <- IH.
Qed.
Lemma plain_escape a : attrs_ok a -> plain_attrs (spec_escape <$> default ∅ a).
Proof.
  intros Ha k v Hk. rewrite lookup_fmap in Hk. destruct a as [m|]; cbn in Hk.
  - destruct (m !! k) as [w|] eqn:E; [|done]. by apply (Ha k w).
  - rewrite lookup_empty in Hk. done.
Qed.

Definition parses (t : tree) : Prop := forall d p e os rest,
  Bound d -> d_elems d !! p = Some e ->
  exists d' it, parse (render t +:+ rest) (mkPstate d true p os) = parse rest (mkPstate d' true p os)
    /\ Added d p e d' [it] /\ erase it = reread t.

Lemma parse_children cs : Forall parses cs -> forall d p e os rest,
  Bound d -> d_elems d !! p = Some e ->
  exists d' its, parse (render_all cs +:+ rest) (mkPstate d true p os) = parse rest (mkPstate d' true p os)
    /\ Added d p e d' its /\ map erase its = map reread cs.
Proof.
  induction 1 as [|c cs Hc Hcs IH]; intros d p e os rest Hb Hp.
  - exists d, []. split; [done|]. split; [by apply Added_nil|done].
  - unfold render_all. cbn [map]. rewrite sconcat_cons. fold (render_all cs).
    destruct (Hc d p e os (render_all cs +:+ rest) Hb Hp) as (d1 & it & Hp1 & Ha1 & He1).
    destruct (IH d1 p (set_children e (e_children e ++ [child_entry it])) os rest)
      as (d2 & its & Hp2 & Ha2 & He2); [apply Ha1|apply Ha1|].
    exists d2, (it :: its). split; [|split].
    + rewrite <- app_assoc_s, Hp1. done.
    + by eapply Added_cons.
    + cbn. by rewrite He1, He2.
Qed.

Lemma read_event_lt s : read_event (String "<" s) = read_markup s.
Proof. done. Qed.
Lemma read_open_tag g ls (close : bool) rest :
  is_valid_xml_name g = true -> Forall (Forall raw_ok) ls ->
  read_event (("<" +:+ g +:+ raw_tail ls +:+ (if close then " />" else " >")) +:+ rest)
  = Ok ((if close then EvEmpty g (raw_tail ls +:+ " ") else EvStart g (raw_tail ls +:+ " ")), rest).
Proof.
  intros Hg Hls. rewrite <- !app_assoc_s.
  change ("<" +:+ ?x) with (String "<" x). rewrite read_event_lt.
  apply read_markup_tag; [by apply valid_name_bytes| |done].
  destruct (valid_name_nonempty _ Hg) as (a & t & ->). done.
Qed.

(** Closing tag of the active element. *)
Lemma parse_close g rest d p e os : is_valid_xml_name g = true ->
  d_elems d !! p = Some e -> e_tag e = g ->
  parse (String "<" (String "/" (g +:+ ">") +:+ rest)) (mkPstate d true p (g :: os))
  = parse rest (mkPstate d true (e_parent e) os).
Proof.
  intros Hg Hp He. eapply parse_step_eq.
  - rewrite read_event_lt. cbn [String.append]. rewrite <- app_assoc_s.
    apply read_markup_end. by apply valid_name_bytes.
  - cbn [parse_step ps_open ps_doc ps_active]. rewrite seqb_refl. cbn [negb]. rewrite Hp, He, seqb_refl.
    done.
Qed.

(** Text content of the active element followed by its closing tag. *)
Definition read_value (v : string) : option string := if String.eqb (trim v) "" then None else Some (trim v).
Lemma trim_empty v : trim v = "" <-> trim_left v = "".
Proof.
  unfold trim. split; [|by intros ->].
  assert (forall s, trim_right (trim_left s) = "" -> trim_left s = "") as Hx; [|apply Hx].
  induction s as [|a s IH]; [done|]. cbn [trim_left]. destruct (xml_space a) eqn:E; [done|].
  cbn [trim_right all_space]. rewrite E. done.
Qed.
Lemma parse_value_close v g rest d p e os : is_valid_xml_name g = true ->
  d_elems d !! p = Some e -> e_tag e = g -> e_value e = None ->
  parse (value_close v g +:+ rest) (mkPstate d true p (g :: os))
  = parse rest (mkPstate (with_elems d (<[p := set_elem_value e (read_value v)]> (d_elems d)))
                  true (e_parent e) os).
Proof.
  intros Hg Hp He Hv. unfold value_close. rewrite <- app_assoc_s.
  change (("</" +:+ (g +:+ ">")) +:+ rest) with (String "<" (String "/" (g +:+ ">") +:+ rest)).
  unfold read_value. destruct (String.eqb_spec (trim v) "") as [Ht|Ht].
  - rewrite trim_empty in Ht.
    transitivity (parse (String "<" (String "/" (g +:+ ">") +:+ rest)) (mkPstate d true p (g :: os))).
    { rewrite !parse_unfold. f_equal. by rewrite read_event_blank. }
    erewrite parse_close by done.
    rewrite insert_id; [by destruct d|]. rewrite Hp. f_equal. destruct e; cbn in *; by subst.
  - assert (trim_left v <> "") as Ht' by (by rewrite <- trim_empty).
    erewrite parse_step_eq; [|by apply read_event_text|].
    2:{ cbn [parse_step]. rewrite unescape_escape. cbn [ps_doc ps_active]. rewrite Hp. done. }
    cbn [ps_root ps_active ps_open]. erewrite parse_close; [| done | cbn; by rewrite lookup_insert | done].
    done.
Qed.

Lemma parses_all t : names_ok t -> parses t.
Proof.
  induction t as [g a v cs IH] using tree_rect'. rewrite names_ok_node. intros (Hg & Ha & Hcs).
  assert (Forall parses cs) as Hcs'.
  { clear -IH Hcs. induction IH as [|c cs Hc _ IHcs]; [constructor|].
    apply Forall_cons in Hcs as [??]. constructor; auto. }
  clear IH. intros d p e os rest Hb Hp.
  set (a' := spec_escape <$> default ∅ a).
  set (id := d_running d + 1). set (d1 := add_elem d p e g a' None).
  assert (p <= d_running d) as Hpr by (by eapply Hb).
  assert (Bound d1) as Hb1 by (by apply add_elem_bound).
  assert (d_elems d1 !! id = Some (mkElem id p g (Some a') None [])) as Hid1
    by (unfold d1, add_elem; cbn; by rewrite lookup_insert).
  assert (forall raw, raw = raw_tail (attr_lists a) +:+ " " ->
    parse_step (EvStart g raw) (mkPstate d true p os) = Ok (inl (mkPstate d1 true id (g :: os)))) as Hstart.
  { intros raw ->. cbn [parse_step]. rewrite get_attributes_written by done. cbn [rbind ps_doc ps_root ps_active ps_open].
    erewrite run_add_append; [|done|by apply plain_escape|done]. done. }
  destruct v as [s|]; [|destruct cs as [|c cs]].
  - cbn [render reread]. exists (with_elems d1 (<[id := set_elem_value (mkElem id p g (Some a') None []) (read_value s)]> (d_elems d1))).
    exists (INode id g (Some a') (read_value s) []). split; [|split].
    + rewrite <- app_assoc_s, open_tag_raw.
      erewrite parse_step_eq; [|by apply (read_open_tag _ _ false); [|apply attr_lists_ok]|by apply Hstart].
      erewrite parse_value_close; [|done|done|done|done]. done.
    + eapply Added_node; try done.
      * intros k x. cbn. destruct (decide (k = id)) as [->|Hk]; [unfold d1, add_elem; cbn; lia|].
        rewrite lookup_insert_ne by done. apply Hb1.
      * cbn. by rewrite lookup_insert.
      * by apply Forall_nil.
      * constructor.
      * cbn. intros k Hk. by apply elem_of_nil in Hk.
      * intros k. cbn [flat_map]. rewrite elem_of_list_singleton. intros Hk. cbn.
        by rewrite lookup_insert_ne.
    + done.
  - cbn [render reread map]. exists d1, (INode id g (Some a') None []). split; [|split].
    + rewrite open_tag_raw. eapply parse_step_eq; [by apply (read_open_tag _ _ true); [|apply attr_lists_ok]|].
      cbn [parse_step]. rewrite get_attributes_written by done. cbn [rbind ps_doc ps_root ps_active ps_open].
      erewrite run_add_append; [|done|by apply plain_escape|done]. done.
    + eapply Added_node; try done.
      * by apply Forall_nil.
      * constructor.
      * cbn. intros k Hk. by apply elem_of_nil in Hk.
    + done.
  - set (cs' := c :: cs) in *.
    assert (render (Node g a None cs') = open_tag None g a false +:+ render_all cs' +:+ value_close "" g) as ->
      by done.
    destruct (parse_children cs' Hcs' d1 id (mkElem id p g (Some a') None []) (g :: os)
                (value_close "" g +:+ rest) Hb1 Hid1) as (d2 & its & Hp2 & Ha2 & He2).
    exists d2, (INode id g (Some a') None its). split; [|split].
    + rewrite <- !app_assoc_s, open_tag_raw.
      erewrite parse_step_eq; [|by apply (read_open_tag _ _ false); [|apply attr_lists_ok]|by apply Hstart].
      rewrite Hp2. etrans; [eapply (parse_close g rest d2 id _ os Hg); [apply Ha2|done]|]. done.
    + destruct Ha2 as [Hns2 Hr2 Hb2 Hp2' Hh2 Hn2 Hg2 Hf2].
      eapply Added_node; try done.
    + cbn [erase reread]. by rewrite He2.
Qed.

(** ** the root *)
Lemma split_byte_none sep s : sforall (fun a => negb (aeqb a sep)) s = true -> split_byte sep s = [s].
Proof.
  induction s as [|a s IH]; [done|]. cbn. rewrite andb_true_iff, negb_true_iff. intros [-> Hs].
  by rewrite (IH Hs).
Qed.
Lemma name_tail_one cs : name_tail_ok 1 cs = true -> Forall (fun c => c <> 58) cs.
Proof.
  induction cs as [|c cs IH]; [constructor|]. cbn. destruct (c =? 58) eqn:E; [done|].
  destruct (is_name_char c); [|done]. cbn. intros Hcs. constructor; [by apply N.eqb_neq|auto].
Qed.
Lemma chars_no_colon s : Forall (fun c => c <> 58) (chars s) ->
  sforall (fun a => negb (aeqb a ":")) s = true.
Proof.
  induction s as [s IH] using string_len_ind. destruct s as [|a s1]; [done|]. cbn [chars sforall].
  assert (128 <= byteN a -> negb (aeqb a ":") = true) as Hbig by (bytes_norm; lia).
  assert (128 <= byteN a -> Forall (fun c => c <> 58) (65533 :: chars s1) ->
    negb (aeqb a ":") && sforall (fun a => negb (aeqb a ":")) s1 = true) as Hbad.
  { intros Hb. rewrite Forall_cons, andb_true_iff. intros [_ Hr]. split; [auto|].
    apply IH; [cbn; lia|done]. }
  assert (forall b, is_cont b = true -> negb (aeqb b ":") = true) as Hcont.
  { intros b. unfold is_cont. bytes_norm. lia. }
  destruct (byteN a <? 128) eqn:E1.
  { rewrite Forall_cons, andb_true_iff. intros [Hc Hr]. split; [bytes_norm; lia|]. apply IH; [cbn; lia|done]. }
  apply N.ltb_ge in E1.
  destruct ((192 <=? byteN a) && (byteN a <? 224)).
  { destruct s1 as [|b s2]; [auto|]. destruct (is_cont b) eqn:Eb; [|auto].
    rewrite Forall_cons. cbn [sforall]. rewrite !andb_true_iff. intros [_ Hr]. repeat split; auto.
    apply IH; [cbn; lia|done]. }
  destruct ((224 <=? byteN a) && (byteN a <? 240)).
  { destruct s1 as [|b [|c s3]]; [auto|auto|]. destruct (is_cont b && is_cont c) eqn:Eb; [|auto].
    apply andb_true_iff in Eb as [??].
    rewrite Forall_cons. cbn [sforall]. rewrite !andb_true_iff. intros [_ Hr]. repeat split; auto.
    apply IH; [cbn; lia|done]. }
  destruct ((240 <=? byteN a) && (byteN a <? 248)).
  { destruct s1 as [|b [|c [|e s4]]]; [auto|auto|auto|].
    destruct (is_cont b && is_cont c && is_cont e) eqn:Eb; [|auto].
    rewrite !andb_true_iff in Eb. destruct Eb as [[??]?].
    rewrite Forall_cons. cbn [sforall]. rewrite !andb_true_iff. intros [_ Hr]. repeat split; auto.
    apply IH; [cbn; lia|done]. }
  auto.
Qed.
Lemma prefix_no_colon k : is_valid_xml_name ("xmlns:" +:+ k) = true ->
  sforall (fun a => negb (aeqb a ":")) k = true.
Proof.
  unfold is_valid_xml_name. cbn [String.append chars].
  repeat match goal with |- context [byteN (Ascii ?a ?b ?c ?d ?e ?f ?g ?h)] =>
    let v := eval compute in (byteN (Ascii a b c d e f g h)) in
    change (byteN (Ascii a b c d e f g h)) with v end.
  change (120 <? 128) with true. change (109 <? 128) with true. change (108 <? 128) with true.
  change (110 <? 128) with true. change (115 <? 128) with true. change (58 <? 128) with true. cbv iota.
  rewrite andb_true_iff. intros [_ Hn]. cbn [name_tail_ok] in Hn.
  change (109 =? 58) with false in Hn. change (108 =? 58) with false in Hn.
  change (110 =? 58) with false in Hn. change (115 =? 58) with false in Hn.
  change (58 =? 58) with true in Hn. change (1 <? 0 + 1) with false in Hn. cbv iota in Hn.
  change (is_name_char 109) with true in Hn. change (is_name_char 108) with true in Hn.
  change (is_name_char 110) with true in Hn. change (is_name_char 115) with true in Hn.
  cbn [negb] in Hn. apply chars_no_colon, name_tail_one. exact Hn.
Qed.
Lemma nskey_inj k k' : nskey k = nskey k' -> k = k'.
Proof.
  unfold nskey. destruct (seqb k default_ns_key) eqn:E, (seqb k' default_ns_key) eqn:E'.
  - apply seqb_true in E, E'. congruence.
  - done.
  - done.
  - apply app_inj_l.
Qed.
Lemma nskey_is_ns k : is_ns_key (nskey k) = true.
Proof. unfold nskey. by destruct (seqb k default_ns_key). Qed.
Definition ns_key_ok (k : string) : Prop := k = default_ns_key \/ is_valid_xml_name ("xmlns:" +:+ k) = true.
Lemma nskey_valid k : ns_key_ok k -> is_valid_xml_name (nskey k) = true.
Proof.
  unfold nskey. intros [->|Hk]; [done|]. destruct (seqb k default_ns_key) eqn:E; [done|done].
Qed.
Lemma register_nskey k attrs ns v : ns_key_ok k -> attrs !! nskey k = Some v -> ns !! k = None ->
  forall ks, register_ns (nskey k :: ks) attrs ns = register_ns ks attrs (<[k := v]> ns).
Proof.
  intros Hk Hv Hn ks. cbn [register_ns]. rewrite Hv. cbn [default].
  unfold nskey. destruct (seqb k default_ns_key) eqn:E.
  - apply seqb_true in E as ->. done.
  - destruct Hk as [->|Hk]; [done|]. apply prefix_no_colon in Hk.
    assert (split_byte ":" ("xmlns:" +:+ k) = ["xmlns"; k]) as ->.
    { cbn. by rewrite split_byte_none. }
    by rewrite Hn.
Qed.
Lemma register_ns_lookup l attrs ns x :
  NoDup l -> Forall ns_key_ok l -> (forall k, k ∈ l -> is_Some (attrs !! nskey k)) ->
  (forall k, k ∈ l -> ns !! k = None) ->
  register_ns (map nskey l) attrs ns !! x
  = if decide (x ∈ l) then attrs !! nskey x else ns !! x.
Proof.
  revert ns. induction l as [|k l IH]; intros ns Hnd Hok Hin Hdis.
  { cbn. rewrite decide_False by apply not_elem_of_nil. done. }
  apply NoDup_cons in Hnd as [Hk Hnd]. apply Forall_cons in Hok as [Hko Hok].
  destruct (Hin k ltac:(left)) as [v Hv]. cbn [map].
  erewrite register_nskey; [|done|done|apply Hdis; left].
  rewrite IH; [|done|done|intros; apply Hin; by right|].
  2:{ intros k' Hk'. rewrite lookup_insert_ne by (intros ->; done). apply Hdis. by right. }
  destruct (decide (x ∈ l)) as [Hx|Hx].
  - rewrite decide_True by (by right). done.
  - destruct (decide (x = k)) as [->|Hxk].
    + rewrite lookup_insert, decide_True by left. done.
    + rewrite lookup_insert_ne by done. rewrite decide_False; [done|].
      rewrite not_elem_of_cons. done.
Qed.

Lemma ns_list_keys ns : (ns_list ns).*1 = map nskey (hash_entries (written_ns ns)).*1.
Proof.
  unfold ns_list. induction (hash_entries (written_ns ns)) as [|[k v] l IH]; [done|]. cbn. by f_equal.
Qed.
Lemma written_ns_ok ns : ns_ok ns -> ns_ok (written_ns ns).
Proof.
  intros Hns. unfold written_ns. destruct env_mode; [done|]. intros k v Hk.
  destruct (decide (k = "dvmo")) as [->|Hne].
  - rewrite lookup_insert in Hk. injection Hk as <-. split; [done|]. by right.
  - rewrite lookup_insert_ne in Hk by done. by apply (Hns k v).
Qed.
Lemma hash_entries_lookup {V} (m : gmap string V) k v : (k, v) ∈ hash_entries m <-> m !! k = Some v.
Proof. rewrite hash_entries_perm. apply elem_of_map_to_list. Qed.
Lemma ns_list_ok ns : ns_ok ns -> Forall raw_ok (ns_list ns).
Proof.
  intros Hns. apply written_ns_ok in Hns. apply Forall_forall. intros kv Hin.
  apply elem_of_list_fmap in Hin as ([k v] & -> & Hin). apply hash_entries_lookup in Hin.
  apply Hns in Hin as [Hv Hk]. cbn. apply raw_ok_valid; [|done]. by apply nskey_valid.
Qed.
Lemma NoDup_map_inj {A B} (f : A -> B) l : (forall x y, f x = f y -> x = y) -> NoDup l -> NoDup (map f l).
Proof. intros Hf Hl. apply (NoDup_fmap_2_strong f); [|done]. intros x y _ _. apply Hf. Qed.
Lemma hash_entries_NoDup {V} (m : gmap string V) : NoDup (hash_entries m).*1.
Proof. rewrite hash_entries_perm. apply NoDup_fst_map_to_list. Qed.
Lemma root_lists_NoDup ns a : attrs_ok a -> NoDup (concat (ns_list ns :: attr_lists a)).*1.
Proof.
  intros Ha. cbn [concat]. rewrite fmap_app, ns_list_keys. apply NoDup_app.
  split; [|split].
  - apply NoDup_map_inj; [apply nskey_inj|]. apply hash_entries_NoDup.
  - intros x Hx Hx'. apply elem_of_list_fmap in Hx as (k & -> & _).
    apply elem_of_list_fmap in Hx' as ([k' v'] & Heq & Hin).
    destruct a as [m|]; cbn in Hin.
    + rewrite app_nil_r in Hin. apply elem_of_list_fmap in Hin as ([k2 v2] & [= -> ->] & Hin).
      apply sorted_entries_lookup in Hin. apply Ha in Hin as [_ Hn]. cbn in Heq. subst k2.
      by rewrite nskey_is_ns in Hn.
    + by apply elem_of_nil in Hin.
  - apply attr_lists_NoDup.
Qed.

Lemma list_to_map_app_l {V} (l1 l2 : list (string * V)) k v :
  NoDup (l1 ++ l2).*1 -> (k, v) ∈ l1 ++ l2 <-> (list_to_map (l1 ++ l2) : gmap string V) !! k = Some v.
Proof. intros Hnd. by rewrite elem_of_list_to_map. Qed.

Lemma set_attributes_root ns a d e :
  ns_ok ns -> attrs_ok a -> d_ns d = ∅ -> d_elems d !! 0 = Some e ->
  set_attributes 0 (list_to_map (concat (ns_list ns :: attr_lists a))) d
  = (mkDoc (d_running d) (written_ns ns)
       (<[0 := set_elem_attrs e (Some (spec_escape <$> default ∅ a))]> (d_elems d)), Ok tt).
Proof.
  intros Hns Ha Hd He. set (L := concat (ns_list ns :: attr_lists a)).
  set (m := list_to_map L : gmap string string).
  assert (NoDup L.*1) as HL by (by apply root_lists_NoDup).
  assert (forall k v, m !! k = Some v <-> (k, v) ∈ L) as Hm.
  { intros k v. unfold m. by rewrite <- elem_of_list_to_map. }
  assert (forall k v, (k, v) ∈ L <-> (exists p, k = nskey p /\ written_ns ns !! p = Some v)
            \/ (spec_escape <$> default ∅ a) !! k = Some v) as HinL.
  { intros k v. unfold L. cbn [concat]. rewrite elem_of_app. apply Morphisms_Prop.or_iff_morphism.
    - unfold ns_list. split.
      + intros Hin. apply elem_of_list_fmap in Hin as ([p w] & [= -> ->] & Hin).
        exists p. split; [done|]. by apply hash_entries_lookup.
      + intros (p & -> & Hp). apply elem_of_list_fmap. exists (p, v). split; [done|].
        by apply hash_entries_lookup.
    - rewrite <- attr_lists_map. apply elem_of_list_to_map. apply attr_lists_NoDup. }
  assert (plain_attrs (spec_escape <$> default ∅ a)) as Hpl by (by apply plain_escape).
  pose proof (written_ns_ok _ Hns) as Hwn.
  unfold set_attributes. rewrite env_order_keys_valid.
  2:{ intros k v Hk. apply Hm, HinL in Hk as [(p & -> & Hp)|Hk].
      - apply Hwn in Hp as [_ Hp]. by apply nskey_valid.
      - by apply (Hpl k v). }
  cbn [negb]. rewrite He. do 2 f_equal.
  - rewrite Hd.
    set (ks := List.filter is_ns_key (env_order (map_keys m))).
    assert (forall k, k ∈ ks <-> exists p, k = nskey p /\ is_Some (written_ns ns !! p)) as Hks.
    { intros k. unfold ks. rewrite elem_of_list_In, filter_In, <- elem_of_list_In.
      rewrite (env_order_perm (map_keys m)), map_keys_elem. split.
      - intros [[v Hv] Hk]. apply Hm, HinL in Hv as [(p & -> & Hp)|Hv]; [eauto|].
        apply Hpl in Hv as [_ Hv]. congruence.
      - intros (p & -> & [v Hv]). split; [|apply nskey_is_ns]. exists v. apply Hm, HinL. eauto. }
    assert (NoDup ks) as Hnd.
    { unfold ks. apply NoDup_ListNoDup, List.NoDup_filter, NoDup_ListNoDup.
      rewrite (env_order_perm (map_keys m)). apply map_keys_NoDup. }
    assert (exists l, ks = map nskey l) as [l Hl].
    { assert (forall k, k ∈ ks -> exists p, k = nskey p) as Hx.
      { intros k Hk. apply Hks in Hk as (p & -> & _). eauto. }
      clear -Hx. induction ks as [|k ks IH]; [by exists []|].
      destruct (Hx k ltac:(left)) as [p ->]. destruct IH as [l ->]; [intros; apply Hx; by right|].
      by exists (p :: l). }
    rewrite Hl in *.
    assert (forall p, p ∈ l <-> is_Some (written_ns ns !! p)) as Hlp.
    { intros p. split.
      - intros Hp. destruct (Hks (nskey p)) as [Hx _]. destruct Hx as (p' & Heq & Hs).
        { apply elem_of_list_fmap. eauto. }
        apply nskey_inj in Heq as ->. done.
      - intros Hp. destruct (Hks (nskey p)) as [_ Hx].
        assert (nskey p ∈ map nskey l) as Hin by (apply Hx; eauto).
        apply elem_of_list_fmap in Hin as (p' & Heq & Hin). apply nskey_inj in Heq as ->. done. }
    apply map_eq. intros x. rewrite register_ns_lookup.
    + destruct (decide (x ∈ l)) as [Hx|Hx].
      * apply Hlp in Hx as [v Hv]. rewrite Hv. apply Hm, HinL. eauto.
      * rewrite lookup_empty. destruct (written_ns ns !! x) eqn:E; [|done].
        exfalso. apply Hx, Hlp. eauto.
    + apply NoDup_fmap_1 in Hnd. done.
    + apply Forall_forall. intros p Hp. apply Hlp in Hp as [v Hv]. by apply Hwn in Hv as [_ Hv].
    + intros p Hp. apply Hlp in Hp as [v Hv]. exists v. apply Hm, HinL. eauto.
    + intros. apply lookup_empty.
  - do 3 f_equal. apply map_eq. intros k. apply option_eq. intros v.
    rewrite map_filter_lookup_Some. rewrite Hm, HinL. cbn. split.
    + intros [[(p & -> & Hp)|Hk] Hn]; [by rewrite nskey_is_ns in Hn|done].
    + intros Hk. split; [by right|]. by apply Hpl in Hk as [_ ?].
Qed.

(** ** prolog *)
Lemma split_sub_read_decl rest :
  read_event (xml_decl +:+ rest) = Ok (EvOther, rest).
Proof. unfold xml_decl, dquote. cbn [String.append]. reflexivity. Qed.
Lemma rfc_not_gt a : rfc3339_byte a = true -> aeqb a ">" = false.
Proof. unfold rfc3339_byte. bytes_norm. lia. Qed.
Lemma clean_now s B : sforall rfc3339_byte s = true -> clean_comment (String "<" B) = true ->
  clean_comment (s +:+ String "<" B) = true.
Proof.
  intros Hs HB. induction s as [|a s IH]; [done|]. cbn [String.append clean_comment].
  cbn [sforall] in Hs. apply andb_true_iff in Hs as [Ha Hs]. rewrite (IH Hs), andb_true_r.
  apply negb_true_iff. unfold starts_with. cbn [String.append strip_prefix].
  destruct (aeqb "-" a); [|done].
  destruct s as [|b s]; [done|]. cbn [String.append strip_prefix]. destruct (aeqb "-" b); [|done].
  destruct s as [|c s]; [done|]. cbn [String.append strip_prefix].
  cbn [sforall] in Hs. apply andb_true_iff in Hs as [_ Hs]. apply andb_true_iff in Hs as [Hc _].
  apply rfc_not_gt in Hc. destruct (aeqb ">" c) eqn:E; [|done].
  apply aeqb_true in E as <-. done.
Qed.
Lemma read_comment rest : read_event (release_comment +:+ rest) = Ok (EvOther, rest).
Proof.
  set (B := "/dvmo:modified></dvmo:office>").
  set (A := "<dvmo:office><dvmo:appName>draviavemal-openxml_office</dvmo:appName><dvmo:repo>https://github.com/DraviaVemal/openxml-office</dvmo:repo><dvmo:version>4.0.0-alpha.4</dvmo:version><dvmo:modified>").
  assert (release_comment +:+ rest
    = "<!--" +:+ ((A +:+ (env_now +:+ String "<" B)) +:+ ("-->" +:+ rest))) as ->.
  { unfold release_comment. rewrite <- !app_assoc_s. reflexivity. }
  pose proof (clean_now env_now B env_now_chars eq_refl) as Hc.
  set (X := env_now +:+ String "<" B) in *.
  assert (clean_comment (A +:+ X) = true) as HA.
  { unfold A. cbn [String.append clean_comment].
    repeat (match goal with |- context [starts_with ?p (String ?a ?s)] =>
       change (starts_with p (String a s)) with false end).
    cbn [negb andb]. exact Hc. }
  change (read_markup (String "!" (String "-" (String "-" ((A +:+ X) +:+ ("-->" +:+ rest)))))
          = Ok (EvOther, rest)).
  unfold read_markup. change (aeqb "!" "!") with true. change (aeqb "-" "-") with true. cbv iota.
  rewrite split_comment by done. done.
Qed.
Lemma parse_prolog rest p : parse (prolog +:+ rest) p = parse rest p.
Proof.
  unfold prolog. destruct env_mode.
  - eapply parse_step_eq; [apply split_sub_read_decl|done].
  - rewrite <- app_assoc_s. erewrite parse_step_eq; [|apply split_sub_read_decl|done].
    eapply parse_step_eq; [apply read_comment|done].
Qed.
Lemma read_doc_prolog rest : read_doc (prolog +:+ rest) = parse rest (mkPstate new_doc false 0 []).
Proof.
  unfold read_doc.
  assert (strip_prefix bom (prolog +:+ rest) = None) as ->.
  { unfold prolog, xml_decl, bom. by destruct env_mode. }
  apply parse_prolog.
Qed.

Theorem read_render_root ns t :
  names_ok t -> ns_ok ns -> (t_value t <> None \/ t_children t <> []) ->
  exists d' it, read_doc (prolog +:+ render_root ns t) = Ok d'
    /\ Represents d' it /\ Bound d' /\ erase it = reread t /\ d_ns d' = written_ns ns.
Proof.
  destruct t as [g a v cs]. rewrite names_ok_node. intros (Hg & Ha & Hcs) Hns Hne.
  rewrite read_doc_prolog.
  set (a' := spec_escape <$> default ∅ a).
  set (e0 := mkElem 0 0 g (Some a') None []).
  set (d1 := mkDoc 0 (written_ns ns) (<[0 := e0]> ∅)).
  assert (Forall parses cs) as Hcs'.
  { eapply Forall_impl; [exact Hcs|]. intros c. apply parses_all. }
  assert (parse_step (EvStart g (raw_tail (ns_list ns :: attr_lists a) +:+ " ")) (mkPstate new_doc false 0 [])
    = Ok (inl (mkPstate d1 true 0 [g]))) as Hstart.
  { cbn [parse_step]. rewrite get_attributes_raw_tail; [| |by apply root_lists_NoDup|by right].
    2:{ constructor; [by apply ns_list_ok|by apply attr_lists_ok]. }
    cbn [rbind ps_root ps_doc ps_open]. unfold run_add, create_root, new_elem. rewrite Hg.
    erewrite set_attributes_root; [|done|done|done|cbn; by rewrite lookup_insert].
    cbn. rewrite insert_insert. done. }
  assert (Forall (Forall raw_ok) (ns_list ns :: attr_lists a)) as Hraw.
  { constructor; [by apply ns_list_ok|by apply attr_lists_ok]. }
  assert (Bound d1) as Hb1.
  { intros k x. cbn. destruct (decide (k = 0)) as [->|Hk]; [lia|]. by rewrite lookup_insert_ne, lookup_empty. }
  assert (d_elems d1 !! 0 = Some e0) as H0 by (cbn; by rewrite lookup_insert).
  assert (forall d, parse "" (mkPstate d true 0 []) = Ok d) as Heof by (intros; done).
  destruct v as [s|].
  - cbn [render_root reread].
    exists (with_elems d1 (<[0 := set_elem_value e0 (read_value s)]> (d_elems d1))).
    exists (INode 0 g (Some a') (read_value s) []). split; [|split; [|split; [|done]]].
    + rewrite open_tag_raw_root. erewrite parse_step_eq; [|by apply (read_open_tag _ _ false)|exact Hstart].
      rewrite <- (app_nil_r_s (value_close s g)). erewrite parse_value_close; [|done|done|done|done].
      apply Heof.
    + split; [done|]. split; [cbn; apply NoDup_singleton|]. apply Holds_children.
      split; [cbn; by rewrite lookup_insert|by apply Forall_nil].
    + intros k x. cbn. destruct (decide (k = 0)) as [->|Hk]; [lia|].
      by rewrite lookup_insert_ne, lookup_insert_ne, lookup_empty.
  - destruct cs as [|c cs]; [by destruct Hne|]. set (cs' := c :: cs) in *.
    assert (render_root ns (Node g a None cs') = open_tag (Some ns) g a false +:+ render_all cs' +:+ value_close "" g) as ->
      by done.
    destruct (parse_children cs' Hcs' d1 0 e0 [g] (value_close "" g) Hb1 H0) as (d2 & its & Hp2 & Ha2 & He2).
    exists d2, (INode 0 g (Some a') None its). split; [|split; [|split; [|split]]].
    + rewrite open_tag_raw_root. erewrite parse_step_eq; [|by apply (read_open_tag _ _ false)|exact Hstart].
      rewrite Hp2. rewrite <- (app_nil_r_s (value_close "" g)).
      etrans; [eapply (parse_close g "" d2 0 _ [] Hg); [apply Ha2|done]|]. apply Heof.
    + destruct Ha2 as [Hns2 Hr2 Hb2 Hp2' Hh2 Hn2 Hg2 Hf2].
      split; [done|]. split.
      * cbn. apply NoDup_cons. split; [|done]. intros Hk. apply Hg2 in Hk. cbn in Hk. lia.
      * apply Holds_children. done.
    + apply Ha2.
    + cbn [erase reread]. by rewrite He2.
    + destruct Ha2. done.
Qed.

(** A self-closed root is refused. *)
Lemma read_empty_root ns g a : names_ok (Node g a None []) -> ns_ok ns ->
  exists m, read_doc (prolog +:+ render_root ns (Node g a None [])) = Err m.
Proof.
  rewrite names_ok_node. intros (Hg & Ha & _) Hns. rewrite read_doc_prolog. cbn [render_root].
  rewrite open_tag_raw_root, <- (app_nil_r_s (_ +:+ (g +:+ _))), parse_unfold.
  rewrite (read_open_tag _ _ true); [|done|].
  2:{ constructor; [by apply ns_list_ok|by apply attr_lists_ok]. }
  cbn [rbind parse_step]. rewrite get_attributes_raw_tail; [| |by apply root_lists_NoDup|by right].
  2:{ constructor; [by apply ns_list_ok|by apply attr_lists_ok]. }
  cbn [rbind]. unfold run_add, append_child, insert_with. cbn. eexists. done.
Qed.

End reader.
