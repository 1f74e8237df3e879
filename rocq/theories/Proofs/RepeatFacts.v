(** Two runs of the same program do the same. *)
From Verif.Model Require Import Excel.
From Verif.Spec Require Import XmlSpec XmlRepr XmlHistory PackageSpec WellSpec RepeatSpec.
From Verif.Proofs Require Import BaseFacts XmlWriteFacts XmlReadFacts XmlTreeFacts XmlLexFacts XmlNsFacts XmlHistFacts ReadAnyFacts
  PackageFacts PartFacts RelDocFacts SmallPartFacts StyleDocFacts SheetDocFacts BookFacts SaveFacts SoundFacts WellFacts SaveOkFacts.
Open Scope N_scope.

(** The start tag of the root. *)
Lemma root_start `{E : Env} ns g a rest : is_valid_xml_name g = true -> attrs_ok a -> ns_ok ns ->
  parse (open_tag (Some ns) g a false +:+ rest) (mkPstate new_doc false 0 [])
  = parse rest (mkPstate (mkDoc 0 (written_ns ns) (<[0 := mkElem 0 0 g (Some (spec_escape <$> default ∅ a)) None []]> ∅)) true 0 [g]).
Proof.
  intros Hg Ha Hns. rewrite open_tag_raw_root.
  assert (Forall (Forall raw_ok) (ns_list ns :: attr_lists a)) as Hraw by (constructor; [by apply ns_list_ok|by apply attr_lists_ok]).
  eapply parse_step_eq; [by apply (read_open_tag _ _ false)|].
  cbn [parse_step]. rewrite get_attributes_raw_tail; [|done|by apply root_lists_NoDup|by right].
  cbn [rbind ps_root ps_doc ps_open]. unfold run_add, create_root, new_elem. rewrite Hg.
  erewrite set_attributes_root; [|done|done|done|cbn; by rewrite lookup_insert]. cbn. rewrite insert_insert. done.
Qed.
Lemma root_empty `{E : Env} ns g a rest : is_valid_xml_name g = true -> attrs_ok a -> ns_ok ns ->
  parse (open_tag (Some ns) g a true +:+ rest) (mkPstate new_doc false 0 []) = Err "Parent Element Not Found".
Proof.
  intros Hg Ha Hns. rewrite open_tag_raw_root, parse_unfold.
  assert (Forall (Forall raw_ok) (ns_list ns :: attr_lists a)) as Hraw by (constructor; [by apply ns_list_ok|by apply attr_lists_ok]).
  rewrite (read_open_tag _ _ true) by done. cbn [rbind parse_step]. rewrite get_attributes_raw_tail; [|done|by apply root_lists_NoDup|by right].
  cbn [rbind]. unfold run_add, append_child, insert_with. cbn. reflexivity.
Qed.

Section two.
Context (mo : mode) (al : N -> bool) (gz : string -> string) (gu : string -> option string)
  (zi : list (string * string) -> string) (uz : string -> option (list (string * string))) (f3 : string -> option string)
  (n1 n2 : string) (Hn1 : sforall rfc3339_byte n1 = true) (Hn2 : sforall rfc3339_byte n2 = true)
  (o1 o2 : list string -> list string) (Ho1 : forall l, Permutation (o1 l) l) (Ho2 : forall l, Permutation (o2 l) l)
  (p1 p2 : list (string * string) -> list (string * string)) (Hp1 : forall l, Permutation (p1 l) l) (Hp2 : forall l, Permutation (p2 l) l)
  (Hg1 Hg2 : forall s, gu (gz s) = Some s) (Hz1 Hz2 : forall l, NoDup l.*1 -> uz (zi l) = Some l)
  (Hu1 Hu2 : forall s l, uz s = Some l -> NoDup l.*1) (Hi1 Hi2 : forall s d, f3 s = Some d -> f3 d = Some d)
  (Hb1 Hb2 : forall s d, f3 s = Some d -> sforall f32_byte d = true).
Definition E1 : Env := {|
  env_mode := mo; env_alpha := al; env_now := n1; env_now_chars := Hn1; env_order := o1; env_order_perm := Ho1;
  env_gzip := gz; env_gunzip := gu; env_gunzip_gzip := Hg1; env_order2 := p1; env_order2_perm := Hp1;
  env_zip := zi; env_unzip := uz; env_unzip_zip := Hz1; env_unzip_nodup := Hu1;
  env_f32 := f3; env_f32_idem := Hi1; env_f32_bytes := Hb1 |}.
Definition E2 : Env := {|
  env_mode := mo; env_alpha := al; env_now := n2; env_now_chars := Hn2; env_order := o2; env_order_perm := Ho2;
  env_gzip := gz; env_gunzip := gu; env_gunzip_gzip := Hg2; env_order2 := p2; env_order2_perm := Hp2;
  env_zip := zi; env_unzip := uz; env_unzip_zip := Hz2; env_unzip_nodup := Hu2;
  env_f32 := f3; env_f32_idem := Hi2; env_f32_bytes := Hb2 |}.
Local Existing Instance E1.

(** ** Documents *)
Definition Alike {S A} (m1 m2 : M S A) : Prop := forall s, m1 s = m2 s.
Lemma a_bind {S A B} (m1 m2 : M S A) (k1 k2 : A -> M S B) : Alike m1 m2 -> (forall a, Alike (k1 a) (k2 a)) -> Alike (bind m1 k1) (bind m2 k2).
Proof. intros Hm Hk s. unfold bind. rewrite Hm. destruct (m2 s) as [s1 [a|e|e]]; [apply Hk|done|done]. Qed.
Lemma a_iter {S A} (f1 f2 : A -> M S unit) l : Forall (fun a => Alike (f1 a) (f2 a)) l -> Alike (iterM f1 l) (iterM f2 l).
Proof. induction 1 as [|a l Ha _ IH]; cbn [iterM]; [done|]. by apply a_bind. Qed.
Lemma valid_same s : @is_valid_xml_name E1 s = @is_valid_xml_name E2 s.
Proof.
  assert (forall cs n, @name_tail_ok E1 n cs = @name_tail_ok E2 n cs) as Ht.
  { induction cs as [|c cs IH]; intros n; [done|]. cbn [name_tail_ok]. by rewrite !IH. }
  unfold is_valid_xml_name. destruct (chars s); [done|]. by rewrite Ht.
Qed.
Lemma new_same i p t : @new_elem E1 i p t = @new_elem E2 i p t.
Proof. unfold new_elem. by rewrite valid_same. Qed.
Lemma a_root t : Alike (@create_root E1 t) (@create_root E2 t).
Proof. intros d. unfold create_root. by rewrite new_same. Qed.
Lemma a_insert place t p : Alike (@insert_with E1 place t p) (@insert_with E2 place t p).
Proof. intros d. unfold insert_with. by rewrite new_same. Qed.
Lemma a_append t p : Alike (@append_child E1 t p) (@append_child E2 t p).
Proof. apply a_insert. Qed.
Lemma a_after t f p : Alike (@insert_after E1 t f p) (@insert_after E2 t f p).
Proof. apply a_insert. Qed.
Lemma a_at t i p : Alike (@insert_at E1 t i p) (@insert_at E2 t i p).
Proof. apply a_insert. Qed.
Lemma a_attrs i a : attrs_det a = true -> Alike (@set_attributes E1 i a) (@set_attributes E2 i a).
Proof.
  intros Ha d. apply bool_decide_eq_true in Ha. unfold set_attributes. cbn [env_order E1 E2].
  assert (forall l l', Permutation l l' -> forallb (@is_valid_xml_name E1) l = forallb (@is_valid_xml_name E2) l') as Hv.
  { intros l l' Hp. rewrite (forallb_perm _ _ _ Hp). clear. induction l' as [|x l IH]; [done|]. cbn [forallb]. by rewrite IH, valid_same. }
  assert (Permutation (o1 (map_keys a)) (o2 (map_keys a))) as Hp by (by rewrite Ho1, Ho2).
  rewrite (Hv _ _ Hp). destruct (negb _); [done|]. destruct (d_elems d !! i) as [e|]; [|done]. do 2 f_equal.
  apply register_ns_perm; [by apply filter_perm|]. by rewrite (filter_perm _ _ _ (Ho1 (map_keys a))).
Qed.
Lemma attrs_ok_det a : attrs_ok (Some a) -> attrs_det a = true.
Proof.
  intros Ha. unfold attrs_det. apply bool_decide_eq_true. assert (List.filter is_ns_key (map_keys a) = []) as ->; [|constructor].
  destruct (List.filter _ _) as [|k l] eqn:Ef; [done|]. exfalso. assert (In k (List.filter is_ns_key (map_keys a))) as Hk by (rewrite Ef; by left).
  apply filter_In in Hk as [H1 H2]. apply elem_of_list_In, map_keys_elem in H1 as [v Hv]. destruct (Ha k v Hv) as [_ ?]. congruence.
Qed.
Lemma a_fill t : names_ok t -> forall id, Alike (@XmlView.fill E1 id t) (@XmlView.fill E2 id t).
Proof.
  induction t as [tag a v cs IH] using tree_rect'; intros Hn id. apply names_ok_node in Hn as (_ & Ha & Hcs). cbn [XmlView.fill].
  apply a_bind; [destruct a; [by apply a_attrs, attrs_ok_det|done]|intros _]. apply a_bind; [done|intros _].
  induction IH as [|c cs Hc _ IH]; [done|]. apply Forall_cons in Hcs as [H1 H2].
  apply a_bind; [|intros _; by apply IH]. apply a_bind; [apply a_append|intros i; by apply Hc].
Qed.
Lemma a_add p t : names_ok t -> Alike (@add_tree E1 p t) (@add_tree E2 p t).
Proof. intros Ht. apply a_bind; [apply a_append|intros i; by apply a_fill]. Qed.
Lemma a_adds p l : Forall names_ok l -> Alike (@add_trees E1 p l) (@add_trees E2 p l).
Proof. intros Hl. apply a_iter. eapply Forall_impl; [exact Hl|]. intros t. apply a_add. Qed.
Lemma a_tree_after f t : names_ok t -> Alike (@insert_tree_after E1 f t) (@insert_tree_after E2 f t).
Proof. intros Ht. apply a_bind; [apply a_after|intros i; by apply a_fill]. Qed.
Lemma a_tree_first t : names_ok t -> Alike (@insert_tree_first E1 t) (@insert_tree_first E2 t).
Proof. intros Ht. apply a_bind; [apply a_at|intros i; by apply a_fill]. Qed.
Lemma a_save_rels l : Alike (@save_relationships E1 l) (@save_relationships E2 l).
Proof.
  unfold save_relationships. apply a_bind; [done|intros a]. destruct (get_root a); [|done]. apply a_bind; [|done]. apply a_adds, Forall_map_all. intros x. apply rel_tree_ok.
Qed.
Lemma a_save_calc l : Alike (@add_trees E1 0 (map calc_tree l)) (@add_trees E2 0 (map calc_tree l)).
Proof. apply a_adds, Forall_map_all. intros x. apply calc_tree_ok. Qed.
Lemma a_save_strings l : Alike (@save_strings E1 l) (@save_strings E2 l).
Proof.
  unfold save_strings. apply a_bind; [done|intros _]. apply a_bind; [done|intros _].
  apply a_adds, Forall_map_all. intros x. apply si_tree_ok.
Qed.
Lemma a_save_styles s : Alike (@save_styles E1 s) (@save_styles E2 s).
Proof.
  unfold save_styles. apply a_bind; [apply a_tree_first, nums_tree_ok|intros _]. apply a_bind; [apply a_tree_after, fonts_tree_ok|intros _].
  apply a_bind; [apply a_tree_after, fills_tree_ok|intros _]. apply a_bind; [apply a_tree_after, borders_tree_ok|intros _].
  apply a_bind; [apply a_tree_after, xfs_tree_ok|intros _]. apply a_tree_after, xfs_tree_ok.
Qed.
Lemma a_save_book v l : Alike (@save_book E1 v l) (@save_book E2 v l).
Proof.
  unfold save_book. apply a_bind; [destruct v; [apply a_tree_after, book_view_tree_ok|done]|intros _].
  apply a_bind; [apply a_tree_after, book_sheets_tree_ok|intros _]. done.
Qed.
Lemma a_save_cols c : Alike (@save_cols E1 c) (@save_cols E2 c).
Proof. unfold save_cols. destruct c as [[|? ?]|]; [done|apply a_tree_after, cols_tree_ok|done]. Qed.
Lemma a_save_data m : Alike (@save_data E1 m) (@save_data E2 m).
Proof.
  unfold save_data. destruct m as [m|]; [|done]. apply a_bind; [apply a_after|intros id]. apply a_iter, Forall_forall. intros ir _. unfold save_row.
  apply a_bind; [apply a_append|intros i]. apply a_bind.
  - apply a_attrs, attrs_ok_det. pose proof (row_tree_ok ir.1 ir.2) as Hr. by apply names_ok_node in Hr as (_ & Hr & _).
  - intros _. destruct (rd_cells _); [|done]. apply a_iter, Forall_forall. intros ic _. unfold save_cell. apply a_bind; [apply a_append|intros j].
    apply a_bind; [done|intros col]. apply a_fill, cell_tree_ok.
Qed.
Lemma a_on_doc {A} (m m' : M doc A) : Alike m m' -> Alike (on_doc m) (on_doc m').
Proof. intros Hm s. unfold on_doc. by rewrite Hm. Qed.
Lemma a_ws_save : Alike (@ws_save E1) (@ws_save E2).
Proof.
  unfold ws_save. apply a_bind; [done|intros s]. apply a_bind; [done|intros ref].
  apply a_bind; [apply a_on_doc, a_add, dim_tree_ok|intros _]. apply a_bind; [done|intros _].
  apply a_bind; [apply a_on_doc, a_save_cols|intros _]. apply a_bind; [done|intros _].
  apply a_bind; [apply a_on_doc, a_tree_after, views_tree_ok|intros _]. apply a_bind; [done|intros _].
  apply a_bind; [apply a_on_doc, a_save_data|intros _]. done.
Qed.
Lemma a_with_ns tag uri : Alike (@create_with_ns E1 tag uri) (@create_with_ns E2 tag uri).
Proof. apply a_bind; [apply a_root|intros i]. apply a_attrs. vm_compute. reflexivity. Qed.

(** ** Reading what was written *)
Definition Det (s : string) : Prop := forall p, @parse E1 s p = @parse E2 s p.
Definition StepSame (ev : event) : Prop := forall p, @parse_step E1 ev p = @parse_step E2 ev p.
Lemma det_event s ev r : read_event s = Ok (ev, r) -> StepSame ev -> Det r -> Det s.
Proof.
  intros He Hs Hr p. rewrite (@parse_unfold E1), (@parse_unfold E2). rewrite He. cbn [rbind]. rewrite Hs.
  destruct (@parse_step E2 ev p) as [[p'|d]|e|e]; [|done..]. cbn [rbind]. apply Hr.
Qed.
Lemma step_open (close : bool) g raw a : get_attributes raw = Ok a -> attrs_det a = true -> StepSame (if close then EvEmpty g raw else EvStart g raw).
Proof.
  intros Hg Ha p. assert (forall m m', Alike m m' -> forall d, @run_add E1 d m a = @run_add E2 d m' a) as Hr.
  { intros m m' Hm d. unfold run_add. rewrite Hm. destruct (m' d) as [d1 [i|e|e]]; [|done..]. by rewrite a_attrs. }
  destruct close; cbn [parse_step]; rewrite Hg; cbn [rbind].
  - by rewrite (Hr _ _ (a_append g (Some (ps_active p)))).
  - destruct (ps_root p); [by rewrite (Hr _ _ (a_append g (Some (ps_active p))))|by rewrite (Hr _ _ (a_root g))].
Qed.
Lemma det_open (close : bool) g a rest : is_valid_xml_name g = true -> attrs_ok a -> Det rest -> Det (open_tag None g a close +:+ rest).
Proof.
  intros Hg Ha Hr. rewrite open_tag_raw. eapply det_event; [by apply read_open_tag; [|apply attr_lists_ok]| |done].
  eapply step_open; [by apply get_attributes_written|]. apply attrs_ok_det. by apply plain_escape.
Qed.
Lemma det_close g rest : is_valid_xml_name g = true -> Det rest -> Det (String "<" (String "/" (g +:+ ">") +:+ rest)).
Proof.
  intros Hg Hr. eapply det_event; [| |exact Hr].
  - rewrite read_event_lt. cbn [String.append]. rewrite <- app_assoc_s. apply read_markup_end. by apply valid_name_bytes.
  - intros p. reflexivity.
Qed.
Lemma det_value v g rest : is_valid_xml_name g = true -> Det rest -> Det (value_close v g +:+ rest).
Proof.
  intros Hg Hr. unfold value_close. rewrite <- app_assoc_s.
  change (("</" +:+ (g +:+ ">")) +:+ rest) with (String "<" (String "/" (g +:+ ">") +:+ rest)).
  pose proof (det_close g rest Hg Hr) as Hc. destruct (String.eqb_spec (trim_left v) "") as [Ht|Ht].
  - intros p. specialize (Hc p). revert Hc. rewrite !(@parse_unfold E1), !(@parse_unfold E2). by rewrite read_event_blank.
  - eapply det_event; [by apply read_event_text| |exact Hc]. intros p. reflexivity.
Qed.
Lemma det_tree t : names_ok t -> forall rest, Det rest -> Det (render t +:+ rest).
Proof.
  induction t as [g a v cs IH] using tree_rect'. rewrite names_ok_node. intros (Hg & Ha & Hcs) rest Hr.
  assert (forall rest, Det rest -> Det (render_all cs +:+ rest)) as Hall.
  { clear -IH Hcs. unfold render_all. induction IH as [|c cs Hc _ IHcs]; intros rest Hr; [done|]. apply Forall_cons in Hcs as [H1 H2].
    cbn [map]. rewrite sconcat_cons, <- app_assoc_s. apply Hc; [done|]. by apply IHcs. }
  destruct v as [s|]; [|destruct cs as [|c cs]]; cbn [render].
  - rewrite <- app_assoc_s. apply det_open; [done..|]. by apply det_value.
  - by apply det_open.
  - fold (render_all (c :: cs)). rewrite <- !app_assoc_s. apply det_open; [done..|]. apply Hall. by apply det_value.
Qed.
Lemma attrs_ok_same a : @attrs_ok E1 a -> @attrs_ok E2 a.
Proof. destruct a as [m|]; [|done]. intros Ha k v Hk. destruct (Ha k v Hk) as [H1 H2]. split; [by rewrite <- valid_same|done]. Qed.
Lemma names_same t : @names_ok E1 t -> @names_ok E2 t.
Proof.
  induction t as [g a v cs IH] using tree_rect'. rewrite (@names_ok_node E1), (@names_ok_node E2). intros (Hg & Ha & Hcs). split; [by rewrite <- valid_same|].
  split; [by apply attrs_ok_same|]. clear -IH Hcs. induction IH as [|c cs Hc _ IHcs]; [constructor|]. apply Forall_cons in Hcs as [H1 H2]. constructor; auto.
Qed.
Lemma decls_same ns : @decls E1 ns -> @decls E2 ns.
Proof. intros Hd k v Hk. destruct (Hd k v Hk) as [H1 H2]. split; [done|]. destruct H2 as [H2|H2]; [by left|right; by rewrite <- valid_same]. Qed.
Definition root_list (E : Env) (ns : gmap string string) (a : option (gmap string string)) : list (list (string * string)) := @ns_list E ns :: attr_lists a.
Lemma root_maps ns a : attrs_ok a ->
  list_to_map (M := gmap string string) (concat (root_list E1 ns a)) = list_to_map (concat (root_list E2 ns a)).
Proof.
  intros Ha. apply list_to_map_proper; [by apply (@root_lists_NoDup E1)|]. unfold root_list. cbn [concat]. apply Permutation_app_tail.
  unfold ns_list. apply Permutation_map. rewrite (@hash_entries_perm E1), (@hash_entries_perm E2). reflexivity.
Qed.
Lemma det_end : Det "".
Proof. intros p. reflexivity. Qed.
Lemma same_read ns t : names_ok t -> decls ns ->
  @read_doc E1 (@prolog E1 +:+ @render_root E1 ns t) = @read_doc E2 (@prolog E2 +:+ @render_root E2 ns t).
Proof.
  intros Ht Hns. pose proof (names_same t Ht) as Ht2. pose proof (decls_same ns Hns) as Hns2. apply decls_ns_ok in Hns, Hns2.
  rewrite (@read_doc_prolog E1), (@read_doc_prolog E2). destruct t as [g a v cs]. apply names_ok_node in Ht as (Hg & Ha & Hcs).
  apply (@names_ok_node E2) in Ht2 as (G2 & Ha2 & Hcs2). assert (Det (render_all cs +:+ value_close "" g)) as Hall.
  { rewrite <- (app_nil_r_s (value_close "" g)). pose proof (det_value "" g "" Hg det_end) as H0. revert H0. generalize (value_close "" g +:+ ""). clear -Hcs.
    unfold render_all. induction Hcs as [|c cs Hc _ IHcs]; intros rest Hr; [done|]. cbn [map]. rewrite sconcat_cons, <- app_assoc_s. apply det_tree; [done|]. by apply IHcs. }
  destruct v as [s|]; [|destruct cs as [|c cs]]; cbn [render_root].
  - rewrite (@root_start E1), (@root_start E2) by done. rewrite <- (app_nil_r_s (value_close s g)). by apply det_value.
  - rewrite <- (app_nil_r_s (@open_tag E1 _ _ _ _)), <- (app_nil_r_s (@open_tag E2 _ _ _ _)). by rewrite (@root_empty E1), (@root_empty E2) by done.
  - rewrite (@root_start E1), (@root_start E2) by done. apply Hall.
Qed.
(** Parts that stay what they are when read in either run. *)
Definition Stays (data : string) : Prop := ReadAlike E1 E2 data.
Definition TextSame (a b : string) : Prop :=
  (a = b /\ Stays a) \/ exists ns t, a = @prolog E1 +:+ @render_root E1 ns t /\ b = @prolog E2 +:+ @render_root E2 ns t /\ names_ok t /\ decls ns.
Lemma text_read a b : TextSame a b -> @read_doc E1 a = @read_doc E2 b.
Proof. intros [[<- [_ H]]|(ns & t & -> & -> & Hn & Hd)]; [done|by apply same_read]. Qed.
Lemma text_doc a b d : TextSame a b -> read_doc a = Ok d -> WDoc d.
Proof.
  intros [[<- [Ho _]]|(ns & t & -> & -> & Hn & Hd)] Hr.
  - destruct (Ho d Hr) as [H1 H2]. by eapply read_wdoc.
  - eapply fine_read; [|exact Hr]. by exists ns, t.
Qed.
Lemma text_write d : WDoc d -> exists a b, @write_doc E1 d = Ok a /\ @write_doc E2 d = Ok b /\ TextSame a b.
Proof.
  intros Hd. destruct (wdoc_tree d Hd) as (it & Hr & Hn). exists (@prolog E1 +:+ @render_root E1 (d_ns d) (erase it)), (@prolog E2 +:+ @render_root E2 (d_ns d) (erase it)).
  split; [by apply write_doc_render|]. split; [by apply write_doc_render|]. right. exists (d_ns d), (erase it). split; [done|]. split; [done|]. split; [done|apply Hd].
Qed.

(** ** The package *)
Definition EntryRel (R : string -> string -> Prop) (x y : option entry) : Prop :=
  match x, y with
  | Some e, Some e' => en_ext e = en_ext e' /\ en_ext_type e = en_ext_type e' /\ en_ct e = en_ct e'
      /\ exists c c' a b, en_content e = Some c /\ en_content e' = Some c' /\ gu c = Some a /\ gu c' = Some b /\ R a b
  | None, None => True
  | _, _ => False
  end.
Notation EntrySame := (EntryRel TextSame).
Record RO (o o' : office) : Prop := {
  ro_open : of_open o = of_open o';
  ro_docs : forall q p, of_open o !! q = Some p -> WDoc (op_doc p);
  ro_stored : forall q, EntrySame (of_archive o !! q) (of_archive o' !! q);
}.
Definition Sim {S A} (R : S -> S -> Prop) (m m' : M S A) : Prop := forall s s', R s s' -> (m s).2 = (m' s').2 /\ R (m s).1 (m' s').1.
Definition RX {T} (s s' : T * office) : Prop := s.1 = s'.1 /\ RO s.2 s'.2.
Lemma s_bind {S A B} (R : S -> S -> Prop) (m m' : M S A) (k k' : A -> M S B) : Sim R m m' -> (forall a, Sim R (k a) (k' a)) -> Sim R (bind m k) (bind m' k').
Proof.
  intros Hm Hk s s' Hs. unfold bind. destruct (Hm s s' Hs) as [H1 H2]. destruct (m s) as [t r], (m' s') as [t' r']. cbn in H1, H2. subst r'.
  destruct r as [a|e|e]; [by apply Hk|done|done].
Qed.
Lemma s_ret {S A} (R : S -> S -> Prop) (a : A) : Sim R (ret a) (ret a).
Proof. by intros s s' Hs. Qed.
Lemma s_get {T A} (k k' : T * office -> M (T * office) A) :
  (forall r o o', RO o o' -> (k (r, o) (r, o)).2 = (k' (r, o') (r, o')).2 /\ RX (k (r, o) (r, o)).1 (k' (r, o') (r, o')).1) ->
  Sim RX (bind get k) (bind get k').
Proof. intros Hk [r o] [r' o'] [H1 H2]. cbn in H1, H2. subst r'. by apply Hk. Qed.
Lemma s_fail {S A} (R : S -> S -> Prop) e : Sim R (fail (A := A) e) (fail e).
Proof. by intros s s' Hs. Qed.
Lemma s_lift {S A} (R : S -> S -> Prop) (r r' : res A) : r = r' -> Sim R (lift r) (lift r').
Proof. by intros <- s s' Hs. Qed.
Lemma s_rels {A} (m m' : M relations A) : Alike m m' -> Sim RX (on_rels m) (on_rels m').
Proof. intros Hm [r o] [r' o'] [H1 H2]. cbn in H1. subst r'. unfold on_rels. cbn. rewrite Hm. by destruct (m' r). Qed.
Lemma s_office {A} (m m' : M office A) : Sim RO m m' -> Sim RX (on_office m) (on_office m').
Proof.
  intros Hm [r o] [r' o'] [H1 H2]. cbn in H1, H2. subst r'. unfold on_office. cbn. destruct (Hm _ _ H2) as [H3 H4].
  destruct (m o), (m' o'). cbn in *. by subst.
Qed.
Lemma ro_set o o' q p : RO o o' -> WDoc (op_doc p) -> RO (set_open o (<[q := p]> (of_open o))) (set_open o' (<[q := p]> (of_open o'))).
Proof.
  intros [H1 H2 H3] Hp. constructor; cbn; [by rewrite H1| |done]. intros q' p'. rewrite lookup_insert_Some. intros [[<- <-]|[_ H]]; [done|by apply (H2 q')].
Qed.
Lemma ro_unset o o' q : RO o o' -> RO (set_archive o (delete q (of_archive o))) (set_archive o' (delete q (of_archive o'))).
Proof.
  intros [H1 H2 H3]. constructor; [done|done|]. cbn. intros q'. destruct (decide (q = q')) as [->|Hq]; [by rewrite !lookup_delete|].
  rewrite !lookup_delete_ne by done. apply H3.
Qed.
Lemma so_delete q : Sim RO (delete_document q) (delete_document q).
Proof. intros o o' Ho. split; [done|]. by apply ro_unset. Qed.
Lemma so_with {A} q (m m' : M doc A) : Alike m m' -> WStable m -> Sim RO (with_doc q m) (with_doc q m').
Proof.
  intros Hm Hw o o' Ho. unfold with_doc. rewrite <- (ro_open _ _ Ho). destruct (of_open o !! q) as [p|] eqn:Ep; [|done].
  specialize (Hw (op_doc p) (ro_docs _ _ Ho _ _ Ep)). rewrite <- Hm. destruct (m (op_doc p)) as [d r]. cbn [fst snd] in *. split; [done|].
  rewrite (ro_open _ _ Ho) at 1. rewrite <- (ro_open _ _ Ho). pose proof (ro_set o o' q (mkOpen d (op_ct p) (op_ext p) (op_ext_type p)) Ho Hw) as H0.
  rewrite <- (ro_open _ _ Ho) in H0. exact H0.
Qed.
Lemma so_close q : Sim RO (@close_xml_document E1 q) (@close_xml_document E2 q).
Proof.
  intros o o' Ho. unfold close_xml_document. rewrite <- (ro_open _ _ Ho). destruct (of_open o !! q) as [p|] eqn:Ep; [|done].
  destruct (text_write (op_doc p) (ro_docs _ _ Ho _ _ Ep)) as (a & b & -> & -> & Ht). split; [done|]. cbn [fst]. constructor; cbn.
  - done.
  - intros q' p' Hp. apply lookup_delete_Some in Hp as [_ Hp]. by apply (ro_docs _ _ Ho q').
  - intros q'. destruct (decide (q = q')) as [->|Hq].
    + rewrite !lookup_insert. cbn. split; [done|]. split; [done|]. split; [done|]. exists (gz a), (gz b), a, b. by rewrite !Hg1.
    + rewrite !lookup_insert_ne by done. apply Ho.
Qed.
Lemma so_get init init' q : init = init' -> WInit init -> Sim RO (@get_xml_document E1 init q) (@get_xml_document E2 init' q).
Proof.
  intros <- Hi o o' Ho. unfold get_xml_document, bind, get_xml_tree. rewrite <- (ro_open _ _ Ho). destruct (of_open o !! q) as [p|] eqn:Ep; [done|].
  pose proof (ro_stored _ _ Ho q) as Hs. destruct (of_archive o !! q) as [e|] eqn:Ee, (of_archive o' !! q) as [e'|] eqn:Ee'; [|done|done|].
  - cbn in Hs. destruct Hs as (H1 & H2 & H3 & c & c' & a & b & -> & -> & Ha & Hb & Ht). cbn [of_option rbind]. unfold decompress_content.
    cbn [env_gunzip E1 E2]. rewrite Ha, Hb. cbn [of_option rbind]. rewrite <- (text_read a b Ht). pose proof (ro_unset o o' q Ho) as Hu.
    destruct (read_doc a) as [d|x|x] eqn:Er; cbn [rbind]; [|by split..]. rewrite H1, H2, H3. split; [done|].
    pose proof (ro_set _ _ q (mkOpen d (en_ct e') (en_ext e') (en_ext_type e')) Hu (text_doc a b d Ht Er)) as H0. exact H0.
  - unfold lift. destruct init as [p|x|x]; [|done..]. split; [done|]. by apply (ro_set o o').
Qed.
Lemma loop_same fuel : forall s p, events_det fuel s = true -> @parse_loop E1 fuel s p = @parse_loop E2 fuel s p.
Proof.
  induction fuel as [|fuel IH]; intros s p Hd; [done|]. cbn [parse_loop events_det] in Hd |- *.
  destruct (read_event s) as [[ev rest]|e|e]; [|done..]. cbn [rbind].
  assert (@parse_step E1 ev p = @parse_step E2 ev p /\ (ev <> EvEof -> events_det fuel rest = true)) as [Hs Hr].
  { destruct ev as [name raw|name raw|name|t| |]; try (split; [reflexivity|done]).
    - apply andb_true_iff in Hd as [Ha Hd]. split; [|done]. destruct (get_attributes raw) as [a|e|e] eqn:Eg.
      + by apply (step_open false name raw a).
      + cbn [parse_step]. by rewrite Eg.
      + cbn [parse_step]. by rewrite Eg.
    - apply andb_true_iff in Hd as [Ha Hd]. split; [|done]. destruct (get_attributes raw) as [a|e|e] eqn:Eg.
      + by apply (step_open true name raw a).
      + cbn [parse_step]. by rewrite Eg.
      + cbn [parse_step]. by rewrite Eg. }
  rewrite Hs. destruct (@parse_step E2 ev p) as [[p'|d]|e|e] eqn:Es; [|done..]. cbn [rbind]. apply IH, Hr. by intros ->.
Qed.
Lemma template_same s : template_ok s = true -> @read_doc E1 s = @read_doc E2 s.
Proof. intros Hs. unfold read_doc. by apply loop_same. Qed.
Lemma ns_init_same c tag : @init_with_ns E1 c tag = @init_with_ns E2 c tag.
Proof. unfold init_with_ns, doc_of_m. by rewrite a_with_ns. Qed.
Lemma rels_init_same : @rels_init E1 = @rels_init E2.
Proof. unfold rels_init, doc_of_m. by rewrite a_with_ns. Qed.
Lemma so_rels_new q : Sim RO (@rels_new E1 q) (@rels_new E2 q).
Proof.
  apply s_bind; [apply so_get; [apply rels_init_same|apply winit_rels]|intros _].
  apply s_bind; [apply so_with; [done|apply w_load_rels]|intros l; apply s_ret].
Qed.
Lemma so_rels_close r : Sim RO (@rels_close E1 r) (@rels_close E2 r).
Proof.
  apply s_bind; [apply so_with; [apply a_save_rels|apply w_save_rels]|]. intros [[]|]; [apply so_close|apply so_delete|apply s_fail].
Qed.
Lemma sp_sst_new : Sim RX (@sst_new E1) (@sst_new E2).
Proof.
  apply s_bind; [by apply s_rels|intros q]. apply s_bind; [apply s_office, so_get; [apply ns_init_same|apply winit_ns; by vm_compute]|intros _].
  apply s_bind; [apply s_office, so_with; [done|apply w_load_strings]|intros l; apply s_ret].
Qed.
Lemma sp_calc_new : Sim RX (@calc_new E1) (@calc_new E2).
Proof.
  apply s_bind; [by apply s_rels|intros q]. apply s_bind; [apply s_office, so_get; [apply ns_init_same|apply winit_ns; by vm_compute]|intros _].
  apply s_bind; [apply s_office, so_with; [done|apply w_load_calc]|intros l; apply s_ret].
Qed.
Lemma sp_core_new : Sim RX (@core_new E1) (@core_new E2).
Proof.
  apply s_bind; [by apply s_rels|intros q]. apply s_bind; [|intros _; apply s_ret]. apply s_office, so_get; [|apply winit_template; by vm_compute].
  unfold core_init. f_equal. apply template_same. by vm_compute.
Qed.
Lemma sp_theme_new : Sim RX (@theme_new E1) (@theme_new E2).
Proof.
  apply s_bind; [by apply s_rels|intros q]. apply s_bind; [|intros _; apply s_ret]. apply s_office, so_get; [|apply winit_template; by vm_compute].
  unfold theme_init. f_equal. apply template_same. by vm_compute.
Qed.
Lemma sp_style_new : Sim RX (@style_new E1) (@style_new E2).
Proof.
  apply s_bind; [by apply s_rels|intros q]. apply s_bind; [|intros _; apply s_bind; [|intros l; apply s_ret]].
  - apply s_office, so_get; [|apply winit_template; by vm_compute]. unfold style_init. f_equal. apply template_same. by vm_compute.
  - apply s_office, so_with; [done|apply w_load_styles].
Qed.
Lemma sp_calc_close c : Sim RX (@calc_close E1 c) (@calc_close E2 c).
Proof.
  unfold calc_close. destruct (cc_entries c) as [|x l]; [apply s_bind; [by apply s_rels|intros _; apply s_office, so_delete]|].
  apply s_bind; [apply s_office, so_with; [apply a_save_calc|apply w_save_calc]|intros _; apply s_office, so_close].
Qed.
Lemma sp_sst_close c : Sim RX (@sst_close E1 c) (@sst_close E2 c).
Proof.
  unfold sst_close. destruct (ss_strings c) as [|x l]; [apply s_bind; [by apply s_rels|intros _; apply s_office, so_delete]|].
  apply s_bind; [apply s_office, so_with; [apply a_save_strings|apply w_save_strings]|intros _; apply s_office, so_close].
Qed.
Lemma so_core_close a b q : Sim RO (@core_close E1 a b q) (@core_close E2 a b q).
Proof. apply s_bind; [apply so_with; [done|apply w_stamps]|intros _; apply so_close]. Qed.
Lemma so_style_close c : Sim RO (@style_close E1 c) (@style_close E2 c).
Proof. apply s_bind; [apply so_with; [apply a_save_styles|apply w_save_styles]|intros _; apply so_close]. Qed.
Lemma sp_workbook_new : Sim RX (@workbook_new E1) (@workbook_new E2).
Proof.
  apply s_bind; [by apply s_rels|intros path]. apply s_bind; [apply s_office, so_get|intros _].
  { unfold workbook_init. f_equal. apply template_same. by vm_compute. } { apply winit_template; by vm_compute. }
  apply s_bind; [by apply s_lift|intros rp]. apply s_bind; [apply s_office, so_rels_new|intros rels]. apply s_get. intros r o o' Ho. cbn [fst snd].
  match goal with |- context [match ?m (rels, o) with _ => _ end] => match goal with |- context [match ?m' (rels, o') with _ => _ end] => assert (Sim RX m m') as Hm end end.
  { apply s_bind; [apply sp_theme_new|intros a]. apply s_bind; [apply sp_sst_new|intros b]. apply s_bind; [apply sp_calc_new|intros c].
    apply s_bind; [apply sp_style_new|intros e; apply s_ret]. }
  destruct (Hm (rels, o) (rels, o') (conj eq_refl Ho)) as [H1 H2]. clear Hm.
  match goal with |- context [match ?m (rels, o) with _ => _ end] => match goal with |- context [match ?m' (rels, o') with _ => _ end] => 
    destruct (m (rels, o)) as [[r1 oo] x], (m' (rels, o')) as [[r1' oo'] x'] end end.
  cbn [fst snd] in H1, H2. subst x'. destruct H2 as [H2 H3]. cbn [fst snd] in H2, H3. subst r1'. destruct x as [[[[a b] c] y]|e|e]; [|split; [done|by split]..].
  change (bind (put ?x) ?k ?z) with (k tt x). cbv beta. assert (RX (r, oo) (r, oo')) as H4 by done. revert H4. generalize (r, oo), (r, oo').
  change (Sim RX (bind (on_office (with_doc path load_book)) (fun x => let '(sheets, view) := default ([], None) x in ret (mkBook path c b y r1 a sheets view)))
    (bind (on_office (with_doc path load_book)) (fun x => let '(sheets, view) := default ([], None) x in ret (mkBook path c b y r1 a sheets view)))).
  apply s_bind; [apply s_office, so_with; [done|apply w_load_book]|]. intros x. destruct (default ([], None) x). apply s_ret.
Qed.
Lemma sb_office {A} (m m' : M office A) : Sim RO m m' -> Sim RX (on_wb_office m) (on_wb_office m').
Proof.
  intros Hm [r o] [r' o'] [H1 H2]. cbn in H1, H2. subst r'. unfold on_wb_office. cbn. destruct (Hm _ _ H2) as [H3 H4].
  destruct (m o), (m' o'). cbn in *. by subst.
Qed.
Lemma sb_rels {A} (m m' : M pkg_state A) : Sim RX m m' -> Sim RX (on_wb_rels m) (on_wb_rels m').
Proof.
  intros Hm [b o] [b' o'] [H1 H2]. cbn in H1, H2. subst b'. unfold on_wb_rels. cbn [fst snd]. destruct (Hm (wb_rels b, o) (wb_rels b, o') (conj eq_refl H2)) as [H3 H4].
  destruct (m _) as [[r1 oo] x], (m' _) as [[r1' oo'] x']. destruct H4 as [H4 H5]. cbn in *. by subst.
Qed.
Lemma sb_rels_close : Sim RX (fun s : wb_state => on_wb_office (@rels_close E1 (wb_rels s.1)) s) (fun s : wb_state => on_wb_office (@rels_close E2 (wb_rels s.1)) s).
Proof. intros s s' Hs. rewrite <- (proj1 Hs). by apply (sb_office _ _ (so_rels_close _)). Qed.
Lemma sb_close : Sim RX (@wb_close E1) (@wb_close E2).
Proof.
  unfold wb_close. apply s_get. intros b o o' Ho. cbn [fst].
  assert (RX (b, o) (b, o')) as H0 by done. revert H0. generalize (b, o), (b, o'). 
  match goal with |- forall p p', RX p p' -> (?m p).2 = (?m' p').2 /\ _ => change (Sim RX m m') end.
  apply s_bind; [apply sb_office, so_close|intros _]. apply s_bind.
  { apply s_bind; [apply sb_rels, sp_calc_close|intros _]. apply s_bind; [apply sb_rels, sp_sst_close|intros _; apply sb_office, so_style_close]. }
  intros _. apply s_bind; [apply sb_rels_close|intros _]. apply sb_office. apply s_bind; [apply so_with; [apply a_save_book|apply w_save_book]|intros _; apply so_close].
Qed.
Lemma so_drop b o o' : RO o o' -> RO (@wb_drop E1 b o) (@wb_drop E2 b o').
Proof.
  intros Ho. unfold wb_drop, quietly. cbv zeta. apply (sb_office _ _ (so_close _)). apply sb_rels_close. apply (sb_office _ _ (so_style_close _)).
  apply (sb_rels _ _ (sp_sst_close _)). apply (sb_rels _ _ (sp_calc_close _)). by apply sb_close.
Qed.
Lemma so_flush b : Sim RO (@wb_flush E1 b) (@wb_flush E2 b).
Proof.
  intros o o' Ho. unfold wb_flush. destruct (sb_close (b, o) (b, o') (conj eq_refl Ho)) as [H1 [H2 H3]].
  destruct (@wb_close E1 (b, o)) as [[b1 oo] r], (@wb_close E2 (b, o')) as [[b1' oo'] r']. cbn in H1, H2, H3. subst. split; [done|]. by apply so_drop.
Qed.
Lemma so_ws_close w o o' : RO o o' -> (@ws_close E1 (w, o)).2 = (@ws_close E2 (w, o')).2 /\ RX (@ws_close E1 (w, o)).1 (@ws_close E2 (w, o')).1.
Proof.
  intros Ho. unfold ws_close. rewrite <- (ro_open _ _ Ho). destruct (of_open o !! ws_path w) as [p|] eqn:Ep; [|done].
  pose proof (w_ws_save w (op_doc p) (ro_docs _ _ Ho _ _ Ep)) as Hs. rewrite <- (a_ws_save (w, op_doc p)).
  destruct (ws_save (w, op_doc p)) as [[w1 d] r]. cbn [fst snd] in Hs. pose proof (ro_set o o' (ws_path w) (mkOpen d (op_ct p) (op_ext p) (op_ext_type p)) Ho Hs) as Hs1.
  rewrite <- (ro_open _ _ Ho) in Hs1. destruct r as [[]|e|e]; [|done|done].
  destruct (so_close (ws_path w) _ _ Hs1) as [H1 H2]. destruct (@close_xml_document E1 _ _), (@close_xml_document E2 _ _). cbn in *. by subst.
Qed.
Lemma so_ws_drop w o o' : RO o o' -> RO (@ws_drop E1 w o) (@ws_drop E2 w o').
Proof.
  intros Ho. unfold ws_drop. destruct (so_ws_close w o o' Ho) as [H1 [H2 H3]]. destruct (@ws_close E1 (w, o)) as [[w1 oo] r], (@ws_close E2 (w, o')) as [[w1' oo'] r'].
  cbn in H1, H2, H3. subst. by apply so_rels_close.
Qed.
Lemma so_ws_flush w : Sim RO (@ws_flush E1 w) (@ws_flush E2 w).
Proof.
  intros o o' Ho. unfold ws_flush. destruct (so_ws_close w o o' Ho) as [H1 [H2 H3]]. destruct (@ws_close E1 (w, o)) as [[w1 oo] r], (@ws_close E2 (w, o')) as [[w1' oo'] r'].
  cbn in H1, H2, H3. subst. split; [done|]. by apply so_ws_drop.
Qed.
Definition RS (s s' : book_state) : Prop := s.1 = s'.1 /\ RX s.2 s'.2.
Lemma ss_pkg {A} (m m' : M pkg_state A) : Sim RX m m' -> Sim RS (on_pkg m) (on_pkg m').
Proof.
  intros Hm [l p] [l' p'] [H1 H2]. cbn in H1, H2. subst l'. unfold on_pkg. cbn. destruct (Hm _ _ H2) as [H3 H4].
  destruct (m p), (m' p'). cbn in *. by subst.
Qed.
Lemma ss_sheets {A} (m : M (list sheet) A) : Sim RS (on_sheets m) (on_sheets m).
Proof. intros [l p] [l' p'] [H1 H2]. cbn in H1, H2. subst l'. unfold on_sheets. cbn. by destruct (m l). Qed.
Lemma exist_same o o' q : RO o o' -> check_file_exist o q = check_file_exist o' q.
Proof.
  intros Ho. unfold check_file_exist. pose proof (ro_stored _ _ Ho q) as Hs. by destruct (of_archive o !! q), (of_archive o' !! q).
Qed.
Lemma size_same o o' : RO o o' -> size (of_archive o) = size (of_archive o').
Proof.
  intros Ho. rewrite <- !size_dom. f_equal. apply set_eq. intros q. rewrite !elem_of_dom. pose proof (ro_stored _ _ Ho q) as Hs.
  destruct (of_archive o !! q), (of_archive o' !! q); [|done|done|]; split; intros [? H]; eauto; done.
Qed.
Lemma free_same o o' dir : RO o o' -> forall f n, free_number f o dir n = free_number f o' dir n.
Proof. intros Ho. induction f as [|f IH]; intros n; [done|]. cbn [free_number]. rewrite (exist_same o o') by done. by rewrite IH. Qed.
Lemma ss_file_name name : Sim RS (get_sheet_file_name name) (get_sheet_file_name name).
Proof.
  intros [l [r o]] [l' [r' o']] [H1 [H2 H3]]. cbn in H1, H2, H3. subst l' r'. unfold get_sheet_file_name, bind, get. cbn [fst snd]. destruct (_ ≫= _) as [x|].
  - unfold lift. destruct (get_target_by_id r (sh_rel x)) as [[p|]|e|e]; done.
  - unfold lift. destruct (get_relative_path r) as [rp|e|e]; [|done..]. rewrite <- (size_same o o' H3), <- (free_same o o' _ H3).
    destruct (free_number _ _ _ _) as [n|e|e]; [|done..]. destruct (set_new_relationship _ _ _ r) as [r1 i]. done.
Qed.
Lemma ss_ws_new name : Sim RS (@ws_new E1 name) (@ws_new E2 name).
Proof.
  apply s_bind; [apply ss_file_name|intros [path nm]]. apply s_bind; [apply ss_pkg, s_office, so_get|intros _].
  { unfold ws_init. f_equal. apply template_same. by vm_compute. } { apply winit_template; by vm_compute. }
  apply s_bind; [by apply s_lift|intros rp]. apply s_bind; [apply ss_pkg, s_office, so_rels_new|intros rels]. intros s s' Hs.
  pose proof (ss_pkg _ _ (s_office _ _ (so_with path (@ws_load E1) (@ws_load E2) (fun d => eq_refl) w_ws_load)) s s' Hs) as [H1 H2].
  destruct (on_pkg _ s) as [t x], (on_pkg _ s') as [t' x']. cbn [fst snd] in H1, H2. subst x'. destruct x as [x|e|e].
  - by destruct (default _ x) as [[[? ?] ?] ?].
  - destruct H2 as (H2 & H3 & H4). split; [done|]. split; [done|]. split; [done|]. by apply so_rels_close.
  - destruct H2 as (H2 & H3 & H4). split; [done|]. split; [done|]. split; [done|]. by apply so_rels_close.
Qed.
Lemma sb_add name : Sim RX (@add_sheet E1 name) (@add_sheet E2 name).
Proof.
  intros [b o] [b' o'] [H1 H2]. cbn in H1, H2. subst b'. unfold add_sheet. cbn [fst snd].
  destruct (ss_ws_new name (wb_sheets b, (wb_rels b, o)) (wb_sheets b, (wb_rels b, o')) (conj eq_refl (conj eq_refl H2))) as [H3 (H4 & H5 & H6)].
  destruct (@ws_new E1 name _) as [[l [r oo]] x], (@ws_new E2 name _) as [[l' [r' oo']] x']. cbn in *. by subst.
Qed.
Lemma sb_delete w : Sim RX (@wb_delete_sheet E1 w) (@wb_delete_sheet E2 w).
Proof.
  assert (Sim RS (@delete_sheet E1 w) (@delete_sheet E2 w)) as Hd.
  { apply s_bind; [apply ss_sheets|intros _]. apply s_bind; [by apply ss_pkg, s_rels|intros _].
    apply s_bind; [apply ss_pkg, s_office, so_delete|intros _]. apply ss_pkg, s_office, so_ws_flush. }
  intros [b o] [b' o'] [H1 H2]. cbn in H1, H2. subst b'. unfold wb_delete_sheet. cbn [fst snd].
  destruct (Hd (wb_sheets b, (wb_rels b, o)) (wb_sheets b, (wb_rels b, o')) (conj eq_refl (conj eq_refl H2))) as [H3 (H4 & H5 & H6)].
  destruct (@delete_sheet E1 w _) as [[l [r oo]] x], (@delete_sheet E2 w _) as [[l' [r' oo']] x']. cbn in *. by subst.
Qed.

(** ** Files *)
Definition RRes {T} (R : T -> T -> Prop) (r r' : res T) : Prop :=
  match r, r' with Ok x, Ok x' => R x x' | Err e, Err e' => e = e' | Panic e, Panic e' => e = e' | _, _ => False end.
Definition RSuite (s s' : suite) : Prop := su_root s = su_root s' /\ su_core s = su_core s' /\ RO (su_office s) (su_office s').
Definition RE (x x' : excel) : Prop := RSuite (x_suite x) (x_suite x') /\ x_book x = x_book x'.
Lemma suite_new_same file fs : RRes RO (@office_new E1 file fs) (@office_new E2 file fs) -> RRes RSuite (@suite_new E1 file fs) (@suite_new E2 file fs).
Proof.
  intros Hf. unfold suite_new. destruct (@office_new E1 file fs) as [o|e|e], (@office_new E2 file fs) as [o'|e'|e']; cbn in Hf; try done. cbn [rbind].
  destruct (so_rels_new "_rels/.rels" o o' Hf) as [H1 H2]. destruct (@rels_new E1 _ o) as [oo r], (@rels_new E2 _ o') as [oo' r']. cbn in H1, H2. subst r'.
  destruct r as [root|e|e]; [|done..]. destruct (sp_core_new (root, oo) (root, oo') (conj eq_refl H2)) as [H3 [H4 H5]].
  destruct (@core_new E1 _) as [[r1 o3] x], (@core_new E2 _) as [[r1' o3'] x']. cbn in H3, H4, H5. subst. by destruct x'.
Qed.
Lemma on_book_same {A} (m m' : M wb_state A) : Sim RX m m' -> Sim RE (on_book m) (on_book m').
Proof.
  intros Hm [[o r c] b] [[o' r' c'] b'] [(H1 & H2 & H3) H4]. cbn in H1, H2, H3, H4. subst. unfold on_book, x_state, x_office. cbn [x_book x_suite su_office].
  destruct (Hm (b', o) (b', o') (conj eq_refl H3)) as [H5 [H6 H7]]. destruct (m _) as [[b1 oo] x], (m' _) as [[b1' oo'] x']. cbn in *. by subst.
Qed.
Lemma excel_new_same file fs : RRes RO (@office_new E1 file fs) (@office_new E2 file fs) -> RRes RE (@excel_new E1 file fs) (@excel_new E2 file fs).
Proof.
  intros Hf. apply suite_new_same in Hf. unfold excel_new. destruct (@suite_new E1 file fs) as [[o r c]|e|e], (@suite_new E2 file fs) as [[o' r' c']|e'|e']; cbn in Hf; try done.
  cbn [rbind su_root su_office su_core]. destruct Hf as (H1 & H2 & H3). cbn in H1, H2, H3. subst r' c'.
  destruct (sp_workbook_new (r, o) (r, o') (conj eq_refl H3)) as [H4 [H5 H6]]. destruct (@workbook_new E1 _) as [[r1 oo] x], (@workbook_new E2 _) as [[r1' oo'] x'].
  cbn in H4, H5, H6. subst. destruct x' as [b|e|e]; [|done..]. assert (RE (mkExcel (mkSuite oo r1' c) b) (mkExcel (mkSuite oo' r1' c) b)) as HE by done.
  destruct file as [p|]; [done|]. destruct (on_book_same _ _ (sb_add None) _ _ HE) as [H7 H8].
  destruct (on_book (@add_sheet E1 None) _) as [x1 y], (on_book (@add_sheet E2 None) _) as [x1' y']. cbn in H7, H8. subst y'. destruct y as [w|e|e]; [|done..].
  destruct H8 as [(H8 & H9 & H10) H11]. cbn. split; [|done]. split; [done|]. split; [done|]. by apply so_ws_drop.
Qed.
Definition RN (s s' : session) : Prop := RE s.1 s'.1 /\ s.2 = s'.2.
Lemma call_same (HH : Hashes) c : Sim RN (@call_step E1 HH c) (@call_step E2 HH c).
Proof.
  assert (forall m m', Sim RE m m' -> Sim RN (give m) (give m')) as Hg.
  { intros m m' Hm [x l] [x' l'] [H1 H2]. cbn in H1, H2. subst l'. unfold give. cbn [fst snd]. destruct (Hm x x' H1) as [H3 H4].
    destruct (m x) as [y r], (m' x') as [y' r']. cbn in H3, H4. subst r'. by destruct r. }
  assert (forall A (m m' : M excel A), Sim RE m m' -> Sim RN (on_excel m) (on_excel m')) as He.
  { intros A m m' Hm [x l] [x' l'] [H1 H2]. cbn in H1, H2. subst l'. unfold on_excel. cbn [fst snd]. destruct (Hm x x' H1) as [H3 H4].
    destruct (m x) as [y r], (m' x') as [y' r']. cbn in H3, H4. by subst r'. }
  assert (forall A (m m' : M workbook A), Alike m m' -> Sim RX (pure_book m) (pure_book m')) as Hp.
  { intros A m m' Hm [b o] [b' o'] [H1 H2]. cbn in H1, H2. subst b'. unfold pure_book. cbn [fst snd]. rewrite Hm. by destruct (m' b). }
  assert (forall h m m', Alike m m' -> Sim RN (use h m) (use h m')) as Hu.
  { intros h m m' Hm [x l] [x' l'] [[H1 H2] H3]. cbn in H1, H2, H3. subst l'. unfold use, handle. cbn [fst snd]. destruct (_ ≫= _) as [w|]; [|done].
    rewrite H2, Hm. by destruct (m' _) as [[w1 t] r]. }
  assert (forall h m m', (forall w, Sim RX (m w) (m' w)) -> Sim RN (spend h m) (spend h m')) as Hsp.
  { intros h m m' Hm [x l] [x' l'] [H1 H3]. cbn in H1, H3. subst l'. unfold spend, handle. cbn [fst snd]. destruct (_ ≫= _) as [w|]; [|done].
    destruct (on_book_same _ _ (Hm w) x x' H1) as [H4 H5]. destruct (on_book (m w) x), (on_book (m' w) x'). cbn in *. by subst. }
  destruct c; cbn [call_step].
  1: apply Hg, on_book_same, sb_add.
  1: apply Hg, on_book_same, sb_add.
  1-9: by apply He, on_book_same, Hp.
  1-5: by apply Hu.
  - apply Hsp. intros w [b o] [b' o'] [H1 H2]. cbn in H1, H2. subst b'. split; [done|]. split; [done|]. by apply so_ws_drop.
  - apply Hsp. intros w. apply sb_office, so_ws_flush.
  - apply Hsp. intros w. apply sb_delete.
Qed.
Lemma calls_same (HH : Hashes) cs : forall s s', RN s s' -> @replies E1 HH cs s = @replies E2 HH cs s' /\
  match @calls E1 HH cs s, @calls E2 HH cs s' with Some t, Some t' => RN t t' | None, None => True | _, _ => False end.
Proof.
  induction cs as [|c cs IH]; intros s s' Hs; [done|]. cbn [calls replies]. destruct (call_same HH c s s' Hs) as [H1 H2].
  destruct (@call_step E1 HH c s) as [t r], (@call_step E2 HH c s') as [t' r']. cbn in H1, H2. subst r'.
  destruct (IH t t' H2) as [H3 H4]. rewrite H3. by destruct r as [[]|e|e].
Qed.

(** ** Saving *)
Lemma list_works (E : Env) l : forall o, (forall q p, of_open o !! q = Some p -> @WDoc E (op_doc p)) -> (iterM (@close_xml_document E) l o).2 = Ok tt.
Proof.
  induction l as [|q l IH]; intros o Ho; [done|]. cbn [iterM]. unfold bind, close_xml_document at 1. destruct (of_open o !! q) as [p|] eqn:Ep; [|by apply IH].
  destruct (wdoc_writes (op_doc p) (Ho q p Ep)) as (data & -> & _). apply IH. cbn. intros q' p' Hp. apply lookup_delete_Some in Hp as [_ Hp]. by apply (Ho q').
Qed.
Lemma wdoc_same d : @WDoc E1 d -> @WDoc E2 d.
Proof.
  intros [H1 H2 H3 H4]. constructor; [done|done| |by apply decls_same]. intros k e He. destruct (H3 k e He) as [H5 H6].
  split; [by rewrite <- valid_same|by apply attrs_ok_same].
Qed.
Definition entry_kind (e : entry) : string * string * option string := (en_ext e, en_ext_type e, en_ct e).
Section archive.
Context (R : string -> string -> string -> Prop).
Lemma kinds_perm A A' : (forall q, EntryRel (R q) (A !! q) (A' !! q)) ->
  Permutation (map (fun ne : string * entry => (ne.1, entry_kind ne.2)) (@hash_entries E1 _ A)) (map (fun ne : string * entry => (ne.1, entry_kind ne.2)) (@hash_entries E2 _ A')).
Proof.
  intros HA. rewrite (@hash_entries_perm E1), (@hash_entries_perm E2). assert (entry_kind <$> A = entry_kind <$> A') as Hk.
  { apply map_eq. intros q. rewrite !lookup_fmap. specialize (HA q). destruct (A !! q) as [e|], (A' !! q) as [e'|]; [|done|done|done].
    cbn in *. destruct HA as (H1 & H2 & H3 & _). unfold entry_kind. by rewrite H1, H2, H3. }
  change (map (fun ne : string * entry => (ne.1, entry_kind ne.2)) (map_to_list A)) with (prod_map id entry_kind <$> map_to_list A).
  change (map (fun ne : string * entry => (ne.1, entry_kind ne.2)) (map_to_list A')) with (prod_map id entry_kind <$> map_to_list A').
  rewrite <- !map_to_list_fmap. by rewrite Hk.
Qed.
Lemma files_ok (E : Env) (l : list (string * entry)) : (forall n e, (n, e) ∈ l -> exists data, @part_bytes E e = Ok data) ->
  exists fl, rmapM (fun ne : string * entry => rmap (fun b => (ne.1, b)) (@part_bytes E ne.2)) l = Ok fl.
Proof.
  induction l as [|[n e] l IH]; intros Hl; [by eexists|]. cbn [rmapM]. destruct (Hl n e ltac:(left)) as [data Hd]. cbn [fst snd]. rewrite Hd. cbn [rmap rbind].
  destruct IH as [fl ->]; [intros; eapply Hl; by right|]. by eexists.
Qed.
Lemma entry_bytes (A A' : gmap string entry) (q : string) : (forall q, EntryRel (R q) (A !! q) (A' !! q)) -> forall e, A !! q = Some e ->
  exists e' a b, A' !! q = Some e' /\ @part_bytes E1 e = Ok a /\ @part_bytes E2 e' = Ok b /\ R q a b.
Proof.
  intros HA e He. specialize (HA q). rewrite He in HA. destruct (A' !! q) as [e'|]; [|done]. cbn in HA. destruct HA as (_ & _ & _ & c & c' & a & b & H1 & H2 & H3 & H4 & H5).
  exists e', a, b. split; [done|]. unfold part_bytes, decompress_content. rewrite H1, H2. cbn [env_gunzip E1 E2]. by rewrite H3, H4.
Qed.
Lemma entry_bytes' (A A' : gmap string entry) (q : string) : (forall q, EntryRel (R q) (A !! q) (A' !! q)) -> forall e', A' !! q = Some e' ->
  exists e a b, A !! q = Some e /\ @part_bytes E1 e = Ok a /\ @part_bytes E2 e' = Ok b /\ R q a b.
Proof.
  intros HA e' He. assert (is_Some (A !! q)) as [e H0]. { specialize (HA q). rewrite He in HA. destruct (A !! q); [eauto|done]. }
  destruct (entry_bytes A A' q HA e H0) as (e2 & a & b & H1 & H2 & H3 & H4). rewrite He in H1. injection H1 as <-. eauto 10.
Qed.
Definition exts_of (E : Env) (A : gmap string entry) : list (string * string) :=
  @env_order2 E (remove_dups (map (fun ne : string * entry => (en_ext ne.2, en_ext_type ne.2)) (@hash_entries E _ A))).
Definition overs_of (E : Env) (A : gmap string entry) : list (string * string) :=
  omap (fun ne : string * entry => match en_ct ne.2 with Some t => Some ("/" +:+ ne.1, t) | None => None end) (@hash_entries E _ A).
Lemma dups_perm (l l' : list (string * string)) : Permutation l l' -> Permutation (remove_dups l) (remove_dups l').
Proof.
  intros Hp. apply NoDup_Permutation; [apply NoDup_remove_dups..|]. intros x. by rewrite !elem_of_remove_dups, Hp.
Qed.
Lemma omap_perm {X Y} (f : X -> option Y) l l' : Permutation l l' -> Permutation (omap f l) (omap f l').
Proof.
  induction 1 as [|x l l' Hp IH|x y l|l1 l2 l3 H1 IH1 H2 IH2]; cbn; [done| | |by etrans].
  - destruct (f x); [by constructor|done].
  - destruct (f x), (f y); try done. by constructor.
Qed.
Lemma omap_map_list {X Y Z} (f : Y -> option Z) (g : X -> Y) (l : list X) : omap f (map g l) = omap (fun x => f (g x)) l.
Proof. induction l as [|x l IH]; [done|]. cbn. by rewrite IH. Qed.
Lemma types_perm (A A' : gmap string entry) : (forall q, EntryRel (R q) (A !! q) (A' !! q)) ->
  Permutation (exts_of E1 A) (exts_of E2 A') /\ Permutation (overs_of E1 A) (overs_of E2 A').
Proof.
  intros HA. pose proof (kinds_perm A A' HA) as Hk. split.
  - unfold exts_of. cbn [env_order2 E1 E2]. rewrite Hp1, Hp2. apply dups_perm. apply (Permutation_map (fun x : string * (string * string * option string) => x.2.1)) in Hk.
    rewrite !map_map in Hk. exact Hk.
  - unfold overs_of. apply (omap_perm (fun x : string * (string * string * option string) => match x.2.2 with Some t => Some ("/" +:+ x.1, t) | None => None end)) in Hk.
    rewrite !omap_map_list in Hk. exact Hk.
Qed.
Lemma types_same (A A' : gmap string entry) : (forall q, EntryRel (R q) (A !! q) (A' !! q)) ->
  exists a b, @create_content_types E1 (exts_of E1 A) (overs_of E1 A) = Ok a /\ @create_content_types E2 (exts_of E2 A') (overs_of E2 A') = Ok b /\ SameTypes E1 E2 a b.
Proof.
  intros HA. destruct (types_perm A A' HA) as [H1 H2]. rewrite (@create_content_types_spec E1), (@create_content_types_spec E2). do 2 eexists. split; [done|]. split; [done|].
  do 8 eexists. split; [done|]. split; [done|]. split; [apply (@render_renders_mut E1)|]. split; [apply (@render_renders_mut E2)|].
  split; [rewrite (@hash_entries_perm E1), (@hash_entries_perm E2); reflexivity|]. split; [by rewrite H1, H2|]. rewrite (@hash_entries_perm E1). apply NoDup_fst_map_to_list.
Qed.
Definition PackageRel (l l' : list (string * string)) : Prop :=
  Permutation l.*1 l'.*1 /\ forall q a b, (q, a) ∈ l -> (q, b) ∈ l' -> if decide (q = content_types_name) then SameTypes E1 E2 a b else R q a b.
Lemma archive_same (A A' : gmap string entry) : (forall q, EntryRel (R q) (A !! q) (A' !! q)) ->
  match @save_archive E1 A, @save_archive E2 A' with
  | Ok b, Ok b' => exists l l', uz b = Some l /\ uz b' = Some l' /\ PackageRel l l'
  | Err e, Err e' => e = e'
  | _, _ => False
  end.
Proof.
  intros HA. destruct (types_same A A' HA) as (ta & tb & Ta & Tb & Ts).
  assert (is_Some (A !! content_types_name) <-> is_Some (A' !! content_types_name)) as Hc.
  { specialize (HA content_types_name). destruct (A !! content_types_name), (A' !! content_types_name); [|done|done|]; split; intros [? H]; eauto; done. }
  destruct (@save_archive E1 A) as [b|e|e] eqn:S1.
  - destruct (@save_archive_files E1 A b S1) as (l & ty & U1 & T1 & N1 & F1). change (@create_content_types E1 (exts_of E1 A) (overs_of E1 A) = Ok ty) in T1.
    rewrite Ta in T1. injection T1 as ->. assert (exists b', @save_archive E2 A' = Ok b') as [b' S2].
    { unfold save_archive. destruct (files_ok E2 (@hash_entries E2 _ A')) as [fl ->].
      { intros n e He. apply (@hash_entries_lookup E2) in He. destruct (entry_bytes' A A' n HA e He) as (? & ? & ? & _ & _ & ? & _). eauto. }
      cbn [rbind]. destruct (A' !! content_types_name) eqn:Ec; [exfalso; destruct Hc as [_ Hc]; destruct Hc as [? Hc]; [eauto|congruence]|].
      fold (overs_of E2 A'). fold (exts_of E2 A'). rewrite Tb. by eexists. }
    rewrite S2. destruct (@save_archive_files E2 A' b' S2) as (l' & ty' & U2 & T2 & N2 & F2). change (@create_content_types E2 (exts_of E2 A') (overs_of E2 A') = Ok ty') in T2.
    rewrite Tb in T2. injection T2 as ->. eexists _, _. split; [exact U1|]. split; [exact U2|]. pose proof (Hu1 _ _ U1) as D1. pose proof (Hu1 _ _ U2) as D2.
    assert (forall q, q <> content_types_name -> forall a, (q, a) ∈ l ++ [(content_types_name, ty)] <-> (q, a) ∈ l) as Q1.
    { intros q Hq a. rewrite elem_of_app, elem_of_list_singleton. split; [by intros [?|[= -> _]]|by left]. }
    assert (forall q, q <> content_types_name -> forall a, (q, a) ∈ l' ++ [(content_types_name, ty')] <-> (q, a) ∈ l') as Q2.
    { intros q Hq a. rewrite elem_of_app, elem_of_list_singleton. split; [by intros [?|[= -> _]]|by left]. }
    assert (forall a, (content_types_name, a) ∈ l ++ [(content_types_name, ty)] -> a = ty) as Q3.
    { intros a Hin. apply elem_of_app in Hin as [Hin|Hin]; [|by apply elem_of_list_singleton in Hin as [= ->]]. apply F1 in Hin as (e & He & _). congruence. }
    assert (forall a, (content_types_name, a) ∈ l' ++ [(content_types_name, ty')] -> a = ty') as Q4.
    { intros a Hin. apply elem_of_app in Hin as [Hin|Hin]; [|by apply elem_of_list_singleton in Hin as [= ->]]. apply F2 in Hin as (e & He & _). congruence. }
    split.
    + apply NoDup_Permutation; [done|done|]. intros q. destruct (decide (q = content_types_name)) as [->|Hq].
      { rewrite !fmap_app, !elem_of_app. split; intros _; right; left. }
      split; intros Hin; apply elem_of_list_fmap in Hin as ([q' a] & -> & Hin); cbn [fst] in *.
      * apply Q1, F1 in Hin as (e & He & _); [|done]. destruct (entry_bytes A A' _ HA e He) as (e' & x & y & He' & _ & Hy & _).
        apply elem_of_list_fmap. exists (q', y). split; [done|]. apply Q2; [done|]. apply F2. eauto.
      * apply Q2, F2 in Hin as (e & He & _); [|done]. destruct (entry_bytes' A A' _ HA e He) as (e' & x & y & He' & Hx & _ & _).
        apply elem_of_list_fmap. exists (q', x). split; [done|]. apply Q1; [done|]. apply F1. eauto.
    + intros q a c Ha Hb. destruct (decide (q = content_types_name)) as [->|Hq]; [by rewrite (Q3 a Ha), (Q4 c Hb)|].
      apply Q1, F1 in Ha as (e & He & Ha); [|done]. apply Q2, F2 in Hb as (e' & He' & Hb); [|done].
      destruct (entry_bytes A A' q HA e He) as (e2 & x & y & H1 & H2 & H3 & H4). rewrite He' in H1. injection H1 as <-. rewrite Ha in H2. rewrite Hb in H3.
      injection H2 as ->. injection H3 as ->. done.
  - unfold save_archive in S1 |- *. destruct (files_ok E1 (@hash_entries E1 _ A)) as [fl Hf].
    { intros n x Hx. apply (@hash_entries_lookup E1) in Hx. destruct (entry_bytes A A' n HA x Hx) as (? & ? & ? & _ & ? & _). eauto. }
    rewrite Hf in S1. cbn [rbind] in S1. destruct (files_ok E2 (@hash_entries E2 _ A')) as [fl' ->].
    { intros n x Hx. apply (@hash_entries_lookup E2) in Hx. destruct (entry_bytes' A A' n HA x Hx) as (? & ? & ? & _ & _ & ? & _). eauto. }
    cbn [rbind]. destruct (A !! content_types_name) eqn:Ec.
    + injection S1 as <-. destruct (A' !! content_types_name) eqn:Ec'; [done|]. destruct Hc as [Hc _]. destruct Hc as [? Hc]; [eauto|done].
    + fold (overs_of E1 A) in S1. fold (exts_of E1 A) in S1. rewrite Ta in S1. done.
  - exfalso. unfold save_archive in S1. destruct (files_ok E1 (@hash_entries E1 _ A)) as [fl Hf].
    { intros n x Hx. apply (@hash_entries_lookup E1) in Hx. destruct (entry_bytes A A' n HA x Hx) as (? & ? & ? & _ & ? & _). eauto. }
    rewrite Hf in S1. cbn [rbind] in S1. destruct (A !! content_types_name) eqn:Ec; [done|].
    fold (overs_of E1 A) in S1. fold (exts_of E1 A) in S1. rewrite Ta in S1. done.
Qed.
End archive.
Lemma write_same f path b b' fs : (write_file f path b fs).2 = (write_file f path b' fs).2.
Proof.
  assert (forall sizes limit d t d' t', (write_pieces sizes limit d t).2 = (write_pieces sizes limit d' t').2) as Hp.
  { induction sizes as [|n sizes IH]; intros limit d t d' t'; cbn [write_pieces]; [by destruct limit as [[|?]|]|].
    destruct limit as [[|k]|]; [done| |].
    - specialize (IH (Some k) (d +:+ stake n t) (sdrop n t) (d' +:+ stake n t') (sdrop n t')). by destruct (write_pieces sizes _ _ _), (write_pieces sizes _ _ _).
    - specialize (IH None (d +:+ stake n t) (sdrop n t) (d' +:+ stake n t') (sdrop n t')). by destruct (write_pieces sizes _ _ _), (write_pieces sizes _ _ _). }
  unfold write_file. destruct (_ && _); [done|]. destruct (f_create f); [done|]. specialize (Hp (f_pieces f) (f_write f) "" b "" b').
  destruct (write_pieces _ _ _ b), (write_pieces _ _ _ b'). cbn in *. by subst.
Qed.
(** ** Dates *)
Definition dates : list string := ["dcterms:modified"; "dcterms:created"].
Record ESim (e e' : elem) : Prop := {
  es_id : e_id e = e_id e'; es_parent : e_parent e = e_parent e'; es_tag : e_tag e = e_tag e'; es_attrs : e_attrs e = e_attrs e';
  es_children : e_children e = e_children e'; es_has : has_value e = has_value e'; es_value : e_value e = e_value e' \/ e_tag e ∈ dates }.
Definition DSim (d d' : doc) : Prop :=
  d_ns d = d_ns d' /\ forall k, match d_elems d !! k, d_elems d' !! k with Some e, Some e' => ESim e e' | None, None => True | _, _ => False end.
Lemma dsim_refl d : DSim d d.
Proof. split; [done|]. intros k. destruct (d_elems d !! k); [|done]. constructor; try done. by left. Qed.
Lemma first_sim d d' path : DSim d d' -> forall cur, first_element_id d path cur = first_element_id d' path cur.
Proof.
  intros [_ Hs]. induction path as [|t path IH]; intros cur; [done|]. cbn [first_element_id]. specialize (Hs cur).
  destruct (d_elems d !! cur) as [e|], (d_elems d' !! cur) as [e'|]; [|done|done|done]. rewrite <- (es_tag _ _ Hs), <- (es_children _ _ Hs).
  destruct (_ && _); [destruct path; [done|apply IH]|]. destruct (List.find _ _); [|done]. destruct path; [done|apply IH].
Qed.
Lemma stamped_tag d tag i e : WDoc d -> tag ∈ dates -> first_element_id d ["cp:coreProperties"; tag] 0 = Ok (Some i) -> d_elems d !! i = Some e -> e_tag e = tag.
Proof.
  intros Hd Hd1 Hf He. destruct (wdoc_tree d Hd) as (it & (Hi & _ & Hh) & _). destruct it as [j g a v cs]. cbn in Hi. subst j. apply Holds_children in Hh as [H0 Hc].
  assert (forall p (l : list itree) x, HoldsAll (d_elems d) p l -> List.find (fun c : N * string => seqb c.2 tag) (map child_entry l) = Some x -> x.1 = i -> e_tag e = tag) as Hfind.
  { intros p l x Hl Hx <-. apply find_some in Hx as [Hin Hx]. apply seqb_true in Hx. apply elem_of_list_In, elem_of_list_fmap in Hin as (y & -> & Hy).
    rewrite (HoldsAll_elem (d_elems d) p l) in Hl. specialize (Hl y Hy). destruct y as [i' g' a' v' cs']. apply Holds_children in Hl as [H1 _]. cbn in *. rewrite H1 in He. by injection He as <-. }
  cbn [first_element_id] in Hf. rewrite H0 in Hf. cbn [e_tag e_children] in Hf. destruct (seqb g "cp:coreProperties" && _) eqn:Eg.
  - apply andb_true_iff in Eg as [Eg _]. apply seqb_true in Eg. subst g. assert (seqb "cp:coreProperties" tag = false) as Hne.
    { apply seqb_false. intros <-. unfold dates in Hd1. by rewrite !elem_of_cons, elem_of_nil in Hd1; destruct Hd1 as [?|[?|?]]. }
    rewrite Hne in Hf. cbn [andb] in Hf. destruct (List.find _ _) as [x|] eqn:Ex; [|done]. injection Hf as Hf. by apply (Hfind 0 cs x).
  - destruct (List.find _ _) as [x|] eqn:Ex; [|done]. apply find_some in Ex as [Hin Hx]. apply seqb_true in Hx. apply elem_of_list_In, elem_of_list_fmap in Hin as (y & -> & Hy).
    rewrite (HoldsAll_elem (d_elems d) 0 cs) in Hc. specialize (Hc y Hy). destruct y as [i' g' a' v' cs']. apply Holds_children in Hc as [H1 Hc1]. cbn in Hx. subst g'.
    cbn [child_entry fst i_id] in Hf. rewrite H1 in Hf. cbn [e_tag e_children] in Hf. destruct (seqb "cp:coreProperties" tag && (i' =? 0)) eqn:E2'.
    { exfalso. apply andb_true_iff in E2' as [E2' _]. apply seqb_true in E2'. subst tag. unfold dates in Hd1. by rewrite !elem_of_cons, elem_of_nil in Hd1; destruct Hd1 as [?|[?|?]]. }
    destruct (List.find _ _) as [x|] eqn:Ex; [|done]. injection Hf as Hf. by apply (Hfind i' cs' x).
Qed.
Lemma stamp_sim b tag now now' d d' : tag ∈ dates -> WDoc d -> DSim d d' -> (stamp b tag now d).2 = (stamp b tag now' d').2 /\ DSim (stamp b tag now d).1 (stamp b tag now' d').1.
Proof.
  intros Ht Hd Hs. unfold stamp. rewrite <- (first_sim d d' _ Hs). destruct (first_element_id d _ 0) as [[i|]|e|e] eqn:Ef; [|done..].
  pose proof Hs as [K1 K2]. pose proof (K2 i) as Ki. destruct (d_elems d !! i) as [e|] eqn:Ee, (d_elems d' !! i) as [e'|] eqn:Ee'; [|done|done|done].
  rewrite <- (es_has _ _ Ki). destruct (b && has_value e); [done|]. unfold set_value. rewrite Ee, Ee'. split; [done|]. split; [done|]. cbn. intros k.
  destruct (decide (k = i)) as [->|Hk]; [|rewrite !lookup_insert_ne by done; apply K2]. rewrite !lookup_insert. pose proof (stamped_tag d tag i e Hd Ht Ef Ee) as Htag.
  destruct Ki. constructor; cbn; try done. right. by rewrite Htag.
Qed.
Lemma stamps_sim a b a' b' d : WDoc d -> (core_stamps a b d).2 = (core_stamps a' b' d).2 /\ DSim (core_stamps a b d).1 (core_stamps a' b' d).1.
Proof.
  intros Hd. unfold core_stamps, bind. destruct (stamp_sim false "dcterms:modified" a a' d d ltac:(left) Hd (dsim_refl d)) as [H1 H2].
  pose proof (w_stamp false "dcterms:modified" a d Hd) as Hw. destruct (stamp false _ a d) as [d1 r], (stamp false _ a' d) as [d1' r']. cbn in H1, H2, Hw. subst r'.
  destruct r as [x|e|e]; [|done..]. apply stamp_sim; [right; left|done|done].
Qed.
Lemma sim_trees m m' : (forall k, match m !! k, m' !! k with Some e, Some e' => ESim e e' | None, None => True | _, _ => False end) ->
  forall it p it', i_id it = i_id it' -> Holds m p it -> Holds m' p it' -> SameButDates (erase it) (erase it').
Proof.
  intros Hm. induction it as [i g a v cs IH] using itree_rect'. intros p [i' g' a' v' cs'] Hi Hh Hh'. cbn in Hi. subst i'.
  apply Holds_children in Hh as [H0 Hc]. apply Holds_children in Hh' as [H0' Hc']. specialize (Hm i). rewrite H0, H0' in Hm. destruct Hm as [_ _ K1 K2 K3 _ K4]. cbn in K1, K2, K3, K4. subst g' a'.
  cbn [erase]. constructor; [done|]. clear H0 H0'. revert cs' K3 Hc'. induction cs as [|c cs IHc]; intros [|c' cs'] K3 Hc'; try done; [by constructor|].
  injection K3 as K5 K6 K7. apply HoldsAll_cons in Hc as [Hc1 Hc2]. apply HoldsAll_cons in Hc' as [Hc1' Hc2']. apply Forall_cons in IH as [IH1 IH2].
  constructor; [by apply (IH1 i)|by apply IHc].
Qed.
Lemma dates_refl t : SameButDates t t.
Proof. induction t as [g a v cs IH] using tree_rect'. constructor; [by left|]. induction IH; by constructor. Qed.
Definition TextDated (a b : string) : Prop :=
  TextSame a b \/ exists ns t t', a = @prolog E1 +:+ @render_root E1 ns t /\ b = @prolog E2 +:+ @render_root E2 ns t' /\ names_ok t /\ SameButDates t t'.
Lemma dated_write d d' : WDoc d -> WDoc d' -> DSim d d' -> exists a b, @write_doc E1 d = Ok a /\ @write_doc E2 d' = Ok b /\ TextDated a b.
Proof.
  intros Hd Hd' [K1 K2]. destruct (wdoc_tree d Hd) as (it & Hr & Hn). destruct (wdoc_tree d' Hd') as (it' & Hr' & Hn').
  exists (@prolog E1 +:+ @render_root E1 (d_ns d) (erase it)), (@prolog E2 +:+ @render_root E2 (d_ns d) (erase it')).
  split; [by apply write_doc_render|]. split; [rewrite K1; by apply write_doc_render|]. right. exists (d_ns d), (erase it), (erase it').
  split; [done|]. split; [done|]. split; [done|]. destruct Hr as (I1 & _ & I2), Hr' as (J1 & _ & J2). apply (sim_trees _ _ K2 it 0 it'); [congruence|done|done].
Qed.
Definition TextAt (c q : string) : string -> string -> Prop := if decide (q = c) then TextDated else TextSame.
Lemma same_at c q a b : TextSame a b -> TextAt c q a b.
Proof. unfold TextAt. destruct (decide _); [by left|done]. Qed.
Lemma entry_at c q x y : EntrySame x y -> EntryRel (TextAt c q) x y.
Proof.
  destruct x as [e|], y as [e'|]; [|done|done|done]. cbn. intros (H1 & H2 & H3 & u & u' & a & b & H4 & H5 & H6 & H7 & H8).
  split; [done|]. split; [done|]. split; [done|]. exists u, u', a, b. split; [done|]. split; [done|]. split; [done|]. split; [done|]. by apply same_at.
Qed.
Lemma at_part c q a b : TextAt c q a b -> SamePart E1 E2 (if decide (q = c) then SameButDates else eq) a b.
Proof.
  assert (forall (T : tree -> tree -> Prop) ns t t', names_ok t -> T t t' -> SamePart E1 E2 T (@prolog E1 +:+ @render_root E1 ns t) (@prolog E2 +:+ @render_root E2 ns t')) as Hx.
  { intros T ns t t' Hn Ht. right. exists t, t', (@hash_entries E1 _ (@written_ns E1 ns)), (@hash_entries E2 _ (@written_ns E2 ns)), (@render_root E1 ns t), (@render_root E2 ns t').
    split; [done|]. split; [done|]. split; [apply (@render_renders_mut E1)|]. split; [apply (@render_renders_mut E2)|]. split; [done|]. split; [done|].
    split; [rewrite (@hash_entries_perm E1), (@hash_entries_perm E2); reflexivity|]. rewrite (@hash_entries_perm E1). apply NoDup_fst_map_to_list. }
  unfold TextAt. destruct (decide (q = c)).
  - intros [[[<- _]|(ns & t & -> & -> & Hn & Hd)]|(ns & t & t' & -> & -> & Hn & Hs)]; [by left|apply Hx; [done|apply dates_refl]|by apply Hx].
  - intros [[<- _]|(ns & t & -> & -> & Hn & Hd)]; [by left|by apply Hx].
Qed.
(** The package after the part with the dates has been closed. *)
Record RD (c : string) (o o' : office) : Prop := {
  rd_open : of_open o = of_open o';
  rd_gone : of_open o !! c = None;
  rd_docs : forall q p, of_open o !! q = Some p -> WDoc (op_doc p);
  rd_stored : forall q, EntryRel (TextAt c q) (of_archive o !! q) (of_archive o' !! q);
}.
Lemma flush_open (E : Env) t c o p d x a : of_open o !! c = Some p -> core_stamps (ck_1 t) (ck_2 t) (op_doc p) = (d, Ok x) -> @write_doc E d = Ok a ->
  @core_flush E t c o = (mkOffice (delete c (of_open o)) (<[c := @pack E (op_ext p) (op_ext_type p) (op_ct p) a]> (of_archive o)), Ok tt).
Proof.
  intros Hp Hs Ha. assert (@core_close E (ck_1 t) (ck_2 t) c o = (mkOffice (delete c (of_open o)) (<[c := @pack E (op_ext p) (op_ext_type p) (op_ct p) a]> (of_archive o)), Ok tt)) as H1.
  { unfold core_close, bind, with_doc. rewrite Hp, Hs. cbn [rmap rbind]. unfold close_xml_document, set_open, set_archive. cbn [of_open of_archive]. rewrite lookup_insert. cbn [op_doc op_ext op_ext_type op_ct].
    rewrite Ha, delete_insert_delete. done. }
  unfold core_flush. rewrite H1. f_equal. unfold core_close, bind, with_doc. cbn [of_open]. rewrite lookup_delete. unfold close_xml_document. cbn [of_open]. by rewrite lookup_delete.
Qed.
Lemma flush_closed (E : Env) t c o : of_open o !! c = None -> @core_flush E t c o = (o, Ok tt).
Proof. intros Hc. unfold core_flush, core_close, bind, with_doc. rewrite Hc. unfold close_xml_document. rewrite Hc. cbn [fst]. by rewrite Hc, Hc. Qed.
Lemma core_flush_same t t' c o o' : RO o o' -> (@core_flush E1 t c o).2 = (@core_flush E2 t' c o').2 /\ RD c (@core_flush E1 t c o).1 (@core_flush E2 t' c o').1.
Proof.
  intros Ho. destruct (of_open o !! c) as [p|] eqn:Ep.
  - pose proof (ro_docs _ _ Ho _ _ Ep) as Hd. destruct (g_stamps (ck_1 t) (ck_2 t) _ Hd) as [x Hx]. destruct (g_stamps (ck_1 t') (ck_2 t') _ Hd) as [x' Hx'].
    destruct (stamps_sim (ck_1 t) (ck_2 t) (ck_1 t') (ck_2 t') _ Hd) as [_ Hs]. pose proof (w_stamps (ck_1 t) (ck_2 t) _ Hd) as W1. pose proof (w_stamps (ck_1 t') (ck_2 t') _ Hd) as W2.
    destruct (core_stamps (ck_1 t) (ck_2 t) (op_doc p)) as [d r] eqn:C1, (core_stamps (ck_1 t') (ck_2 t') (op_doc p)) as [d' r'] eqn:C2. cbn [fst snd] in *. subst r r'.
    destruct (dated_write d d' W1 W2 Hs) as (a & b & Ha & Hb & Hab). rewrite (flush_open E1 t c o p d x a Ep C1 Ha). pose proof Ep as Ep'. rewrite (ro_open _ _ Ho) in Ep'.
    rewrite (flush_open E2 t' c o' p d' x' b Ep' C2 Hb). cbn [fst snd]. split; [done|]. constructor; cbn [of_open of_archive].
    + by rewrite (ro_open _ _ Ho).
    + apply lookup_delete.
    + intros q p' Hp. apply lookup_delete_Some in Hp as [_ Hp]. by apply (ro_docs _ _ Ho q).
    + intros q. destruct (decide (q = c)) as [->|Hq]; [|rewrite !lookup_insert_ne by done; apply entry_at, Ho]. rewrite !lookup_insert. cbn. split; [done|]. split; [done|]. split; [done|].
      exists (gz a), (gz b), a, b. split; [done|]. split; [done|]. split; [by rewrite Hg1|]. split; [by rewrite Hg1|]. unfold TextAt. by rewrite decide_True.
  - rewrite !flush_closed; [|by rewrite <- (ro_open _ _ Ho)|done]. cbn [fst snd]. split; [done|].
    constructor; [apply Ho|done|apply Ho|]. intros q. apply entry_at, Ho.
Qed.
Lemma rd_with {A} c q (m m' : M doc A) : Alike m m' -> WStable m -> Sim (RD c) (with_doc q m) (with_doc q m').
Proof.
  intros Hm Hw o o' Ho. unfold with_doc. rewrite <- (rd_open _ _ _ Ho). destruct (of_open o !! q) as [p|] eqn:Ep; [|done]. rewrite <- Hm. pose proof (Hw _ (rd_docs _ _ _ Ho _ _ Ep)) as Hd.
  destruct (m (op_doc p)) as [d r]. split; [done|]. assert (q <> c) as Hq by (intros ->; rewrite (rd_gone _ _ _ Ho) in Ep; done). destruct Ho as [K1 K2 K3 K4].
  constructor; cbn; [by f_equal|by rewrite lookup_insert_ne| |done]. intros q' p' Hp. destruct (decide (q' = q)) as [->|Hn].
  - rewrite lookup_insert in Hp. by injection Hp as <-.
  - rewrite lookup_insert_ne in Hp by done. by apply (K3 q').
Qed.
Lemma rd_close c q : Sim (RD c) (@close_xml_document E1 q) (@close_xml_document E2 q).
Proof.
  intros o o' Ho. unfold close_xml_document. rewrite <- (rd_open _ _ _ Ho). destruct (of_open o !! q) as [p|] eqn:Ep; [|done].
  destruct (text_write (op_doc p) (rd_docs _ _ _ Ho _ _ Ep)) as (a & b & -> & -> & Ht). split; [done|]. destruct Ho as [K1 K2 K3 K4]. constructor; cbn.
  - done.
  - by rewrite lookup_delete_None; right.
  - intros q' p' Hp. apply lookup_delete_Some in Hp as [_ Hp]. by apply (K3 q').
  - intros q'. destruct (decide (q' = q)) as [->|Hq]; [|rewrite !lookup_insert_ne by done; apply K4]. rewrite !lookup_insert. cbn. split; [done|]. split; [done|]. split; [done|].
    exists (gz a), (gz b), a, b. split; [done|]. split; [done|]. split; [by rewrite Hg1|]. split; [by rewrite Hg1|]. by apply same_at.
Qed.
Lemma rd_delete c q : Sim (RD c) (delete_document q) (delete_document q).
Proof.
  intros o o' [K1 K2 K3 K4]. unfold delete_document. split; [done|]. constructor; cbn; try done. intros q'.
  destruct (decide (q' = q)) as [->|Hq]; [by rewrite !lookup_delete|rewrite !lookup_delete_ne by done; apply K4].
Qed.
Lemma rd_rels c r : Sim (RD c) (@rels_close E1 r) (@rels_close E2 r).
Proof.
  apply s_bind; [apply rd_with; [apply a_save_rels|apply w_save_rels]|]. intros [[]|]; [apply rd_close|apply rd_delete|by intros o o' Ho].
Qed.
Lemma all_dated c o o' : RD c o o' -> exists oo oo', @close_all E1 o = (oo, Ok tt) /\ @close_all E2 o' = (oo', Ok tt) /\ forall q, EntryRel (TextAt c q) (of_archive oo !! q) (of_archive oo' !! q).
Proof.
  intros Ho. pose proof (list_works E1 (o1 (map_keys (of_open o))) o (rd_docs _ _ _ Ho)) as W1.
  pose proof (list_works E2 (o2 (map_keys (of_open o'))) o') as W2. rewrite <- (rd_open _ _ _ Ho) in W2. specialize (W2 (fun q p H => wdoc_same _ (rd_docs _ _ _ Ho q p H))).
  rewrite (rd_open _ _ _ Ho) in W2 at 1. change (iterM (@close_xml_document E1) (o1 (map_keys (of_open o))) o) with (@close_all E1 o) in W1.
  change (iterM (@close_xml_document E2) (o2 (map_keys (of_open o'))) o') with (@close_all E2 o') in W2.
  destruct (@close_all E1 o) as [oo r] eqn:C1, (@close_all E2 o') as [oo' r'] eqn:C2. cbn in W1, W2. subst r r'. exists oo, oo'. split; [done|]. split; [done|]. intros q.
  destruct (@close_all_spec E1 o oo q C1) as [_ S1]. destruct (@close_all_spec E2 o' oo' q C2) as [_ S2]. rewrite <- (rd_open _ _ _ Ho) in S2.
  destruct (of_open o !! q) as [p|] eqn:Ep; [|rewrite S1, S2; apply Ho]. destruct S1 as (a & Ha & ->), S2 as (b & Hb & ->).
  destruct (text_write (op_doc p) (rd_docs _ _ _ Ho _ _ Ep)) as (a' & b' & Ha' & Hb' & Ht). rewrite Ha in Ha'. rewrite Hb in Hb'. injection Ha' as <-. injection Hb' as <-.
  cbn. split; [done|]. split; [done|]. split; [done|]. exists (gz a), (gz b), a, b. split; [done|]. split; [done|]. split; [by rewrite Hg1|]. split; [by rewrite Hg1|]. by apply same_at.
Qed.
(** Two attempts to write the package under [path]. *)
Definition RW (c path : string) (x x' : list filesys * res unit) : Prop :=
  x.2 = x'.2 /\ (x.2 = Ok tt -> exists fs fs' l l', last x.1 = Some fs /\ last x'.1 = Some fs' /\ @Stored E1 fs path l /\ @Stored E2 fs' path l' /\ SamePackage E1 E2 c l l').
Lemma office_save_same c f path o o' fs : RD c o o' -> RW c path (@office_save E1 f path o fs).2 (@office_save E2 f path o' fs).2.
Proof.
  intros Ho. unfold office_save. destruct (all_dated c o o' Ho) as (oo & oo' & -> & -> & HA). cbn [snd]. pose proof (archive_same (TextAt c) _ _ HA) as Hs.
  destruct (@save_archive E1 _) as [b|e|e], (@save_archive E2 _) as [b'|e'|e']; try done.
  - destruct Hs as (l & l' & H1 & H2 & H3 & H4). pose proof (write_same f path b b' fs) as Hw. split; [done|]. intros Hok. rewrite Hok in Hw.
    destruct (write_file f path b fs) as [tr r] eqn:W1, (write_file f path b' fs) as [tr' r'] eqn:W2. cbn in Hw, Hok. subst r r'.
    destruct (write_file_last _ _ _ _ _ W1) as (fs1 & L1 & B1). destruct (write_file_last _ _ _ _ _ W2) as (fs2 & L2 & B2).
    exists fs1, fs2, l, l'. cbn. split; [done|]. split; [done|]. split; [by exists b|]. split; [by exists b'|]. split; [done|].
    intros q x y Hx Hy. specialize (H4 q x y Hx Hy). destruct (decide (q = content_types_name)); [done|by apply at_part].
  - subst e'. by split.
Qed.
Lemma suite_save_same t t' f path s s' fs : RSuite s s' -> RW (su_core s) path (@suite_save E1 t f path s fs) (@suite_save E2 t' f path s' fs).
Proof.
  destruct s as [o r c], s' as [o' r' c']. intros (H1 & H2 & H3). cbn in H1, H2, H3. subst r' c'. unfold suite_save. cbn [su_core su_root su_office].
  unfold bind. destruct (core_flush_same t t' c o o' H3) as [K1 K2]. destruct (@core_flush E1 t c o) as [a x], (@core_flush E2 t' c o') as [a' x']. cbn in K1, K2. subst x'.
  destruct x as [[]|e|e]; [|by split..]. destruct (rd_rels c r a a' K2) as [H4 H5]. destruct (@rels_close E1 r a) as [oo x], (@rels_close E2 r a') as [oo' x']. cbn in H4, H5. subst x'.
  destruct x as [x|e|e]; [by apply office_save_same|by split..].
Qed.
Lemma excel_save_same t t' f path x x' fs : RE x x' -> RW (su_core (x_suite x)) path (@excel_save E1 t f path x fs) (@excel_save E2 t' f path x' fs).
Proof.
  destruct x as [[o r c] b], x' as [[o' r' c'] b']. intros [(H1 & H2 & H3) H4]. cbn in H1, H2, H3, H4. subst r' c' b'. unfold excel_save, x_office. cbn [x_suite x_book su_office su_root su_core].
  destruct (so_flush b o o' H3) as [H5 H6]. destruct (@wb_flush E1 b o) as [oo x], (@wb_flush E2 b o') as [oo' x']. cbn in H5, H6. subst x'.
  destruct x as [x|e|e]; [by apply (suite_save_same t t' f path (mkSuite oo r c) (mkSuite oo' r c))|by split..].
Qed.
(** Opening. *)
Lemma load_same exts l acc : Alike (@load_files E1 exts l acc) (@load_files E2 exts l acc).
Proof. revert acc. induction l as [|[n data] l IH]; intros acc; [done|]. cbn [load_files]. apply a_bind; [done|intros ct; apply IH]. Qed.
Lemma office_new_same file fs :
  match file with Some p => forall l, @Stored E1 fs p l -> Forall (fun nd => Stays nd.2) l | None => True end -> RRes RO (@office_new E1 file fs) (@office_new E2 file fs).
Proof.
  destruct file as [p|]; intros Hf.
  2:{ cbn. constructor; [done| |]; cbn; intros q; [by intros ?; rewrite lookup_empty|]. by rewrite !lookup_empty. }
  unfold office_new. destruct (fs !! p) as [b|] eqn:Eb; [|done]. cbn [of_option rbind].
  assert (@load_archive E1 b = @load_archive E2 b) as Hl.
  { unfold load_archive. change (@env_unzip E1) with uz. change (@env_unzip E2) with uz. destruct (uz b) as [l|] eqn:Eu; [|done]. cbn [of_option rbind].
    assert (Forall (fun nd => Stays nd.2) l) as Hst by (apply Hf; by exists b). destruct (List.find _ l) as [[n types]|] eqn:Ef; [|done].
    apply find_some in Ef as [Hin _]. apply elem_of_list_In in Hin. rewrite Forall_forall in Hst. destruct (Hst _ Hin) as [_ Hr]. cbn [snd] in Hr. rewrite <- Hr.
    destruct (@read_doc E1 types) as [d|e|e]; [|done..]. cbn [rbind]. f_equal. apply a_bind; [done|]. intros exts. apply load_same. }
  rewrite <- Hl. destruct (@load_archive E1 b) as [m|e|e] eqn:Em; [|done..]. cbn. destruct (@load_archive_spec E1 b m Em) as (l & Hu & Hc & Q1 & Q2).
  assert (Forall (fun nd => Stays nd.2) l) as Hst by (apply Hf; by exists b). rewrite Forall_forall in Hst. constructor; [done| |]; cbn.
  - intros q pt. by rewrite lookup_empty.
  - intros q. destruct (decide (q ∈ l.*1)) as [Hq|Hq]; [|by rewrite (Q2 q Hq)].
    apply elem_of_list_fmap in Hq as ([q' data] & -> & Hin). cbn [fst]. destruct (decide (q' = content_types_name)) as [->|Hne]; [by rewrite Hc|].
    destruct (Q1 q' data Hin Hne) as (x & t & ct & ->). cbn. split; [done|]. split; [done|]. split; [done|]. exists (gz data), (gz data), data, data.
    rewrite Hg1. split; [done|]. split; [done|]. split; [done|]. split; [done|]. left. split; [done|]. apply (Hst _ Hin).
Qed.
End two.

(** ** Any two runs *)
Section runs.
Context (A B : Env) (HS : SameMachine A B).
Definition Saved (core path : string) (x x' : list filesys * res unit) : Prop :=
  x.2 = x'.2 /\ (x.2 = Ok tt -> exists fs fs' l l', last x.1 = Some fs /\ last x'.1 = Some fs' /\ @Stored A fs path l /\ @Stored B fs' path l' /\ SamePackage A B core l l').
Definition source_alike (file : option string) (fs : filesys) : Prop :=
  match file with Some p => forall l, @Stored A fs p l -> Forall (fun nd => ReadAlike A B nd.2) l | None => True end.
Definition SaveAlike (x x' : excel) : Prop :=
  forall t t' f path fs, Saved (su_core (x_suite x)) path (@excel_save A t f path x fs) (@excel_save B t' f path x' fs).
Lemma runs_excel (HH : Hashes) file fs : source_alike file fs ->
  match @excel_new A file fs, @excel_new B file fs with
  | Ok x, Ok x' => forall cs, @replies A HH cs (x, []) = @replies B HH cs (x', []) /\
      match @calls A HH cs (x, []), @calls B HH cs (x', []) with
      | Some s, Some s' => s.2 = s'.2 /\ x_book s.1 = x_book s'.1 /\ SaveAlike s.1 s'.1
      | None, None => True
      | _, _ => False
      end
  | Err e, Err e' | Panic e, Panic e' => e = e'
  | _, _ => False
  end.
Proof.
  revert HS. unfold SaveAlike, Saved, source_alike. destruct A as [mo al n1 Hn1 o1 Ho1 gz gu Hg1 p1 Hp1 zi uz Hz1 Hu1 f3 Hi1 Hb1], B as [mo' al' n2 Hn2 o2 Ho2 gz' gu' Hg2 p2 Hp2 zi' uz' Hz2 Hu2 f3' Hi2 Hb2].
  intros [H1 H2 H3 H4 H5 H6 H7]. cbn in H1, H2, H3, H4, H5, H6, H7. subst mo' al' gz' gu' zi' uz' f3'. intros Hsrc.
  pose proof (office_new_same mo al gz gu zi uz f3 n1 n2 Hn1 Hn2 o1 o2 Ho1 Ho2 p1 p2 Hp1 Hp2 Hg1 Hg2 Hz1 Hz2 Hu1 Hu2 Hi1 Hi2 Hb1 Hb2 file fs Hsrc) as Ho.
  pose proof (excel_new_same mo al gz gu zi uz f3 n1 n2 Hn1 Hn2 o1 o2 Ho1 Ho2 p1 p2 Hp1 Hp2 Hg1 Hg2 Hz1 Hz2 Hu1 Hu2 Hi1 Hi2 Hb1 Hb2 file fs Ho) as He. clear Ho Hsrc. unfold E1, E2 in He.
  destruct (excel_new file fs) as [x|e|e], (excel_new file fs) as [x'|e'|e']; cbn in He; try done. intros cs.
  pose proof (calls_same mo al gz gu zi uz f3 n1 n2 Hn1 Hn2 o1 o2 Ho1 Ho2 p1 p2 Hp1 Hp2 Hg1 Hg2 Hz1 Hz2 Hu1 Hu2 Hi1 Hi2 Hb1 Hb2 HH cs (x, []) (x', []) (conj He eq_refl)) as [K1 K2].
  split; [exact K1|]. unfold E1, E2 in K2. destruct (calls cs (x, [])) as [s|], (calls cs (x', [])) as [s'|]; try done. destruct K2 as [K3 K4]. split; [done|]. split; [apply K3|].
  intros t t' f path fs2. exact (excel_save_same mo al gz gu zi uz f3 n1 n2 Hn1 Hn2 o1 o2 Ho1 Ho2 p1 p2 Hp1 Hp2 Hg1 Hg2 Hz1 Hz2 Hu1 Hu2 Hi1 Hi2 Hb1 Hb2 t t' f path s.1 s'.1 fs2 K3).
Qed.
Lemma runs_suite file fs : source_alike file fs ->
  match @suite_new A file fs, @suite_new B file fs with
  | Ok x, Ok x' => forall t t' f path fs2, Saved (su_core x) path (@suite_save A t f path x fs2) (@suite_save B t' f path x' fs2)
  | Err e, Err e' | Panic e, Panic e' => e = e'
  | _, _ => False
  end.
Proof.
  revert HS. unfold Saved, source_alike. destruct A as [mo al n1 Hn1 o1 Ho1 gz gu Hg1 p1 Hp1 zi uz Hz1 Hu1 f3 Hi1 Hb1], B as [mo' al' n2 Hn2 o2 Ho2 gz' gu' Hg2 p2 Hp2 zi' uz' Hz2 Hu2 f3' Hi2 Hb2].
  intros [H1 H2 H3 H4 H5 H6 H7]. cbn in H1, H2, H3, H4, H5, H6, H7. subst mo' al' gz' gu' zi' uz' f3'. intros Hsrc.
  pose proof (office_new_same mo al gz gu zi uz f3 n1 n2 Hn1 Hn2 o1 o2 Ho1 Ho2 p1 p2 Hp1 Hp2 Hg1 Hg2 Hz1 Hz2 Hu1 Hu2 Hi1 Hi2 Hb1 Hb2 file fs Hsrc) as Ho.
  pose proof (suite_new_same mo al gz gu zi uz f3 n1 n2 Hn1 Hn2 o1 o2 Ho1 Ho2 p1 p2 Hp1 Hp2 Hg1 Hg2 Hz1 Hz2 Hu1 Hu2 Hi1 Hi2 Hb1 Hb2 file fs Ho) as He. clear Ho Hsrc. unfold E1, E2 in He.
  destruct (suite_new file fs) as [x|e|e], (suite_new file fs) as [x'|e'|e']; cbn in He; try done.
  intros t t' f path fs2. exact (suite_save_same mo al gz gu zi uz f3 n1 n2 Hn1 Hn2 o1 o2 Ho1 Ho2 p1 p2 Hp1 Hp2 Hg1 Hg2 Hz1 Hz2 Hu1 Hu2 Hi1 Hi2 Hb1 Hb2 t t' f path x x' fs2 He).
Qed.
Lemma clear_read data : clear data = true -> @read_doc A data = @read_doc B data.
Proof.
  revert HS. destruct A as [mo al n1 Hn1 o1 Ho1 gz gu Hg1 p1 Hp1 zi uz Hz1 Hu1 f3 Hi1 Hb1], B as [mo' al' n2 Hn2 o2 Ho2 gz' gu' Hg2 p2 Hp2 zi' uz' Hz2 Hu2 f3' Hi2 Hb2].
  intros [H1 H2 H3 H4 H5 H6 H7]. cbn in H1, H2, H3, H4, H5, H6, H7. subst mo' al' gz' gu' zi' uz' f3'. intros Hc.
  exact (template_same mo al gz gu zi uz f3 n1 n2 Hn1 Hn2 o1 o2 Ho1 Ho2 p1 p2 Hp1 Hp2 Hg1 Hg2 Hz1 Hz2 Hu1 Hu2 Hi1 Hi2 Hb1 Hb2 data Hc).
Qed.
End runs.
Lemma core_kept (E : Env) (HH : Hashes) cs : forall s s', calls cs s = Some s' -> su_core (x_suite s'.1) = su_core (x_suite s.1).
Proof.
  induction cs as [|c cs IH]; intros s s'; [by intros [= <-]|]. cbn [calls].
  assert (su_core (x_suite (call_step c s).1.1) = su_core (x_suite s.1)) as Hc.
  { assert (forall A (m : M wb_state A) x, su_core (x_suite (Excel.on_book m x).1) = su_core (x_suite x)) as Hb.
    { intros A m x. unfold Excel.on_book. by destruct (m _) as [[b o] r]. }
    destruct c; cbn [call_step]; unfold give, on_excel, use, spend;
      try match goal with |- context [Excel.on_book ?m s.1] => pose proof (Hb _ m s.1) as Hx; destruct (Excel.on_book m s.1) as [x [?|?|?]]; exact Hx end;
      (destruct (handle h s) as [w|]; [|done]);
      try match goal with |- context [Excel.on_book ?m s.1] => pose proof (Hb _ m s.1) as Hx; destruct (Excel.on_book m s.1) as [x [?|?|?]]; exact Hx end;
      match goal with |- context [let '(_, _) := ?m in _] => destruct m as [[? ?] ?] end; done. }
  destruct (call_step c s) as [s1 r]. cbn [fst] in Hc. destruct r as [?|?|?]; [|..|done]; intros Hs; rewrite <- Hc; by apply IH.
Qed.
