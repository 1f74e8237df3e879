(** Saving and opening again, any number of times. *)
From Verif.Model Require Import Excel.
From Verif.Spec Require Import RelSpec XmlSpec XmlRepr PackageSpec PartSpec SheetSpec StyleSpec SessionSpec FlowSpec.
From Verif.Proofs Require Import BaseFacts XmlNsFacts PackageFacts XmlTreeFacts XmlWriteFacts DocBuild XmlReadFacts PartFacts TypesFacts RelDocFacts SmallPartFacts AttrFacts StyleFacts StyleDocFacts SheetDocFacts
  BookFacts FrameFacts SaveFacts DocFacts SessionFacts RelFacts ExcelFacts XmlHistFacts SoundFacts KeepFacts ReadAnyFacts FlowFacts FlowSaveFacts FlowOpenFacts OwnFacts OpenBookFacts OpenRelFacts OpenStyleFacts FoundFacts OpenMoreFacts.
From Verif.Spec Require Import BookSpec OpenSpec ReopenSpec.
Open Scope N_scope.

(** ** Plain names *)
Lemma sexists_app f s t : sexists f (s +:+ t) = sexists f s || sexists f t.
Proof. induction s as [|a s IH]; [done|]. cbn. rewrite IH. by destruct (f a). Qed.
Lemma plain_app s t : plain_text (s +:+ t) <-> plain_text s /\ plain_text t.
Proof. unfold plain_text. rewrite sexists_app, Bool.orb_false_iff. done. Qed.
Lemma escape_plain s : plain_text (spec_escape s) -> spec_escape s = s.
Proof.
  intros H. apply spec_escape_fixed. induction s as [|a s IH]; [done|]. cbn [spec_escape sexists] in *. unfold is_special at 1.
  destruct (entity_of a) as [e|] eqn:Ea.
  - exfalso. apply plain_app in H as [H _]. revert H. unfold entity_of in Ea. unfold plain_text.
    repeat (destruct (Ascii.eqb a _); [injection Ea as <-; vm_compute; discriminate|]). done.
  - cbn. apply IH. unfold plain_text in H. cbn [sexists] in H. unfold is_special at 1 in H. rewrite Ea in H. done.
Qed.
Lemma find_escaped ty l : plain_text ty -> List.find (fun x => seqb (r_type x) ty) (map escaped_rel l) = escaped_rel <$> List.find (fun x => seqb (r_type x) ty) l.
Proof.
  intros Hp. induction l as [|x l IH]; [done|]. cbn [map List.find]. change (r_type (escaped_rel x)) with (spec_escape (r_type x)).
  destruct (seqb (r_type x) ty) eqn:Ex.
  - apply seqb_true in Ex. rewrite Ex, spec_escape_fixed by done. by rewrite (proj2 (seqb_true _ _) eq_refl).
  - rewrite (proj2 (seqb_false _ _)); [done|]. intros He. apply seqb_false in Ex. apply Ex. rewrite <- He. symmetry. apply escape_plain. by rewrite He.
Qed.

(** ** Where a part is *)
Definition Leads (r : relations) (c : content) (path : string) : Prop :=
  exists x, List.find (fun y => seqb (r_type y) (c_type c)) (rl_rels r) = Some x /\ resolve_target r (r_target x) = Ok path.
Definition Extends (r r' : relations) : Prop := rl_path r' = rl_path r /\ exists new, rl_rels r' = rl_rels r ++ new.
Lemma extends_refl r : Extends r r.
Proof. split; [done|]. exists []. by rewrite app_nil_r. Qed.
Lemma extends_trans r1 r2 r3 : Extends r1 r2 -> Extends r2 r3 -> Extends r1 r3.
Proof. intros [A1 [n1 A2]] [B1 [n2 B2]]. split; [congruence|]. exists (n1 ++ n2). by rewrite B2, A2, app_assoc. Qed.
Lemma find_app_some {A} (f : A -> bool) l new x : List.find f l = Some x -> List.find f (l ++ new) = Some x.
Proof. induction l as [|y l IH]; [done|]. cbn [app List.find]. by destruct (f y). Qed.
Lemma resolve_same r r' t : rl_path r' = rl_path r -> resolve_target r' t = resolve_target r t.
Proof. intros H. unfold resolve_target, get_relative_path. by rewrite H. Qed.
Lemma leads_extends r r' c p : Extends r r' -> Leads r c p -> Leads r' c p.
Proof. intros [H1 [new H2]] (x & Hf & Hr). exists x. rewrite H2, (resolve_same r r') by done. split; [by apply find_app_some|done]. Qed.
Lemma leads_path r c dir p : Leads r c p -> part_path c dir r = (r, Ok p).
Proof. intros (x & Hf & Hr). unfold part_path, get_target_by_type. by rewrite Hf, Hr. Qed.
Lemma path_leads c dir r r' p folder : OwnerFolder (rl_path r) folder -> part_path c dir r = (r', Ok p) -> Leads r' c p /\ Extends r r'.
Proof.
  intros Ho. unfold part_path, get_target_by_type. destruct (List.find _ (rl_rels r)) as [x|] eqn:Ef.
  - intros [= <- Hr]. split; [by exists x|apply extends_refl].
  - intros [= <- <-]. unfold set_new_relationship. cbn [fst]. set (x := mkRel _ _ _ _). split.
    + exists x. cbn [set_rels rl_rels]. split.
      * clear -Ef x. revert Ef. induction (rl_rels r) as [|y l IH]; cbn [app List.find].
        -- intros _. change (r_type x) with (c_type c). by rewrite (proj2 (seqb_true _ _) eq_refl).
        -- destruct (seqb (r_type y) _); [done|exact IH].
      * destruct (resolve_spec r folder ("/" +:+ target_path c dir None) Ho) as (q & Hq & Hres). change (r_target x) with ("/" +:+ target_path c dir None).
        rewrite (resolve_same r) by done. rewrite Hq. f_equal. inversion Hres as [|a t Ha|]; [done|]. by destruct Ha.
    + split; [done|]. by eexists.
Qed.
Lemma find_kept (gone : list string) ty l x : List.find (fun y => seqb (r_type y) ty) l = Some x -> r_target x ∉ gone ->
  List.find (fun y => seqb (r_type y) ty) (filter (fun y => r_target y ∉ gone) l) = Some x.
Proof.
  intros Hf Hx. induction l as [|y l IH]; [done|]. cbn [List.find] in Hf. rewrite filter_cons. destruct (seqb (r_type y) ty) eqn:Ey.
  - injection Hf as ->. rewrite decide_True by done. cbn [List.find]. by rewrite Ey.
  - destruct (decide _); [|by apply IH]. cbn [List.find]. rewrite Ey. by apply IH.
Qed.
Lemma leads_escaped r c p : plain_text (c_type c) -> plain_text p -> Leads r c p -> Leads (mkRelations (map escaped_rel (rl_rels r)) (rl_path r)) c p.
Proof.
  intros Hc Hp (x & Hf & Hr). exists (escaped_rel x). cbn [rl_rels]. rewrite find_escaped by done. rewrite Hf. split; [done|].
  rewrite (resolve_same r) by done. change (r_target (escaped_rel x)) with (spec_escape (r_target x)). rewrite spec_escape_fixed; [done|].
  unfold resolve_target in Hr. destruct (get_relative_path r) as [rp|e|e]; cbn [rbind] in Hr; [|done..].
  destruct (r_target x) as [|a t]; [done|]. cbn [strip_prefix] in Hr. destruct (aeqb "/" a) eqn:Ea.
  - unfold aeqb in Ea. apply Ascii.eqb_eq in Ea as <-. injection Hr as ->. by apply (plain_slash p).
  - injection Hr as <-. by apply plain_app in Hp as [_ Hp].
Qed.
Lemma leads_some r c p : Leads r c p -> rl_rels r <> [].
Proof. intros (x & Hf & _) He. by rewrite He in Hf. Qed.

(** ** What is read has the types of the program *)
Lemma rmapM_all {A B} (f : A -> res B) (P : B -> Prop) l l' : (forall x y, f x = Ok y -> P y) -> rmapM f l = Ok l' -> Forall P l'.
Proof.
  intros Hf. revert l'. induction l as [|x l IH]; intros l' H; [by injection H as <-|]. cbn [rmapM] in H. apply rbind_ok in H as (y & Hy & H). apply rbind_ok in H as (ys & Hys & H).
  injection H as <-. constructor; [by eapply Hf|by apply IH].
Qed.
Lemma table_all {A} (f : tree -> res A) (P : A -> Prop) ts l : (forall x y, f x = Ok y -> P y) -> table_of f ts = Ok l -> Forall P l.
Proof. intros Hf. unfold table_of. destruct (last_of ts) as [t|]; [by apply rmapM_all|]. intros [= <-]. constructor. Qed.
Definition font_typed (f : font) : Prop := fo_size f <= u8_max /\ fo_family f <= u32_max.
Lemma opt_set_typed {A} o (g : string -> option A) f h f' : font_typed f -> (forall s a, g s = Some a -> font_typed (h a)) -> opt_set o g f h = Ok f' -> font_typed f'.
Proof.
  intros Hf Hh. unfold opt_set. destruct o as [s|]; [|by intros [= <-]]. destruct (g s) as [a|] eqn:Eg; [|done]. intros [= <-]. by eapply Hh.
Qed.
Lemma font_child_typed f t f' : font_typed f -> font_child f t = Ok f' -> font_typed f'.
Proof.
  intros Hf. unfold font_child. cbn zeta. destruct f as [fn fs fc ff fsc fb fd fi fu]. destruct Hf as [H1 H2]. cbn in H1, H2.
  destruct (seqb _ "b"); [by intros [= <-]|]. destruct (seqb _ "u"); [by intros [= <-]|]. destruct (seqb _ "i"); [by intros [= <-]|].
  destruct (seqb _ "sz"). { apply opt_set_typed; [done|]. intros s a Ha. split; [by eapply parse_uint_max|done]. }
  destruct (seqb _ "color"). { intros [= <-]. by destruct (color_of_tree t). }
  destruct (seqb _ "name"). { by apply opt_set_typed. }
  destruct (seqb _ "family"). { apply opt_set_typed; [done|]. intros s a Ha. split; [done|by eapply parse_uint_max]. }
  destruct (seqb _ "scheme"); [|done]. by apply opt_set_typed.
Qed.
Lemma font_typed_tree t f : font_of_tree t = Ok f -> font_typed f.
Proof.
  unfold font_of_tree. assert (font_typed font_default) as Hd by (by vm_compute). revert Hd. generalize font_default. induction (t_children t) as [|c cs IH]; intros f0 Hf0; [by intros [= <-]|].
  cbn [font_children]. intros H. apply rbind_ok in H as (f1 & H1 & H2). eapply IH; [|exact H2]. by eapply font_child_typed.
Qed.
Lemma xf_typed_tree t x : xf_of_tree t = Ok x -> xf_typed x.
Proof.
  unfold xf_of_tree. destruct (t_attrs t) as [a|]; [|intros [= <-]; by vm_compute]. cbn zeta.
  assert (forall k n, rmap (default 0) (num_attr u16_max a k) = Ok n -> n <= u16_max) as Hn.
  { intros k n. destruct (num_attr u16_max a k) as [o|e|e] eqn:Eo; [|done..]. apply num_attr_max in Eo. intros [= <-]. destruct o as [m|]; [exact Eo|]. by vm_compute. }
  intros H. apply rbind_ok in H as (n1 & H1 & H). apply rbind_ok in H as (n2 & H2 & H). apply rbind_ok in H as (n3 & H3 & H). apply rbind_ok in H as (n4 & H4 & H). apply rbind_ok in H as (n5 & H5 & H).
  apply Hn in H1, H2, H3, H4, H5. injection H as <-. by split_and!.
Qed.
Lemma num_typed_tree t o : num_of_tree t = Ok o -> match o with Some n => nf_id n <= usize_max | None => True end.
Proof.
  unfold num_of_tree. destruct (t_attrs t) as [a|]; [|by intros [= <-]]. intros H. apply rbind_ok in H as (i & _ & H). apply rbind_ok in H as (n & Hn & H). apply rbind_ok in H as (c & _ & H).
  injection H as <-. cbn. destruct (parse_uint usize_max i) as [m|] eqn:Em; [|done]. injection Hn as <-. by eapply parse_uint_max.
Qed.
Lemma lift_ok {S A} (r : res A) (s s' : S) x : lift r s = (s', Ok x) -> s' = s /\ r = Ok x.
Proof. unfold lift. by intros [= <- ->]. Qed.
Section with_env.
Context `{E : Env}.
Lemma load_styles_typed d d' st : load_styles d = (d', Ok st) -> styles_typed st.
Proof.
  unfold load_styles. intros H.
  apply bind_ok in H as (d1 & t1 & _ & H). apply bind_ok in H as (d1' & nums & N & H). apply lift_ok in N as [-> N].
  apply bind_ok in H as (d2 & t2 & _ & H). apply bind_ok in H as (d2' & fonts & F & H). apply lift_ok in F as [-> F].
  apply bind_ok in H as (d3 & t3 & _ & H). apply bind_ok in H as (d3' & fills & _ & H).
  apply bind_ok in H as (d4 & t4 & _ & H). apply bind_ok in H as (d4' & borders & _ & H).
  apply bind_ok in H as (d5 & t5 & _ & H). apply bind_ok in H as (d5' & sx & S & H). apply lift_ok in S as [-> S].
  apply bind_ok in H as (d6 & t6 & _ & H). apply bind_ok in H as (d6' & cx & C & H). apply lift_ok in C as [-> C].
  injection H as _ <-. split_and!; cbn [st_nums st_fonts st_style_xfs st_cell_xfs].
  - destruct (table_of num_of_tree t1) as [l|e|e] eqn:El; [|done..]. injection N as <-. pose proof (table_all _ _ _ _ num_typed_tree El) as Hf.
    clear -Hf. induction Hf as [|x l Hx _ IH]; [constructor|]. destruct x as [n|]; cbn; [by constructor|done].
  - exact (table_all _ _ _ _ font_typed_tree F).
  - exact (table_all _ _ _ _ xf_typed_tree S).
  - exact (table_all _ _ _ _ xf_typed_tree C).
Qed.
Lemma load_book_typed d d' l view : load_book d = (d', Ok (l, view)) -> forall v, view = Some v -> ratio_typed v.
Proof.
  unfold load_book. intros H. apply bind_ok in H as (d1 & t1 & _ & H). apply bind_ok in H as (d1' & v0 & V & H). apply lift_ok in V as [-> V].
  apply bind_ok in H as (d2 & t2 & _ & H). apply bind_ok in H as (d2' & l0 & _ & H). injection H as _ _ <-. destruct (last_of t1) as [t|]; [|injection V as <-; done].
  assert (forall ts w w', (forall v, w = Some v -> ratio_typed v) -> book_views_of w ts = Ok w' -> forall v, w' = Some v -> ratio_typed v) as Hw.
  { clear. induction ts as [|t ts IH]; intros w w' Hw; [by intros [= <-]|]. cbn [book_views_of]. destruct (t_attrs t) as [a|]; [|by apply IH].
    intros H. apply rbind_ok in H as (v1 & H1 & H2). eapply IH; [|exact H2]. intros v [= <-]. unfold book_view_of in H1. destruct (parse_attr parse_i16 a "tabRatio") as [o|e|e] eqn:Eo; [|done..].
    injection H1 as <-. unfold ratio_typed. cbn [bv_ratio]. unfold parse_attr in Eo. destruct (a !! "tabRatio") as [s|]; [|by injection Eo as <-].
    destruct (parse_i16 s) as [z|] eqn:Ez; [|done]. injection Eo as <-. by apply parse_i16_range in Ez. }
  refine (Hw _ _ _ _ V). done.
Qed.
(** ** What is left in the document *)
Lemma load_book_rest d g a v cs d' x : Doc d (Node g a v cs) -> load_book d = (d', Ok x) -> Doc d' (Node g a v (untagged "sheets" (untagged "bookViews" cs))) /\ d_ns d' = d_ns d.
Proof.
  intros Hd H. unfold load_book in H. destruct (Doc_take_tagged d g a v cs "bookViews" Hd) as (d1 & T1 & Hd1 & N1).
  destruct (Doc_take_tagged d1 g a v _ "sheets" Hd1) as (d2 & T2 & Hd2 & N2).
  unfold bind at 1 in H. rewrite T1 in H. apply bind_ok in H as (d1' & v0 & V & H). apply lift_ok in V as [-> _].
  unfold bind at 1 in H. rewrite T2 in H. apply bind_ok in H as (d2' & l0 & V & H). apply lift_ok in V as [-> _]. injection H as <- _. split; [done|congruence].
Qed.
Lemma load_styles_rest d g a v cs d' x : Doc d (Node g a v cs) -> load_styles d = (d', Ok x) -> Doc d' (Node g a v (style_rest cs)) /\ d_ns d' = d_ns d.
Proof.
  intros Hd H. unfold load_styles in H.
  destruct (Doc_take_tagged d g a v cs "numFmts" Hd) as (d1 & T1 & Hd1 & N1). destruct (Doc_take_tagged d1 g a v _ "fonts" Hd1) as (d2 & T2 & Hd2 & N2).
  destruct (Doc_take_tagged d2 g a v _ "fills" Hd2) as (d3 & T3 & Hd3 & N3). destruct (Doc_take_tagged d3 g a v _ "borders" Hd3) as (d4 & T4 & Hd4 & N4).
  destruct (Doc_take_tagged d4 g a v _ "cellStyleXfs" Hd4) as (d5 & T5 & Hd5 & N5). destruct (Doc_take_tagged d5 g a v _ "cellXfs" Hd5) as (d6 & T6 & Hd6 & N6).
  unfold bind at 1 in H. rewrite T1 in H. apply bind_ok in H as (e1 & v1 & V & H). apply lift_ok in V as [-> _].
  unfold bind at 1 in H. rewrite T2 in H. apply bind_ok in H as (e2 & v2 & V & H). apply lift_ok in V as [-> _].
  unfold bind at 1 in H. rewrite T3 in H. apply bind_ok in H as (e3 & v3 & V & H). apply lift_ok in V as [-> _].
  unfold bind at 1 in H. rewrite T4 in H. apply bind_ok in H as (e4 & v4 & V & H). apply lift_ok in V as [-> _].
  unfold bind at 1 in H. rewrite T5 in H. apply bind_ok in H as (e5 & v5 & V & H). apply lift_ok in V as [-> _].
  unfold bind at 1 in H. rewrite T6 in H. apply bind_ok in H as (e6 & v6 & V & H). apply lift_ok in V as [-> _].
  injection H as <- _. split; [done|congruence].
Qed.
(** ** An archive that was saved loads *)
Lemma load_total a b : a <> ∅ -> save_archive a = Ok b -> exists a', load_archive b = Ok a'.
Proof.
  intros Hne Hs. destruct (save_archive_text a b Hs) as (l & Hu & Hct & Hl).
  assert (arch_exts a <> []) as Hx.
  { intros Hx. apply Hne. apply map_empty. intros n. destruct (a !! n) as [e|] eqn:Ea; [|done].
    assert ((en_ext e, en_ext_type e) ∈ arch_exts a) as Hin by (apply arch_exts_elem; eauto). rewrite Hx in Hin. by apply elem_of_nil in Hin. }
  destruct (Doc_read types_ns (types_tree (arch_exts a) (arch_ovs a))) as (d & Hr & Hd & _); [apply types_tree_ok|apply types_ns_ok| |].
  { right. unfold types_tree. cbn. destruct (arch_exts a); [done|]. done. }
  set (types := prolog +:+ _) in *.
  assert (forall n x, (n, x) ∈ l -> n <> content_types_name) as Hno.
  { intros n x Hin ->. apply Hl in Hin as (e & He & _). congruence. }
  pose proof (load_archive_pure b (l ++ [(content_types_name, types)]) types d _ _ _ _ Hu (find_types l types Hno) Hr Hd) as Hload.
  rewrite extensions_reread in Hload. cbn [rbind] in Hload. rewrite overrides_reread in Hload.
  set (ovs := map _ (arch_ovs a)) in *. match type of Hload with _ = rmap _ (rmapM ?f ?fl) => destruct (rmapM_total f fl) as [l' Hl'] end.
  { intros [n x] _. unfold loaded_entry. cbn [fst snd]. assert (exists ct, override_of ovs n = Ok ct) as [ct ->]; [|by eexists]. unfold override_of.
    destruct (last (List.filter _ ovs)) as [t|] eqn:Et; [|by eexists].
    assert (t ∈ ovs) as Ht. { apply last_Some_elem_of in Et. apply elem_of_list_In, filter_In in Et as [Et _]. by apply elem_of_list_In. }
    apply elem_of_list_fmap in Ht as ([p ct] & -> & _). by exists (Some (spec_escape ct)). }
  rewrite Hl' in Hload. by eexists.
Qed.
Lemma office_reopens f path o fs o1 tr fs' q e : office_save f path o fs = (o1, (tr, Ok tt)) -> last tr = Some fs' ->
  of_open o !! q = None -> of_archive o !! q = Some e -> exists o2, office_new (Some path) fs' = Ok o2.
Proof.
  unfold office_save. destruct (close_all o) as [o2 [[]|x|x]] eqn:Ec; [|done..]. destruct (save_archive (of_archive o2)) as [b|x|x] eqn:Es; [|done..]. intros [= <- Hw] Hl Hq He.
  destruct (write_file_last _ _ _ _ _ Hw) as (fs2 & Hl2 & Hb). rewrite Hl in Hl2. injection Hl2 as <-.
  destruct (load_total _ _ ltac:(intros Hz; destruct (close_all_spec o o2 q Ec) as [_ K]; rewrite Hq, Hz in K; rewrite He in K; done) Es) as [a Ha].
  unfold office_new. rewrite Hb. cbn [of_option rbind]. rewrite Ha. by eexists.
Qed.
(** ** How the parts of a workbook are found *)
Record Ways (x : excel) : Prop := {
  wy_root : rl_path (su_root (x_suite x)) = root_part;
  wy_core : Leads (su_root (x_suite x)) c_core (su_core (x_suite x));
  wy_book : Leads (su_root (x_suite x)) c_workbook (wb_path (x_book x));
  wy_rels : book_rels_path (wb_path (x_book x)) = Ok (rl_path (wb_rels (x_book x)));
  wy_theme : Leads (wb_rels (x_book x)) c_theme (wb_theme (x_book x));
  wy_sst : Leads (wb_rels (x_book x)) c_share_string (ss_path (wb_sst (x_book x)));
  wy_calc : Leads (wb_rels (x_book x)) c_calc_chain (cc_path (wb_calc (x_book x)));
  wy_style : Leads (wb_rels (x_book x)) c_style (sp_path (wb_style (x_book x)));
}.
Lemma root_folder : OwnerFolder root_part "".
Proof. apply (Own_root "/.rels"). Qed.
Lemma ways_opened p fs x folder : excel_new (Some p) fs = Ok x -> OwnerFolder (rl_path (wb_rels (x_book x))) folder -> Ways x.
Proof.
  intros Hx Hf. unfold excel_new in Hx. destruct (suite_new (Some p) fs) as [s|e|e] eqn:Es; cbn [rbind] in Hx; [|done..].
  destruct (workbook_new (su_root s, su_office s)) as [[root o1] [b|e|e]] eqn:Ew; [|done..]. injection Hx as <-. cbn [x_book] in *.
  unfold suite_new in Es. destruct (office_new (Some p) fs) as [o|e|e]; cbn [rbind] in Es; [|done..].
  destruct (rels_new "_rels/.rels" o) as [o2 [r0|e|e]] eqn:Er; [|done..]. destruct (rels_opened _ _ _ _ Er) as (_ & _ & Hrp & _).
  destruct (core_new (r0, o2)) as [[r1 o3] [core|e|e]] eqn:Ec; [|done..]. injection Es as <-. cbn [su_root su_office su_core] in *.
  assert (part_path c_core None r0 = (r1, Ok core)) as Hc.
  { unfold core_new in Ec. unfold bind at 1 in Ec. unfold on_rels in Ec. cbn [fst snd] in Ec. destruct (part_path _ _ r0) as [r2 [path|e|e]]; [|done..].
    unfold bind, on_office in Ec. cbn [fst snd] in Ec. destruct (get_xml_document core_init path o2) as [o4 [[]|e|e]]; [|done..]. by injection Ec as -> _ ->. }
  assert (OwnerFolder (rl_path r0) "") as Hroot by (rewrite Hrp; apply root_folder).
  destruct (path_leads _ _ _ _ _ _ Hroot Hc) as [L1 X1]. assert (OwnerFolder (rl_path r1) "") as Hroot1 by (destruct X1 as [-> _]; done).
  unfold workbook_new in Ew. unfold bind at 1 in Ew. unfold on_rels at 1 in Ew. cbn [fst snd] in Ew.
  destruct (part_path c_workbook None r1) as [r2 [path|e|e]] eqn:E0; [|done..]. destruct (path_leads _ _ _ _ _ _ Hroot1 E0) as [L2 X2].
  unfold bind at 1 in Ew. unfold on_office at 1 in Ew. cbn [fst snd] in Ew. destruct (get_xml_document workbook_init path o3) as [o4 [[]|e|e]]; [|done..].
  unfold bind at 1, lift at 1 in Ew. destruct (book_rels_path path) as [rp|e|e] eqn:Ep; [|done..].
  unfold bind at 1 in Ew. unfold on_office at 1 in Ew. cbn [fst snd] in Ew. destruct (rels_new rp o4) as [o5 [rels|e|e]] eqn:Er5; [|done..]. unfold bind at 1, get at 1 in Ew. cbn [fst snd] in Ew.
  destruct (rels_opened _ _ _ _ Er5) as (_ & _ & Hrp5 & _). pose proof (services_grown (rels, o5)) as (Hgp & _).
  destruct (bind theme_new _ (rels, o5)) as [[rels1 o6] [[[[theme x] c] y]|e|e]] eqn:Ev; [|done..]. cbn [fst snd] in *.
  unfold bind at 1, put at 1 in Ew. unfold bind at 1 in Ew. unfold on_office at 1 in Ew. cbn [fst snd] in Ew. destruct (with_doc path load_book o6) as [o7 [v|e|e]]; [|done..].
  destruct (default ([], None) v) as [sh vw]. injection Ew as <- <- <-. cbn [wb_rels] in Hf. rewrite Hgp in Hf.
  unfold bind at 1 in Ev. destruct (theme_new (rels, o5)) as [s1 [a|e|e]] eqn:E1; [|done..].
  unfold bind at 1 in Ev. destruct (sst_new s1) as [s2 [x'|e|e]] eqn:E2; [|done..].
  unfold bind at 1 in Ev. destruct (calc_new s2) as [s3 [c'|e|e]] eqn:E3; [|done..].
  unfold bind at 1 in Ev. destruct (style_new s3) as [s4 [y'|e|e]] eqn:E4; [|done..]. injection Ev as -> -> -> -> ->.
  apply theme_path in E1. cbn [fst] in E1. destruct (path_leads _ _ _ _ _ _ Hf E1) as (F1 & P1). rewrite <- (proj1 P1) in Hf.
  destruct (service_path c_share_string None sst_init load_strings (fun p l => mkSst (default [] l) p) s1 s2 x E2) as (p2 & l2 & Q2 & ->).
  destruct (path_leads _ _ _ _ _ _ Hf Q2) as (F2 & P2). rewrite <- (proj1 P2) in Hf.
  destruct (service_path c_calc_chain None calc_init load_calc (fun p l => mkCalc (default [] l) p) s2 s3 c E3) as (p3 & l3 & Q3 & ->).
  destruct (path_leads _ _ _ _ _ _ Hf Q3) as (F3 & P3). rewrite <- (proj1 P3) in Hf.
  destruct (service_path c_style None style_init load_styles (fun p l => mkStylePart (default no_styles l) p) s3 _ y E4) as (p4 & l4 & Q4 & ->).
  destruct (path_leads _ _ _ _ _ _ Hf Q4) as (F4 & P4). cbn [fst] in *.
  constructor; cbn [x_suite x_book su_root su_core wb_path wb_rels wb_theme wb_sst wb_calc wb_style ss_path cc_path sp_path].
  - destruct X2 as [-> _]. destruct X1 as [-> _]. done.
  - by eapply leads_extends.
  - done.
  - by rewrite Hgp, Hrp5.
  - eapply leads_extends; [exact P4|]. eapply leads_extends; [exact P3|]. by eapply leads_extends.
  - eapply leads_extends; [exact P4|]. by eapply leads_extends.
  - by eapply leads_extends.
  - done.
Qed.
(** ** A workbook that can be saved and opened again *)
Record Fit (x : excel) : Prop := {
  fi_root : RelsOpen (x_office x) (rl_path (su_root (x_suite x)));
  fi_core : exists t, CoreOpen (x_office x) (su_core (x_suite x)) t /\ t_children t <> [];
  fi_book : exists rest, BookOpen (x_office x) (wb_path (x_book x)) rest;
  fi_rels : RelsOpen (x_office x) (rl_path (wb_rels (x_book x)));
  fi_theme : exists p t, of_open (x_office x) !! wb_theme (x_book x) = Some p /\ Doc (op_doc p) t /\ names_ok t /\ ns_ok (d_ns (op_doc p)) /\ t_value t = None /\ t_children t <> [];
  fi_calc : PartOpen "c" (x_office x) (cc_path (wb_calc (x_book x)));
  fi_sst : PartOpen "si" (x_office x) (ss_path (wb_sst (x_book x)));
  fi_style : exists rest, StyleOpen (x_office x) (sp_path (wb_style (x_book x))) rest;
  fi_ratio : forall v, wb_view (x_book x) = Some v -> ratio_typed v;
  fi_typed : styles_typed (sp_styles (wb_style (x_book x)));
  fi_ways : Ways x;
}.
Lemma sturdy_doc o q init p0 e data : Source o init q p0 -> of_archive o !! q = Some e -> part_bytes e = Ok data -> Sturdy data ->
  exists g a cs, Doc (op_doc p0) (Node g (Some a) None cs) /\ names_ok (Node g (Some a) None cs) /\ ns_ok (d_ns (op_doc p0)) /\ cs <> [] /\ ReadsIn data (Node g (Some a) None cs) (d_ns (op_doc p0)).
Proof.
  intros Hs He Hb (root & ns & Hr & Hv & Hc). destruct (reads_in _ _ _ Hr) as (d & Hrd & Hd & Hn & Ha & Hns & Hdn). pose proof (source_read _ _ _ _ _ _ _ Hs He Hb Hrd) as Hp.
  destruct root as [g a v cs]. cbn in Hv, Hc. subst v. apply attrs_present_node in Ha as [Ha _]. destruct a as [a|]; [|done]. exists g, a, cs. rewrite Hp, Hdn. done.
Qed.
Lemma names_others g a cs tags : names_ok (Node g a None cs) -> names_ok (Node g a None (others tags (Node g a None cs))).
Proof.
  intros (H1 & H2 & H3)%names_ok_node. apply names_ok_node. split; [done|]. split; [done|]. rewrite Forall_forall in H3. apply Forall_forall.
  intros t Ht. apply H3. by apply elem_of_list_filter in Ht as [_ Ht].
Qed.
End with_env.
Section sessions.
Context `{E : Env} `{HH : Hashes}.
Theorem fit_opened file fs l x : Stored fs file l -> excel_new (Some file) fs = Ok x -> Orderly l x -> Fit x.
Proof.
  intros Hst Hx [O1 O2 O3 O4 O5 [folder O6]]. destruct (sources_opened _ _ _ Hx) as (o & Ho & S). destruct (sources_docs _ _ _ Hx) as (o' & Ho' & DS). rewrite Ho in Ho'. injection Ho' as <-.
  destruct (table_source _ _ _ Hx) as (o' & Ho' & T). rewrite Ho in Ho'. injection Ho' as <-.
  destruct (reopened_file _ _ _ _ Hst Ho) as (_ & Hparts & Hno).
  assert (forall q init p0, q ∈ basic_parts x ++ other_parts x -> q ∈ l.*1 -> Source o init q p0 -> exists g a cs, Doc (op_doc p0) (Node g (Some a) None cs) /\ names_ok (Node g (Some a) None cs)
    /\ ns_ok (d_ns (op_doc p0)) /\ cs <> [] /\ exists data, (q, data) ∈ l /\ ReadsIn data (Node g (Some a) None cs) (d_ns (op_doc p0))) as Hd.
  { intros q init p0 Hq Hl Hs. apply elem_of_list_fmap in Hl as ([q' data] & -> & Hin). cbn [fst] in *. destruct (Hparts q' data) as (e & He & Hb); [intros ->; by apply O2|done|].
    destruct (sturdy_doc _ _ _ _ _ _ Hs He Hb) as (g & a & cs & H1 & H2 & H3 & H4 & H5); [by apply (O4 q')|]. exists g, a, cs. split_and!; [done..|]. by exists data. }
  assert (forall q, q ∈ basic_parts x -> q ∈ basic_parts x ++ other_parts x /\ q ∈ l.*1) as Hbasic by (intros q Hq; split; [apply elem_of_app; by left|by apply O3]).
  destruct S as [Sb Sr St Ss Sc Sf]. destruct DS as [Dp Dr Dn Dc _].
  constructor.
  - destruct Dr as (p0 & d' & l' & new & Hs & Hl & Hop & _). destruct (Hbasic root_part) as [B1 B2]; [by left|]. destruct (Hd _ _ _ B1 B2 Hs) as (g & a & cs & H1 & H2 & H3 & _).
    destruct (Doc_load_relations _ _ _ _ _ H1) as (d1 & Hl1 & Hd1 & Hns1). rewrite Hl in Hl1. injection Hl1 as <- _.
    apply PartOpen_Doc. eexists _, _. split; [rewrite Dp; exact Hop|]. cbn [op_doc]. split; [exact Hd1|]. split; [by apply names_untagged|]. split; [by rewrite Hns1|]. split; [done|]. split; [done|]. apply untagged_none.
  - destruct Dc as (p0 & Hs & Hop). assert (su_core (x_suite x) ∈ basic_parts x ++ other_parts x) as Hq by (apply elem_of_app; right; by left).
    destruct (decide (su_core (x_suite x) ∈ l.*1)) as [Hin|Hin].
    + destruct (Hd _ _ _ Hq Hin Hs) as (g & a & cs & H1 & H2 & H3 & H4 & data & H5 & H6). pose proof (O5 _ _ _ H5 H6) as Hg. cbn in Hg.
      destruct H1 as (it & [R1 R2] & R3). exists (Node g (Some a) None cs). split; [|done]. exists p0, it. split; [exact Hop|]. by split_and!.
    + apply Hno in Hin. destruct Hs as [[_ Hi]|(e & data & He & _)]; [|congruence]. destruct core_template_doc as (d & t & Hr & Hd' & Hn & Hns & Ht & Hv & Hm).
      unfold core_init in Hi. rewrite Hr in Hi. cbn [rbind rmap] in Hi. injection Hi as <-. destruct Hd' as (it & [R1 R2] & R3). exists t. split.
      * eexists _, it. split; [exact Hop|]. cbn [op_doc]. by split_and!.
      * intros Hz. by rewrite Hz in Hm.
  - destruct Sb as (p0 & d' & Hs & Hl & Hop). destruct (Hbasic (wb_path (x_book x))) as [B1 B2]; [unfold basic_parts; rewrite !elem_of_cons; tauto|]. destruct (Hd _ _ _ B1 B2 Hs) as (g & a & cs & H1 & H2 & H3 & _).
    destruct (load_book_rest _ _ _ _ _ _ _ H1 Hl) as [Hd1 Hns1]. exists (others book_tags (Node g (Some a) None cs)).
    apply BookOpen_Doc. eexists _, (Node g (Some a) None (others book_tags (Node g (Some a) None cs))). split; [exact Hop|]. cbn [op_doc]. split; [rewrite others_rest; exact Hd1|]. split; [by apply names_others|]. split; [by rewrite Hns1|]. split; [done|]. split; [done|]. apply others_out.
  - destruct Sr as (p0 & d' & r & Hs & Hl & Hop & _). destruct (Hbasic (rl_path (wb_rels (x_book x)))) as [B1 B2]; [unfold basic_parts; rewrite !elem_of_cons; tauto|]. destruct (Hd _ _ _ B1 B2 Hs) as (g & a & cs & H1 & H2 & H3 & _).
    destruct (Doc_load_relations _ _ _ _ _ H1) as (d1 & Hl1 & Hd1 & Hns1). rewrite Hl in Hl1. injection Hl1 as <- _.
    apply PartOpen_Doc. eexists _, _. split; [exact Hop|]. cbn [op_doc]. split; [exact Hd1|]. split; [by apply names_untagged|]. split; [by rewrite Hns1|]. split; [done|]. split; [done|]. apply untagged_none.
  - destruct St as (p0 & Hs & Hop). destruct (Hbasic (wb_theme (x_book x))) as [B1 B2]; [unfold basic_parts; rewrite !elem_of_cons; tauto|]. destruct (Hd _ _ _ B1 B2 Hs) as (g & a & cs & H1 & H2 & H3 & H4 & _).
    exists p0, (Node g (Some a) None cs). done.
  - destruct Sc as (p0 & d' & Hs & Hl & Hop). destruct (Hbasic (cc_path (wb_calc (x_book x)))) as [B1 B2]; [unfold basic_parts; rewrite !elem_of_cons; tauto|]. destruct (Hd _ _ _ B1 B2 Hs) as (g & a & cs & H1 & H2 & H3 & _).
    destruct (Doc_load_calc _ _ _ _ _ H1) as (d1 & Hl1 & Hd1 & Hns1). rewrite Hl in Hl1. injection Hl1 as <- _.
    apply PartOpen_Doc. eexists _, _. split; [exact Hop|]. cbn [op_doc]. split; [exact Hd1|]. split; [by apply names_untagged|]. split; [by rewrite Hns1|]. split; [done|]. split; [done|]. apply untagged_none.
  - destruct T as (p0 & d' & Hs & Hl & Hop). destruct (sst_ready _ _ _ _ _ _ _ eq_refl Hs Hl Hop) as [R1 R2]. destruct (decide (ss_path (wb_sst (x_book x)) ∈ l.*1)) as [Hin|Hin].
    + apply elem_of_list_fmap in Hin as ([q data] & Hq & Hin). cbn [fst] in Hq. subst q. assert (ss_path (wb_sst (x_book x)) ∈ basic_parts x ++ other_parts x) as Hq by (apply elem_of_app; right; right; by left).
      destruct (Hparts _ _ ltac:(intros Hz; rewrite Hz in Hq; by apply O2) Hin) as (e & He & Hb). destruct (O4 _ _ Hq Hin) as (root & ns & (d & it & K1 & K2 & K3 & K4 & K5) & Hv & _).
      apply (R2 e data root He Hb); [|done]. exists d, it. rewrite K4. done.
    + by apply R1, Hno.
  - destruct Ss as (p0 & d' & Hs & Hl & Hop). destruct (Hbasic (sp_path (wb_style (x_book x)))) as [B1 B2]; [unfold basic_parts; rewrite !elem_of_cons; tauto|]. destruct (Hd _ _ _ B1 B2 Hs) as (g & a & cs & H1 & H2 & H3 & _).
    destruct (load_styles_rest _ _ _ _ _ _ _ H1 Hl) as [Hd1 Hns1]. exists (others style_tags (Node g (Some a) None cs)).
    apply StyleOpen_Doc. eexists _, (Node g (Some a) None (others style_tags (Node g (Some a) None cs))). split; [exact Hop|]. cbn [op_doc]. split; [rewrite others_styles; exact Hd1|]. split; [by apply names_others|]. split; [by rewrite Hns1|]. split; [done|]. split; [done|]. apply others_out.
  - destruct Sb as (p0 & d' & Hs & Hl & Hop). by eapply load_book_typed.
  - destruct Ss as (p0 & d' & Hs & Hl & Hop). by eapply load_styles_typed.
  - by eapply ways_opened.
Qed.
(** ** Values keep fitting their types, whatever the hashes *)
Lemma any_num_typed s l l' num on : num_for s l = Ok (l', num, on) -> Forall (fun n => nf_id n <= usize_max) l ->
  num <= u16_max /\ Forall (fun n => nf_id n <= usize_max) l'.
Proof.
  unfold num_for. destruct (se_num s); [intros [= <- <- <-] Hl; split; [unfold u16_max; lia|done]|]. destruct (se_code s); [|done].
  destruct (intern _ _ l) as [[l1 i] new] eqn:Ei. intros Hn Hl.
  assert (Forall (fun n => nf_id n <= usize_max) l1) as Hl1.
  { eapply intern_forall; [exact Ei| |done]. cbn. unfold usize_max. lia. }
  destruct new; [injection Hn as <- <- <-; split; [apply as_u16_max|done]|].
  destruct (u16_add env_mode (as_u16 i) 163) as [k| |] eqn:Hk; cbn [rmap rbind] in Hn; [|done|done]. injection Hn as <- <- <-.
  split; [by eapply u16_add_max|done].
Qed.
Lemma any_style_typed s st : se_size s <= u8_max -> styles_typed st -> styles_typed (get_style_id s st).1.
Proof.
  intros Hs Hty. destruct (get_style_id s st) as [st' r] eqn:Hg. cbn [fst].
  destruct (num_for s (st_nums st)) as [[[l num] on]|e|e] eqn:Hn; unfold get_style_id in Hg; rewrite Hn in Hg; [|by injection Hg as <- <-..].
  destruct Hty as (Y1 & Y2 & Y3 & Y4). destruct (any_num_typed _ _ _ _ _ Hn Y1) as [Hnum Yl].
  destruct (intern hash_font _ _) as [[fonts fo] fon] eqn:E1. destruct (intern hash_fill _ _) as [[fills fi] fin] eqn:E2.
  destruct (intern hash_border _ _) as [[borders bo] bon] eqn:E3.
  match type of Hg with context [intern hash_xf ?x (st_style_xfs st)] => destruct (intern hash_xf x (st_style_xfs st)) as [[sxfs sx] sxn] eqn:E4 end.
  match type of Hg with context [intern hash_xf ?x (st_cell_xfs st)] => destruct (intern hash_xf x (st_cell_xfs st)) as [[xfs ix] ixn] eqn:E5 end.
  injection Hg as <- <-. unfold styles_typed. cbn [st_nums st_fonts st_style_xfs st_cell_xfs]. split_and!.
  - done.
  - eapply intern_forall; [exact E1| |done]. split; [done|]. cbn. unfold u32_max. lia.
  - eapply intern_forall; [exact E4| |done]. unfold xf_typed. cbn. pose proof as_u16_max. split_and!; auto; unfold u16_max; lia.
  - eapply intern_forall; [exact E5| |done]. unfold xf_typed. cbn. pose proof as_u16_max. split_and!; auto; unfold u16_max; lia.
Qed.
Lemma any_run_typed reqs : forall st, Forall (fun s => se_size s <= u8_max) reqs -> styles_typed st -> styles_typed (style_run reqs st).1.
Proof.
  induction reqs as [|s reqs IH]; intros st Hf Hty; [done|]. rewrite style_run_cons. cbn [fst]. inversion_clear Hf. apply IH; [done|]. by apply any_style_typed.
Qed.
(** ** Any calls leave it so *)
Lemma leads_evolved r r' c p gone : Leads r c p -> Evolved (rl_rels r) gone r' -> rl_path r' = rl_path r ->
  (forall x, x ∈ rl_rels r -> r_type x = c_type c -> r_target x ∉ gone) -> Leads r' c p.
Proof.
  intros (x & Hf & Hr) (new & He & _) Hp Hg. exists x. split; [|by rewrite (resolve_same r r')]. rewrite He. apply find_app_some, find_kept; [done|].
  apply List.find_some in Hf as [H1 H2]. apply seqb_true in H2. apply Hg; [by apply elem_of_list_In|done].
Qed.
Lemma evolved_refl r : Evolved (rl_rels r) [] r.
Proof. exists []. split; [|by split]. rewrite app_nil_r. induction (rl_rels r) as [|y k IH]; [done|]. rewrite filter_cons_True; [by f_equal|]. by apply not_elem_of_nil. Qed.
Theorem fit_calls cs s s' : LInv s -> Fit s.1 -> calls cs s = Some s' -> Forall sized cs -> Spared s.1 (deleted cs s) -> Fit s'.1.
Proof.
  intros I F Hc Hsz Hsp. destruct (own_stays _ _ _ I Hc) as [Hown Hopen]. destruct (docs_stay _ _ _ I Hc) as (Hroot & Hcore & Hdocs). pose proof (calls_calc _ _ _ Hc) as Hcalc.
  destruct (table_stays _ _ _ I Hc) as (_ & Hss & _). unfold own_parts in Hown. injection Hown as W1 W2 W3 W4 W5 W6.
  assert (forall q, q ∈ own_parts (x_book s.1) -> of_open (x_office s'.1) !! q = of_open (x_office s.1) !! q) as Ho by done.
  assert (wb_path (x_book s.1) ∈ own_parts (x_book s.1) /\ rl_path (wb_rels (x_book s.1)) ∈ own_parts (x_book s.1) /\ wb_theme (x_book s.1) ∈ own_parts (x_book s.1)
    /\ cc_path (wb_calc (x_book s.1)) ∈ own_parts (x_book s.1) /\ ss_path (wb_sst (x_book s.1)) ∈ own_parts (x_book s.1) /\ sp_path (wb_style (x_book s.1)) ∈ own_parts (x_book s.1)) as (M1 & M2 & M3 & M4 & M5 & M6).
  { unfold own_parts. rewrite !elem_of_cons. tauto. }
  pose proof (calls_rels _ _ _ _ _ Hc (evolved_refl (wb_rels (x_book s.1)))) as Hev. cbn [app] in Hev.
  assert (forall c p, c_type c ∈ own_types -> Leads (wb_rels (x_book s.1)) c p -> Leads (wb_rels (x_book s'.1)) c p) as Hleads.
  { intros c p Hty Hl. eapply leads_evolved; [exact Hl|exact Hev|done|]. intros x Hx Hxt. apply Hsp; [done|by rewrite Hxt]. }
  assert (c_type c_theme ∈ own_types /\ c_type c_share_string ∈ own_types /\ c_type c_calc_chain ∈ own_types /\ c_type c_style ∈ own_types) as (T1 & T2 & T3 & T4).
  { unfold own_types. cbn [map]. rewrite !elem_of_cons. tauto. }
  destruct F as [F1 (t & F2 & F2') (rest & F3) F4 (pt & tt' & F5 & F5') F6 F7 (rest' & F8) F9 F10 [Y1 Y2 Y3 Y4 Y5 Y6 Y7 Y8]].
  constructor.
  - rewrite Hroot. eapply PartOpen_at; [|exact F1]. apply Hdocs. by left.
  - exists t. split; [|done]. rewrite Hcore. eapply CoreOpen_at; [|exact F2]. apply Hdocs. right. by left.
  - exists rest. rewrite W1. destruct F3 as (p & it & Hp & Hrest). exists p, it. by rewrite Ho.
  - rewrite W2. eapply PartOpen_at; [by apply Ho|exact F4].
  - exists pt, tt'. rewrite W3. by rewrite Ho.
  - rewrite W4. eapply PartOpen_at; [by apply Ho|exact F6].
  - rewrite W5. eapply PartOpen_at; [by apply Ho|exact F7].
  - exists rest'. rewrite W6. destruct F8 as (p & it & Hp & Hrest). exists p, it. by rewrite Ho.
  - intros v Hv. pose proof (calls_view _ _ _ Hc) as Hva. unfold ratio_typed.
    assert (bv_ratio v = bv_ratio (default book_view_default (wb_view (x_book s.1)))) as ->.
    { destruct Hva as [[_ Hva]|(_ & w & Hva & Hw)]; [by rewrite <- Hva, Hv|]. rewrite Hv in Hva. injection Hva as <-. cbn zeta in Hw. by destruct Hw as (_ & _ & _ & _ & _ & _ & _ & Hw & _). }
    destruct (wb_view (x_book s.1)) as [v0|]; [by apply F9|by vm_compute].
  - rewrite (calls_styles _ _ _ Hc). apply any_run_typed; [|done]. clear -Hsz. induction Hsz as [|c cs H _ IH]; [constructor|]. cbn [omap list_omap]. destruct c; cbn; try done. by constructor.
  - constructor; rewrite ?Hroot, ?Hcore, ?W1, ?W2, ?W3, ?W4, ?W5, ?W6; auto.
Qed.
End sessions.

(** ** Saving and opening *)
Section saving.
Context `{E : Env}.
(** The part [q] is in the archive with the bytes of [e], and not open. *)
Definition Lies (o : office) (q : string) (e : entry) : Prop := of_open o !! q = None /\ exists e', of_archive o !! q = Some e' /\ part_bytes e' = part_bytes e.
(** Opening [q] leaves the rest. *)
Definition Only (q : string) (o o' : office) : Prop := of_archive o' = delete q (of_archive o) /\ forall k, k <> q -> of_open o' !! k = of_open o !! k.
Lemma lies_only q o o' k e : Only q o o' -> k <> q -> Lies o k e -> Lies o' k e.
Proof. intros [H1 H2] Hk [L1 (e' & L2 & L3)]. split; [by rewrite H2|]. exists e'. by rewrite H1, lookup_delete_ne by congruence. Qed.
Definition Closed (o : office) (q : string) (e : entry) : Prop := of_open o !! q = None /\ of_archive o !! q = Some e.
Lemma written_closed o o' q (m : M office unit) : WrittenBy o o' q m ->
  exists o1, of_open o1 !! q = of_open o !! q /\ forall e, m o1 = (mkOffice (delete q (of_open o1)) (<[q := e]> (of_archive o1)), Ok tt) -> Closed o' q e.
Proof.
  intros (o1 & o2 & H1 & H2 & H3). exists o1. split; [done|]. intros e He. rewrite He in H2. injection H2 as <-. destruct H3 as [K1 K2]; [cbn; apply lookup_delete|].
  split; [done|]. rewrite K2. cbn. apply lookup_insert.
Qed.
Definition RelsBack (q : string) (rels : list rel) (e : entry) : Prop :=
  forall o, Lies o q e -> exists o', rels_new q o = (o', Ok (mkRelations (map escaped_rel rels) q)) /\ RelsOpen o' q /\ Only q o o'.
Lemma rels_back o r : RelsOpen o (rl_path r) -> rl_rels r <> [] -> exists e, rels_close r o = (mkOffice (delete (rl_path r) (of_open o)) (<[rl_path r := e]> (of_archive o)), Ok tt) /\ RelsBack (rl_path r) (rl_rels r) e.
Proof.
  intros Ho Hr. destruct (rels_roundtrip _ _ Ho Hr) as (e & Hc & Hb). exists e. split; [done|]. intros o2 [L1 (e2 & L2 & L3)]. destruct (Hb o2 e2 L1 L2 L3) as (o3 & H1 & H2 & H3 & H4). by exists o3.
Qed.
Definition CoreBack (q : string) (e : entry) : Prop :=
  forall o, Lies o q e -> exists o' t, get_xml_document core_init q o = (o', Ok tt) /\ CoreOpen o' q t /\ t_children t <> [] /\ Only q o o'.
Lemma core_back o q t n : CoreOpen o q t -> t_children t <> [] -> exists e, core_flush n q o = (mkOffice (delete q (of_open o)) (<[q := e]> (of_archive o)), Ok tt) /\ CoreBack q e.
Proof.
  intros Ho Hr. destruct (core_flush_spec _ _ _ n Ho Hr) as (e & Hf & Hc). destruct (core_roundtrip _ _ _ (ck_1 n) (ck_2 n) Ho Hr) as (e' & Hc' & _ & Hb). rewrite Hc in Hc'.
  assert (e' = e) as ->. { injection Hc' as Hc'. apply (f_equal (lookup q)) in Hc'. rewrite !lookup_insert in Hc'. congruence. }
  exists e. split; [done|]. intros o2 [L1 (e2 & L2 & L3)]. destruct (Hb o2 e2 L1 L2 L3) as (o3 & t1 & H1 & H2 & H3 & H4 & H5 & _). exists o3, t1. done.
Qed.
Definition BookBack (q : string) (view : option book_view) (l : list sheet) (e : entry) : Prop :=
  forall o, Lies o q e -> exists p, get_xml_document workbook_init q o = (mkOffice (<[q := p]> (of_open o)) (delete q (of_archive o)), Ok tt)
  /\ forall o', of_open o' !! q = Some p -> exists o2 rest, with_doc q load_book o' = (o2, Ok (Some (map book_sheet_back l, book_view_back <$> view))) /\ BookOpen o2 q rest
    /\ of_archive o2 = of_archive o' /\ forall k, k <> q -> of_open o2 !! k = of_open o' !! k.
Lemma book_back o q rest view l : BookOpen o q rest -> (forall v, view = Some v -> ratio_typed v) ->
  exists e, book_part_close q view l o = (mkOffice (delete q (of_open o)) (<[q := e]> (of_archive o)), Ok tt) /\ BookBack q view l e.
Proof.
  intros Ho Hv. destruct (book_roundtrip _ _ _ _ l Ho Hv) as (e & p & g & a & cs & _ & Hc & _ & _ & _ & _ & _ & _ & _ & Hb). exists e. split; [done|].
  intros o2 [L1 (e2 & L2 & L3)]. destruct (Hb o2 e2 workbook_init L1 L2 L3) as (p3 & H1 & H2). exists p3. split; [done|]. intros o4 H4. destruct (H2 o4 H4) as (o5 & rest' & K1 & K2 & _ & K3 & K4). by exists o5, rest'.
Qed.
Definition ThemeBack (q : string) (e : entry) : Prop :=
  forall o, Lies o q e -> exists o' p t, get_xml_document theme_init q o = (o', Ok tt) /\ of_open o' !! q = Some p /\ Doc (op_doc p) t /\ names_ok t /\ ns_ok (d_ns (op_doc p)) /\ t_value t = None /\ t_children t <> [] /\ Only q o o'.
Lemma theme_back o q p t : of_open o !! q = Some p -> Doc (op_doc p) t -> names_ok t -> ns_ok (d_ns (op_doc p)) -> t_value t = None -> t_children t <> [] ->
  exists e, theme_close q o = (mkOffice (delete q (of_open o)) (<[q := e]> (of_archive o)), Ok tt) /\ ThemeBack q e.
Proof.
  intros Hp Hd Hn Hns Hv Hc. destruct (close_doc _ _ _ _ Hp Hd) as (e & Hcl & _ & _ & _ & Hb). exists e. split; [done|]. intros o2 [L1 (e2 & L2 & L3)]. rewrite Hb in L3.
  destruct (open_doc _ _ _ _ _ theme_init L1 L2 L3 Hn Hns) as (d & Hg & Hd' & Hns'); [by right|]. eexists _, _, (reread t). split; [exact Hg|]. split; [cbn; apply lookup_insert|]. cbn [op_doc].
  split; [done|]. split; [by apply names_ok_reread|]. split; [rewrite Hns'; by apply ns_ok_written|]. destruct t as [g a v cs]. cbn in Hv, Hc. subst v. cbn [reread t_value t_children].
  split; [done|]. split; [by destruct cs|]. split; [done|]. intros k Hk. cbn. by rewrite lookup_insert_ne by congruence.
Qed.
Definition ChainBack (q : string) (l : list calc_entry) (e : entry) : Prop :=
  forall o r, part_path c_calc_chain None r = (r, Ok q) -> Lies o q e -> exists o', calc_new (r, o) = ((r, o'), Ok (mkCalc (map escaped_calc l) q)) /\ PartOpen "c" o' q /\ Only q o o'.
Lemma chain_back o c : PartOpen "c" o (cc_path c) -> cc_entries c <> [] ->
  exists e, chain_close c o = (mkOffice (delete (cc_path c) (of_open o)) (<[cc_path c := e]> (of_archive o)), Ok tt) /\ ChainBack (cc_path c) (cc_entries c) e.
Proof.
  intros Ho Hc. destruct (calc_roundtrip o (mkRelations [] "") c Ho Hc) as (e & Hcl & Hb). exists e. split.
  - unfold calc_close in Hcl. unfold chain_close. destruct (cc_entries c) as [|x l]; [done|]. unfold bind, on_office in *. cbn [fst snd] in Hcl.
    destruct (with_doc _ _ o) as [o1 [a|m|m]]; [|done..]. cbn [fst snd] in Hcl. destruct (close_xml_document _ o1) as [o2 r2]. by injection Hcl as -> ->.
  - intros o2 r Hr [L1 (e2 & L2 & L3)]. destruct (Hb r r o2 e2 Hr L1 L2 L3) as (o3 & H1 & H2 & H3 & H4). by exists o3.
Qed.
Definition TableBack (q : string) (l : list string) (e : entry) : Prop :=
  forall o r, part_path c_share_string None r = (r, Ok q) -> Lies o q e -> exists o', sst_new (r, o) = ((r, o'), Ok (mkSst (map trim l) q)) /\ PartOpen "si" o' q /\ Only q o o'.
Lemma table_back o c : PartOpen "si" o (ss_path c) -> ss_strings c <> [] ->
  exists e, table_close c o = (mkOffice (delete (ss_path c) (of_open o)) (<[ss_path c := e]> (of_archive o)), Ok tt) /\ TableBack (ss_path c) (ss_strings c) e.
Proof.
  intros Ho Hc. destruct (sst_roundtrip o (mkRelations [] "") c Ho Hc) as (e & _ & _ & _ & _ & Hcl & _ & _ & Hb). exists e. split.
  - unfold sst_close in Hcl. unfold table_close. destruct (ss_strings c) as [|x l]; [done|]. unfold bind, on_office in *. cbn [fst snd] in Hcl.
    destruct (with_doc _ _ o) as [o1 [a|m|m]]; [|done..]. cbn [fst snd] in Hcl. destruct (close_xml_document _ o1) as [o2 r2]. by injection Hcl as -> ->.
  - intros o2 r Hr [L1 (e2 & L2 & L3)]. destruct (Hb r r o2 e2 Hr L1 L2 L3) as (o3 & H1 & H2 & H3 & H4). by exists o3.
Qed.
Definition StyleBack (q : string) (st : styles) (e : entry) : Prop :=
  forall o r, part_path c_style None r = (r, Ok q) -> Lies o q e -> exists o' rest, style_new (r, o) = ((r, o'), Ok (mkStylePart (back_styles st) q)) /\ StyleOpen o' q rest /\ Only q o o'.
Lemma style_back o sp rest : StyleOpen o (sp_path sp) rest -> styles_typed (sp_styles sp) ->
  exists e, style_close sp o = (mkOffice (delete (sp_path sp) (of_open o)) (<[sp_path sp := e]> (of_archive o)), Ok tt) /\ StyleBack (sp_path sp) (sp_styles sp) e.
Proof.
  intros Ho Hc. destruct (style_roundtrip _ _ _ Ho Hc) as (e & Hcl & _ & Hb). exists e. split; [done|].
  intros o2 r Hr [L1 (e2 & L2 & L3)]. destruct (Hb r r o2 e2 Hr L1 L2 L3) as (o3 & H1 & H2 & H3 & H4). by exists o3, (map reread rest).
Qed.
(** The parts as they are after saving. *)
Record Rested (x : excel) (o : office) : Prop := {
  rs_root : exists e, Closed o (rl_path (su_root (x_suite x))) e /\ RelsBack (rl_path (su_root (x_suite x))) (rl_rels (su_root (x_suite x))) e;
  rs_core : exists e, Closed o (su_core (x_suite x)) e /\ CoreBack (su_core (x_suite x)) e;
  rs_book : exists e, Closed o (wb_path (x_book x)) e /\ BookBack (wb_path (x_book x)) (wb_view (x_book x)) (wb_sheets (x_book x)) e;
  rs_rels : exists e, Closed o (rl_path (wb_rels (x_book x))) e /\ RelsBack (rl_path (wb_rels (x_book x))) (rl_rels (wb_rels (x_book x))) e;
  rs_theme : exists e, Closed o (wb_theme (x_book x)) e /\ ThemeBack (wb_theme (x_book x)) e;
  rs_calc : exists e, Closed o (cc_path (wb_calc (x_book x))) e /\ ChainBack (cc_path (wb_calc (x_book x))) (cc_entries (wb_calc (x_book x))) e;
  rs_sst : exists e, Closed o (ss_path (wb_sst (x_book x))) e /\ TableBack (ss_path (wb_sst (x_book x))) (ss_strings (wb_sst (x_book x))) e;
  rs_style : exists e, Closed o (sp_path (wb_style (x_book x))) e /\ StyleBack (sp_path (wb_style (x_book x))) (sp_styles (wb_style (x_book x))) e;
}.
Theorem rested t f path s fs tr : LInv s -> Fit s.1 -> cc_entries (wb_calc (x_book s.1)) <> [] -> ss_strings (wb_sst (x_book s.1)) <> [] ->
  excel_save t f path s.1 fs = (tr, Ok tt) -> exists o o', Rested s.1 o /\ office_save f path o fs = (o', (tr, Ok tt)).
Proof.
  intros I [F1 (tc & F2 & F2') (rest & F3) F4 (pt & th & F5 & F5a & F5b & F5c & F5d & F5e) F6 F7 (rest' & F8) F9 F10 [Y1 Y2 Y3 Y4 Y5 Y6 Y7 Y8]] Hcc Hss Hsave.
  unfold excel_save in Hsave. set (x := s.1) in *. set (b := x_book x) in *. pose proof (li_nodup _ I) as Hnd. unfold held in Hnd. fold x b in Hnd. apply NoDup_app in Hnd as (Hown & Hdis & Hnd2).
  apply NoDup_app in Hnd2 as (Hdocs & _ & _). pose proof (flush_keeps b (x_office x)) as Kf.
  destruct (wb_flush b (x_office x)) as [o0 [[]|e|e]] eqn:Ef; [|done..]. cbn [fst] in Kf. apply flushed in Ef; [|done].
  assert (forall q, q ∈ own_parts b -> q <> su_core (x_suite x) /\ q <> rl_path (su_root (x_suite x))) as Hne.
  { intros q Hq. specialize (Hdis _ Hq). rewrite elem_of_app in Hdis. assert (q ∉ DocsIn (x_suite x)) as Hd by tauto. unfold DocsIn in Hd. rewrite !not_elem_of_cons in Hd. tauto. }
  assert (forall q, q ∈ DocsIn (x_suite x) -> of_open o0 !! q = of_open (x_office x) !! q) as Hdoc.
  { intros q Hq. destruct (Kf q) as [K _]; [|done]. intros Hin. apply (Hdis _ Hin), elem_of_app. by left. }
  unfold suite_save in Hsave. unfold bind at 1 in Hsave. cbn [su_core su_root su_office] in Hsave.
  destruct (core_back o0 (su_core (x_suite x)) tc t) as (ec & Hcf & Hcb); [eapply CoreOpen_at; [apply Hdoc; right; by left|done]|done|]. rewrite Hcf in Hsave. set (o1 := mkOffice _ _) in *.
  assert (su_core (x_suite x) <> rl_path (su_root (x_suite x))) as Hcr. { unfold DocsIn in Hdocs. rewrite !NoDup_cons, !not_elem_of_cons in Hdocs. destruct_and! Hdocs. congruence. }
  destruct (rels_back o1 (su_root (x_suite x))) as (er & Hrf & Hrb).
  { eapply PartOpen_at; [|exact F1]. unfold o1. cbn [of_open]. rewrite lookup_delete_ne by congruence. apply Hdoc. by left. }
  { by eapply leads_some. }
  rewrite Hrf in Hsave. cbn iota in Hsave. match type of Hsave with context [office_save f path ?o fs] => set (o2 := o) in * end. destruct (office_save f path o2 fs) as [o3 [tr3 r3]] eqn:Ho. cbn [snd] in Hsave. injection Hsave as -> ->.
  assert (forall q e, q ∈ own_parts b -> Closed o0 q e -> Closed o2 q e) as Hc2.
  { intros q e Hq [H1 H2]. destruct (Hne _ Hq) as [N1 N2]. unfold o2, o1. split; cbn [of_open of_archive]; [by rewrite !lookup_delete_ne by congruence|by rewrite !lookup_insert_ne by congruence]. }
  assert (wb_path b ∈ own_parts b /\ rl_path (wb_rels b) ∈ own_parts b /\ wb_theme b ∈ own_parts b /\ cc_path (wb_calc b) ∈ own_parts b /\ ss_path (wb_sst b) ∈ own_parts b /\ sp_path (wb_style b) ∈ own_parts b) as (M1 & M2 & M3 & M4 & M5 & M6).
  { unfold own_parts. rewrite !elem_of_cons. tauto. }
  assert (emptied b (wb_rels b) = wb_rels b) as Hem. { unfold emptied. by destruct (cc_entries _), (ss_strings _). }
  destruct Ef as [L1 L2 L3 L4 L5 L6]. rewrite Hem in L4. specialize (L1 Hcc). specialize (L6 Hss). exists o2, o3. split; [|done]. constructor; fold b.
  - exists er. split; [|done]. unfold o2. split; cbn; [apply lookup_delete|apply lookup_insert].
  - exists ec. split; [|done]. unfold o2, o1. split; cbn; [rewrite lookup_delete_ne by congruence; apply lookup_delete|rewrite lookup_insert_ne by congruence; apply lookup_insert].
  - destruct (written_closed _ _ _ _ L5) as (o4 & H4 & Hcl). destruct (book_back o4 (wb_path b) rest (wb_view b) (wb_sheets b)) as (e & Hw & Hb); [|done|exists e; split; [by apply Hc2, Hcl|done]].
    destruct F3 as (p & it & Hp & Hr). exists p, it. by rewrite H4.
  - destruct (written_closed _ _ _ _ L4) as (o4 & H4 & Hcl). destruct (rels_back o4 (wb_rels b)) as (e & Hw & Hb); [by eapply PartOpen_at|by eapply leads_some|exists e; split; [by apply Hc2, Hcl|done]].
  - destruct (written_closed _ _ _ _ L2) as (o4 & H4 & Hcl). destruct (theme_back o4 (wb_theme b) pt th) as (e & Hw & Hb); [by rewrite H4|done..|exists e; split; [by apply Hc2, Hcl|done]].
  - destruct (written_closed _ _ _ _ L1) as (o4 & H4 & Hcl). destruct (chain_back o4 (wb_calc b)) as (e & Hw & Hb); [by eapply PartOpen_at|done|exists e; split; [by apply Hc2, Hcl|done]].
  - destruct (written_closed _ _ _ _ L6) as (o4 & H4 & Hcl). destruct (table_back o4 (wb_sst b)) as (e & Hw & Hb); [by eapply PartOpen_at|done|exists e; split; [by apply Hc2, Hcl|done]].
  - destruct (written_closed _ _ _ _ L3) as (o4 & H4 & Hcl). destruct (style_back o4 (wb_style b) rest') as (e & Hw & Hb); [|done|exists e; split; [by apply Hc2, Hcl|done]].
    destruct F8 as (p & it & Hp & Hr). exists p, it. by rewrite H4.
Qed.
(** What was read back has the types, too. *)
Lemma back_typed st : styles_typed st -> styles_typed (back_styles st).
Proof.
  intros (Y1 & Y2 & Y3 & Y4). unfold back_styles. split_and!; cbn [st_nums st_fonts st_style_xfs st_cell_xfs].
  - apply Forall_fmap. eapply Forall_impl; [exact Y1|]. done.
  - apply Forall_fmap. eapply Forall_impl; [exact Y2|]. done.
  - apply Forall_fmap. eapply Forall_impl; [exact Y3|]. intros x (H1 & H2 & H3 & H4 & H5). by split_and!.
  - done.
Qed.
Lemma view_typed v : ratio_typed v -> ratio_typed (book_view_back v).
Proof. unfold ratio_typed. cbn [bv_ratio book_view_back]. destruct (bv_group v) as [[]|]; done. Qed.
Theorem reopens f path o o' fs tr fs' x : Rested x o -> office_save f path o fs = (o', (tr, Ok tt)) -> last tr = Some fs' -> Ways x ->
  NoDup (own_parts (x_book x) ++ DocsIn (x_suite x)) -> (forall q, q ∈ basic_parts x ++ other_parts x -> plain_text q) ->
  styles_typed (sp_styles (wb_style (x_book x))) -> (forall v, wb_view (x_book x) = Some v -> ratio_typed v) ->
  exists x1, excel_new (Some path) fs' = Ok x1 /\ Reopened x x1 /\ Fit x1.
Proof.
  intros [(e1 & C1 & B1) (e2 & C2 & B2) (e3 & C3 & B3) (e4 & C4 & B4) (e5 & C5 & B5) (e6 & C6 & B6) (e7 & C7 & B7) (e8 & C8 & B8)] Hsave Hl [Y1 Y2 Y3 Y4 Y5 Y6 Y7 Y8] Hnd Hpl Hty Hvw.
  destruct (office_reopens _ _ _ _ _ _ _ _ _ Hsave Hl (proj1 C1) (proj2 C1)) as [p0 Hnew]. destruct (save_reopen _ _ _ _ _ _ _ _ Hsave Hl Hnew) as [Hop _].
  assert (forall q e, Closed o q e -> Lies p0 q e) as Hlies.
  { intros q e [H1 H2]. split; [by rewrite Hop, lookup_empty|]. eapply save_reopen_closed; [exact Hsave|exact Hl|exact Hnew| |done|done]. intros ->.
    destruct (saved_file _ _ _ _ _ _ _ Hsave Hl) as (l & _ & _ & _ & Hct). unfold part_data in Hct. rewrite H1, H2 in Hct. by destruct (part_bytes e). }
  apply Hlies in C1, C2, C3, C4, C5, C6, C7, C8. clear Hlies.
  unfold own_parts, DocsIn in Hnd. cbn [app] in Hnd. unfold basic_parts, other_parts in Hpl. cbn [app] in Hpl.
  set (b := x_book x) in *. set (q1 := rl_path (su_root (x_suite x))) in *. set (q2 := su_core (x_suite x)) in *. set (q3 := wb_path b) in *. set (q4 := rl_path (wb_rels b)) in *.
  set (q5 := wb_theme b) in *. set (q6 := cc_path (wb_calc b)) in *. set (q7 := ss_path (wb_sst b)) in *. set (q8 := sp_path (wb_style b)) in *.
  rewrite !NoDup_cons, !not_elem_of_cons in Hnd. destruct_and! Hnd.
  assert (plain_text q1 /\ plain_text q2 /\ plain_text q3 /\ plain_text q4 /\ plain_text q5 /\ plain_text q6 /\ plain_text q7 /\ plain_text q8) as (P1 & P2 & P3 & P4 & P5 & P6 & P7 & P8).
  { split_and!; apply Hpl; rewrite ?Y1, !elem_of_cons; tauto. }
  (* the root relationships *)
  destruct (B1 p0 C1) as (p1 & R1 & O1 & S1). apply (lies_only _ _ _ _ _ S1) in C2, C3, C4, C5, C6, C7, C8; [|congruence..].
  set (root := mkRelations (map escaped_rel (rl_rels (su_root (x_suite x)))) q1) in *.
  pose proof (leads_escaped _ c_core _ ltac:(by vm_compute) P2 Y2) as Z2. pose proof (leads_escaped _ c_workbook _ ltac:(by vm_compute) P3 Y3) as Z3. fold q1 in Z2, Z3. fold root in Z2, Z3.
  (* the document properties *)
  destruct (B2 p1 C2) as (p2 & tc & R2 & O2 & N2 & S2). apply (lies_only _ _ _ _ _ S2) in C3, C4, C5, C6, C7, C8; [|congruence..].
  (* the workbook *)
  destruct (B3 p2 C3) as (pb & R3 & L3). set (p3 := mkOffice _ _) in R3. assert (Only q3 p2 p3) as S3. { split; [done|]. intros k Hk. cbn. by rewrite lookup_insert_ne by congruence. }
  apply (lies_only _ _ _ _ _ S3) in C4, C5, C6, C7, C8; [|congruence..].
  destruct (B4 p3 C4) as (p4 & R4 & O4 & S4). apply (lies_only _ _ _ _ _ S4) in C5, C6, C7, C8; [|congruence..].
  set (rels := mkRelations (map escaped_rel (rl_rels (wb_rels b))) q4) in *.
  pose proof (leads_escaped _ c_theme _ ltac:(by vm_compute) P5 Y5) as Z5. pose proof (leads_escaped _ c_calc_chain _ ltac:(by vm_compute) P6 Y7) as Z6.
  pose proof (leads_escaped _ c_share_string _ ltac:(by vm_compute) P7 Y6) as Z7. pose proof (leads_escaped _ c_style _ ltac:(by vm_compute) P8 Y8) as Z8.
  fold q4 in Z5, Z6, Z7, Z8. fold rels in Z5, Z6, Z7, Z8.
  (* the parts of the workbook *)
  destruct (B5 p4 C5) as (p5 & pt & th & R5 & O5 & D5 & N5 & M5 & V5 & K5 & S5). apply (lies_only _ _ _ _ _ S5) in C6, C7, C8; [|congruence..].
  destruct (B7 p5 rels (leads_path _ _ _ _ Z7) C7) as (p7 & R7 & O7 & S7). apply (lies_only _ _ _ _ _ S7) in C6, C8; [|congruence..].
  destruct (B6 p7 rels (leads_path _ _ _ _ Z6) C6) as (p6 & R6 & O6 & S6). apply (lies_only _ _ _ _ _ S6) in C8; [|congruence..].
  destruct (B8 p6 rels (leads_path _ _ _ _ Z8) C8) as (p8 & rest8 & R8 & O8 & S8).
  destruct (L3 p8) as (p9 & rest3 & R9 & O9 & A9 & S9).
  { destruct S8 as [_ ->]; [|congruence]. destruct S6 as [_ ->]; [|congruence]. destruct S7 as [_ ->]; [|congruence]. destruct S5 as [_ ->]; [|congruence]. destruct S4 as [_ ->]; [|congruence]. cbn. apply lookup_insert. }
  set (b1 := mkBook q3 (mkCalc (map escaped_calc (cc_entries (wb_calc b))) q6) (mkSst (map trim (ss_strings (wb_sst b))) q7) (mkStylePart (back_styles (sp_styles (wb_style b))) q8) rels q5
    (map book_sheet_back (wb_sheets b)) (book_view_back <$> wb_view b)).
  exists (mkExcel (mkSuite p9 root q2) b1). split; [|split].
  - unfold excel_new, suite_new. rewrite Hnew. cbn [rbind]. change "_rels/.rels" with root_part. rewrite <- Y1, R1.
    unfold core_new. unfold bind at 1, on_rels at 1. cbn [fst snd]. rewrite (leads_path _ _ None _ Z2). unfold bind at 1, on_office at 1. cbn [fst snd]. rewrite R2. cbn [ret rbind su_root su_office su_core].
    unfold ret. cbn [rbind su_root su_office su_core]. unfold workbook_new. unfold bind at 1, on_rels at 1. cbn [fst snd]. rewrite (leads_path _ _ None _ Z3).
    unfold bind at 1, on_office at 1. cbn [fst snd]. rewrite R3. unfold bind at 1, lift at 1. rewrite Y4. unfold bind at 1, on_office at 1. cbn [fst snd]. rewrite R4. unfold bind at 1, get at 1. cbn [fst snd].
    unfold bind at 1, theme_new. unfold bind at 1, on_rels at 1. cbn [fst snd]. rewrite (leads_path _ _ _ _ Z5). unfold bind at 1, on_office at 1. cbn [fst snd]. rewrite R5. unfold ret at 1.
    unfold bind at 1. rewrite R7. unfold bind at 1. rewrite R6. unfold bind at 1. rewrite R8. unfold ret at 1. unfold bind at 1, put at 1. unfold bind at 1, on_office at 1. cbn [fst snd]. rewrite R9. done.
  - constructor; cbn [x_suite x_book su_root su_core wb_sheets wb_view wb_sst wb_calc wb_style wb_rels ss_strings cc_entries sp_styles rl_rels]; [|done..].
    done.
  - constructor; cbn [x_suite x_book su_root su_core su_office]; unfold x_office; cbn [x_suite su_office].
    + cbn [root rl_path]. eapply PartOpen_at; [|exact O1]. rewrite S9 by congruence. rewrite (proj2 S8), (proj2 S6), (proj2 S7), (proj2 S5), (proj2 S4), (proj2 S3), (proj2 S2) by congruence. done.
    + exists tc. split; [|done]. eapply CoreOpen_at; [|exact O2]. rewrite S9 by congruence. rewrite (proj2 S8), (proj2 S6), (proj2 S7), (proj2 S5), (proj2 S4), (proj2 S3) by congruence. done.
    + by exists rest3.
    + cbn [b1 wb_rels rels rl_path]. eapply PartOpen_at; [|exact O4]. rewrite S9 by congruence. rewrite (proj2 S8), (proj2 S6), (proj2 S7), (proj2 S5) by congruence. done.
    + exists pt, th. cbn [b1 wb_theme]. split; [|done]. rewrite S9 by congruence. rewrite (proj2 S8), (proj2 S6), (proj2 S7) by congruence. done.
    + cbn [b1 wb_calc cc_path]. eapply PartOpen_at; [|exact O6]. rewrite S9 by congruence. rewrite (proj2 S8) by congruence. done.
    + cbn [b1 wb_sst ss_path]. eapply PartOpen_at; [|exact O7]. rewrite S9 by congruence. rewrite (proj2 S8), (proj2 S6) by congruence. done.
    + exists rest8. cbn [b1 wb_style sp_path]. destruct O8 as (p & it & Hp & Hr). exists p, it. rewrite S9 by congruence. done.
    + cbn [b1 wb_view]. intros v Hv. destruct (wb_view b) as [v0|]; [|done]. injection Hv as <-. apply view_typed. by apply Hvw.
    + by apply back_typed.
    + by constructor.
Qed.
End saving.

(** ** Rounds *)
Section rounds.
Context `{E : Env} `{HH : Hashes}.
Lemma parts_stay x x' : own_parts (x_book x') = own_parts (x_book x) -> su_core (x_suite x') = su_core (x_suite x) -> basic_parts x' ++ other_parts x' = basic_parts x ++ other_parts x.
Proof. unfold own_parts, basic_parts, other_parts. intros H H'. injection H as -> -> -> -> -> ->. by rewrite H'. Qed.
Theorem round_opens r file fs0 x fs s fs1 : excel_new (Some file) fs0 = Ok x -> Fit x -> (forall q, q ∈ basic_parts x ++ other_parts x -> plain_text q) -> cc_entries (wb_calc (x_book x)) <> [] ->
  Worked r x fs s fs1 -> Sound r x s ->
  exists x1, excel_new (Some (ro_path r)) fs1 = Ok x1 /\ Reopened s.1 x1 /\ Fit x1 /\ basic_parts s.1 ++ other_parts s.1 = basic_parts x ++ other_parts x /\ wb_calc (x_book s.1) = wb_calc (x_book x).
Proof.
  intros Hx HF Hpl Hcc (Hc & tr & Hsave & Hl) (Hsz & Hsp & Hss). destruct (new_linv _ _ _ Hx) as [I _]. destruct (calls_effect _ _ _ I Hc) as [I' _].
  pose proof (fit_calls _ _ _ I HF Hc Hsz Hsp) as HF'. pose proof (calls_calc _ _ _ Hc) as Hca. cbn [fst] in Hca.
  destruct (own_stays _ _ _ I Hc) as [Hown _]. destruct (docs_stay _ _ _ I Hc) as (_ & Hcore & _). cbn [fst] in *. pose proof (parts_stay _ _ Hown Hcore) as Hparts.
  rewrite <- Hca in Hcc. destruct (rested _ _ _ _ _ _ I' HF' Hcc Hss Hsave) as (o & o' & Hr & Ho).
  destruct (reopens _ _ _ _ _ _ _ _ Hr Ho Hl (fi_ways _ HF')) as (x1 & H1 & H2 & H3).
  - pose proof (li_nodup _ I') as Hnd. unfold KeepFacts.held in Hnd. rewrite app_assoc in Hnd. by apply NoDup_app in Hnd as [Hnd _].
  - by rewrite Hparts.
  - apply (fi_typed _ HF').
  - apply (fi_ratio _ HF').
  - by exists x1.
Qed.
Theorem rounds_open rs r : forall file fs0 x0 fs x fs1 s fs2, excel_new (Some file) fs0 = Ok x0 -> Fit x0 -> (forall q, q ∈ basic_parts x0 ++ other_parts x0 -> plain_text q) -> cc_entries (wb_calc (x_book x0)) <> [] ->
  Rounds rs x0 fs x fs1 -> Worked r x fs1 s fs2 -> Sound r x s ->
  exists x1, excel_new (Some (ro_path r)) fs2 = Ok x1 /\ Reopened s.1 x1 /\ basic_parts x1 ++ other_parts x1 = basic_parts x0 ++ other_parts x0.
Proof.
  induction rs as [|r0 rs IH]; intros file fs0 x0 fs x fs1 s fs2 Hx HF Hpl Hcc Hrs Hw Hs; inversion Hrs; subst.
  - destruct (round_opens _ _ _ _ _ _ _ Hx HF Hpl Hcc Hw Hs) as (x1 & H1 & H2 & _ & H4 & _). exists x1. split; [done|]. split; [done|]. rewrite <- H4. apply (re_parts _ _ H2).
  - match goal with Hw0 : Worked r0 _ _ ?s0 ?f0, Hs0 : Sound r0 _ _, Hn : excel_new _ _ = Ok ?x1 |- _ =>
      destruct (round_opens _ _ _ _ _ _ _ Hx HF Hpl Hcc Hw0 Hs0) as (x1' & K1 & K2 & K3 & K4 & K5); rewrite Hn in K1; injection K1 as <-; rename x1 into xm end.
    assert (basic_parts xm ++ other_parts xm = basic_parts x0 ++ other_parts x0) as Hp by (rewrite <- K4; apply (re_parts _ _ K2)).
    rewrite <- Hp. eapply IH; [eassumption|done|by rewrite Hp| |eassumption..].
    rewrite (re_chain _ _ K2), K5. by destruct (cc_entries (wb_calc (x_book x0))).
Qed.
End rounds.
