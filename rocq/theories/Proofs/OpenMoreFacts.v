(** The calculation chain, the document properties and the relationships of the package, from the
    opened file to the saved one. *)
From Verif.Model Require Import Excel.
From Verif.Spec Require Import RelSpec XmlSpec XmlRepr PackageSpec PartSpec SheetSpec StyleSpec SessionSpec FlowSpec.
From Verif.Proofs Require Import BaseFacts PackageFacts XmlTreeFacts XmlWriteFacts DocBuild XmlReadFacts PartFacts RelDocFacts SmallPartFacts AttrFacts StyleFacts StyleDocFacts SheetDocFacts
  BookFacts FrameFacts SaveFacts SessionFacts RelFacts ExcelFacts XmlHistFacts SoundFacts KeepFacts ReadAnyFacts FlowFacts FlowSaveFacts FlowOpenFacts OwnFacts OpenBookFacts OpenRelFacts OpenStyleFacts FoundFacts.
From Verif.Spec Require Import BookSpec OpenSpec OpenMoreSpec.
Open Scope N_scope.

(** ** The calculation chain *)
Lemma chain_said ts : forall chain : list (string * string), Forall2 (fun x t => child_attr t "r" = Some x.1 /\ child_attr t "i" = Some x.2) chain ts ->
  exists es, rmapM calc_of_attrs (map t_attrs ts) = Ok (map Some es) /\ map fst es = chain.
Proof.
  induction ts as [|t ts IH]; intros chain Hf; inversion Hf as [|x t' chain' ts' [H1 H2] Hr]; subst; [by exists []|].
  destruct (IH _ Hr) as (es & E1 & E2). unfold child_attr in *. destruct (t_attrs t) as [a|] eqn:Ea; [|done].
  exists ((x.1, x.2, a !! "l") :: es). cbn [map rmapM]. rewrite Ea. unfold calc_of_attrs at 1, index_attr. rewrite H1, H2. cbn [rbind]. rewrite E1. cbn [rbind rmap map]. split; [done|].
  cbn [fst]. rewrite E2. by destruct x.
Qed.
Lemma omap_some {A} (l : list A) : omap id (map Some l) = l.
Proof. induction l as [|x l IH]; [done|]. cbn. by f_equal. Qed.
Lemma chain_shows l : Forall2 (fun (x : string * string) t => child_attr t "r" = Some x.1 /\ child_attr t "i" = Some x.2) (map fst l)
  (List.filter (fun t => String.eqb (t_tag t) "c") (map calc_tree l)).
Proof.
  induction l as [|x l IH]; [constructor|]. cbn [map List.filter]. change (t_tag (calc_tree x)) with "c". rewrite String.eqb_refl. constructor; [|done].
  by destruct x as [[r i] lv].
Qed.
Section with_env.
Context `{E : Env} `{Hs : Hashes}.
Lemma add_calc name s : wb_calc (add_sheet name s).1.1 = wb_calc s.1.
Proof. unfold add_sheet. by destruct (ws_new name _) as [[l [r o]] x]. Qed.
Lemma delete_calc w s : wb_calc (wb_delete_sheet w s).1.1 = wb_calc s.1.
Proof. unfold wb_delete_sheet. by destruct (delete_sheet w _) as [[l [r o]] x]. Qed.
Lemma call_calc c s : wb_calc (x_book (call_step c s).1.1) = wb_calc (x_book s.1).
Proof.
  assert (forall h m, wb_calc (x_book (use h m s).1.1) = wb_calc (x_book s.1)) as Hu. { intros h m. unfold use. destruct (handle h s) as [w|]; [|done]. by destruct (m _) as [[w1 t1] r]. }
  destruct c; cbn [call_step]; try apply Hu; unfold get_worksheet; rewrite ?book_give, ?book_pure, ?book_spend; try done; try (by apply (add_calc _ (x_book s.1, x_office s.1))).
  - unfold rename_sheet. destruct (existsb _ _); [done|]. by destruct (rename_first _ _ _).
  - unfold bind, wb_style_id. by destruct (get_style_id _ _) as [st [r|r|r]].
  - by destruct (handle h s).
  - destruct (handle h s) as [w|]; [|done]. unfold on_wb_office. cbn [fst snd]. by destruct (ws_flush w _).
  - destruct (handle h s) as [w|]; [|done]. apply (delete_calc w (x_book s.1, x_office s.1)).
Qed.
Lemma calls_calc cs : forall s s', calls cs s = Some s' -> wb_calc (x_book s'.1) = wb_calc (x_book s.1).
Proof.
  induction cs as [|c cs IH]; intros s s' Hc; [by injection Hc as <-|]. apply calls_cons in Hc as [_ Hc]. by rewrite (IH _ _ Hc), call_calc.
Qed.
Lemma own_calc b : cc_path (wb_calc b) ∈ own_parts b.
Proof. unfold own_parts. rewrite !elem_of_cons. tauto. Qed.
Lemma chain_written c o o' p root : of_open o !! cc_path c = Some p -> Doc (op_doc p) root -> t_value root = None -> Forall (fun t => t_tag t <> "c") (t_children root) ->
  chain_close c o = (o', Ok tt) -> of_open o' !! cc_path c = None /\ exists e text root' nsl, of_archive o' !! cc_path c = Some e /\ part_bytes e = Ok (prolog +:+ text)
  /\ Renders (Some nsl) root' text /\ NsKept (d_ns (op_doc p)) nsl /\ t_tag root' = t_tag root /\ t_attrs root' = t_attrs root /\ ChainSaid root' (map fst (cc_entries c))
  /\ others ["c"] root' = t_children root.
Proof.
  intros Hp Hd Hv Hf Hc. destruct root as [g a v cs]. cbn [t_value t_children t_tag t_attrs] in *. subst v. set (l := cc_entries c) in *.
  destruct (Doc_add_trees (op_doc p) _ _ _ _ (map calc_tree l) Hd) as (d1 & Hsv & Hd1 & Hns1); [apply Forall_map_all, calc_tree_ok|].
  pose proof (with_doc_spec (cc_path c) (add_trees 0 (map calc_tree l)) o p d1 _ Hp Hsv) as Hw. set (o1 := mkOffice _ _) in Hw.
  destruct (close_doc o1 (cc_path c) (mkOpen d1 (op_ct p) (op_ext p) (op_ext_type p)) (Node g a None (cs ++ map calc_tree l))) as (e & Hcl & _ & _ & _ & Hb).
  { unfold o1. cbn. by rewrite lookup_insert. } { done. }
  unfold chain_close, bind in Hc. fold l in Hc. rewrite Hw in Hc. cbn [rmap rbind] in Hc. rewrite Hcl in Hc. injection Hc as <-. split; [cbn; apply lookup_delete|].
  exists e. eexists. exists (Node g a None (cs ++ map calc_tree l)). eexists. split; [cbn; apply lookup_insert|]. split; [exact Hb|]. split; [apply render_renders_mut|].
  split; [cbn [op_doc]; rewrite Hns1; apply ns_kept|]. split; [done|]. split; [done|]. split.
  - unfold ChainSaid. cbn [t_children]. rewrite List.filter_app. assert (List.filter (fun t => String.eqb (t_tag t) "c") cs = []) as ->.
    { apply filter_none. intros t Ht. rewrite Forall_forall in Hf. apply String.eqb_neq. by apply Hf. }
    apply chain_shows.
  - rewrite others_one. cbn [t_children]. unfold untagged. rewrite List.filter_app. fold (untagged "c" cs). rewrite untagged_all by done.
    assert (List.filter (fun t => negb (seqb (t_tag t) "c")) (map calc_tree l) = []) as ->; [|apply app_nil_r].
    clear. induction l as [|x l IH]; [done|]. cbn [map List.filter]. change (t_tag (calc_tree x)) with "c". by rewrite (proj2 (seqb_true _ _) eq_refl).
Qed.
Theorem chain_flow file fs0 l0 data root ns chain x0 cs s t f path fs tr fs' :
  Stored fs0 file l0 -> excel_new (Some file) fs0 = Ok x0 -> (cc_path (wb_calc (x_book x0)), data) ∈ l0 -> cc_path (wb_calc (x_book x0)) <> content_types_name ->
  ReadsIn data root ns -> t_value root = None -> ChainSaid root chain -> chain <> [] ->
  calls cs (x0, []) = Some s -> excel_save t f path s.1 fs = (tr, Ok tt) -> last tr = Some fs' ->
  exists l, Stored fs' path l /\ ChainShown l (cc_path (wb_calc (x_book x0))) ns root chain.
Proof.
  intros Hst Hx Hin Hct Hr Hv Hl Hne Hcs Hsave Hlast. destruct (sources_opened _ _ _ Hx) as (o & Ho & S). destruct (reopened_file _ _ _ _ Hst Ho) as (_ & Hparts & _).
  destruct (Hparts _ _ Hct Hin) as (e & He & Hb). destruct (so_calc _ _ _ S) as (p0 & d' & Hsrc & Hload & Hop).
  destruct (reads_in _ _ _ Hr) as (d & Hrd & Hd & Hn & Ha & Hns & Hdn). pose proof (source_read _ _ _ _ _ _ _ Hsrc He Hb Hrd) as Hp0.
  destruct root as [g a v cs0]. cbn [t_value] in Hv. subst v.
  destruct (Doc_load_calc d g a None cs0 Hd) as (d1 & Hl1 & Hd1 & Hns1). unfold ChainSaid in Hl. cbn [t_children] in Hl. destruct (chain_said _ _ Hl) as (es & Ees & Efst).
  unfold seqb in Hl1. rewrite Ees in Hl1. cbn [rmap rbind] in Hl1. rewrite omap_some in Hl1. rewrite Hp0, Hl1 in Hload. injection Hload as <- Hes.
  destruct (new_linv _ _ _ Hx) as [I0 _]. destruct (own_stays _ _ _ I0 Hcs) as [Hown Hopen]. destruct (calls_effect _ _ _ I0 Hcs) as [I _]. cbn [fst] in *.
  destruct (own_saved t f path s fs tr fs' I Hsave Hlast) as (o' & l & Hfl & Hstored & Hbytes). exists l. split; [done|].
  pose proof (calls_calc _ _ _ Hcs) as Hcalc. cbn [fst] in Hcalc.
  assert (cc_entries (wb_calc (x_book x0)) <> []) as Hne'. { rewrite <- Hes. intros ->. done. }
  destruct (fl_calc _ _ _ Hfl) as (o1 & o2 & W1 & W2 & W3); [by rewrite Hcalc|]. rewrite Hcalc in W1, W2, W3. rewrite (Hopen _ (own_calc _)), Hop in W1.
  assert (Forall (fun t => t_tag t <> "c") (t_children (Node g a None (untagged "c" cs0)))) as Hf.
  { cbn [t_children]. apply Forall_forall. intros t0 Ht. apply elem_of_list_In, filter_In in Ht as [_ Ht]. apply negb_true_iff in Ht. by apply seqb_false. }
  destruct (chain_written _ _ _ _ _ W1 Hd1 eq_refl Hf W2) as (C1 & e2 & text & root' & nsl & C2 & C3 & C4 & CN & C5 & C6 & C7 & C8).
  destruct (W3 C1) as [F1 F2]. exists text, root', nsl. split.
  { eapply Hbytes; [rewrite <- Hcalc; apply own_calc|done|by rewrite F2|done]. }
  split; [done|]. cbn [op_doc] in CN. rewrite Hns1, Hdn in CN. split; [done|]. split; [done|]. split; [done|]. split; [by rewrite <- Efst, Hes|].
  rewrite C8. cbn [t_children]. by rewrite others_one.
Qed.

(** ** The numbers of the sheets *)
Definition is_delete (op : list_op) : Prop := match op with LDelete _ => True | _ => False end.
Lemma step_ids op l l' : ListStep op l l' -> ~ is_delete op -> exists new, map sh_rel l' = map sh_rel l ++ new.
Proof.
  intros Hst Hd. assert (forall k, Forall2 (fun x y => y = k x) l l' -> (forall x, sh_rel (k x) = sh_rel x) -> exists new, map sh_rel l' = map sh_rel l ++ new) as Hk.
  { intros k Hf Hk. exists []. rewrite app_nil_r. clear Hst. induction Hf as [|x y l l' -> _ IH]; [done|]. cbn [map]. by rewrite Hk, IH. }
  assert (forall n, Ensured n l l' -> exists new, map sh_rel l' = map sh_rel l ++ new) as Hen.
  { intros n Hn. inversion Hn; subst; [exists []; by rewrite app_nil_r|]. eexists. by rewrite map_app. }
  inversion Hst; subst; try done; try (by eapply Hen).
  - eexists. by rewrite map_app.
  - exists []. by rewrite app_nil_r, !map_app.
  - exists []. by rewrite app_nil_r.
  - match goal with H : Forall2 _ _ _ |- _ => by apply (Hk _ H) end.
  - match goal with H : Forall2 _ _ _ |- _ => by apply (Hk _ H) end.
Qed.
Lemma history_ids ops l l' : ListHistory ops l l' -> Forall (fun op => ~ is_delete op) ops -> exists new, map sh_rel l' = map sh_rel l ++ new.
Proof.
  induction 1 as [l|op ops l l1 l2 Hst Hh IH]; intros Hf; [exists []; by rewrite app_nil_r|]. apply Forall_cons in Hf as [Hd Hf].
  destruct (step_ids _ _ _ Hst Hd) as (n1 & H1). destruct (IH Hf) as (n2 & H2). exists (n1 ++ n2). by rewrite H2, H1, app_assoc.
Qed.
Lemma ops_delete cs : forall s, Forall (fun c => ~ deletes c) cs -> Forall (fun op => ~ is_delete op) (list_ops cs s).
Proof.
  induction cs as [|c cs IH]; intros s Hf; [constructor|]. apply Forall_cons in Hf as [Hc Hf]. cbn [list_ops]. apply Forall_app. split; [|by apply IH].
  destruct c; cbn [list_op_of]; try (by constructor); try (by apply Forall_singleton); try done.
  all: by destruct Hc.
Qed.
Theorem numbers_kept root root' sheets sheets' ts : ListSaid root sheets -> InOrder root -> only_child "sheets" root' ts -> SheetsEntry sheets' ts ->
  (exists new, map sh_rel sheets' = map sh_rel sheets ++ new) -> forall i id, Numbered root i id -> Numbered root' i id /\ forall id', Numbered root' i id' -> id' = id.
Proof.
  intros Hl Ho Hts (_ & Hlen & He) (new & Hnew) i id (ts0 & t & H0 & Ht & Hi & Hid). destruct Hl as [[Hno _]|(ts1 & H1 & Hl)]; [unfold no_child, only_child in *; congruence|].
  assert (ts1 = ts0) as -> by (unfold only_child in *; congruence). apply elem_of_list_lookup in Ht as [k Hk]. pose proof (Ho _ _ _ H0 Hk) as Hn. rewrite Hi in Hn. injection Hn as ->.
  apply Forall2_lookup_r with (i := k) (y := t) in Hl as (x & Hx & Hsx); [|done]. destruct Hsx as (_ & Hr & _). rewrite Hid in Hr. injection Hr as ->.
  assert (forall j y, sheets' !! j = Some y -> map sh_rel sheets' !! j = Some (sh_rel y)) as Hmap by (intros j y Hy; rewrite list_lookup_fmap, Hy; done).
  assert (map sh_rel sheets' !! k = Some (sh_rel x)) as Hk'.
  { rewrite Hnew. apply lookup_app_l_Some. by rewrite list_lookup_fmap, Hx. }
  rewrite list_lookup_fmap in Hk'. destruct (sheets' !! k) as [y|] eqn:Ey; [|done]. injection Hk' as Hy. destruct (He _ _ Ey) as (c & Hc & _ & _ & Hcs & Hcr & _). split.
  - exists ts, c. split; [done|]. split; [by eapply elem_of_list_lookup_2|]. split; [done|]. by rewrite Hcr, Hy.
  - intros id' (ts2 & c2 & H2 & Hin & Hi2 & Hid2). assert (ts2 = ts) as -> by (unfold only_child in *; congruence). apply elem_of_list_lookup in Hin as [j Hj].
    assert (is_Some (sheets' !! j)) as [z Hz]. { apply lookup_lt_is_Some. rewrite <- Hlen. by eapply lookup_lt_Some. }
    destruct (He _ _ Hz) as (c3 & Hc3 & _ & _ & Hs3 & Hr3 & _). rewrite Hj in Hc3. injection Hc3 as <-. rewrite Hi2 in Hs3. injection Hs3 as Hs3. apply show_N_inj in Hs3.
    assert (j = k) as -> by lia. rewrite Ey in Hz. injection Hz as <-. rewrite Hid2 in Hr3. injection Hr3 as ->. done.
Qed.

(** ** The relationships of the package *)
Lemma path_completes c r : exists new, rl_rels (part_path c None r).1 = rl_rels r ++ new /\ Completes [(c_type c, "/" +:+ target_path c None None)] (rl_rels r) new
  /\ (NoDup (rel_ids r) -> NoDup (rel_ids (part_path c None r).1)) /\ rl_rels (part_path c None r).1 <> [].
Proof.
  pose proof (run_rels_nodup [RLookup (c_type c) c None None] r) as Hnd. change (run_rels _ r) with (part_path c None r).1 in Hnd.
  unfold part_path, get_target_by_type in *. pose proof (find_first_of (c_type c) r) as Hf. destruct (List.find _ _) as [x|]; cbn [fst] in *.
  - destruct Hf as (l1 & l2 & H1 & H2 & H3). exists []. rewrite app_nil_r. split; [done|]. split; [|split; [done|rewrite H1; by destruct l1]]. unfold Completes. cbn [map].
    rewrite filter_cons_False; [done|]. cbn [fst]. intros Hn. apply Hn. rewrite H1, <- H2, map_app. apply elem_of_app. right. left.
  - eexists. split; [done|]. split; [|split; [done|cbn; by destruct (rl_rels r)]]. unfold Completes. cbn [map]. rewrite filter_cons_True; [done|]. cbn [fst]. intros Hin.
    apply elem_of_list_fmap in Hin as (y & H1 & H2). rewrite Forall_forall in Hf. by apply (Hf _ H2).
Qed.
Lemma completes_app k1 k2 rels n1 n2 : k1.1 <> k2.1 -> Completes [k1] rels n1 -> Completes [k2] (rels ++ n1) n2 -> Completes [k1; k2] rels (n1 ++ n2).
Proof.
  intros Hne H1 H2. unfold Completes in *. rewrite (map_app (fun y => (r_type y, r_target y, r_mode y))), H1, H2. rewrite (filter_cons _ k1 [k2]), !(filter_cons _ _ []), !filter_nil.
  assert (map r_type n1 = map fst (filter (fun k : string * string => k.1 ∉ map r_type rels) [k1])) as Hn.
  { apply (f_equal (map (fun z : string * string * option string => z.1.1))) in H1. rewrite !map_map in H1. cbn [fst snd] in H1. exact H1. }
  assert (k2.1 ∉ map r_type (rels ++ n1) <-> k2.1 ∉ map r_type rels) as Hk.
  { rewrite map_app, not_elem_of_app. split; [tauto|]. intros H. split; [done|]. rewrite Hn, filter_cons, filter_nil. destruct (decide _); cbn [map]; [|apply not_elem_of_nil].
    rewrite elem_of_list_singleton. congruence. }
  destruct (decide (k1.1 ∉ map r_type rels)), (decide (k2.1 ∉ map r_type (rels ++ n1))), (decide (k2.1 ∉ map r_type rels)); try done; tauto.
Qed.
Record DocSources (kinds : list (string * string)) (o : office) (x : suite) : Prop := {
  ds_path : rl_path (su_root x) = "_rels/.rels";
  ds_root : exists p0 d' l new, Source o rels_init "_rels/.rels" p0 /\ load_relations (op_doc p0) = (d', Ok l)
    /\ of_open (su_office x) !! "_rels/.rels" = Some (mkOpen d' (op_ct p0) (op_ext p0) (op_ext_type p0))
    /\ rl_rels (su_root x) = l ++ new /\ Completes kinds l new /\ (NoDup (map r_id l) -> NoDup (map r_id (l ++ new)));
  ds_some : rl_rels (su_root x) <> [];
  ds_core : exists p0, Source o core_init (su_core x) p0 /\ of_open (su_office x) !! su_core x = Some p0;
  ds_apart : su_core x <> "_rels/.rels";
}.
Lemma sources_suite file fs x : suite_new file fs = Ok x -> exists o, office_new file fs = Ok o /\ DocSources suite_kinds o x.
Proof.
  unfold suite_new. destruct (office_new file fs) as [o|e|e] eqn:Eo; cbn [rbind]; [|done..]. intros Hx. exists o. split; [done|].
  assert (of_open o = ∅) as He.
  { unfold office_new in Eo. destruct file as [p|]; [|by injection Eo as <-]. destruct (fs !! p); [|done]. cbn in Eo. destruct (load_archive _); [|done..]. by injection Eo as <-. }
  assert (DocsOk o) as Ho. { intros q p. by rewrite He, lookup_empty. }
  destruct (rels_new "_rels/.rels" o) as [o1 [root|e|e]] eqn:Er; [|done..]. destruct (opens_rels _ _ _ _ Ho Er) as [O1 _]. destruct (rels_opened _ _ _ _ Er) as (K1 & Hrc & Hrp & pr & dr & Hsr & Hlr & Hor).
  unfold core_new in Hx. unfold bind at 1 in Hx. unfold on_rels in Hx. cbn [fst snd] in Hx. destruct (path_completes c_core root) as (new & N1 & N2 & N3 & N4).
  pose proof (part_path_rels c_core None root) as Hp. destruct (part_path c_core None root) as [r1 [path|e|e]]; [|done..]. cbn [fst] in *.
  unfold bind, on_office in Hx. cbn [fst snd] in Hx. pose proof (get_keeps_open core_init path o1) as K. unfold id in K.
  destruct (get_xml_document core_init path o1) as [o2 [[]|e|e]] eqn:Eg; [|done..]. cbn [fst] in K. destruct (get_source _ _ _ _ Eg) as (p0 & Hop & Hsrc).
  pose proof (get_was_closed _ _ _ _ Eg) as Hcl. injection Hx as <-. cbn [su_root su_core su_office].
  assert (path <> "_rels/.rels") as Hne by (intros ->; congruence). constructor; cbn [su_root su_core su_office]; [by rewrite Hp| | |exists p0; split; [|done]|done].
  - exists pr, dr, (rl_rels root), new. split; [done|]. split; [done|]. split; [by apply K|]. split; [done|]. split; [done|]. unfold rel_ids in N3. by rewrite N1 in N3.
  - done.
  - eapply source_back; [exact O1|done|exact Hsrc].
Qed.
Lemma book_around s s' b : workbook_new s = (s', Ok b) -> Kept s.2 s'.2 /\ s'.1 = (part_path c_workbook None s.1).1.
Proof.
  unfold workbook_new. unfold bind at 1. unfold on_rels at 1. destruct (part_path c_workbook None s.1) as [r1 [path|e|e]]; [|done..]. cbn [fst].
  unfold bind at 1. unfold on_office at 1. cbn [fst snd]. pose proof (get_keeps_open workbook_init path s.2) as K1. unfold id in K1.
  destruct (get_xml_document workbook_init path s.2) as [o1 [[]|e|e]] eqn:Eg; [|done..]. cbn [fst] in K1. apply get_was_closed in Eg.
  unfold bind at 1, lift at 1. destruct (book_rels_path path) as [rp|e|e]; [|done..].
  unfold bind at 1. unfold on_office at 1. cbn [fst snd]. destruct (rels_new rp o1) as [o2 [rels|e|e]] eqn:Er; [|done..]. unfold bind at 1, get at 1. cbn [fst snd].
  destruct (rels_opened _ _ _ _ Er) as (K2 & _).
  destruct (bind theme_new _ (rels, o2)) as [[rels1 o3] [[[[theme x] c] y]|e|e]] eqn:Ev; [|done..]. cbn [fst snd] in *.
  unfold bind at 1 in Ev. destruct (theme_new (rels, o2)) as [s1 [a|e|e]] eqn:E1; [|done..]. destruct (theme_opened _ _ _ E1) as (K3 & _).
  unfold bind at 1 in Ev. destruct (sst_new s1) as [s2 [x'|e|e]] eqn:E2; [|done..].
  unfold bind at 1 in Ev. destruct (calc_new s2) as [s3 [c'|e|e]] eqn:E3; [|done..].
  unfold bind at 1 in Ev. destruct (style_new s3) as [s4 [y'|e|e]] eqn:E4; [|done..]. injection Ev as -> -> -> -> ->.
  destruct (part_opened c_share_string None sst_init load_strings (fun p l => mkSst (default [] l) p) s1 s2 x E2) as (_ & K4).
  destruct (part_opened c_calc_chain None calc_init load_calc (fun p l => mkCalc (default [] l) p) s2 s3 c E3) as (_ & K5).
  destruct (part_opened c_style None style_init load_styles (fun p l => mkStylePart (default no_styles l) p) s3 _ y E4) as (_ & K6). cbn [fst snd] in *.
  unfold bind at 1, put at 1. unfold bind at 1. unfold on_office at 1. cbn [fst snd].
  assert (forall q p, of_open s.2 !! q = Some p -> of_open o3 !! q = Some p) as K by (intros q p Hq; by apply K6, K5, K4, K3, K2, K1).
  pose proof (keep_with_doc path load_book o3) as K7. unfold id in K7.
  destruct (with_doc path load_book o3) as [o4 [v|e|e]]; [|done..]. destruct (default ([], None) v) as [sh vw]. intros [= <- <-]. cbn [fst snd] in *. split; [|done].
  intros q p Hq. destruct (K7 q) as [-> _]; [intros ->; congruence|]. by apply K.
Qed.
Lemma sources_docs p fs x : excel_new (Some p) fs = Ok x -> exists o, office_new (Some p) fs = Ok o /\ DocSources book_kinds o (x_suite x).
Proof.
  intros H. unfold excel_new in H. destruct (suite_new (Some p) fs) as [s|e|e] eqn:Es; cbn [rbind] in H; [|done..]. destruct (sources_suite _ _ _ Es) as (o & Ho & S).
  destruct (opens_suite _ _ _ Es) as (o' & Ho' & _ & O1). rewrite Ho in Ho'. injection Ho' as <-. exists o. split; [done|].
  destruct (workbook_new (su_root s, su_office s)) as [[root o1] [b|e|e]] eqn:Ew; [|done..]. injection H as <-. cbn [x_suite].
  destruct (book_around _ _ _ Ew) as [K Hr]. cbn [fst snd] in *. destruct S as [S1 (p0 & d' & l & new & A1 & A2 & A3 & A4 & A5 & A6) S3 (pc & C1 & C2) S5].
  destruct (path_completes c_workbook (su_root s)) as (new2 & N1 & N2 & N3 & N4). pose proof (part_path_rels c_workbook None (su_root s)) as Hp. rewrite <- Hr in *.
  constructor; cbn [su_root su_core su_office].
  - congruence.
  - exists p0, d', l, (new ++ new2). split; [done|]. split; [done|]. split; [by apply K|]. rewrite A4 in N1, N2. rewrite app_assoc. split; [done|]. split.
    + unfold book_kinds, suite_kinds. cbn [app]. apply completes_app; [done|done|exact N2].
    + intros Hnd. unfold rel_ids in N3. rewrite A4, N1 in N3. by apply N3, A6.
  - done.
  - exists pc. split; [done|]. by apply K.
  - done.
Qed.

(** ** Saving them *)
(** A document with another root element is left alone. *)
Lemma stamp_idle d g a v cs only tag now : Doc d (Node g a v cs) -> g <> "cp:coreProperties" -> List.filter (fun x => String.eqb (t_tag x) "cp:coreProperties") cs = [] ->
  stamp only tag now d = (d, Ok tt).
Proof.
  intros Hd Hg Hno. apply Doc_inv in Hd as (its & Hc & Hr). cbn in Hc, Hr. subst cs. apply Repr_node in Hr as (_ & H0 & _). unfold stamp. cbn [first_element_id]. rewrite H0. cbn [e_tag e_children].
  rewrite (proj2 (seqb_false _ _) Hg). cbn [andb].
  assert (List.find (fun c : N * string => seqb c.2 "cp:coreProperties") (map child_entry its) = None) as ->; [|done].
  clear -Hno. induction its as [|[i g1 a1 v1 l1] its IH]; [done|]. cbn [map erase List.filter t_tag] in Hno. cbn [map List.find child_entry snd i_tag].
  unfold seqb at 1. destruct (String.eqb g1 "cp:coreProperties"); [done|]. by apply IH.
Qed.
Lemma core_close_idle o path p g a v cs n1 n2 : of_open o !! path = Some p -> Doc (op_doc p) (Node g a v cs) -> g <> "cp:coreProperties" ->
  List.filter (fun x => String.eqb (t_tag x) "cp:coreProperties") cs = [] ->
  exists e, core_close n1 n2 path o = (mkOffice (delete path (of_open o)) (<[path := e]> (of_archive o)), Ok tt)
  /\ part_bytes e = Ok (prolog +:+ render_root (d_ns (op_doc p)) (Node g a v cs)).
Proof.
  intros Hp Hd Hg Hno. assert (core_stamps n1 n2 (op_doc p) = (op_doc p, Ok tt)) as E1. { unfold core_stamps, bind. by rewrite !(stamp_idle _ _ _ _ _ _ _ _ Hd Hg Hno). }
  unfold core_close, bind. rewrite (with_doc_spec path _ o p _ _ Hp E1). cbn [rmap rbind].
  set (o1 := mkOffice _ _). destruct (close_doc o1 path (mkOpen (op_doc p) (op_ct p) (op_ext p) (op_ext_type p)) _ (lookup_insert _ _ _) Hd)
    as (e & Hc & _ & _ & _ & Hb). exists e. rewrite Hc. unfold o1. cbn [of_open of_archive]. by rewrite delete_insert_delete.
Qed.
Lemma stamped_shown now1 now2 a cs : exists cs1, SetText "dcterms:modified" now1 cs cs1
  /\ (property "dcterms:created" (Node "cp:coreProperties" a None cs) = None -> SetText "dcterms:created" now2 cs1 (stamped now1 now2 cs))
  /\ (property "dcterms:created" (Node "cp:coreProperties" a None cs) <> None -> stamped now1 now2 cs = cs1).
Proof.
  set (cs1 := set_first "dcterms:modified" now1 (fun _ => true) cs). exists cs1. split; [apply SetText_set_first|].
  assert (property "dcterms:created" (Node "cp:coreProperties" a None cs) = child_value "dcterms:created" cs1) as ->.
  { unfold cs1. by rewrite set_first_other. }
  unfold stamped. fold cs1. rewrite set_first_cond. unfold child_value. destruct (List.find _ cs1) as [c|] eqn:Ef.
  - destruct (t_value c); split; try done. intros _. apply SetText_set_first.
  - split; [|done]. intros _. rewrite <- (set_first_none "dcterms:created" now2 (fun _ => true) cs1) at 2; [apply SetText_set_first|].
    intros y Hy. pose proof (find_split (fun c => String.eqb (t_tag c) "dcterms:created") cs1) as Hsp. rewrite Ef in Hsp. rewrite Forall_forall in Hsp. by apply Hsp.
Qed.
Theorem docs_saved kinds file fs0 l0 o t f path (x : suite) fs tr fs' : Stored fs0 file l0 -> office_new (Some file) fs0 = Ok o ->
  DocSources kinds o x -> suite_save t f path x fs = (tr, Ok tt) -> last tr = Some fs' ->
  exists l, Stored fs' path l
  /\ (forall data root ns rels, ("_rels/.rels", data) ∈ l0 -> ReadsIn data root ns -> t_value root = None -> RelsSaid root rels ->
       exists new, RelsShown l "_rels/.rels" ns root (rels ++ new) /\ Completes kinds rels new /\ (NoDup (map r_id rels) -> NoDup (map r_id (rels ++ new))))
  /\ (forall data root ns, (su_core x, data) ∈ l0 -> su_core x <> content_types_name -> ReadsIn data root ns ->
       (t_tag root = "cp:coreProperties" -> t_value root = None -> PropertiesShown l (su_core x) ns root (ck_1 t) (ck_2 t))
       /\ (t_tag root <> "cp:coreProperties" -> no_child "cp:coreProperties" root -> PartSame l (su_core x) ns root)).
Proof.
  intros Hst Ho [S1 (p0 & d' & l0' & new & A1 & A2 & A3 & A4 & A5 & A6) S3 (pc & C1 & C2) S5] Hsave Hl. destruct (reopened_file _ _ _ _ Hst Ho) as (_ & Hparts & _).
  unfold suite_save, bind in Hsave. pose proof (keep_core_flush t (su_core x) (su_office x)) as K1. unfold id in K1.
  destruct (core_flush t (su_core x) (su_office x)) as [o1 [[]|e|e]] eqn:Ef; [|done..]. cbn [fst] in *.
  pose proof (keep_rels_close (su_root x) o1) as K2. unfold id in K2. rewrite S1 in K2.
  destruct (rels_close (su_root x) o1) as [o2 [[]|e|e]] eqn:Er; [|done..]. cbn [fst] in *.
  destruct (office_save f path o2 fs) as [o3 [tr3 r3]] eqn:Hos. cbn [snd] in Hsave. injection Hsave as -> ->.
  destruct (saved_file _ _ _ _ _ _ _ Hos Hl) as (l & Hstored & Hin & _ & Hct). exists l. split; [done|].
  assert (forall q e data, q <> content_types_name -> of_open o2 !! q = None -> of_archive o2 !! q = Some e -> part_bytes e = Ok data -> forall y, (q, y) ∈ l <-> y = data) as Hbytes.
  { intros q e data Hq H1 H2 Hb y. assert (part_data o2 q = Ok (Some data)) as Hpd by (unfold part_data; by rewrite H1, H2, Hb). rewrite Hin by done. rewrite Hpd. split; [congruence|by intros ->]. }
  split.
  - intros data root ns rels Hd0 Hr Hv Hl0. assert ("_rels/.rels" <> content_types_name) as Hnt by discriminate. destruct (Hparts _ _ Hnt Hd0) as (e & He & Hb).
    destruct (reads_in _ _ _ Hr) as (d & Hrd & Hd & Hn & Ha & Hns & Hdn). pose proof (source_read _ _ _ _ _ _ _ A1 He Hb Hrd) as Hp0.
    destruct root as [g a v cs0]. cbn [t_value] in Hv. subst v.
    destruct (Doc_load_relations d g a None cs0 Hd) as (d1 & Hl1 & Hd1 & Hns1). unfold RelsSaid in Hl0. cbn [t_children] in Hl0. unfold seqb in Hl1. rewrite (rels_said _ _ Hl0) in Hl1.
    rewrite Hp0, Hl1 in A2. injection A2 as <- <-. exists new. split; [|done].
    assert (Forall (fun t => t_tag t <> "Relationship") (t_children (Node g a None (untagged "Relationship" cs0)))) as Hf.
    { cbn [t_children]. apply Forall_forall. intros t0 Ht. apply elem_of_list_In, filter_In in Ht as [_ Ht]. apply negb_true_iff in Ht. by apply seqb_false. }
    destruct (K1 "_rels/.rels") as [B1 B2]; [done|]. rewrite A3, <- S1 in B1.
    destruct (rels_written _ _ _ _ _ B1 Hd1 eq_refl Hf S3 Er) as (D1 & e2 & text & root' & nsl & D2 & D3 & D4 & DN & D5 & D6 & D7 & D8). rewrite S1 in *.
    exists text, root', nsl. split; [by eapply Hbytes|]. split; [done|]. cbn [op_doc] in DN. rewrite Hns1, Hdn in DN. split; [done|]. split; [done|]. split; [done|]. split; [by rewrite <- A4|].
    rewrite D8. cbn [t_children]. by rewrite others_one.
  - intros data root ns Hd0 Hnc Hr. destruct (Hparts _ _ Hnc Hd0) as (e & He & Hb).
    destruct (reads_in _ _ _ Hr) as (d & Hrd & Hd & Hn & Ha & Hns & Hdn). pose proof (source_read _ _ _ _ _ _ _ C1 He Hb Hrd) as Hp0. rewrite <- Hp0 in Hd. rewrite <- Hp0 in Hdn.
    assert (forall e2 data2, core_close (ck_1 t) (ck_2 t) (su_core x) (su_office x) = (mkOffice (delete (su_core x) (of_open (su_office x))) (<[su_core x := e2]> (of_archive (su_office x))), Ok tt) ->
      part_bytes e2 = Ok data2 -> forall y, (su_core x, y) ∈ l <-> y = data2) as Hwrite.
    { intros e2 data2 Hcc Hb2. unfold core_flush in Ef. rewrite Hcc in Ef. set (o4 := mkOffice _ _) in Ef. assert (of_open o4 !! su_core x = None) as Hn4 by apply lookup_delete.
      pose proof (idle_doc_close (su_core x) (su_core x) (core_stamps (ck_3 t) (ck_4 t)) o4 Hn4) as [I1 I2].
      change (bind (with_doc (su_core x) (core_stamps (ck_3 t) (ck_4 t))) (fun _ => close_xml_document (su_core x)) o4) with (core_close (ck_3 t) (ck_4 t) (su_core x) o4) in I1, I2.
      assert ((core_close (ck_3 t) (ck_4 t) (su_core x) o4).1 = o1) as E4 by congruence. rewrite E4 in I1, I2. destruct (K2 (su_core x) S5) as [B1 B2].
      eapply Hbytes; [done|by rewrite B1, I1|rewrite B2, I2; apply lookup_insert|done]. }
    destruct root as [g a v cs0]. cbn [t_tag t_value]. split.
    + intros -> ->. destruct (core_close_spec _ _ _ _ _ _ (ck_1 t) (ck_2 t) C2 Hd) as (e2 & Hcc & _ & _ & _ & Hb2). destruct (stamped_shown (ck_1 t) (ck_2 t) a cs0) as (cs1 & T1 & T2 & T3).
      eexists _, (Node "cp:coreProperties" a None (stamped (ck_1 t) (ck_2 t) cs0)), _, cs1. split; [by eapply Hwrite|]. split; [apply render_renders_mut|]. split; [rewrite Hdn; apply ns_kept|]. done.
    + intros Hg Hno. unfold no_child in Hno. cbn [t_children] in Hno. destruct (core_close_idle _ _ _ _ _ _ _ (ck_1 t) (ck_2 t) C2 Hd Hg Hno) as (e2 & Hcc & Hb2).
      eexists _, _. split; [by eapply Hwrite|]. split; [apply render_renders_mut|]. rewrite Hdn. apply ns_kept.
Qed.
(** ** During a session *)
Lemma call_docs c s : su_root (x_suite (call_step c s).1.1) = su_root (x_suite s.1) /\ su_core (x_suite (call_step c s).1.1) = su_core (x_suite s.1).
Proof.
  assert (forall A (m : M wb_state A), su_root (x_suite (Excel.on_book m s.1).1) = su_root (x_suite s.1) /\ su_core (x_suite (Excel.on_book m s.1).1) = su_core (x_suite s.1)) as Hb.
  { intros A m. unfold Excel.on_book. by destruct (m _) as [[b o] r]. }
  assert (forall m, let x := (give (Excel.on_book m) s).1.1 in su_root (x_suite x) = su_root (x_suite s.1) /\ su_core (x_suite x) = su_core (x_suite s.1)) as Hg.
  { intros m. cbn zeta. unfold give. pose proof (Hb _ m) as H. by destruct (Excel.on_book m s.1) as [x [w|e|e]]. }
  assert (forall A (m : M wb_state A), let x := (on_excel (Excel.on_book m) s).1.1 in su_root (x_suite x) = su_root (x_suite s.1) /\ su_core (x_suite x) = su_core (x_suite s.1)) as He.
  { intros A m. cbn zeta. unfold on_excel. pose proof (Hb _ m) as H. by destruct (Excel.on_book m s.1) as [x r]. }
  assert (forall h m, let x := (use h m s).1.1 in su_root (x_suite x) = su_root (x_suite s.1) /\ su_core (x_suite x) = su_core (x_suite s.1)) as Hu.
  { intros h m. cbn zeta. unfold use. destruct (handle h s) as [w|]; [|done]. by destruct (m _) as [[w1 t1] r]. }
  assert (forall h m, let x := (spend h m s).1.1 in su_root (x_suite x) = su_root (x_suite s.1) /\ su_core (x_suite x) = su_core (x_suite s.1)) as Hsp.
  { intros h m. cbn zeta. unfold spend. destruct (handle h s) as [w|]; [|done]. pose proof (Hb _ (m w)) as H. by destruct (Excel.on_book (m w) s.1) as [x r]. }
  destruct c; cbn [call_step]; first [apply Hg|apply He|apply Hu|apply Hsp].
Qed.
Theorem docs_stay cs : forall s s', LInv s -> calls cs s = Some s' -> su_root (x_suite s'.1) = su_root (x_suite s.1) /\ su_core (x_suite s'.1) = su_core (x_suite s.1)
  /\ forall q, q ∈ DocsIn (x_suite s.1) -> of_open (x_office s'.1) !! q = of_open (x_office s.1) !! q.
Proof.
  induction cs as [|c cs IH]; intros s s' I Hc; [by injection Hc as <-|].
  apply calls_cons in Hc as [Hp Hc]. destruct (call_effect c s I Hp) as [I1 _]. destruct (IH _ _ I1 Hc) as (H1 & H2 & H3).
  destruct (call_docs c s) as [D1 D2]. destruct (call_around c s I) as [_ _ _ A4 _]. split; [congruence|]. split; [congruence|].
  intros q Hq. destruct (li_open _ I q) as [p Hop]; [unfold held; rewrite !elem_of_app; tauto|].
  rewrite H3 by (unfold DocsIn; by rewrite D1, D2). rewrite Hop. apply A4; [|done]. intros k w _ Hw. apply (apart s k w q I Hw). rewrite !elem_of_app. tauto.
Qed.
Theorem docs_flow file fs0 l0 x0 cs s t f path fs tr fs' :
  Stored fs0 file l0 -> excel_new (Some file) fs0 = Ok x0 -> calls cs (x0, []) = Some s -> excel_save t f path s.1 fs = (tr, Ok tt) -> last tr = Some fs' ->
  exists l, Stored fs' path l
  /\ (forall data root ns rels, ("_rels/.rels", data) ∈ l0 -> ReadsIn data root ns -> t_value root = None -> RelsSaid root rels ->
       exists new, RelsShown l "_rels/.rels" ns root (rels ++ new) /\ Completes book_kinds rels new /\ (NoDup (map r_id rels) -> NoDup (map r_id (rels ++ new))))
  /\ (forall data root ns, (su_core (x_suite x0), data) ∈ l0 -> su_core (x_suite x0) <> content_types_name -> ReadsIn data root ns ->
       (t_tag root = "cp:coreProperties" -> t_value root = None -> PropertiesShown l (su_core (x_suite x0)) ns root (ck_1 t) (ck_2 t))
       /\ (t_tag root <> "cp:coreProperties" -> no_child "cp:coreProperties" root -> PartSame l (su_core (x_suite x0)) ns root)).
Proof.
  intros Hst Hx Hcs Hsave Hl. destruct (sources_docs _ _ _ Hx) as (o & Ho & [S1 (p0 & d' & l0' & new & A1 & A2 & A3 & A4) S3 (pc & C1 & C2) S5]).
  destruct (new_linv _ _ _ Hx) as [I0 _]. destruct (docs_stay _ _ _ I0 Hcs) as (D1 & D2 & D3). destruct (calls_effect _ _ _ I0 Hcs) as [I _]. cbn [fst] in *.
  unfold excel_save in Hsave. pose proof (fun q Hq => flush_keeps (x_book s.1) (x_office s.1) q Hq) as K.
  destruct (wb_flush (x_book s.1) (x_office s.1)) as [o0 [[]|e|e]]; [|done..]. cbn [fst] in K. rewrite D1, D2 in Hsave.
  assert (forall q, q ∈ DocsIn (x_suite x0) -> of_open o0 !! q = of_open (x_office x0) !! q) as Hop.
  { intros q Hq. rewrite <- D3 by done. apply K. pose proof (li_nodup _ I) as Hnd. unfold held in Hnd. apply NoDup_app in Hnd as (_ & Hdis & _). intros Hin. apply (Hdis q Hin).
    apply elem_of_app. left. unfold DocsIn in *. by rewrite D1, D2. }
  eapply (docs_saved book_kinds file fs0 l0 o t f path (mkSuite o0 (su_root (x_suite x0)) (su_core (x_suite x0))) fs tr fs'); [done|done| |done|done].
  constructor; cbn [su_root su_core su_office]; [done| |done| |done].
  - exists p0, d', l0', new. split; [done|]. split; [done|]. split; [|done]. rewrite Hop; [done|]. unfold DocsIn. rewrite S1. left.
  - exists pc. split; [done|]. rewrite Hop; [done|]. unfold DocsIn. right. left.
Qed.
(** The properties are where the package says. *)
Theorem core_found file fs0 l0 x rels : Stored fs0 file l0 -> suite_new (Some file) fs0 = Ok x -> Lists l0 "_rels/.rels" rels ->
  FoundBy rels "" core_type "docProps/core.xml" (su_core x).
Proof.
  intros Hst Hx (data & root & ns & Hin & Hr & Hl). unfold suite_new in Hx. destruct (office_new (Some file) fs0) as [o|e|e] eqn:Eo; cbn [rbind] in Hx; [|done..].
  destruct (reopened_file _ _ _ _ Hst Eo) as (_ & Hparts & _). assert ("_rels/.rels" <> content_types_name) as Hnt by discriminate. destruct (Hparts _ _ Hnt Hin) as (e & He & Hb).
  destruct (rels_new "_rels/.rels" o) as [o1 [r|x1|x1]] eqn:Er; [|done..]. destruct (rels_opened _ _ _ _ Er) as (_ & _ & Hrp & pr & dr & Hsr & Hlr & _).
  destruct (reads_in _ _ _ Hr) as (d & Hrd & Hd & _). pose proof (source_read _ _ _ _ _ _ _ Hsr He Hb Hrd) as Hp0. destruct root as [g a v cs0].
  destruct (Doc_load_relations d g a v cs0 Hd) as (d1 & Hl1 & _). unfold RelsSaid in Hl. cbn [t_children] in Hl. unfold seqb in Hl1. rewrite (rels_said _ _ Hl) in Hl1.
  rewrite Hp0, Hl1 in Hlr. injection Hlr as _ Hrels. unfold core_new in Hx. unfold bind at 1 in Hx. unfold on_rels in Hx. cbn [fst snd] in Hx.
  assert (OwnerFolder (rl_path r) "") as Hf. { rewrite Hrp. apply (Own_root "/.rels"). }
  destruct (part_path c_core None r) as [r1 [path|x2|x2]] eqn:Ep; [|done..]. destruct (path_found c_core None _ _ _ _ Hf Ep) as [Hfound _].
  unfold bind, on_office in Hx. cbn [fst snd] in Hx. destruct (get_xml_document core_init path o1) as [o2 [[]|x2|x2]]; [|done..]. injection Hx as <-. cbn [su_core]. by rewrite Hrels.
Qed.
Lemma excel_suite file fs x : excel_new file fs = Ok x -> exists s, suite_new file fs = Ok s /\ su_core s = su_core (x_suite x).
Proof.
  unfold excel_new. destruct (suite_new file fs) as [s|e|e]; cbn [rbind]; [|done..]. intros Hx. exists s. split; [done|].
  destruct (workbook_new _) as [[root o] [b|e|e]]; [|done..]. destruct file; [by injection Hx as <-|]. cbn zeta in Hx.
  destruct (Excel.on_book (add_sheet None) _) as [x1 [w|e|e]] eqn:Eb; [|done..]. injection Hx as <-. unfold Excel.on_book in Eb. destruct (add_sheet None _) as [s1 r1]. by injection Eb as <- _.
Qed.
End with_env.
