(** The parts of a saved workbook. *)
From Verif.Model Require Import Excel.
From Verif.Spec Require Import RelSpec ColumnSpec XmlSpec XmlRepr PackageSpec PartSpec SheetSpec SessionSpec BookSpec FlowSpec LinkSpec AnswerSpec InventorySpec.
From Verif.Proofs Require Import BaseFacts RelFacts XmlWriteFacts XmlReadFacts ReadAnyFacts PackageFacts RelDocFacts SaveFacts FrameFacts SessionFacts ExcelFacts KeepFacts LinkFacts FlowFacts FlowOpenFacts ConverterFacts AnswerFacts.
Open Scope N_scope.

Section with_env.
Context `{E : Env} `{HH : Hashes}.
Lemma archive_nodup archive b l : save_archive archive = Ok b -> env_unzip b = Some l -> NoDup l.*1 /\ content_types_name ∈ l.*1.
Proof.
  unfold save_archive. set (parts := hash_entries archive). destruct (rmapM _ parts) as [l0| |] eqn:El; try done. cbn [rbind].
  destruct (archive !! content_types_name) eqn:Ec; [done|]. destruct (create_content_types _ _) as [types| |] eqn:Et; try done. cbn [rbind]. intros [= <-].
  assert (map fst l0 = parts.*1) as Hn.
  { eapply (rmapM_map _ fst fst); [exact El|]. intros [n e] [n' b']. cbn. destruct (part_bytes e); cbn; try done. by intros [= -> _]. }
  assert (NoDup ((l0 ++ [(content_types_name, types)]).*1)) as Hnd.
  { rewrite fmap_app. change (l0.*1) with (map fst l0). rewrite Hn. apply NoDup_app. split; [apply hash_entries_NoDup|]. split; [|apply NoDup_singleton].
    intros x Hx Hx'. cbn in Hx'. apply elem_of_list_singleton in Hx'. subst x. apply elem_of_list_fmap in Hx as ([n e] & Hne & Hin). cbn in Hne. subst n.
    apply hash_entries_lookup in Hin. congruence. }
  rewrite env_unzip_zip by done. intros [= <-]. split; [done|]. rewrite fmap_app. apply elem_of_app. right. left.
Qed.
Lemma office_nodup f path o fs o1 tr fs' l : office_save f path o fs = (o1, (tr, Ok tt)) -> last tr = Some fs' -> Stored fs' path l -> NoDup l.*1 /\ content_types_name ∈ l.*1.
Proof.
  unfold office_save. destruct (close_all o) as [o2 [[]|e|e]] eqn:Ec; [|done|done]. destruct (save_archive (of_archive o2)) as [b|e|e] eqn:Es; [|done|done]. intros [= <- Hw] Hl (b' & Hb & Hu).
  destruct (write_file_last _ _ _ _ _ Hw) as (fs2 & Hl2 & Hb2). rewrite Hl in Hl2. injection Hl2 as <-. eapply archive_nodup; [exact Es|congruence].
Qed.
(** Saving adds no part but the one of the content types. *)
Lemma suite_names t f path x fs tr fs' l : (forall q, q ∈ DocsIn x -> is_Some (of_open (su_office x) !! q)) -> suite_save t f path x fs = (tr, Ok tt) -> last tr = Some fs' -> Stored fs' path l ->
  NoDup l.*1 /\ content_types_name ∈ l.*1 /\ forall q, q ∈ l.*1 -> q = content_types_name \/ Present (su_office x) q.
Proof.
  intros Hop. unfold suite_save, bind. pose proof (keep_core_flush t (su_core x) (su_office x)) as K1. unfold id in K1.
  destruct (core_flush t (su_core x) (su_office x)) as [o1 [[]|e|e]]; [|done..]. cbn [fst] in *. pose proof (keep_rels_close (su_root x) o1) as K2. unfold id in K2.
  destruct (rels_close (su_root x) o1) as [o2 [[]|e|e]]; [|done..]. cbn [fst] in *.
  destruct (office_save f path o2 fs) as [o3 [tr3 r3]] eqn:Hsave. cbn [snd]. intros [= -> ->] Hl Hst. destruct (office_nodup _ _ _ _ _ _ _ _ Hsave Hl Hst) as [Hnd Hct].
  split; [done|]. split; [done|]. destruct (saved_file _ _ _ _ _ _ _ Hsave Hl) as (l' & Hst' & Hin & _). rewrite (stored_once _ _ _ _ Hst Hst') in *. clear Hst Hst'.
  intros q Hq. destruct (decide (q = content_types_name)) as [|Hne]; [by left|right]. apply elem_of_list_fmap in Hq as ([q' data] & -> & Hq). cbn [fst] in *.
  destruct (decide (q' ∈ DocsIn x)) as [Hd|Hd]; [left; by apply Hop|]. unfold DocsIn in Hd. rewrite !not_elem_of_cons in Hd. destruct Hd as (D1 & D2 & _).
  apply Hin in Hq; [|done]. unfold part_data in Hq. destruct (K1 q' D2) as [A1 A2]. destruct (K2 q' D1) as [B1 B2]. rewrite B1, A1, B2, A2 in Hq. unfold Present.
  destruct (of_open (su_office x) !! q'); [left; eauto|]. destruct (of_archive (su_office x) !! q'); [right; eauto|done].
Qed.
Lemma excel_names t f path s fs tr fs' l : LInv s -> excel_save t f path s.1 fs = (tr, Ok tt) -> last tr = Some fs' -> Stored fs' path l ->
  NoDup l.*1 /\ content_types_name ∈ l.*1 /\ forall q, q <> content_types_name -> q ∈ l.*1 <-> Present (x_office s.1) q.
Proof.
  intros I Hs Hl Hst. pose proof (li_nodup _ I) as Hnd. unfold held in Hnd. apply NoDup_app in Hnd as (Hown & Hdis & _).
  assert (forall q, q ∈ own_parts (x_book s.1) -> is_Some (of_open (x_office s.1) !! q)) as Hop. { intros q Hq. apply (li_open _ I). unfold held. apply elem_of_app. by left. }
  destruct (excel_kept _ _ _ _ _ _ _ (li_docs _ I) Hown Hop Hs Hl) as (l' & Hst' & Hk & _). rewrite (stored_once _ _ _ _ Hst' Hst) in *. clear Hst' l'.
  unfold excel_save in Hs. pose proof (flush_keeps (x_book s.1) (x_office s.1)) as K. destruct (wb_flush (x_book s.1) (x_office s.1)) as [o [[]|e|e]]; [|done..]. cbn [fst] in K.
  assert (forall q, q ∈ DocsIn (x_suite s.1) -> is_Some (of_open (x_office s.1) !! q) /\ q ∉ own_parts (x_book s.1)) as Hdocs.
  { intros q Hq. split; [apply (li_open _ I); unfold held; rewrite !elem_of_app; tauto|]. intros Ho. apply (Hdis q Ho). apply elem_of_app. by left. }
  pose proof (fun H => suite_names t f path (mkSuite o (su_root (x_suite s.1)) (su_core (x_suite s.1))) fs tr fs' l H Hs Hl Hst) as HN. destruct HN as (N1 & N2 & N3).
  { cbn [su_office]. intros q Hq. destruct (Hdocs q Hq) as [H1 H2]. by rewrite (proj1 (K q H2)). }
  split; [done|]. split; [done|]. intros q Hq. split; [|by apply Hk]. intros Hin. destruct (N3 q Hin) as [|Hp]; [done|]. cbn [su_office] in Hp.
  destruct (decide (q ∈ own_parts (x_book s.1))) as [Ho|Ho]; [left; by apply Hop|]. by apply (same_present _ _ _ (K q Ho)).
Qed.
(** ** A new workbook *)
Lemma start_only fs x0 q : excel_new None fs = Ok x0 -> ~ in_area q -> Present (x_office x0) q -> q ∈ own_parts (x_book x0) ++ DocsIn (x_suite x0).
Proof.
  intros Hx Ha. destruct (SessionFacts.new_session _ _ Hx) as [_ SI]. pose proof (si_book _ _ SI) as [D1 D2 D3 D4 D5 D6 _ _]. cbn [fst] in *.
  pose proof (si_root _ _ SI) as D7. pose proof (si_core _ _ SI) as D8. cbn [fst] in *.
  unfold excel_new in Hx. destruct (suite_new None fs) as [s|e|e] eqn:Es; cbn [rbind] in Hx; [|done..].
  destruct (opens_suite _ _ _ Es) as (o' & Ho' & He & O1). injection Ho' as <-. destruct (workbook_new (su_root s, su_office s)) as [[root o1] [b|e|e]] eqn:Ew; [|done..].
  destruct (opens_workbook (su_root s, su_office s) _ _ (op_docs _ _ _ O1) Ew) as [O2 Hr]. cbn [fst snd] in *. pose proof (opens_trans _ _ _ _ _ O1 O2) as O.
  destruct (new_book _ _ _ _ _ Es Ew) as (_ & Sb & Hbr & Hsh & _ & -> & Hc). pose proof Sb as [B1 B2 B3 B4 B5 B6 _ _].
  set (x1 := mkExcel (mkSuite o1 SessionFacts.root_rels (su_core s)) b) in *.
  assert (SessionInv o1 (x1, [])) as S0. { constructor; cbn; [done|done|done|constructor|]. intros y _. apply same_refl. }
  destruct (Excel.on_book (add_sheet None) x1) as [x2 [w|e|e]] eqn:Ea; [|done..]. injection Hx as <-.
  pose proof (SessionFacts.call_inv o1 (CAdd None) (x1, []) S0) as S1. cbn [call_step] in S1. unfold give in S1. cbn [fst snd] in S1. rewrite Ea in S1. cbn [fst snd app] in S1.
  pose proof (SessionFacts.call_inv o1 (CDrop 0) _ S1) as S2. cbn [call_step] in S2. unfold spend in S2. cbn in S2.
  pose proof (si_parts _ _ S2 q Ha) as Hs. cbn [fst] in Hs. intros Hp.
  assert (Present o1 q) as Hp1 by (apply (same_present _ _ _ Hs); exact Hp).
  assert (q ∈ DocsIn s ++ own_parts b) as Hin.
  { destruct (decide (q ∈ DocsIn s ++ own_parts b)) as [|Hn]; [done|]. exfalso. destruct Hp1 as [Hp1|Hp1].
    - apply (op_open _ _ _ O) in Hp1 as [[y Hy]|Hy]; [|done]. cbn in Hy. by rewrite lookup_empty in Hy.
    - rewrite (op_rest _ _ _ O) in Hp1; [|done|cbn; apply lookup_empty]. cbn in Hp1. rewrite lookup_empty in Hp1. by destruct Hp1. }
  unfold own_parts, DocsIn in *. rewrite D1, D2, D3, D4, D5, D6, D7, D8. rewrite B1, B2, B3, B4, B5, B6, Hc in Hin. rewrite <- Hr in Hin. cbn [app cc_path rl_path SessionFacts.root_rels] in *.
  revert Hin. rewrite !elem_of_cons. tauto.
Qed.
Lemma book_parts_own (s : session) o0 q : SessionInv o0 s -> q <> content_types_name -> q ∈ own_parts (x_book s.1) ++ DocsIn (x_suite s.1) <-> q ∈ book_parts.
Proof.
  intros SI Hq. pose proof (si_book _ _ SI) as [D1 D2 D3 D4 D5 D6 _ _]. unfold own_parts, DocsIn. rewrite D1, D2, D3, D4, D5, D6, (si_root _ _ SI), (si_core _ _ SI).
  unfold book_parts. cbn [app cc_path rl_path SessionFacts.root_rels]. rewrite !elem_of_cons, elem_of_nil.
  change "[Content_Types].xml" with content_types_name. unfold book_at, rels_at, theme_at, calc_at, sst_at, style_at, root_at, core_at. tauto.
Qed.
Lemma sheet_part_at m : sheet_at m = sheet_part m. Proof. done. Qed.
Lemma sheet_rels_of m : rels_of m = sheet_rels_part m.
Proof. unfold rels_of, sheet_rels_part, sheet_file. rewrite <- !app_assoc_s. reflexivity. Qed.
Lemma book_not_area q : q ∈ book_parts -> ~ in_area q.
Proof. unfold book_parts. rewrite !elem_of_cons, elem_of_nil. intros Hq Ha. unfold in_area in Ha. destruct_or! Hq; subst q; by vm_compute in Ha. Qed.
Theorem new_inventory fs x0 cs s t f path fs1 tr fs' : excel_new None fs = Ok x0 -> Forall Given cs -> calls cs (x0, []) = Some s ->
  excel_save t f path s.1 fs1 = (tr, Ok tt) -> last tr = Some fs' ->
  exists l k, Stored fs' path l /\ Goes new_desk cs (answers cs (x0, [])) k /\ Core k s /\ NoDup l.*1
  /\ forall q, q ∈ l.*1 <-> q ∈ book_parts \/ exists m, m ∈ k_used k /\ (q = sheet_part m \/ q = sheet_rels_part m).
Proof.
  intros Hx Hg Hc Hs Hl. destruct (answers_new _ _ _ _ Hx Hg Hc) as (k & G & C). destruct (new_linv _ _ _ Hx) as [I0 _]. destruct (calls_effect _ _ _ I0 Hc) as [I _].
  destruct (SessionFacts.new_session _ _ Hx) as [_ S0]. pose proof (SessionFacts.calls_inv _ _ _ _ S0 Hc) as SI.
  assert (exists l, Stored fs' path l) as [l Hst].
  { pose proof (li_nodup _ I) as Hnd. unfold held in Hnd. apply NoDup_app in Hnd as (Hown & _ & _). pose proof (fun H => excel_kept t f path s.1 fs1 tr fs' (li_docs _ I) Hown H Hs Hl) as HK. destruct HK as (l & Hst & _); [|eauto].
    intros q Hq. apply (li_open _ I). unfold held. apply elem_of_app. by left. }
  destruct (excel_names _ _ _ _ _ _ _ _ I Hs Hl Hst) as (N1 & N2 & N3). exists l, k. split; [done|]. split; [done|]. split; [done|]. split; [done|].
  intros q. destruct (decide (q = content_types_name)) as [->|Hne].
  { split; [intros _; left; apply (bool_decide_unpack _); by vm_compute|done]. }
  rewrite (N3 q Hne). pose proof (co_parts _ _ C) as P. split.
  - intros Hp. destruct (decide (in_area q)) as [Ha|Ha].
    + right. destruct (pt_only _ _ _ P q Ha Hp) as (m & Hm & Hq). exists m. by rewrite <- sheet_part_at, <- sheet_rels_of.
    + left. apply (same_present _ _ _ (si_parts _ _ SI q Ha)) in Hp. apply (start_only _ _ _ Hx Ha) in Hp. by apply (book_parts_own (x0, []) _ q S0 Hne) in Hp.
  - intros [Hq|(m & Hm & Hq)].
    + apply (book_parts_own s _ q SI Hne) in Hq. left. apply (li_open _ I). unfold held. rewrite !elem_of_app in *. tauto.
    + rewrite <- sheet_part_at, <- sheet_rels_of in Hq. destruct Hq as [->| ->]; [by apply P|]. destruct (pt_used _ _ _ P m Hm) as (p & g & a & v & Hp & _). left. eauto.
Qed.
(** ** How many *)
Lemma does_used k c b k' : Does k c b k' -> size (k_used k') = (size (k_used k) + handed_out [c] [b])%nat.
Proof.
  destruct 1 as [c n j Ha Hf|c name n j Ha Hn Hl Hj Hu nm|c name n j Ha Hn Hl Hj Hu|old new l1 j l2 Hk Ho Hn|old new Hn|c Hc|st Hs|st Hs1 Hs2|c h Ht Hh0|c h x col cs Hp Hx|c h x Hs Hx|h x Hx|h x Hx|h x Hx]; cbn [k_used set_hand].
  1,3: destruct Ha as [->|(y & _ & ->)]; cbn; lia.
  1: rewrite size_union by set_solver; rewrite size_singleton; destruct Ha as [->|(y & _ & ->)]; cbn; lia.
  all: try (cbn; lia).
  - destruct c; cbn in *; try done; lia.
  - destruct c; cbn in *; try done; lia.
  - destruct Hp; cbn; lia.
  - destruct c; cbn in *; try done; lia.
Qed.
Lemma goes_used cs : forall k bs k', Goes k cs bs k' -> size (k_used k') = (size (k_used k) + handed_out cs bs)%nat.
Proof.
  induction cs as [|c cs IH]; intros k bs k' G; inversion G; subst; [cbn; lia|].
  match goal with D : Does _ _ _ _, G1 : Goes _ cs _ _ |- _ => rewrite (IH _ _ _ G1), (does_used _ _ _ _ D); cbn [handed_out] end.
  destruct c; try lia; destruct b; lia.
Qed.
Lemma inventory_list (l : list string) (us : gset N) : NoDup l -> (forall q, q ∈ l <-> q ∈ book_parts \/ exists m, m ∈ us /\ (q = sheet_part m \/ q = sheet_rels_part m)) ->
  l ≡ₚ book_parts ++ map sheet_part (elements us) ++ map sheet_rels_part (elements us).
Proof.
  intros Hnd Hl. assert (forall m, in_area (sheet_part m)) as A1 by done. assert (forall m, in_area (sheet_rels_part m)) as A2 by done. apply NoDup_Permutation; [done| |].
  - apply NoDup_app. split; [apply (bool_decide_unpack _); by vm_compute|]. split.
    { intros q Hq Hq'. apply book_not_area in Hq. rewrite elem_of_app in Hq'. destruct Hq' as [Hq'|Hq']; apply elem_of_list_fmap in Hq' as (m & -> & _); apply Hq; done. }
    apply NoDup_app. split; [|split].
    + apply NoDup_fmap_2; [|apply NoDup_elements]. intros a b. rewrite <- !sheet_part_at. apply sheet_at_inj.
    + intros q Hq Hq'. apply elem_of_list_fmap in Hq as (m & -> & _). apply elem_of_list_fmap in Hq' as (m' & Hm & _). rewrite <- sheet_part_at, <- sheet_rels_of in Hm. by apply at_ne_of in Hm.
    + apply NoDup_fmap_2; [|apply NoDup_elements]. intros a b. rewrite <- !sheet_rels_of. apply rels_of_inj.
  - intros q. rewrite Hl, !elem_of_app. split.
    + intros [Hq|(m & Hm & [->| ->])]; [by left|right; left|right; right]; apply elem_of_list_fmap; exists m; (split; [done|by apply elem_of_elements]).
    + intros [Hq|[Hq|Hq]]; [by left|right..]; apply elem_of_list_fmap in Hq as (m & -> & Hm); exists m; apply elem_of_elements in Hm; tauto.
Qed.
(** ** The relationships *)
Lemma sst_close_exact c s : (sst_close c s).2 = Ok tt -> (sst_close c s).1.1 = match ss_strings c with [] => delete_relationship (ss_path c) s.1 | _ => s.1 end.
Proof.
  unfold sst_close. destruct (ss_strings c) as [|x l].
  - intros _. reflexivity.
  - intros _. unfold bind, on_office. destruct s as [r o]. cbn [fst snd]. destruct (with_doc _ _ o) as [o1 [y|e|e]]; cbn [fst snd]; [|done..]. by destruct (close_xml_document _ o1) as [o2 z].
Qed.
Definition stays_in (texts : bool) (r : rel) : bool := negb (seqb (r_target r) (absolute calc_at)) && (texts || negb (seqb (r_target r) (absolute sst_at))).
Lemma close_relations b o b1 o1 : BookShape b -> RelsOpen o rels_at -> wb_close (b, o) = ((b1, o1), Ok tt) ->
  of_open o1 !! rels_at = None /\ exists e ns root, of_archive o1 !! rels_at = Some e /\ part_bytes e = Ok (prolog +:+ render_root ns root)
  /\ relations_in root = map rel_tree (List.filter (stays_in (match ss_strings (wb_sst b) with [] => false | _ => true end)) (rl_rels (wb_rels b))).
Proof.
  intros [B1 B2 B3 B4 B5 B6 (ext & B7 & Hext) _] Hro. unfold wb_close. unfold bind at 1. unfold get at 1. cbn [fst snd].
  rewrite B1, B3. unfold services_close. rewrite B4.
  unfold bind at 1. unfold on_wb_office at 1. cbn [fst snd].
  pose proof (fun q => keep_close theme_at o q) as K1. unfold id in K1. unfold theme_close.
  destruct (close_xml_document theme_at o) as [o2 [[]|e|e]]; [|done..]. cbn [fst snd] in *.
  unfold bind at 1. unfold bind at 1. unfold on_wb_rels at 1. cbn [fst snd].
  pose proof (fun q => keep_calc_close (mkCalc [] calc_at) (wb_rels b, o2) q) as K2.
  pose proof (calc_empty_rels (wb_rels b, o2)) as L2.
  destruct (calc_close (mkCalc [] calc_at) (wb_rels b, o2)) as [[r3 o3] [[]|e|e]]; [|done..]. cbn [fst snd] in *.
  unfold bind at 1. unfold on_wb_rels at 1. cbn [fst snd set_wb_rels wb_rels].
  pose proof (fun q => keep_sst_close (wb_sst b) (r3, o3) q) as K3. rewrite B5 in K3.
  pose proof (sst_close_exact (wb_sst b) (r3, o3)) as L3. rewrite B5 in L3. pose proof (sst_close_path (wb_sst b) (r3, o3)) as P3.
  destruct (sst_close (wb_sst b) (r3, o3)) as [[r4 o4] [[]|e|e]]; [|done..]. cbn [fst snd] in *. specialize (L3 eq_refl).
  unfold on_wb_office at 1. cbn [fst snd].
  pose proof (fun q => keep_style_close (wb_style b) o4 q) as K4. unfold id in K4. rewrite B6 in K4.
  destruct (style_close (wb_style b) o4) as [o5 [[]|e|e]]; [|done..]. cbn [fst snd] in *.
  unfold bind at 1. unfold on_wb_office at 1. cbn [fst snd set_wb_rels wb_rels].
  assert (forall q, q <> theme_at -> q <> calc_at -> q <> sst_at -> q <> style_at -> SameAt o o5 q) as K.
  { intros q H1 H2 H3 H4. eapply same_trans; [by apply K1|]. eapply same_trans; [by apply K2|]. eapply same_trans; [by apply K3|by apply K4]. }
  assert (rl_path r4 = rels_at) as Hp4. { rewrite P3, L2. cbn. by rewrite B2. }
  assert (rl_rels r4 = List.filter (stays_in (match ss_strings (wb_sst b) with [] => false | _ => true end)) (rl_rels (wb_rels b))) as Hf1.
  { rewrite L3, L2. destruct (ss_strings (wb_sst b)); rewrite !delete_rels; [rewrite filter_filter|]; apply List.filter_ext; intros r; unfold stays_in; [done|]. by rewrite andb_true_r. }
  assert (rl_rels r4 <> []) as Hne.
  { assert (mkRel "rId1" ("/" +:+ theme_at) (c_type c_theme) None ∈ rl_rels r4) as Hth; [|intros Hz; rewrite Hz in Hth; by apply elem_of_nil in Hth].
    rewrite Hf1, B7. apply elem_of_list_In, filter_In. split; [by left|]. by destruct (ss_strings (wb_sst b)). }
  assert (RelsOpen o5 rels_at) as Ho5 by (eapply rels_open_same; [by apply K|done]).
  destruct (rels_text o5 r4) as (er & ns & root & Hc & Hb & Hin); [by rewrite Hp4|done|]. rewrite Hf1 in Hin. rewrite Hc. cbn [fst snd]. unfold on_wb_office at 1. cbn [fst snd]. rewrite Hp4 in *.
  set (o6 := mkOffice _ _). pose proof (keep_book_part_close book_at (wb_view b) (wb_sheets b) o6 rels_at) as K5. unfold id in K5. destruct (book_part_close book_at (wb_view b) (wb_sheets b) o6) as [o7 [[]|e|e]]; [|done..].
  cbn [fst] in K5. destruct (K5 ltac:(done)) as [K6 K7]. intros [= <- <-]. split.
  - rewrite K6. unfold o6. cbn. apply lookup_delete.
  - exists er, ns, root. split; [rewrite K7; unfold o6; cbn; apply lookup_insert|done].
Qed.
Lemma link_told l : told (rel_tree (link l)) = says ("rId" +:+ show_N l.1) worksheet_type (sheet_part l.2).
Proof. unfold told. destruct (rel_attrs (link l)) as (-> & -> & ->). reflexivity. Qed.
Lemma told_relations texts b ls : rl_rels (wb_rels b) = base_rels ++ map link ls -> map told (map rel_tree (List.filter (stays_in texts) (rl_rels (wb_rels b)))) = book_relations texts ls.
Proof.
  intros ->. rewrite List.filter_app, map_app, map_app. unfold book_relations. rewrite !app_assoc. f_equal.
  - destruct texts; reflexivity.
  - induction ls as [|x ls IH]; [done|]. cbn [map List.filter].
    assert (stays_in texts (link x) = true) as ->. { unfold stays_in. change (seqb (r_target (link x)) (absolute calc_at)) with false. change (seqb (r_target (link x)) (absolute sst_at)) with false. by destruct texts. }
    cbn [map]. by rewrite link_told, IH.
Qed.
(** ** The texts *)
Definition has_text (s : session) : bool := match table s with [] => false | _ => true end.
Lemma store_text cs : forall t, (store_cells cs t).1 <> [] <-> t <> [] \/ existsb shares cs = true.
Proof.
  assert (forall v t, (get_string_id v t).1 <> []) as Hid.
  { intros v t. unfold get_string_id. destruct (position _ t) eqn:Ep; cbn [fst]; [by destruct t|]. by destruct t. }
  assert (forall c t, (store_cell c t).1 <> [] <-> t <> [] \/ shares c = true) as Hc.
  { intros c t. unfold store_cell, shares. destruct (ce_value c) as [v|]; [|cbn [fst]; intuition congruence]. unfold seqb.
    destruct (ce_type c); try (cbn [fst]; intuition congruence).
    - destruct (f64_parses v); [cbn; intuition congruence|]. destruct (String.eqb v "true"); [cbn; intuition congruence|]. destruct (String.eqb v "false"); [cbn; intuition congruence|].
      specialize (Hid v t). destruct (get_string_id v t). cbn in *. intuition.
    - specialize (Hid v t). destruct (get_string_id v t). cbn in *. intuition. }
  induction cs as [|c cs IH]; intros t; cbn [store_cells existsb]; [cbn; intuition congruence|].
  specialize (Hc c t). destruct (store_cell c t) as [t1 c1]. specialize (IH t1). destruct (store_cells cs t1) as [t2 cs1]. cbn [fst] in *. rewrite IH, Hc, orb_true_iff. tauto.
Qed.
Lemma use_text h r col cs s : NoPanic (use h (set_row_value r col cs) s).2 -> forall w, handle h s = Some w ->
  table (use h (set_row_value r col cs) s).1 <> [] <-> table s <> [] \/ existsb shares cs = true.
Proof.
  intros Hn w Hw. unfold use in *. rewrite Hw in *. rewrite <- (store_text cs (table s)). change (ss_strings (wb_sst (x_book s.1))) with (table s) in *. unfold set_row_value in *.
  assert (match u16_sub env_mode col 1 with Err _ => False | _ => True end) as He by (unfold u16_sub; by destruct (_ <=? _), env_mode).
  destruct (u16_sub env_mode col 1) as [c0|e|e]; [|done..]. destruct (store_cells cs (table s)) as [t1 cs1]. destruct (place_cells _ _ _ _ _) as [[dim cells] y]. by destruct y.
Qed.
Lemma quiet_table c s : kind c <> 4 -> table (call_step c s).1 = table s.
Proof.
  assert (forall m, KeepsSst m -> table (on_excel (Excel.on_book (A := unit) (pure_book m)) s).1 = table s) as Hp.
  { intros m Hm. unfold on_excel, Excel.on_book, pure_book, x_state, table. cbn [fst snd]. specialize (Hm (x_book s.1)). destruct (m (x_book s.1)) as [b r]. cbn in *. by rewrite Hm. }
  assert (forall name, table (give (Excel.on_book (add_sheet name)) s).1 = table s) as Hgive.
  { intros name. unfold give, Excel.on_book, x_state, add_sheet. cbn [fst snd]. destruct (ws_new name _) as [[l [r o]] x]. by destruct x. }
  assert (forall h m, table (use h (on_handle m) s).1 = table s) as Hu.
  { intros h m. unfold use, on_handle. destruct (handle h s) as [w|]; [|done]. cbn [fst snd]. by destruct (m w). }
  assert (forall h m, (forall w b o, wb_sst (m w (b, o)).1.1 = wb_sst b) -> table (spend h m s).1 = table s) as Hsp.
  { intros h m Hm. unfold spend. destruct (handle h s) as [w|]; [|done]. unfold Excel.on_book, x_state, table. specialize (Hm w (x_book s.1) (x_office s.1)). destruct (m w _) as [[b1 o1] r]. cbn in *. by rewrite Hm. }
  intros Hk. destruct c; cbn [call_step]; try (by destruct (Hk eq_refl)); auto.
  - apply (Hgive (Some name)).
  - apply Hp. intros b. unfold rename_sheet. destruct (existsb _ _); [done|]. by destruct (rename_first _ _ _).
  - apply Hp. intros b. unfold bind, wb_style_id. by destruct (get_style_id _ _) as [st' [r|e|e]].
  - apply Hsp. intros w b o. unfold on_wb_office. cbn [fst snd]. by destruct (ws_flush w o).
  - apply Hsp. intros w b o. unfold wb_delete_sheet. by destruct (delete_sheet w _) as [[l [r o1]] x].
Qed.
Lemma step_text c k s : Core k s -> Given c -> NoPanic (call_step c s).2 -> table (call_step c s).1 <> [] <-> table s <> [] \/ PutsText k c.
Proof.
  intros C Hg Hn.
  assert (forall h r col cs, Puts h c col cs -> call_step c s = use h (set_row_value r col cs) s -> table (call_step c s).1 <> [] <-> table s <> [] \/ PutsText k c) as Hput.
  { intros h r col cs Hp He. pose proof (hand_of k s h (co_hands _ _ C)) as Hh.
    assert (PutsText k c <-> (exists x, hand k h = Some x) /\ existsb shares cs = true) as ->.
    { split; [intros (h' & x & col' & cs' & H1 & H2 & H3)|intros [[x H2] H3]; by exists h, x, col, cs]. destruct (puts_same _ _ _ _ _ _ _ Hp H1) as (-> & -> & ->). eauto. }
    rewrite He in *. destruct (handle h s) as [w|] eqn:Ew.
    - rewrite (use_text _ _ _ _ _ Hn _ Ew). destruct (hand k h) as [x|]; [|done]. intuition eauto.
    - destruct (hand k h) as [x|]; [done|]. unfold use. rewrite Ew. cbn [fst]. split; [tauto|]. intros [?|[[x ?] _]]; done. }
  destruct (decide (kind c = 4)) as [Hk|Hk].
  - destruct c; try done.
    + by apply (Hput h r c cs); [constructor|].
    + destruct Hg as (G1 & w & r & -> & G2 & G3 & G4). apply (Hput h r (word_value w) cs); [by constructor|].
      cbn [call_step]. unfold use. destruct (handle h s) as [y|]; [|done]. unfold set_row_value_ref, bind, lift. by rewrite get_cell_index_word.
  - rewrite (quiet_table _ _ Hk). split; [tauto|]. intros [?|(h & x & col & cs & H1 & _)]; [done|]. apply kind_puts in H1 as [H1 _]. done.
Qed.
Lemma text_core cs : forall k s s' o0, LInv s -> SessionInv o0 s -> Core k s -> Forall Given cs -> calls cs s = Some s' ->
  table s' <> [] <-> table s <> [] \/ SomeText k cs.
Proof.
  induction cs as [|c cs IH]; intros k s s' o0 I SI C Hg Hc.
  - injection Hc as <-. split; [tauto|]. intros [?|Ht]; [done|]. inversion Ht.
  - apply Forall_cons in Hg as [Hg1 Hg]. cbn [calls] in Hc.
    assert (NoPanic (call_step c s).2) as Hn. { destruct (call_step c s) as [s1 [x|e|e]]; done. }
    destruct (step_core c k s o0 I SI C Hg1 Hn) as (k1 & D & C1). pose proof (step_text c k s C Hg1 Hn) as Ht.
    assert (calls cs (call_step c s).1 = Some s') as Hc1. { destruct (call_step c s) as [s1 [x|e|e]]; done. }
    rewrite (IH k1 _ s' o0 (proj1 (call_effect c s I Hn)) (SessionFacts.call_inv o0 c s SI) C1 Hg Hc1), Ht. split.
    + intros [[?|?]|?]; [by left|right; by apply SomeText_now|right; by eapply SomeText_later].
    + intros [?|Hs]; [tauto|]. inversion Hs as [? ? ? Hp|? ? b k2 ? D2 Hs2]; subst; [tauto|]. destruct (does_det _ _ _ _ _ _ D D2) as [_ ->]. by right.
Qed.
Theorem text_new fs x0 cs s : excel_new None fs = Ok x0 -> Forall Given cs -> calls cs (x0, []) = Some s -> has_text s = true <-> SomeText new_desk cs.
Proof.
  intros Hx Hg Hc. destruct (new_linv _ _ _ Hx) as [I _]. destruct (SessionFacts.new_session _ _ Hx) as [_ SI].
  pose proof (text_core cs new_desk _ s (x_office x0) I SI ltac:(by apply start_core in Hx) Hg Hc) as H.
  assert (table (x0, []) = []) as H0 by (by apply ready_new in Hx as [_ ?]). rewrite H0 in H. unfold has_text. destruct (table s); intuition congruence.
Qed.
(** ** The relationships of the workbook as they are written *)
Theorem saved_relations k s o0 t f path fs1 tr fs' l : LInv s -> SessionInv o0 s -> NewParts o0 -> Core k s -> excel_save t f path s.1 fs1 = (tr, Ok tt) -> last tr = Some fs' -> Stored fs' path l ->
  exists text ns root, ("xl/_rels/workbook.xml.rels", prolog +:+ text) ∈ l /\ Renders (Some ns) root text /\ map told (relations_in root) = book_relations (has_text s) (k_links k).
Proof.
  intros I SI N C Hs Hl Hst. assert (NewParts (x_office s.1)) as [_ N2 _ _] by (eapply new_parts_same; [apply SI|done]).
  pose proof (li_nodup _ I) as Hnd. unfold held in Hnd. apply NoDup_app in Hnd as (Hown & _ & _).
  assert (forall q, q ∈ own_parts (x_book s.1) -> is_Some (of_open (x_office s.1) !! q)) as Hop. { intros q Hq. apply (li_open _ I). unfold held. apply elem_of_app. by left. }
  unfold excel_save in Hs. pose proof (safe_flush (x_book s.1) (x_office s.1) Hown (li_docs _ I) Hop) as S1.
  destruct (wb_flush (x_book s.1) (x_office s.1)) as [o [[]|e|e]] eqn:Ef; [|done..].
  destruct (suite_kept _ _ _ _ _ _ _ (proj1 S1 : DocsOk (su_office (mkSuite o (su_root (x_suite s.1)) (su_core (x_suite s.1))))) Hs Hl) as (l' & Hl' & _ & Hin).
  pose proof (stored_once _ _ _ _ Hst Hl') as <-. cbn [su_office su_root su_core] in Hin.
  unfold wb_flush in Ef. pose proof (stays_close (x_book s.1, x_office s.1)) as Hsc. destruct (wb_close (x_book s.1, x_office s.1)) as [[b1 o1] r] eqn:Hc. cbn [fst snd] in Hsc. injection Ef as <- ->.
  destruct (close_relations _ _ _ _ (si_book _ _ SI) N2 Hc) as (R1 & e & ns & root & R2 & R3 & R4). destruct (drop_rels _ b1 o1 (si_book _ _ SI) Hsc R1) as [H5 H6].
  eexists _, _, root. split; [|split].
  - apply (Hin rels_at e); [done| |done|by rewrite H6|exact R3]. unfold DocsIn. cbn [su_root su_core]. rewrite (si_root _ _ SI), (si_core _ _ SI). apply (bool_decide_unpack _). by vm_compute.
  - apply render_renders_mut.
  - rewrite R4. apply told_relations. apply C.
Qed.
End with_env.
