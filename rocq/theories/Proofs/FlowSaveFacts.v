(** From the calls of a session to the parts of the saved file: releasing a sheet and saving. *)
From Verif.Model Require Import Excel.
From Verif.Spec Require Import RelSpec XmlSpec XmlRepr PackageSpec PartSpec ColumnSpec SheetSpec SessionSpec FlowSpec.
From Verif.Proofs Require Import BaseFacts ConverterFacts PackageFacts XmlWriteFacts DocBuild XmlReadFacts SmallPartFacts SheetFacts SheetDocFacts SheetCycleFacts
  BookFacts FrameFacts SaveFacts SessionFacts ExcelFacts XmlHistFacts KeepFacts ReadAnyFacts FlowFacts.
Open Scope N_scope.

(** ** What the elements of a sheet show *)
Lemma app_cancel_s (a b c : string) : a +:+ c = b +:+ c -> a = b.
Proof.
  revert b. induction a as [|x a IH]; intros [|y b] Hab; [done| | |].
  - exfalso. apply (f_equal String.length) in Hab. rewrite !slength_app in Hab. cbn in Hab. lia.
  - exfalso. apply (f_equal String.length) in Hab. rewrite !slength_app in Hab. cbn in Hab. lia.
  - cbn in Hab. injection Hab as -> Hab. f_equal. by apply IH.
Qed.
Lemma forall2_to {A B} (R : A -> B -> Prop) xs ts x : Forall2 R xs ts -> x ∈ xs -> exists t, t ∈ ts /\ R x t.
Proof.
  intros H [i Hi]%elem_of_list_lookup. destruct (Forall2_lookup_l _ _ _ _ _ H Hi) as (t & Ht & HR). exists t. split; [|done]. by eapply elem_of_list_lookup_2.
Qed.
Lemma forall2_from {A B} (R : A -> B -> Prop) xs ts t : Forall2 R xs ts -> t ∈ ts -> exists x, x ∈ xs /\ R x t.
Proof.
  intros H [i Hi]%elem_of_list_lookup. destruct (Forall2_lookup_r _ _ _ _ _ H Hi) as (x & Hx & HR). exists x. split; [|done]. by eapply elem_of_list_lookup_2.
Qed.
Lemma forall2_one {A B} (R : A -> B -> Prop) xs ts x t t' : Forall2 R xs ts -> NoDup xs -> t ∈ ts -> t' ∈ ts ->
  (forall y, y ∈ xs -> R y t -> y = x) -> (forall y, y ∈ xs -> R y t' -> y = x) -> t = t'.
Proof.
  intros H Hnd [i Hi]%elem_of_list_lookup [j Hj]%elem_of_list_lookup H1 H2.
  destruct (Forall2_lookup_r _ _ _ _ _ H Hi) as (y & Hy & Ry). destruct (Forall2_lookup_r _ _ _ _ _ H Hj) as (z & Hz & Rz).
  apply H1 in Ry as ->; [|by eapply elem_of_list_lookup_2]. apply H2 in Rz as ->; [|by eapply elem_of_list_lookup_2].
  assert (i = j) as -> by (eapply NoDup_lookup; done). congruence.
Qed.
Lemma sorted_nodup (l : list N) : StronglySorted N.lt l -> NoDup l.
Proof.
  induction 1 as [|x l Hs IH Hx]; constructor; [|done]. intros Hin. rewrite Forall_forall in Hx. specialize (Hx x Hin). lia.
Qed.
Section with_env.
Context `{E : Env}.
Section elements.
Context (w : worksheet) (data : tree) (rows : list (N * list N)) (Hw : RowsWritten w data rows).
Lemma row_elem r row : RowAt data r row -> exists cs, (r, cs) ∈ rows /\ RowElem w (r, cs) row.
Proof.
  intros (Hin & _ & Hr). destruct (forall2_from _ _ _ _ (rw_elems _ _ _ Hw) Hin) as ([r' cs] & Hx & He). exists cs.
  assert (r' = r) as ->; [|done]. destruct He as (_ & He & _). rewrite Hr in He. injection He as He. cbn in He. by apply show_N_inj in He.
Qed.
Lemma row_one r row row' : RowAt data r row -> RowAt data r row' -> row' = row.
Proof.
  assert (forall r row cs, RowAt data r row -> forall y, y ∈ rows -> (r, cs) ∈ rows -> RowElem w y row -> y = (r, cs)) as Hk.
  { clear r row row'. intros r row cs (_ & _ & Hr) [r' cs'] Hy Hx (_ & He & _). rewrite Hr in He. injection He as He. cbn in He. apply show_N_inj in He as <-.
    pose proof (sorted_nodup _ (rw_rows _ _ _ Hw)) as Hnd. apply elem_of_list_lookup in Hy as [i Hi]. apply elem_of_list_lookup in Hx as [j Hj].
    assert (i = j) as ->; [|congruence]. apply (NoDup_lookup _ i j r Hnd); [by rewrite list_lookup_fmap, Hi|by rewrite list_lookup_fmap, Hj]. }
  intros H1 H2. destruct (row_elem _ _ H1) as (cs & Hx & _). symmetry.
  eapply (forall2_one _ _ _ (r, cs) row row' (rw_elems _ _ _ Hw)); [|apply H1|apply H2| |].
  - pose proof (sorted_nodup _ (rw_rows _ _ _ Hw)) as Hnd. by eapply NoDup_fmap_1.
  - intros y Hy He. exact (Hk r row cs H1 y Hy Hx He).
  - intros y Hy He. exact (Hk r row' cs H2 y Hy Hx He).
Qed.
Lemma row_there r : has_row w r -> exists row p, RowAt data r row /\ props_at w r = Some p /\ RowShows p row.
Proof.
  intros Hr. apply (rw_has _ _ _ Hw) in Hr. apply elem_of_list_fmap in Hr as ([r' cs] & -> & Hx). cbn [fst].
  destruct (forall2_to _ _ _ _ (rw_elems _ _ _ Hw) Hx) as (row & Hin & H1 & H2 & _ & p & H3 & H4). exists row, p. done.
Qed.
Lemma cell_key r c t : CellAt data r c t -> exists row cs, RowAt data r row /\ (r, cs) ∈ rows /\ c ∈ cs /\ t ∈ t_children row /\ CellElem w r c t
  /\ Forall2 (CellElem w r) cs (t_children row) /\ forall c', CellElem w r c' t -> c' = c.
Proof.
  intros (row & name & Hrow & Hin & _ & Hc & Ha). destruct (row_elem _ _ Hrow) as (cs & Hx & _ & _ & Hcs & _). cbn [fst snd] in Hcs.
  assert (forall c', CellElem w r c' t -> c' = c) as Hk.
  { intros c' (_ & (name' & Hc' & Ha') & _). rewrite Ha in Ha'. injection Ha' as Ha'. apply app_cancel_s in Ha' as <-. destruct Hc as (_ & _ & <-), Hc' as (_ & _ & <-). done. }
  destruct (forall2_from _ _ _ _ Hcs Hin) as (c' & Hc' & He). pose proof (Hk _ He) as ->. exists row, cs. done.
Qed.
Lemma cell_one r c t t' : CellAt data r c t -> CellAt data r c t' -> t' = t.
Proof.
  intros H1 H2. destruct (cell_key _ _ _ H1) as (row & cs & R1 & X1 & C1 & I1 & _ & F1 & K1). destruct (cell_key _ _ _ H2) as (row' & cs' & R2 & _ & _ & I2 & _ & _ & K2).
  pose proof (row_one _ _ _ R1 R2) as ->. symmetry. eapply (forall2_one _ _ _ c t t' F1); [|done|done|intros y _; apply K1|intros y _; apply K2].
  apply sorted_nodup. pose proof (rw_cells _ _ _ Hw) as Hs. rewrite Forall_forall in Hs. apply Hs. apply elem_of_list_fmap. by exists (r, cs).
Qed.
Lemma cell_there r c y : cell_at w r c = Some y -> exists t, CellShows y t /\ CellAt data r c t.
Proof.
  intros Hy. destruct (proj2 (rw_at _ _ _ Hw r c)) as (cs & Hx & Hc); [by rewrite Hy|].
  destruct (forall2_to _ _ _ _ (rw_elems _ _ _ Hw) Hx) as (row & Hin & H1 & H2 & H3 & _). cbn [fst snd] in *.
  destruct (forall2_to _ _ _ _ H3 Hc) as (t & Ht & T1 & (name & T2 & T3) & x & T4 & T5). rewrite Hy in T4. injection T4 as <-. exists t. split; [done|].
  exists row, name. done.
Qed.
Lemma cell_absent r c t : cell_at w r c = None -> ~ CellAt data r c t.
Proof. intros Hn Hc. destruct (cell_key _ _ _ Hc) as (_ & _ & _ & _ & _ & _ & (_ & _ & x & Hx & _) & _). congruence. Qed.
End elements.
Lemma shown w0 w table ops data rows : Shows w0 w table ops -> RowsWritten w data rows -> SheetShown w0 table ops data.
Proof.
  intros [S1 S2 S3 S4 S5] Hw. constructor.
  - intros r c x Hl. destruct (S1 r c x Hl) as (y & Hy & Hst). destruct (cell_there _ _ _ Hw r c y Hy) as (t & Ht & Hc). exists y, t.
    split; [done|]. split; [done|]. split; [done|]. intros t' Ht'. by eapply cell_one.
  - intros r c y Hl Hy. rewrite <- (S2 r c Hl) in Hy. destruct (cell_there _ _ _ Hw r c y Hy) as (t & Ht & Hc). exists t.
    split; [done|]. split; [done|]. intros t' Ht'. by eapply cell_one.
  - intros r c t Hl Hy. rewrite <- (S2 r c Hl) in Hy. by eapply cell_absent.
  - intros r p Hl. pose proof (S3 r p Hl) as Hp. destruct (row_there _ _ _ Hw r) as (row & p' & H1 & H2 & H3); [unfold has_row; by rewrite Hp|].
    rewrite Hp in H2. injection H2 as <-. exists row. split; [done|]. split; [done|]. intros t' Ht'. by eapply row_one.
  - intros r p Hl Hp0. pose proof (S5 r p Hl Hp0) as Hp. destruct (row_there _ _ _ Hw r) as (row & p' & H1 & H2 & H3); [unfold has_row; by rewrite Hp|].
    rewrite Hp in H2. injection H2 as <-. exists row. split; [done|]. split; [done|]. intros t' Ht'. by eapply row_one.
  - intros r t Hf Hn Hr. unfold has_row in Hn. rewrite <- (S4 r Hf) in Hn. destruct (row_elem _ _ _ Hw _ _ Hr) as (cs & Hx & _). apply Hn. apply (rw_has _ _ _ Hw).
    apply elem_of_list_fmap. by exists (r, cs).
Qed.

(** ** The table of strings in the file *)
Section flush.
Context (b0 : workbook) (Hnd : NoDup (own_parts b0)) (Hne : ss_strings (wb_sst b0) <> []).
Definition SstIs (so : option open_part) (sa : option entry) (s : wb_state) : Prop :=
  same_paths b0 s.1 /\ of_open s.2 !! ss_path (wb_sst b0) = so /\ of_archive s.2 !! ss_path (wb_sst b0) = sa.
Definition Steady so sa {A} (m : M wb_state A) : Prop := forall s, SstIs so sa s -> SstIs so sa (m s).1.
Lemma steady_bind so sa {A B} (m : M wb_state A) (k : A -> M wb_state B) : Steady so sa m -> (forall a, Steady so sa (k a)) -> Steady so sa (bind m k).
Proof. intros Hm Hk s Hs. unfold bind. pose proof (Hm s Hs) as H1. destruct (m s) as [s1 [a|e|e]]; [|done..]. by apply Hk. Qed.
Lemma steady_office so sa {A} (m : M office A) p : Keep id (fun q => q <> p) m -> ss_path (wb_sst b0) <> p -> Steady so sa (on_wb_office m).
Proof.
  intros Hk Hx [b o] (H1 & H2 & H3). unfold on_wb_office. cbn [fst snd] in *. destruct (Hk o _ Hx) as [K1 K2]. unfold id in *. destruct (m o) as [o1 r].
  cbn [fst snd] in *. unfold SstIs. cbn [fst snd]. by rewrite K1, K2.
Qed.
Lemma steady_calc so sa : ss_path (wb_sst b0) <> cc_path (wb_calc b0) -> Steady so sa (on_wb_rels (calc_close (wb_calc b0))).
Proof.
  intros Hx [b o] (H1 & H2 & H3). unfold on_wb_rels. cbn [fst snd] in *. destruct (keep_calc_close (wb_calc b0) (wb_rels b, o) _ Hx) as [K1 K2].
  pose proof (calc_close_path (wb_calc b0) (wb_rels b, o)) as P. destruct (calc_close (wb_calc b0) (wb_rels b, o)) as [[r o1] y]. cbn [fst snd] in *.
  destruct H1 as (P1 & P2 & P3 & P4 & P5 & P6). split; [unfold same_paths; cbn; by rewrite P|]. cbn [fst snd]. by rewrite K1, K2.
Qed.
Lemma steady_sst sa : Steady None sa (on_wb_rels (sst_close (wb_sst b0))).
Proof.
  intros [b o] (H1 & H2 & H3). unfold on_wb_rels. cbn [fst snd] in *. unfold sst_close. destruct (ss_strings (wb_sst b0)) as [|x l]; [done|].
  unfold bind, on_office, with_doc, close_xml_document. cbn [fst snd]. rewrite H2. cbn [fst snd]. rewrite H2. cbn [fst snd]. by destruct b.
Qed.
Lemma steady_rels so sa : ss_path (wb_sst b0) <> rl_path (wb_rels b0) -> Steady so sa (fun s => on_wb_office (rels_close (wb_rels s.1)) s).
Proof.
  intros Hx s Hs. assert (rl_path (wb_rels s.1) = rl_path (wb_rels b0)) as He by (by destruct Hs as ((_ & ? & _) & _)).
  eapply (steady_office so sa (rels_close (wb_rels s.1)) (rl_path (wb_rels s.1))); [apply keep_rels_close|by rewrite He|done].
Qed.
Lemma steady_close sa s : SstIs None sa s -> SstIs None sa (wb_close s).1.
Proof.
  destruct (own_distinct b0 Hnd) as (D1 & D2 & D3 & D4 & D5 & D6 & D7 & D8 & D9).
  intros Hs. assert (forall A (k : wb_state -> M wb_state A), bind get k s = k s s) as Hg by done. unfold wb_close. rewrite Hg. clear Hg. cbn zeta.
  assert (wb_theme s.1 = wb_theme b0 /\ wb_calc s.1 = wb_calc b0 /\ wb_sst s.1 = wb_sst b0 /\ wb_style s.1 = wb_style b0 /\ wb_path s.1 = wb_path b0) as (F1 & F2 & F3 & F4 & F5).
  { destruct Hs as ((P1 & P2 & P3 & P4 & P5 & P6) & _). done. }
  unfold services_close. rewrite F1, F2, F3, F4, F5.
  match goal with |- SstIs None sa (?m s).1 => assert (Steady None sa m) as HS end; [|exact (HS s Hs)].
  apply steady_bind; [eapply steady_office; [apply keep_close|done]|intros _].
  apply steady_bind; [|intros _; apply steady_bind; [by apply steady_rels|intros _]].
  - apply steady_bind; [by apply steady_calc|intros _]. apply steady_bind; [apply steady_sst|intros _]. eapply steady_office; [apply keep_style_close|done].
  - eapply steady_office; [apply keep_book_part_close|done].
Qed.
Lemma steady_drop sa b o : SstIs None sa (b, o) -> of_open (wb_drop b o) !! ss_path (wb_sst b0) = None /\ of_archive (wb_drop b o) !! ss_path (wb_sst b0) = sa.
Proof.
  destruct (own_distinct b0 Hnd) as (D1 & D2 & D3 & D4 & D5 & D6 & D7 & D8 & D9).
  intros Hb. unfold wb_drop.
  assert (wb_theme b = wb_theme b0 /\ wb_calc b = wb_calc b0 /\ wb_sst b = wb_sst b0 /\ wb_style b = wb_style b0) as (F1 & F2 & F3 & F4).
  { destruct Hb as ((P1 & P2 & P3 & P4 & P5 & P6) & _). done. }
  rewrite F1, F2, F3, F4. unfold quietly.
  apply steady_close in Hb. apply (steady_calc None sa (not_eq_sym D1)) in Hb. apply steady_sst in Hb. 
  apply (steady_office None sa _ _ (keep_style_close (wb_style b0)) D7) in Hb. apply (steady_rels None sa D3) in Hb.
  apply (steady_office None sa _ _ (keep_close (wb_theme b0)) D5) in Hb. apply Hb.
Qed.
Lemma bind_ok {S A B} (m : M S A) (k : A -> M S B) s s' b : bind m k s = (s', Ok b) -> exists s1 a, m s = (s1, Ok a) /\ k a s1 = (s', Ok b).
Proof. unfold bind. destruct (m s) as [s1 [a|e|e]]; [|done..]. eauto. Qed.
Lemma flush_strings o o' : PartOpen "si" o (ss_path (wb_sst b0)) -> wb_flush b0 o = (o', Ok tt) ->
  exists e root nsl text, of_open o' !! ss_path (wb_sst b0) = None /\ of_archive o' !! ss_path (wb_sst b0) = Some e /\ part_bytes e = Ok (prolog +:+ text)
  /\ Renders (Some nsl) root text /\ Forall2 Item (ss_strings (wb_sst b0)) (List.filter (fun t => String.eqb (t_tag t) "si") (t_children root)).
Proof.
  destruct (own_distinct b0 Hnd) as (D1 & D2 & D3 & D4 & D5 & D6 & D7 & D8 & D9). intros Hp. unfold wb_flush.
  destruct (wb_close (b0, o)) as [[b1 o1] r] eqn:Ec. intros Hf. assert (r = Ok tt) as -> by congruence. assert (wb_drop b1 o1 = o') as <- by congruence. clear Hf.
  unfold wb_close, services_close in Ec. assert (forall A (k : wb_state -> M wb_state A), bind get k (b0, o) = k (b0, o) (b0, o)) as Hg by done. rewrite Hg in Ec. clear Hg. cbn zeta in Ec. cbn [fst snd] in Ec.
  pose proof Hp as (p & it & Hop & _). set (X := ss_path (wb_sst b0)) in *. set (sa := of_archive o !! X).
  assert (SstIs (Some p) sa (b0, o)) as H0 by (split; [apply same_paths_refl|done]).
  apply bind_ok in Ec as (s1 & a1 & E1 & Ec). apply (steady_office (Some p) sa _ _ (keep_close (wb_theme b0)) D5) in H0. unfold theme_close in E1. rewrite E1 in H0. cbn [fst] in H0. clear E1.
  apply bind_ok in Ec as (s4 & a4 & E4 & Ec). apply bind_ok in E4 as (s2 & a2 & E2 & E4). apply (steady_calc (Some p) sa (not_eq_sym D1)) in H0. rewrite E2 in H0. cbn [fst] in H0. clear E2.
  apply bind_ok in E4 as (s3 & a3 & E3 & E4). destruct s2 as [b2 o2]. destruct H0 as (P2 & O2 & A2). cbn [fst snd] in *.
  assert (PartOpen "si" o2 X) as Hp2. { destruct Hp as (p' & it' & Hop' & Hrest). rewrite Hop in Hop'. injection Hop' as <-. exists p, it'. done. }
  destruct (sst_roundtrip o2 (wb_rels b2) (wb_sst b0) Hp2 Hne) as (e & g & m & cs & ns & Hc & Hb & Hcs & _).
  unfold on_wb_rels in E3. cbn [fst snd] in E3. rewrite Hc in E3. assert (s3 = (set_wb_rels b2 (wb_rels b2), mkOffice (delete X (of_open o2)) (<[X:=e]> (of_archive o2)))) as -> by (apply (f_equal fst) in E3; exact (eq_sym E3)). clear E3.
  assert (SstIs None (Some e) (set_wb_rels b2 (wb_rels b2), mkOffice (delete X (of_open o2)) (<[X:=e]> (of_archive o2)))) as H3.
  { split; [|split; cbn; [apply lookup_delete|apply lookup_insert]]. destruct b2. exact P2. }
  apply (steady_office None (Some e) _ _ (keep_style_close (wb_style b0)) D7) in H3. rewrite E4 in H3. cbn [fst] in H3.
  apply bind_ok in Ec as (s5 & a5 & E5 & Ec). apply (steady_rels None (Some e) D3) in H3. cbn beta in H3. rewrite E5 in H3. cbn [fst] in H3.
  apply (steady_office None (Some e) _ _ (keep_book_part_close (wb_path b0) (wb_view b0) (wb_sheets b0)) D9) in H3. rewrite Ec in H3. cbn [fst] in H3.
  apply steady_drop in H3 as [H4 H5].
  eexists e, _, _, _. split; [exact H4|]. split; [exact H5|]. split; [exact Hb|]. split; [apply render_renders_mut|]. cbn [t_children].
  rewrite List.filter_app.
  assert (List.filter (fun t => String.eqb (t_tag t) "si") cs = []) as ->.
  { apply filter_none. intros t Ht. apply String.eqb_neq. rewrite Forall_forall in Hcs. by apply Hcs. }
  clear. induction (ss_strings (wb_sst b0)) as [|x l IH]; cbn; [constructor|]. constructor; [constructor|done].
Qed.
End flush.
End with_env.

(** ** The session *)
Section sessions.
Context `{E : Env} `{Hs : Hashes}.
(** What was written under a name, and stays there. *)
Definition StoredAt (s : session) (q : string) (e : entry) : Prop := of_open (x_office s.1) !! q = None /\ of_archive (x_office s.1) !! q = Some e.
Lemma flow_release w0 h ops s w c : LInv s -> Flow w0 h ops s w -> releases h c ->
  (call_step c s).2 = Ok tt /\ table (call_step c s).1 = table s
  /\ exists e root nsl text m, StoredAt (call_step c s).1 (ws_path w0) e /\ part_bytes e = Ok (prolog +:+ text) /\ Renders (Some nsl) root text
  /\ only_child "sheetData" root (data_tree m) /\ RowsWritten w (data_tree m) (row_list m).
Proof.
  intros I [F1 F2 F3 F4 F5 [m Hm] F8] Hc. rewrite <- F2 in F4. destruct (sheet_cycle _ w F4 F5) as (e & root & nsl & ref & Hcl & (text & Hb & Ht) & _ & _ & Hd & _).
  assert (rl_path (ws_rels w) <> ws_path w) as Hne.
  { pose proof (li_nodup _ I) as Hnd. apply handle_lookup in F1. destruct (live_split _ _ _ F1) as (a & b & L & _). unfold held in Hnd. rewrite L in Hnd.
    apply NoDup_app in Hnd as (_ & _ & Hnd). apply NoDup_app in Hnd as (_ & _ & Hnd). apply NoDup_app in Hnd as (_ & _ & Hnd). apply NoDup_app in Hnd as (Hnd & _).
    cbn in Hnd. apply NoDup_cons in Hnd as [Hnd _]. apply not_elem_of_cons in Hnd as [Hnd _]. congruence. }
  set (o1 := mkOffice (delete (ws_path w) (of_open (x_office s.1))) (<[ws_path w := e]> (of_archive (x_office s.1)))) in *.
  pose proof (keep_rels_close (ws_rels w) o1 (ws_path w) (not_eq_sym Hne)) as [K1 K2]. unfold id in *.
  assert (of_open (rels_close (ws_rels w) o1).1 !! ws_path w = None /\ of_archive (rels_close (ws_rels w) o1).1 !! ws_path w = Some e) as [D1 D2].
  { rewrite K1, K2. cbn. by rewrite lookup_delete, lookup_insert. }
  assert (ws_drop w (x_office s.1) = (rels_close (ws_rels w) o1).1) as E1 by (unfold ws_drop; rewrite Hcl; by destruct w).
  assert (ws_flush w (x_office s.1) = ((rels_close (ws_rels w) o1).1, Ok tt)) as E2.
  { unfold ws_flush. rewrite Hcl. unfold ws_drop, ws_close. assert (ws_path (handed w) = ws_path w) as -> by (by destruct w).
    assert (of_open o1 !! ws_path w = None) as -> by (cbn; apply lookup_delete). by destruct w. }
  assert ((call_step c s).2 = Ok tt /\ table (call_step c s).1 = table s /\ x_office (call_step c s).1.1 = (rels_close (ws_rels w) o1).1) as (R1 & R2 & R3).
  { destruct Hc as [-> | ->]; cbn [call_step]; unfold spend; rewrite F1; unfold on_book, x_state, on_wb_office; cbn [fst snd].
    - by rewrite E1.
    - by rewrite E2. }
  split; [done|]. split; [done|]. exists e, root, nsl, text, m. unfold StoredAt. rewrite R3, <- F2. split; [done|]. split; [done|]. split; [done|].
  split; [by apply Hd|]. apply rows_written; [done|]. by apply F5.
Qed.
Lemma calls_cons c cs s s' : calls (c :: cs) s = Some s' -> NoPanic (call_step c s).2 /\ calls cs (call_step c s).1 = Some s'.
Proof. cbn [calls]. by destruct (call_step c s) as [s1 [[]|e|e]]. Qed.
Lemma calls_cons_back c cs s s' : NoPanic (call_step c s).2 -> calls cs (call_step c s).1 = Some s' -> calls (c :: cs) s = Some s'.
Proof. cbn [calls]. by destruct (call_step c s) as [s1 [[]|e|e]]. Qed.
Theorem stored_stays cs : forall s s' q e, LInv s -> calls cs s = Some s' -> StoredAt s q e -> ~ rels_name q -> ~ Reopens cs s q -> StoredAt s' q e.
Proof.
  induction cs as [|c cs IH]; intros s s' q e I Hc Hq Hn Hr; [by injection Hc as <-|]. apply calls_cons in Hc as [Hp Hc].
  eapply IH; [| exact Hc | |done|].
  - by apply call_effect.
  - destruct Hq as [Q1 Q2]. destruct (ar_closed _ _ _ (call_around c s I) q e Q1 Q2 Hn) as [S1 S2].
    + intros n Hcn Hl. apply Hr. exists [], c, cs, s, n. done.
    + unfold StoredAt. by rewrite S1, S2.
  - intros (cs1 & c1 & cs2 & s1 & n & -> & H1 & H2). apply Hr. exists (c :: cs1), c1, cs2, s1, n. split; [done|]. split; [by apply calls_cons_back|done].
Qed.
Theorem table_stays cs : forall s s', LInv s -> calls cs s = Some s' -> (exists new, table s' = table s ++ new)
  /\ ss_path (wb_sst (x_book s'.1)) = ss_path (wb_sst (x_book s.1))
  /\ of_open (x_office s'.1) !! ss_path (wb_sst (x_book s.1)) = of_open (x_office s.1) !! ss_path (wb_sst (x_book s.1)).
Proof.
  induction cs as [|c cs IH]; intros s s' I Hc.
  { injection Hc as <-. split; [|done]. exists []. by rewrite app_nil_r. }
  apply calls_cons in Hc as [Hp Hc]. destruct (call_effect c s I Hp) as [I1 _]. destruct (IH _ _ I1 Hc) as ((n2 & H1) & H2 & H3).
  destruct (call_around c s I) as [(n1 & A1) A2 _ A4 _]. split; [|split].
  - exists (n1 ++ n2). by rewrite H1, A1, <- app_assoc.
  - congruence.
  - assert (ss_path (wb_sst (x_book s.1)) ∈ own_parts (x_book s.1)) as Hown by (unfold own_parts; rewrite !elem_of_cons; tauto).
    destruct (li_open _ I (ss_path (wb_sst (x_book s.1)))) as [p Hop]; [unfold held; rewrite elem_of_app; by left|].
    rewrite A2 in H3. rewrite H3, Hop. apply A4; [|done]. intros k w Hk Hw. exact (apart_own s k w _ I Hw Hown).
Qed.
(** Saving. *)
Theorem flow_saved t f path s fs tr fs' : LInv s -> excel_save t f path s.1 fs = (tr, Ok tt) -> last tr = Some fs' ->
  exists l, Stored fs' path l
  /\ (forall q e data, StoredAt s q e -> part_bytes e = Ok data -> forall b, (q, b) ∈ l <-> b = data)
  /\ (PartOpen "si" (x_office s.1) (ss_path (wb_sst (x_book s.1))) -> table s <> [] -> TableIn l (ss_path (wb_sst (x_book s.1))) (table s)).
Proof.
  intros I Hsave Hl. unfold excel_save in Hsave. set (b := x_book s.1) in *. pose proof (li_nodup _ I) as Hnd. unfold held in Hnd. fold b in Hnd.
  pose proof (flush_keeps b (x_office s.1)) as K0. destruct (wb_flush b (x_office s.1)) as [o0 [[]|e|e]] eqn:Ef; [|done..]. cbn [fst] in K0.
  unfold suite_save, bind in Hsave. cbn [su_core su_root su_office] in Hsave.
  pose proof (keep_core_flush t (su_core (x_suite s.1)) o0) as K1. unfold id in K1.
  destruct (core_flush t (su_core (x_suite s.1)) o0) as [o1 [[]|e|e]]; [|done..]. cbn [fst] in *.
  pose proof (keep_rels_close (su_root (x_suite s.1)) o1) as K2. unfold id in K2.
  destruct (rels_close (su_root (x_suite s.1)) o1) as [o2 [[]|e|e]]; [|done..]. cbn [fst] in *.
  destruct (office_save f path o2 fs) as [o3 [tr3 r3]] eqn:Ho. cbn [snd] in Hsave. injection Hsave as -> ->.
  destruct (saved_file _ _ _ _ _ _ _ Ho Hl) as (l & Hst & Hin & _ & Hct). exists l. split; [done|].
  assert (forall q e data, of_open o0 !! q = None -> of_archive o0 !! q = Some e -> q ∉ DocsIn (x_suite s.1) -> part_bytes e = Ok data -> forall y, (q, y) ∈ l <-> y = data) as Hgo.
  { intros q e data H1 H2 Hd Hb y. unfold DocsIn in Hd. rewrite !not_elem_of_cons in Hd. destruct Hd as (D1 & D2 & _).
    destruct (K1 q D2) as [A1 A2]. destruct (K2 q D1) as [B1 B2].
    assert (part_data o2 q = Ok (Some data)) as Hpd by (unfold part_data; by rewrite B1, A1, H1, B2, A2, H2, Hb).
    rewrite Hin by (intros ->; congruence). rewrite Hpd. split; [congruence|by intros ->]. }
  split.
  - intros q e data [H1 H2] Hb.
    assert (q ∉ held s) as Hq. { intros Hq. destruct (li_open _ I q Hq). congruence. } unfold held in Hq. rewrite !elem_of_app in Hq.
    destruct (K0 q) as [A1 A2]; [tauto|]. apply (Hgo q e data); [by rewrite A1|by rewrite A2|tauto|done].
  - intros Hp Ht. apply NoDup_app in Hnd as (Hown & Hdis & _).
    destruct (flush_strings b Hown Ht (x_office s.1) o0 Hp Ef) as (e & root & nsl & text & H1 & H2 & H3 & H4 & H5).
    exists text, root, nsl. split; [|done]. apply (Hgo _ e); [done|done| |done].
    assert (ss_path (wb_sst b) ∈ own_parts b) as Hin' by (unfold own_parts; rewrite !elem_of_cons; tauto). specialize (Hdis _ Hin'). rewrite elem_of_app in Hdis. tauto.
Qed.
(** Everything together: a sheet that is held, written to, released, and the workbook saved. *)
Theorem flow_whole w0 h cs ops c post s s2 s3 t f path fs tr fs' : LInv s -> handle h s = Some w0 -> SheetOpen (x_office s.1) (ws_path w0) -> sheet_typed w0 ->
  is_Some (ws_data w0) -> History h cs ops -> Forall in_range ops -> Forall op_typed ops -> releases h c ->
  calls (cs ++ [c]) s = Some s2 -> calls post s2 = Some s3 -> ~ rels_name (ws_path w0) -> ~ Reopens post s2 (ws_path w0) ->
  excel_save t f path s3.1 fs = (tr, Ok tt) -> last tr = Some fs' ->
  exists l data, Stored fs' path l /\ PartShows l (ws_path w0) data /\ SheetShown w0 (table s3) ops data
  /\ (PartOpen "si" (x_office s.1) (ss_path (wb_sst (x_book s.1))) -> table s3 <> [] -> TableIn l (ss_path (wb_sst (x_book s.1))) (table s3)).
Proof.
  intros I Hh Ho Hty Hdat Hhist Hr Htyp Hc Hcs Hpost Hn Hre Hsave Hl.
  rewrite calls_app in Hcs. destruct (calls cs s) as [s1|] eqn:E1; [|done]. cbn [mbind option_bind] in Hcs.
  destruct (flow_calls w0 h cs [] ops s s1 w0) as (I1 & w1 & F1); [done| |done..|].
  { constructor; try done. apply shows_start. }
  cbn [app] in F1. destruct (flow_release _ _ _ _ _ _ I1 F1 Hc) as (R1 & R2 & e & root & nsl & text & m & St & Hb & Hren & Hon & Hrw).
  assert (s2 = (call_step c s1).1) as ->. { cbn [calls] in Hcs. destruct (call_step c s1) as [y [[]|z|z]]; [by injection Hcs as <-|done..]. }
  assert (LInv (call_step c s1).1) as I2. { apply call_effect; [done|]. by rewrite R1. }
  pose proof (stored_stays _ _ _ _ _ I2 Hpost St Hn Hre) as St3.
  destruct (calls_effect _ _ _ I2 Hpost) as [I3 _].
  destruct (table_stays cs s s1 I E1) as (_ & P1 & O1).
  destruct (table_stays [c] s1 (call_step c s1).1 I1) as (_ & P2 & O2); [done|].
  destruct (table_stays post _ _ I2 Hpost) as ((new & T3) & P3 & O3).
  destruct (flow_saved t f path s3 fs tr fs' I3 Hsave Hl) as (l & Hst & Hparts & Htab).
  exists l, (data_tree m). split; [done|]. split; [|split].
  - exists text, root, nsl. split; [|done]. by apply (Hparts _ e).
  - eapply shown; [|exact Hrw]. rewrite T3, R2. apply shows_grow. by apply F1.
  - intros Hp. rewrite P3, P2, P1 in Htab. apply Htab. destruct Hp as (p & it & Hp & Hrest). exists p, it. split; [|done].
    rewrite P2, P1 in O3. rewrite P1 in O2. congruence.
Qed.
End sessions.
