(** The parts that belong to the workbook itself, from the opened file to the saved one. *)
From Verif.Model Require Import Excel.
From Verif.Spec Require Import RelSpec XmlSpec XmlRepr PackageSpec PartSpec SessionSpec FlowSpec OpenSpec.
From Verif.Proofs Require Import BaseFacts PackageFacts XmlTreeFacts XmlWriteFacts DocBuild XmlReadFacts RelDocFacts SmallPartFacts SheetDocFacts
  BookFacts FrameFacts SaveFacts SessionFacts RelFacts ExcelFacts XmlHistFacts SoundFacts KeepFacts ReadAnyFacts FlowFacts FlowSaveFacts FlowOpenFacts.
Open Scope N_scope.

Section with_env.
Context `{E : Env}.
(** ** One part while the workbook is closed *)
Section flush.
Context (b0 : workbook) (X : string).
Definition At (so : option open_part) (sa : option entry) (s : wb_state) : Prop :=
  same_paths b0 s.1 /\ of_open s.2 !! X = so /\ of_archive s.2 !! X = sa.
Definition Holds_at so sa {A} (m : M wb_state A) : Prop := forall s, At so sa s -> At so sa (m s).1.
(** An operation that leaves the part alone once it is closed. *)
Definition Idle {A} (m : M office A) : Prop := forall o, of_open o !! X = None -> SameAt o (m o).1 X.
Lemma at_bind so sa {A B} (m : M wb_state A) (k : A -> M wb_state B) : Holds_at so sa m -> (forall a, Holds_at so sa (k a)) -> Holds_at so sa (bind m k).
Proof. intros Hm Hk s Hs. unfold bind. pose proof (Hm s Hs) as H1. destruct (m s) as [s1 [a|e|e]]; [|done..]. by apply Hk. Qed.
Lemma at_keep so sa {A} (m : M office A) p : Keep id (fun q => q <> p) m -> X <> p -> Holds_at so sa (on_wb_office m).
Proof.
  intros Hk Hx [b o] (H1 & H2 & H3). unfold on_wb_office. cbn [fst snd] in *. destruct (Hk o _ Hx) as [K1 K2]. unfold id in *. destruct (m o) as [o1 r].
  cbn [fst snd] in *. unfold At. cbn [fst snd]. by rewrite K1, K2.
Qed.
Lemma at_idle sa {A} (m : M office A) : Idle m -> Holds_at None sa (on_wb_office m).
Proof.
  intros Hk [b o] (H1 & H2 & H3). unfold on_wb_office. cbn [fst snd] in *. destruct (Hk o H2) as [K1 K2]. destruct (m o) as [o1 r].
  cbn [fst snd] in *. unfold At. cbn [fst snd]. by rewrite K1, K2.
Qed.
Lemma at_rels so sa {A} (m : M pkg_state A) p : Keep snd (fun q => q <> p) m -> (forall s, rl_path (m s).1.1 = rl_path s.1) -> X <> p -> Holds_at so sa (on_wb_rels m).
Proof.
  intros Hk Hr Hx [b o] (H1 & H2 & H3). unfold on_wb_rels. cbn [fst snd] in *. destruct (Hk (wb_rels b, o) _ Hx) as [K1 K2].
  specialize (Hr (wb_rels b, o)). destruct (m (wb_rels b, o)) as [[r o1] y]. cbn [fst snd] in *.
  destruct H1 as (P1 & P2 & P3 & P4 & P5 & P6). split; [unfold same_paths; cbn; by rewrite Hr|]. cbn [fst snd]. by rewrite K1, K2.
Qed.
Lemma at_calc so sa : X <> cc_path (wb_calc b0) -> Holds_at so sa (on_wb_rels (calc_close (wb_calc b0))).
Proof. intros Hx. eapply at_rels; [apply keep_calc_close|intros; apply calc_close_path|done]. Qed.
Lemma at_sst so sa : X <> ss_path (wb_sst b0) -> Holds_at so sa (on_wb_rels (sst_close (wb_sst b0))).
Proof. intros Hx. eapply at_rels; [apply keep_sst_close|intros; apply sst_close_path|done]. Qed.
Lemma idle_keep {A} (m : M office A) p : Keep id (fun q => q <> p) m -> (X = p -> Idle m) -> Idle m.
Proof. intros Hk Hx o Ho. destruct (decide (X = p)) as [He|Hne]; [by apply Hx|by apply Hk]. Qed.
Lemma idle_close p : Idle (close_xml_document p).
Proof. eapply idle_keep; [apply keep_close|]. intros <- o Ho. unfold close_xml_document. by rewrite Ho. Qed.
Lemma idle_doc_close {A} p (m : M doc A) : Idle (bind (with_doc p m) (fun _ => close_xml_document p)).
Proof.
  eapply idle_keep; [apply keep_bind; [apply keep_with_doc|intros _; apply keep_close]|]. intros <- o Ho. unfold bind, with_doc. rewrite Ho. by apply idle_close.
Qed.
Lemma idle_rels r : Idle (rels_close r).
Proof. eapply idle_keep; [apply keep_rels_close|]. intros He o Ho. unfold rels_close, bind, with_doc. by rewrite <- He, Ho. Qed.
Lemma at_pkg_doc sa {A} (m : M doc A) : Holds_at None sa (on_wb_rels (bind (on_office (with_doc X m)) (fun _ => on_office (close_xml_document X)))).
Proof.
  intros [b o] (H1 & H2 & H3). unfold on_wb_rels, bind, on_office, with_doc. cbn [fst snd] in *. rewrite H2. cbn [fst snd].
  unfold close_xml_document. rewrite H2. split; [|done]. cbn [fst snd]. destruct H1 as (P1 & P2 & P3 & P4 & P5 & P6). by split_and!.
Qed.
(** A chain or a table that is not empty is not touched any more either. *)
Context (Xc : X = cc_path (wb_calc b0) -> cc_entries (wb_calc b0) <> []) (Xs : X = ss_path (wb_sst b0) -> ss_strings (wb_sst b0) <> []).
Lemma at_calc_idle sa : Holds_at None sa (on_wb_rels (calc_close (wb_calc b0))).
Proof.
  destruct (decide (X = cc_path (wb_calc b0))) as [Hx|Hx]; [|by apply at_calc]. specialize (Xc Hx). unfold calc_close. destruct (cc_entries _) as [|e l]; [done|].
  rewrite <- Hx. apply at_pkg_doc.
Qed.
Lemma at_sst_idle sa : Holds_at None sa (on_wb_rels (sst_close (wb_sst b0))).
Proof.
  destruct (decide (X = ss_path (wb_sst b0))) as [Hx|Hx]; [|by apply at_sst]. specialize (Xs Hx). unfold sst_close. destruct (ss_strings _) as [|e l]; [done|].
  rewrite <- Hx. apply at_pkg_doc.
Qed.
Lemma at_closed sa s : At None sa s -> At None sa (wb_close s).1.
Proof.
  intros Hs. assert (forall A (k : wb_state -> M wb_state A), bind get k s = k s s) as Hg by done. unfold wb_close. rewrite Hg. clear Hg. cbn zeta.
  assert (wb_calc s.1 = wb_calc b0 /\ wb_sst s.1 = wb_sst b0) as (F1 & F2). { destruct Hs as ((P1 & P2 & P3 & P4 & P5 & P6) & _). done. }
  unfold services_close. rewrite F1, F2. match goal with |- At None sa (?m s).1 => assert (Holds_at None sa m) as HS end; [|exact (HS s Hs)].
  apply at_bind; [apply at_idle, idle_close|intros _]. apply at_bind; [|intros _; apply at_bind; [|intros _]].
  - apply at_bind; [apply at_calc_idle|intros _]. apply at_bind; [apply at_sst_idle|intros _]. apply at_idle, idle_doc_close.
  - intros s' Hs'. by apply at_idle; [apply idle_rels|].
  - apply at_idle, idle_doc_close.
Qed.
Lemma at_dropped sa b o : At None sa (b, o) -> of_open (wb_drop b o) !! X = None /\ of_archive (wb_drop b o) !! X = sa.
Proof.
  intros Hb. unfold wb_drop.
  assert (wb_calc b = wb_calc b0 /\ wb_sst b = wb_sst b0) as (F1 & F2). { destruct Hb as ((P1 & P2 & P3 & P4 & P5 & P6) & _). done. }
  rewrite F1, F2. unfold quietly. apply at_closed in Hb. apply (at_calc_idle sa) in Hb. apply (at_sst_idle sa) in Hb.
  apply (at_idle sa _ (idle_doc_close (sp_path (wb_style b)) (save_styles (sp_styles (wb_style b))))) in Hb.
  match type of Hb with At None sa ?s => apply (at_idle sa _ (idle_rels (wb_rels s.1))) in Hb end.
  apply (at_idle sa _ (idle_close (wb_theme b))) in Hb. apply Hb.
Qed.
End flush.
(** What the relationships of the workbook are when they are written. *)
Definition emptied (b : workbook) (r : relations) : relations :=
  let r := match cc_entries (wb_calc b) with [] => delete_relationship (cc_path (wb_calc b)) r | _ => r end in
  match ss_strings (wb_sst b) with [] => delete_relationship (ss_path (wb_sst b)) r | _ => r end.
Lemma calc_rels c s s' : calc_close c s = (s', Ok tt) -> s'.1 = match cc_entries c with [] => delete_relationship (cc_path c) s.1 | _ => s.1 end.
Proof.
  unfold calc_close. destruct (cc_entries c) as [|e l]; unfold bind, on_rels, on_office, modify; cbn [fst snd].
  - destruct (delete_document _ _). by intros [= <- _].
  - destruct (with_doc _ _ s.2) as [o1 [a|e1|e1]]; [|done..]. cbn [fst snd]. destruct (close_xml_document _ o1). by intros [= <- _].
Qed.
Lemma sst_rels c s s' : sst_close c s = (s', Ok tt) -> s'.1 = match ss_strings c with [] => delete_relationship (ss_path c) s.1 | _ => s.1 end.
Proof.
  unfold sst_close. destruct (ss_strings c) as [|e l]; unfold bind, on_rels, on_office, modify; cbn [fst snd].
  - destruct (delete_document _ _). by intros [= <- _].
  - destruct (with_doc _ _ s.2) as [o1 [a|e1|e1]]; [|done..]. cbn [fst snd]. destruct (close_xml_document _ o1). by intros [= <- _].
Qed.
(** The part [q], open as in [o], is written by [m] and stays as [m] leaves it. *)
Definition WrittenBy (o o' : office) (q : string) (m : M office unit) : Prop :=
  exists o1 o2, of_open o1 !! q = of_open o !! q /\ m o1 = (o2, Ok tt)
  /\ (of_open o2 !! q = None -> of_open o' !! q = None /\ of_archive o' !! q = of_archive o2 !! q).
(** What is done to write a chain that is not empty. *)
Definition chain_close (c : calc) : M office unit :=
  bind (with_doc (cc_path c) (add_trees 0 (map calc_tree (cc_entries c)))) (fun _ => close_xml_document (cc_path c)).
(** What is done to write a table that is not empty. *)
Definition table_close (c : sst) : M office unit :=
  bind (with_doc (ss_path c) (save_strings (ss_strings c))) (fun _ => close_xml_document (ss_path c)).
Record Flushed (b : workbook) (o o' : office) : Prop := {
  fl_calc : cc_entries (wb_calc b) <> [] -> WrittenBy o o' (cc_path (wb_calc b)) (chain_close (wb_calc b));
  fl_theme : WrittenBy o o' (wb_theme b) (theme_close (wb_theme b));
  fl_style : WrittenBy o o' (sp_path (wb_style b)) (style_close (wb_style b));
  fl_rels : WrittenBy o o' (rl_path (wb_rels b)) (rels_close (emptied b (wb_rels b)));
  fl_book : WrittenBy o o' (wb_path b) (book_part_close (wb_path b) (wb_view b) (wb_sheets b));
  fl_sst : ss_strings (wb_sst b) <> [] -> WrittenBy o o' (ss_path (wb_sst b)) (table_close (wb_sst b));
}.
Lemma office_ok {A} (m : M office A) s s' x : on_wb_office m s = (s', Ok x) -> s'.1 = s.1 /\ m s.2 = (s'.2, Ok x).
Proof. unfold on_wb_office. destruct (m s.2) as [o1 r]. by intros [= <- ->]. Qed.
Theorem flushed b o o' : NoDup (own_parts b) -> wb_flush b o = (o', Ok tt) -> Flushed b o o'.
Proof.
  intros Hnd. unfold wb_flush. destruct (wb_close (b, o)) as [[b1 o1] r] eqn:Ec. intros Hf. assert (r = Ok tt) as -> by congruence. assert (wb_drop b1 o1 = o') as <- by congruence. clear Hf.
  unfold wb_close, services_close in Ec. assert (forall A (k : wb_state -> M wb_state A), bind get k (b, o) = k (b, o) (b, o)) as Hg by done. rewrite Hg in Ec. clear Hg. cbn zeta in Ec. cbn [fst snd] in Ec.
  apply bind_ok in Ec as (s1 & [] & E1 & Ec). apply bind_ok in Ec as (s4 & [] & E4 & Ec). apply bind_ok in E4 as (s2 & [] & E2 & E4). apply bind_ok in E4 as (s3 & [] & E3 & E4).
  apply bind_ok in Ec as (s5 & [] & E5 & Ec).
  unfold own_parts in Hnd. rewrite !NoDup_cons, !not_elem_of_cons in Hnd. destruct Hnd as (N1 & N2 & N3 & N4 & N5 & _).
  apply office_ok in E1 as [B1 F1]. cbn [fst snd] in B1, F1.
  assert (s2.1 = set_wb_rels b s2.1.(wb_rels) /\ wb_rels s2.1 = match cc_entries (wb_calc b) with [] => delete_relationship (cc_path (wb_calc b)) (wb_rels b) | _ => wb_rels b end) as [B2 R2].
  { unfold on_wb_rels in E2. rewrite B1 in E2. destruct (calc_close (wb_calc b) (wb_rels b, s1.2)) as [[r2 o2] x2] eqn:Ex. injection E2 as <- ->. apply calc_rels in Ex. done. }
  assert (s3.1 = set_wb_rels b s3.1.(wb_rels) /\ wb_rels s3.1 = emptied b (wb_rels b)) as [B3 R3].
  { unfold on_wb_rels in E3. destruct (sst_close (wb_sst b) (wb_rels s2.1, s2.2)) as [[r3 o3] x3] eqn:Ex. injection E3 as <- ->. apply sst_rels in Ex. cbn [fst snd] in *. split; [by rewrite B2|].
    cbn. rewrite Ex, R2. done. }
  apply office_ok in E4 as [B4 F4]. cbn beta in E5. apply office_ok in E5 as [B5 F5]. rewrite B4, R3 in F5. apply office_ok in Ec as [B6 F6]. cbn [fst snd] in B6, F6.
  assert (forall X so sa, At b X so sa (b, o) <-> of_open o !! X = so /\ of_archive o !! X = sa) as H0.
  { intros X so sa. split; [by intros (_ & ?)|]. intros ?. split; [apply same_paths_refl|done]. }
  assert (same_paths b s1.1 /\ same_paths b s4.1 /\ same_paths b s5.1 /\ same_paths b b1) as (P1 & P4 & P5 & P6).
  { assert (same_paths b s3.1) as Hp.
    { rewrite B3. unfold same_paths. cbn. rewrite R3. unfold emptied. by destruct (cc_entries _), (ss_strings _). }
    rewrite B6, B5, B4, B1. done. }
  (* the steps after the one that writes the part *)
  assert (forall X, (X = cc_path (wb_calc b) -> cc_entries (wb_calc b) <> []) -> (X = ss_path (wb_sst b) -> ss_strings (wb_sst b) <> []) -> of_open o1 !! X = None -> of_open (wb_drop b1 o1) !! X = None /\ of_archive (wb_drop b1 o1) !! X = of_archive o1 !! X) as T6.
  { intros X Xc Xs Hx. apply (at_dropped b X Xc Xs). done. }
  assert (forall X, (X = cc_path (wb_calc b) -> cc_entries (wb_calc b) <> []) -> (X = ss_path (wb_sst b) -> ss_strings (wb_sst b) <> []) -> of_open s5.2 !! X = None -> of_open (wb_drop b1 o1) !! X = None /\ of_archive (wb_drop b1 o1) !! X = of_archive s5.2 !! X) as T5.
  { intros X Xc Xs Hx. pose proof (idle_doc_close X (wb_path b) (save_book (wb_view b) (wb_sheets b)) _ Hx) as [K1 K2]. unfold book_part_close in F6. rewrite F6 in K1, K2. cbn [fst] in *.
    rewrite <- K2. apply T6; [done|done|]. by rewrite K1. }
  assert (forall X, (X = cc_path (wb_calc b) -> cc_entries (wb_calc b) <> []) -> (X = ss_path (wb_sst b) -> ss_strings (wb_sst b) <> []) -> of_open s4.2 !! X = None -> of_open (wb_drop b1 o1) !! X = None /\ of_archive (wb_drop b1 o1) !! X = of_archive s4.2 !! X) as T4.
  { intros X Xc Xs Hx. pose proof (idle_rels X (emptied b (wb_rels b)) _ Hx) as [K1 K2]. rewrite F5 in K1, K2. cbn [fst] in *. rewrite <- K2. apply T5; [done|done|]. by rewrite K1. }
  (* the steps before *)
  assert (forall X, X <> wb_theme b -> SameAt o s1.2 X) as U1.
  { intros X Hx. pose proof (keep_close (wb_theme b) o X Hx) as K. unfold id, theme_close in *. by rewrite F1 in K. }
  assert (forall X, X <> cc_path (wb_calc b) -> X <> ss_path (wb_sst b) -> SameAt s1.2 s3.2 X) as U3.
  { intros X Xc Xs. assert (At b X (of_open s1.2 !! X) (of_archive s1.2 !! X) s1) as Ha by done.
    apply (at_calc b X) in Ha; [|done]. rewrite E2 in Ha. cbn [fst] in Ha. apply (at_sst b X) in Ha; [|done]. rewrite E3 in Ha. apply Ha. }
  assert (forall X, X <> sp_path (wb_style b) -> SameAt s3.2 s4.2 X) as U4.
  { intros X Hx. pose proof (keep_style_close (wb_style b) s3.2 X Hx) as K. unfold id in *. by rewrite F4 in K. }
  assert (forall X, X <> rl_path (wb_rels b) -> SameAt s4.2 s5.2 X) as U5.
  { intros X Hx. assert (rl_path (emptied b (wb_rels b)) = rl_path (wb_rels b)) as Hr by (unfold emptied; by destruct (cc_entries _), (ss_strings _)).
    rewrite <- Hr in Hx. pose proof (keep_rels_close (emptied b (wb_rels b)) s4.2 X Hx) as K. unfold id in *. by rewrite F5 in K. }
  constructor.
  - intros Hne. exists s1.2, s2.2. split; [|split].
    + destruct (U1 (cc_path (wb_calc b))) as [K1 _]; [intros Hq; rewrite Hq in *; tauto|]. done.
    + unfold on_wb_rels, calc_close in E2. rewrite B1 in E2. unfold chain_close. destruct (cc_entries (wb_calc b)) as [|x l]; [done|]. cbn [fst snd] in E2.
      unfold bind, on_office in E2 |- *. cbn [fst snd] in E2. destruct (with_doc _ _ s1.2) as [oa [a|e|e]]; cbn [fst snd] in E2; [|done..].
      destruct (close_xml_document _ oa) as [ob rb]. cbn [fst snd] in E2. injection E2 as <- <-. done.
    + intros Hx. assert (At b (cc_path (wb_calc b)) None (of_archive s2.2 !! cc_path (wb_calc b)) s2) as Ha.
      { split; [|done]. rewrite B2. unfold same_paths. cbn. rewrite R2. by destruct (cc_entries _). }
      apply (at_sst b) in Ha; [|intros Hq; rewrite Hq in *; tauto]. rewrite E3 in Ha. destruct Ha as (_ & A1 & A2). cbn [fst] in *.
      pose proof (idle_doc_close (cc_path (wb_calc b)) (sp_path (wb_style b)) (save_styles (sp_styles (wb_style b))) s3.2 A1) as [K3 K4].
      unfold style_close in F4. rewrite F4 in K3, K4. cbn [fst] in *. rewrite <- A2, <- K4. apply T4; [done| |by rewrite K3, A1]. intros Hq. rewrite Hq in *. tauto.
  - exists o, s1.2. split; [done|]. split; [done|]. intros Hx. destruct (U3 (wb_theme b)) as [K1 K2]; [tauto|tauto|].
    pose proof (idle_doc_close (wb_theme b) (sp_path (wb_style b)) (save_styles (sp_styles (wb_style b))) s3.2) as [K3 K4]; [by rewrite K1|].
    unfold style_close in F4. rewrite F4 in K3, K4. cbn [fst] in *. rewrite <- K2, <- K4. apply T4; [by intros Hq; rewrite Hq in *; tauto..|]. by rewrite K3, K1.
  - exists s3.2, s4.2. split; [|split; [done|]].
    + destruct (U1 (sp_path (wb_style b))) as [K1 _]; [intros Hq; rewrite Hq in *; tauto|]. destruct (U3 (sp_path (wb_style b))) as [K2 _]; [intros Hq; rewrite Hq in *; tauto..|]. by rewrite K2, K1.
    + intros Hx. apply T4; [intros Hq; rewrite Hq in *; tauto..|done].
  - exists s4.2, s5.2. split; [|split; [done|]].
    + destruct (U1 (rl_path (wb_rels b))) as [K1 _]; [tauto|]. destruct (U3 (rl_path (wb_rels b))) as [K2 _]; [tauto..|]. destruct (U4 (rl_path (wb_rels b))) as [K3 _]; [tauto|]. by rewrite K3, K2, K1.
    + intros Hx. apply T5; [tauto..|done].
  - exists s5.2, o1. split; [|split; [done|]].
    + destruct (U1 (wb_path b)) as [K1 _]; [tauto|]. destruct (U3 (wb_path b)) as [K2 _]; [tauto..|]. destruct (U4 (wb_path b)) as [K3 _]; [tauto|]. destruct (U5 (wb_path b)) as [K4 _]; [tauto|].
      by rewrite K4, K3, K2, K1.
    + intros Hx. apply T6; [tauto..|done].
  - intros Hne. exists s2.2, s3.2. split; [|split].
    + destruct (U1 (ss_path (wb_sst b))) as [K1 _]; [intros Hq; rewrite Hq in *; tauto|].
      assert (At b (ss_path (wb_sst b)) (of_open s1.2 !! ss_path (wb_sst b)) (of_archive s1.2 !! ss_path (wb_sst b)) s1) as Ha by done.
      apply (at_calc b) in Ha; [|intros Hq; rewrite Hq in *; tauto]. rewrite E2 in Ha. destruct Ha as (_ & A1 & _). cbn [fst] in A1. by rewrite A1, K1.
    + unfold on_wb_rels, sst_close in E3. unfold table_close. destruct (ss_strings (wb_sst b)) as [|x l]; [done|]. cbn [fst snd] in E3.
      unfold bind, on_office in E3 |- *. cbn [fst snd] in E3. destruct (with_doc _ _ s2.2) as [oa [a|e|e]]; cbn [fst snd] in E3; [|done..].
      destruct (close_xml_document _ oa) as [ob rb]. cbn [fst snd] in E3. injection E3 as <- <-. done.
    + intros Hx. pose proof (idle_doc_close (ss_path (wb_sst b)) (sp_path (wb_style b)) (save_styles (sp_styles (wb_style b))) s3.2 Hx) as [K3 K4].
      unfold style_close in F4. rewrite F4 in K3, K4. cbn [fst] in *. rewrite <- K4. apply T4; [|done|by rewrite K3, Hx]. intros Hq. rewrite Hq in *. tauto.
Qed.
End with_env.

(** ** Opening *)
Section opening.
Context `{E : Env}.
Definition Kept (o o' : office) : Prop := forall q p, of_open o !! q = Some p -> of_open o' !! q = Some p.
Lemma rels_opened rp o o' r : rels_new rp o = (o', Ok r) -> Kept o o' /\ of_open o !! rp = None /\ rl_path r = rp
  /\ exists p0 d', Source o rels_init rp p0 /\ load_relations (op_doc p0) = (d', Ok (rl_rels r)) /\ of_open o' !! rp = Some (mkOpen d' (op_ct p0) (op_ext p0) (op_ext_type p0)).
Proof.
  unfold rels_new, bind. pose proof (get_keeps_open rels_init rp o) as K. unfold id in K.
  destruct (get_xml_document rels_init rp o) as [o1 [[]|e|e]] eqn:Eg; [|done..]. cbn [fst] in K.
  destruct (get_source _ _ _ _ Eg) as (p0 & Hp & Hsrc). apply get_was_closed in Eg.
  unfold with_doc. rewrite Hp. destruct (load_relations (op_doc p0)) as [d' [l|e|e]] eqn:El; cbn [rmap]; [|done..].
  intros [= <- <-]. cbn [rl_path rl_rels default]. split; [|split; [done|]].
  - intros q p Hq. cbn. rewrite lookup_insert_ne by congruence. by apply K.
  - split; [done|]. exists p0, d'. split; [done|]. split; [done|]. apply lookup_insert.
Qed.
Lemma theme_opened s s' p : theme_new s = (s', Ok p) -> Kept s.2 s'.2 /\ of_open s.2 !! p = None /\ exists p0, Source s.2 theme_init p p0 /\ of_open s'.2 !! p = Some p0.
Proof.
  unfold theme_new. unfold bind at 1. unfold on_rels. cbn [fst snd]. destruct (part_path _ _ s.1) as [r1 [path|e|e]]; [|done..].
  unfold bind, on_office. cbn [fst snd]. pose proof (get_keeps_open theme_init path s.2) as K. unfold id in K.
  destruct (get_xml_document theme_init path s.2) as [o1 [[]|e|e]] eqn:Eg; [|done..]. cbn [fst] in K.
  destruct (get_source _ _ _ _ Eg) as (p0 & Hp & Hsrc). apply get_was_closed in Eg. intros [= <- <-]. split; [exact K|]. split; [done|]. by exists p0.
Qed.
(** Looking up the parts only ever adds relationships. *)
Definition Grown (r r' : relations) : Prop := rl_path r' = rl_path r /\ (exists new, rl_rels r' = rl_rels r ++ new /\ Forall rel_added new) /\ (NoDup (rel_ids r) -> NoDup (rel_ids r')).
Lemma grown_refl r : Grown r r.
Proof. split; [done|]. split; [|done]. exists []. by rewrite app_nil_r. Qed.
Lemma grown_trans r1 r2 r3 : Grown r1 r2 -> Grown r2 r3 -> Grown r1 r3.
Proof. intros (A1 & (n1 & A2 & A4) & A3) (B1 & (n2 & B2 & B4) & B3). split; [congruence|]. split; [|tauto]. exists (n1 ++ n2). rewrite B2, A2, <- app_assoc. split; [done|]. by apply Forall_app. Qed.
Lemma grown_path c dir r : (c_type c, "/" +:+ target_path c dir None) ∈ usual_targets -> Grown r (part_path c dir r).1.
Proof.
  intros Ht. split; [apply part_path_rels|]. split.
  - unfold part_path, get_target_by_type. destruct (List.find _ _); cbn; [exists []; by rewrite app_nil_r|]. eexists. split; [done|]. apply Forall_singleton. split; [by left|done].
  - apply (run_rels_nodup [RLookup (c_type c) c dir None]).
Qed.
Lemma services_grown s : Grown s.1 (bind theme_new (fun theme => bind sst_new (fun x => bind calc_new (fun c => bind style_new (fun y => ret (theme, x, c, y))))) s).1.1.
Proof.
  pose (G := fun A (m : M pkg_state A) => forall s, Grown s.1 (m s).1.1).
  assert (forall A B (m : M pkg_state A) (k : A -> M pkg_state B), G A m -> (forall a, G B (k a)) -> G B (bind m k)) as Gb.
  { intros A B m k Hm Hk s1. unfold bind. specialize (Hm s1). destruct (m s1) as [s2 [a|e|e]]; [|done..]. eapply grown_trans; [exact Hm|]. apply Hk. }
  assert (forall A (m : M office A), G A (on_office m)) as Go. { intros A m [r o]. unfold on_office. cbn. destruct (m o). apply grown_refl. }
  assert (forall c dir, (c_type c, "/" +:+ target_path c dir None) ∈ usual_targets -> G _ (on_rels (part_path c dir))) as Gr.
  { intros c dir Ht [r o]. unfold on_rels. cbn. pose proof (grown_path c dir r Ht). by destruct (part_path c dir r). }
  assert ((c_type c_theme, "/" +:+ target_path c_theme (Some "xl/theme") None) ∈ usual_targets /\ (c_type c_share_string, "/" +:+ target_path c_share_string None None) ∈ usual_targets
    /\ (c_type c_calc_chain, "/" +:+ target_path c_calc_chain None None) ∈ usual_targets /\ (c_type c_style, "/" +:+ target_path c_style None None) ∈ usual_targets) as (T1 & T2 & T3 & T4).
  { split_and!; apply (bool_decide_unpack _); by vm_compute. }
  assert (forall A (a : A), G A (ret a)) as Gt by (intros A a s1; apply grown_refl).
  apply (Gb _ _ theme_new). { repeat (apply Gb; [first [apply Go|by apply Gr]|intros ?]). apply Gt. } intros theme.
  apply (Gb _ _ sst_new). { repeat (apply Gb; [first [apply Go|by apply Gr]|intros ?]). apply Gt. } intros x.
  apply (Gb _ _ calc_new). { repeat (apply Gb; [first [apply Go|by apply Gr]|intros ?]). apply Gt. } intros c.
  apply (Gb _ _ style_new). { repeat (apply Gb; [first [apply Go|by apply Gr]|intros ?]). apply Gt. } intros y. apply Gt.
Qed.
(** Where the parts of a workbook come from, and what was read out of them. *)
Record Sources (o : office) (b : workbook) (o' : office) : Prop := {
  so_book : exists p0 d', Source o workbook_init (wb_path b) p0 /\ load_book (op_doc p0) = (d', Ok (wb_sheets b, wb_view b))
    /\ of_open o' !! wb_path b = Some (mkOpen d' (op_ct p0) (op_ext p0) (op_ext_type p0));
  so_rels : exists p0 d' r, Source o rels_init (rl_path (wb_rels b)) p0 /\ load_relations (op_doc p0) = (d', Ok (rl_rels r))
    /\ of_open o' !! rl_path (wb_rels b) = Some (mkOpen d' (op_ct p0) (op_ext p0) (op_ext_type p0)) /\ Grown r (wb_rels b);
  so_theme : exists p0, Source o theme_init (wb_theme b) p0 /\ of_open o' !! wb_theme b = Some p0;
  so_style : exists p0 d', Source o style_init (sp_path (wb_style b)) p0 /\ load_styles (op_doc p0) = (d', Ok (sp_styles (wb_style b)))
    /\ of_open o' !! sp_path (wb_style b) = Some (mkOpen d' (op_ct p0) (op_ext p0) (op_ext_type p0));
  so_calc : exists p0 d', Source o calc_init (cc_path (wb_calc b)) p0 /\ load_calc (op_doc p0) = (d', Ok (cc_entries (wb_calc b)))
    /\ of_open o' !! cc_path (wb_calc b) = Some (mkOpen d' (op_ct p0) (op_ext p0) (op_ext_type p0));
  so_folder : exists dir file, wb_path b = dir +:+ "/" +:+ file /\ rl_path (wb_rels b) = dir +:+ "/_rels/workbook.xml.rels";
}.
Lemma source_back o o' ps init q p0 : Opens ps o o' -> of_open o' !! q = None -> Source o' init q p0 -> Source o init q p0.
Proof.
  intros O Hc. apply source_same. apply (op_rest _ _ _ O).
  - intros Hin. assert (is_Some (of_open o' !! q)) as Hx by (apply (op_open _ _ _ O); by right). rewrite Hc in Hx. by destruct Hx.
  - apply eq_None_not_Some. intros Hy. assert (is_Some (of_open o' !! q)) as Hx by (apply (op_open _ _ _ O); by left). rewrite Hc in Hx. by destruct Hx.
Qed.
Lemma rsplit_at_byte_hit p s l b r : rsplit_at_byte p s = Some (l, b, r) -> p b = true.
Proof.
  unfold rsplit_at_byte. destruct (split_at_byte p (srev s)) as [[[x y] z]|] eqn:E0; [|done]. intros [= _ <- _]. revert x E0.
  induction (srev s) as [|a w IH]; intros x; cbn [split_at_byte]; [done|]. destruct (p a) eqn:Ea; [by intros [= _ <- _]|].
  destruct (split_at_byte p w) as [[[x' y'] z']|]; [|done]. intros [= _ <- <-]. by eapply IH.
Qed.
Lemma sources_workbook s s' b : DocsOk s.2 -> workbook_new s = (s', Ok b) -> Sources s.2 b s'.2.
Proof.
  intros Ho. unfold workbook_new. unfold bind at 1. unfold on_rels at 1.
  destruct (part_path c_workbook None s.1) as [r1 [path|e|e]]; [|done..].
  unfold bind at 1. unfold on_office at 1. cbn [fst snd]. destruct (get_xml_document workbook_init path s.2) as [o1 [[]|e|e]] eqn:Eg; [|done..].
  pose proof (opens_get _ _ _ _ (init_text _ _) Ho Eg) as O1. destruct (get_source _ _ _ _ Eg) as (pb & Hpb & Hsb). unfold bind at 1, lift at 1. destruct (book_rels_path path) as [rp|e|e] eqn:Ep; [|done..].
  assert (exists dir file, path = dir +:+ "/" +:+ file /\ rp = dir +:+ "/_rels/workbook.xml.rels") as Hfold.
  { unfold book_rels_path in Ep. destruct (rsplit_at_byte _ path) as [[[dir c] file]|] eqn:Es; [|done]. injection Ep as <-. exists dir, file. split; [|done].
    pose proof (rsplit_at_byte_hit _ _ _ _ _ Es) as Hc. apply rsplit_at_byte_app in Es. rewrite Es. unfold aeqb in Hc. by apply Ascii.eqb_eq in Hc as ->. }
  unfold bind at 1. unfold on_office at 1. cbn [fst snd]. destruct (rels_new rp o1) as [o2 [rels|e|e]] eqn:Er; [|done..].
  destruct (opens_rels _ _ _ _ (op_docs _ _ _ O1) Er) as [O2 _]. pose proof (opens_trans _ _ _ _ _ O1 O2) as O12. unfold bind at 1, get at 1. cbn [fst snd].
  destruct (rels_opened _ _ _ _ Er) as (K2 & Hrc & Hrp & pr & dr & Hsr & Hlr & Hor).
  pose proof (services_grown (rels, o2)) as Hg.
  destruct (bind theme_new _ (rels, o2)) as [[rels1 o3] [[[[theme x] c] y]|e|e]] eqn:Ev; [|done..]. cbn [fst snd] in *.
  unfold bind at 1 in Ev. destruct (theme_new (rels, o2)) as [s1 [a|e|e]] eqn:E1; [|done..].
  pose proof (opens_theme (rels, o2) _ _ (op_docs _ _ _ O2) E1) as O3. pose proof (opens_trans _ _ _ _ _ O12 O3) as O123. destruct (theme_opened _ _ _ E1) as (K3 & Htc & pt & Hst & Hot).
  unfold bind at 1 in Ev. destruct (sst_new s1) as [s2 [x'|e|e]] eqn:E2; [|done..]. pose proof (opens_sst _ _ _ (op_docs _ _ _ O3) E2) as O4. pose proof (opens_trans _ _ _ _ _ O123 O4) as O1234.
  unfold bind at 1 in Ev. destruct (calc_new s2) as [s3 [c'|e|e]] eqn:E3; [|done..]. pose proof (opens_calc _ _ _ (op_docs _ _ _ O4) E3) as O5. pose proof (opens_trans _ _ _ _ _ O1234 O5) as O12345.
  unfold bind at 1 in Ev. destruct (style_new s3) as [s4 [y'|e|e]] eqn:E4; [|done..]. injection Ev as -> -> -> -> ->.
  destruct (part_opened c_share_string None sst_init load_strings (fun p l => mkSst (default [] l) p) s1 s2 x E2) as (_ & K4).
  destruct (part_opened c_calc_chain None calc_init load_calc (fun p l => mkCalc (default [] l) p) s2 s3 c E3) as ((qc & pc & dc & lc & -> & Hcc & Hsc & Hlc & Hoc) & K5).
  destruct (part_opened c_style None style_init load_styles (fun p l => mkStylePart (default no_styles l) p) s3 _ y E4) as ((q & py & dy & ly & -> & Hyc & Hsy & Hly & Hoy) & K6). cbn [fst snd] in *.
  unfold bind at 1, put at 1. unfold bind at 1. unfold on_office at 1. cbn [fst snd].
  assert (of_open o3 !! path = Some pb) as Hpb3 by (apply K6, K5, K4, K3, K2, Hpb).
  unfold with_doc. rewrite Hpb3. destruct (load_book (op_doc pb)) as [db [[l v]|e|e]] eqn:Eb; cbn [rmap default]; [|done..]. intros [= <- <-]. cbn [fst snd].
  assert (forall k p, of_open o3 !! k = Some p -> of_open o2 !! k = None \/ k <> path -> of_open (set_open o3 (<[path := mkOpen db (op_ct pb) (op_ext pb) (op_ext_type pb)]> (of_open o3))) !! k = Some p) as Hkeep.
  { intros k p Hk Hor'. cbn. rewrite lookup_insert_ne; [done|]. intros <-. destruct Hor' as [Hn|Hn]; [|done]. apply K2 in Hpb. congruence. }
  destruct Hg as (G1 & G2). constructor; cbn [wb_path wb_rels wb_theme wb_style wb_sheets wb_view sp_path sp_styles default].
  - exists pb, db. split; [done|]. split; [done|]. cbn. apply lookup_insert.
  - rewrite G1, Hrp. exists pr, dr, rels. split; [eapply source_back; [exact O1|done|done]|]. split; [done|]. split; [|done].
    apply Hkeep; [by apply K6, K5, K4, K3|]. right. intros ->. congruence.
  - exists pt. split; [eapply source_back; [exact O12|done|done]|]. apply Hkeep; [by apply K6, K5, K4|by left].
  - exists py, dy. split; [eapply source_back; [exact O12345|done|done]|]. split; [done|]. apply Hkeep; [done|]. right. intros ->. apply K2, K3, K4, K5 in Hpb. congruence.
  - exists pc, dc. cbn [wb_calc cc_path cc_entries default]. split; [eapply source_back; [exact O1234|done|done]|]. split; [done|]. apply Hkeep; [by apply K6|]. right. intros ->. apply K2, K3, K4 in Hpb. congruence.
  - by rewrite G1, Hrp.
Qed.
Theorem sources_opened p fs x : excel_new (Some p) fs = Ok x -> exists o, office_new (Some p) fs = Ok o /\ Sources o (x_book x) (x_office x).
Proof.
  unfold excel_new. destruct (suite_new (Some p) fs) as [s|e|e] eqn:Es; cbn [rbind]; [|done..].
  destruct (opens_suite _ _ _ Es) as (o & Ho & He & O1).
  destruct (workbook_new (su_root s, su_office s)) as [[root o1] [b|e|e]] eqn:Ew; [|done..]. intros [= <-]. exists o. split; [done|].
  destruct (opens_workbook (su_root s, su_office s) _ _ (op_docs _ _ _ O1) Ew) as [O2 Hr]. cbn [fst snd] in *.
  destruct (sources_workbook (su_root s, su_office s) _ _ (op_docs _ _ _ O1) Ew) as [S1 S2 S3 S4 S6 S5]. cbn [fst snd] in *.
  assert (forall init q p0, q ∈ own_parts b -> Source (su_office s) init q p0 -> Source o init q p0) as Hb.
  { intros init q p0 Hq. eapply source_back; [exact O1|]. by apply (op_closed _ _ _ O2). }
  constructor; cbn [x_book x_office x_suite su_office].
  - destruct S1 as (p0 & d' & H1 & H2 & H3). exists p0, d'. split; [|done]. apply Hb; [|done]. unfold own_parts. rewrite !elem_of_cons. tauto.
  - destruct S2 as (p0 & d' & r & H1 & H2 & H3). exists p0, d', r. split; [|done]. apply Hb; [|done]. unfold own_parts. rewrite !elem_of_cons. tauto.
  - destruct S3 as (p0 & H1 & H2). exists p0. split; [|done]. apply Hb; [|done]. unfold own_parts. rewrite !elem_of_cons. tauto.
  - destruct S4 as (p0 & d' & H1 & H2 & H3). exists p0, d'. split; [|done]. apply Hb; [|done]. unfold own_parts. rewrite !elem_of_cons. tauto.
  - destruct S6 as (p0 & d' & H1 & H2 & H3). exists p0, d'. split; [|done]. apply Hb; [|done]. unfold own_parts. rewrite !elem_of_cons. tauto.
  - exact S5.
Qed.
End opening.

(** ** The session *)
Section sessions.
Context `{E : Env} `{Hs : Hashes}.
Lemma own_use h m s : own_parts (x_book (use h m s).1.1) = own_parts (x_book s.1).
Proof. unfold use. destruct (handle h s) as [w|]; [|done]. by destruct (m _) as [[w1 t1] r]. Qed.
Lemma own_pure m s : KeepsOwn m -> own_parts (x_book (on_excel (on_book (A := unit) (pure_book m)) s).1.1) = own_parts (x_book s.1).
Proof.
  intros Hm. unfold on_excel, on_book, pure_book, x_state. cbn [fst snd]. specialize (Hm (x_book s.1)). by destruct (m (x_book s.1)) as [b r].
Qed.
Lemma own_spend h m s : (forall w b o, own_parts (m w (b, o)).1.1 = own_parts b) -> own_parts (x_book (spend h m s).1.1) = own_parts (x_book s.1).
Proof.
  intros Hm. unfold spend. destruct (handle h s) as [w|]; [|done]. unfold on_book, x_state. specialize (Hm w (x_book s.1) (x_office s.1)). by destruct (m w _) as [[b o] r].
Qed.
Lemma own_give name s : own_parts (x_book (give (on_book (add_sheet name)) s).1.1) = own_parts (x_book s.1).
Proof.
  unfold give, on_book, x_state, add_sheet. cbn [fst snd].
  destruct (ws_new_list name (wb_sheets (x_book s.1), (wb_rels (x_book s.1), x_office s.1))) as (_ & L2 & _).
  pose proof (file_name_path name (wb_sheets (x_book s.1), (wb_rels (x_book s.1), x_office s.1))) as Hp. rewrite <- L2 in Hp. clear L2.
  destruct (ws_new name _) as [[l [r o]] x]. cbn [fst snd] in *. destruct x as [w|e|e]; cbn; unfold own_parts; cbn; by rewrite Hp.
Qed.
Lemma own_call c s : own_parts (x_book (call_step c s).1.1) = own_parts (x_book s.1).
Proof.
  destruct c; cbn [call_step]; try apply own_use; try apply own_give; try (by apply own_pure).
  - apply own_pure, own_rename.
  - apply own_pure, own_style.
  - by apply own_spend.
  - apply own_spend. intros w b o. unfold on_wb_office. cbn. by destruct (ws_flush w o).
  - apply own_spend. intros w b o. apply own_delete.
Qed.
Theorem own_stays cs : forall s s', LInv s -> calls cs s = Some s' -> own_parts (x_book s'.1) = own_parts (x_book s.1)
  /\ forall q, q ∈ own_parts (x_book s.1) -> of_open (x_office s'.1) !! q = of_open (x_office s.1) !! q.
Proof.
  induction cs as [|c cs IH]; intros s s' I Hc; [by injection Hc as <-|].
  apply calls_cons in Hc as [Hp Hc]. destruct (call_effect c s I Hp) as [I1 _]. destruct (IH _ _ I1 Hc) as (H2 & H3).
  pose proof (own_call c s) as Ho. destruct (call_around c s I) as [_ _ _ A4 _]. split; [congruence|].
  intros q Hq. destruct (li_open _ I q) as [p Hop]; [unfold held; rewrite elem_of_app; by left|].
  rewrite H3 by (by rewrite Ho). rewrite Hop. apply A4; [|done]. intros k w Hk Hw. exact (apart_own s k w _ I Hw Hq).
Qed.
(** Saving. *)
Theorem own_saved t f path s fs tr fs' : LInv s -> excel_save t f path s.1 fs = (tr, Ok tt) -> last tr = Some fs' ->
  exists o' l, Flushed (x_book s.1) (x_office s.1) o' /\ Stored fs' path l
  /\ forall q e data, q ∈ own_parts (x_book s.1) -> of_open o' !! q = None -> of_archive o' !! q = Some e -> part_bytes e = Ok data -> forall y, (q, y) ∈ l <-> y = data.
Proof.
  intros I Hsave Hl. unfold excel_save in Hsave. set (b := x_book s.1) in *. pose proof (li_nodup _ I) as Hnd. unfold held in Hnd. fold b in Hnd. apply NoDup_app in Hnd as (Hown & Hdis & _).
  destruct (wb_flush b (x_office s.1)) as [o0 [[]|e|e]] eqn:Ef; [|done..]. apply flushed in Ef; [|done]. exists o0.
  unfold suite_save, bind in Hsave. cbn [su_core su_root su_office] in Hsave.
  pose proof (keep_core_flush t (su_core (x_suite s.1)) o0) as K1. unfold id in K1.
  destruct (core_flush t (su_core (x_suite s.1)) o0) as [o1 [[]|e|e]]; [|done..]. cbn [fst] in *.
  pose proof (keep_rels_close (su_root (x_suite s.1)) o1) as K2. unfold id in K2.
  destruct (rels_close (su_root (x_suite s.1)) o1) as [o2 [[]|e|e]]; [|done..]. cbn [fst] in *.
  destruct (office_save f path o2 fs) as [o3 [tr3 r3]] eqn:Ho. cbn [snd] in Hsave. injection Hsave as -> ->.
  destruct (saved_file _ _ _ _ _ _ _ Ho Hl) as (l & Hst & Hin & _ & Hct). exists l. split; [done|]. split; [done|].
  intros q e data Hq H1 H2 Hb y. specialize (Hdis _ Hq). rewrite elem_of_app in Hdis. assert (q ∉ DocsIn (x_suite s.1)) as Hd by tauto.
  unfold DocsIn in Hd. rewrite !not_elem_of_cons in Hd. destruct Hd as (D1 & D2 & _).
  destruct (K1 q D2) as [A1 A2]. destruct (K2 q D1) as [B1 B2].
  assert (part_data o2 q = Ok (Some data)) as Hpd by (unfold part_data; by rewrite B1, A1, H1, B2, A2, H2, Hb).
  rewrite Hin by (intros ->; congruence). rewrite Hpd. split; [congruence|by intros ->].
Qed.
End sessions.
