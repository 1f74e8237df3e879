(** Saving a workbook and opening the file again. *)
From Verif.Model Require Import Excel.
From Verif.Spec Require Import RelSpec XmlSpec XmlRepr PackageSpec SheetSpec SessionSpec.
From Verif.Proofs Require Import BaseFacts RelFacts PackageFacts XmlWriteFacts XmlReadFacts XmlTreeFacts XmlNsFacts DocBuild RelDocFacts SmallPartFacts
  SheetFacts SheetDocFacts SheetCycleFacts BookFacts FrameFacts SaveFacts SessionFacts.
Open Scope N_scope.

Section with_env.
Context `{E : Env}.
(** ** Flushing the workbook: relations between packages that every step keeps *)
Section relation.
Context (b0 : workbook) (R : office -> office -> Prop) (q0 : string).
Hypothesis R_trans : forall a b c, R a b -> R b c -> R a c.
Hypothesis R_same : forall o o', SameAt o o' q0 -> R o o'.
Hypothesis R_calc : forall s, R s.2 (calc_close (wb_calc b0) s).1.2.
Hypothesis R_rels : forall r o, rl_path r = rl_path (wb_rels b0) -> R o (rels_close r o).1.
Hypothesis Q_theme : q0 <> wb_theme b0.
Hypothesis Q_sst : q0 <> ss_path (wb_sst b0).
Hypothesis Q_style : q0 <> sp_path (wb_style b0).
Hypothesis R_book : forall v l o, R o (book_part_close (wb_path b0) v l o).1.
Definition Steps {A} (m : M wb_state A) : Prop := forall s, same_paths b0 s.1 -> same_paths b0 (m s).1.1 /\ R s.2 (m s).1.2.
Lemma steps_bind {A B} (m : M wb_state A) (k : A -> M wb_state B) : Steps m -> (forall a, Steps (k a)) -> Steps (bind m k).
Proof.
  intros Hm Hk s Hs. unfold bind. destruct (Hm s Hs) as [H1 H2]. destruct (m s) as [s1 [a|e|e]]; [|done|done].
  destruct (Hk a s1 H1) as [H3 H4]. split; [done|]. by eapply R_trans.
Qed.
Lemma steps_office {A} (m : M office A) : Keep id (fun q => q = q0) m -> Steps (on_wb_office m).
Proof.
  intros Hm s Hs. unfold on_wb_office. pose proof (Hm s.2 q0 eq_refl) as K. unfold id in K. destruct (m s.2). cbn in *. split; [done|]. by apply R_same.
Qed.
Lemma steps_calc : Steps (on_wb_rels (calc_close (wb_calc b0))).
Proof.
  intros [b o] Hs. unfold on_wb_rels. cbn [fst snd] in *. pose proof (R_calc (wb_rels b, o)) as K. pose proof (calc_close_path (wb_calc b0) (wb_rels b, o)) as P.
  destruct (calc_close _ _) as [[r o1] x]. cbn [fst snd] in *. split; [|done]. destruct Hs as (P1 & P2 & P3 & P4 & P5 & P6). unfold same_paths. cbn. rewrite P. done.
Qed.
Lemma steps_sst : Steps (on_wb_rels (sst_close (wb_sst b0))).
Proof.
  intros [b o] Hs. unfold on_wb_rels. cbn [fst snd] in *. pose proof (keep_sst_close (wb_sst b0) (wb_rels b, o) q0 Q_sst) as K. pose proof (sst_close_path (wb_sst b0) (wb_rels b, o)) as P.
  destruct (sst_close _ _) as [[r o1] x]. cbn [fst snd] in *. split; [|by apply R_same]. destruct Hs as (P1 & P2 & P3 & P4 & P5 & P6). unfold same_paths. cbn. rewrite P. done.
Qed.
Lemma steps_rels : Steps (fun s => on_wb_office (rels_close (wb_rels s.1)) s).
Proof.
  intros [b o] Hs. unfold on_wb_office. cbn [fst snd] in *. pose proof (R_rels (wb_rels b) o) as K. destruct (rels_close (wb_rels b) o). cbn in *. split; [done|].
  apply K. apply Hs.
Qed.
Lemma steps_theme : Steps (on_wb_office (theme_close (wb_theme b0))).
Proof. apply steps_office. eapply keep_weaken; [apply keep_close|]. by intros q ->. Qed.
Lemma steps_style : Steps (on_wb_office (style_close (wb_style b0))).
Proof. apply steps_office. eapply keep_weaken; [apply keep_style_close|]. by intros q ->. Qed.
Lemma close_steps s : same_paths b0 s.1 -> same_paths b0 (wb_close s).1.1 /\ R s.2 (wb_close s).1.2.
Proof.
  intros Hs. assert (forall A (k : wb_state -> M wb_state A), bind get k s = k s s) as Hg by done. unfold wb_close. rewrite Hg. clear Hg. cbn zeta.
  assert (wb_theme s.1 = wb_theme b0 /\ wb_calc s.1 = wb_calc b0 /\ wb_sst s.1 = wb_sst b0 /\ wb_style s.1 = wb_style b0 /\ wb_path s.1 = wb_path b0) as (F1 & F2 & F3 & F4 & F5).
  { destruct Hs as (P1 & P2 & P3 & P4 & P5 & P6). done. }
  unfold services_close. rewrite F1, F2, F3, F4, F5.
  match goal with |- same_paths b0 (?m s).1.1 /\ _ => assert (Steps m) as HS end; [|exact (HS s Hs)].
  apply steps_bind; [apply steps_theme|intros _].
  apply steps_bind; [|intros _; apply steps_bind; [apply steps_rels|intros _]].
  - apply steps_bind; [apply steps_calc|intros _]. apply steps_bind; [apply steps_sst|intros _; apply steps_style].
  - intros [b o] Hb. unfold on_wb_office. cbn [fst snd] in *. pose proof (R_book (wb_view s.1) (wb_sheets s.1) o) as K.
    destruct (book_part_close _ _ _ o). cbn in *. by split.
Qed.
Lemma drop_steps b o : same_paths b0 b -> R o (wb_drop b o).
Proof.
  intros Hb. unfold wb_drop.
  assert (wb_theme b = wb_theme b0 /\ wb_calc b = wb_calc b0 /\ wb_sst b = wb_sst b0 /\ wb_style b = wb_style b0) as (F1 & F2 & F3 & F4).
  { destruct Hb as (P1 & P2 & P3 & P4 & P5 & P6). done. }
  rewrite F1, F2, F3, F4. unfold quietly.
  destruct (close_steps (b, o) Hb) as [H1 R1]. cbn [fst snd] in R1. eapply R_trans; [exact R1|].
  destruct (steps_calc _ H1) as [H2 R2]. eapply R_trans; [exact R2|].
  destruct (steps_sst _ H2) as [H3 R3]. eapply R_trans; [exact R3|].
  destruct (steps_style _ H3) as [H4 R4]. eapply R_trans; [exact R4|].
  destruct (steps_rels _ H4) as [H5 R5]. eapply R_trans; [exact R5|]. by apply steps_theme.
Qed.
End relation.

Definition chain_same_open (o o' : office) : Prop := of_open o' !! calc_at = of_open o !! calc_at.
Definition rels_stay (o o' : office) : Prop :=
  of_open o !! rels_at = None -> of_open o' !! rels_at = None /\ of_archive o' !! rels_at = of_archive o !! rels_at.
Lemma calc_empty_open s : chain_same_open s.2 (calc_close (mkCalc [] calc_at) s).1.2.
Proof. by destruct s as [r o]. Qed.
Lemma flush_chain b o : BookShape b -> chain_same_open o (wb_flush b o).1.
Proof.
  intros [B1 B2 B3 B4 B5 B6 _ _]. unfold wb_flush.
  assert (forall q, q = calc_at -> q <> wb_theme b /\ q <> ss_path (wb_sst b) /\ q <> sp_path (wb_style b) /\ q <> wb_path b /\ q <> rl_path (wb_rels b)) as HQ.
  { intros q ->. by rewrite B1, B2, B3, B5, B6. }
  destruct (HQ _ eq_refl) as (Q1 & Q2 & Q3 & Q4 & Q5).
  assert (forall r o, rl_path r = rl_path (wb_rels b) -> chain_same_open o (rels_close r o).1) as Hr.
  { intros r o0 Hr. apply rels_close_other. by rewrite Hr. }
  assert (forall s, chain_same_open s.2 (calc_close (wb_calc b) s).1.2) as Hc. { rewrite B4. apply calc_empty_open. }
  assert (forall a b c, chain_same_open a b -> chain_same_open b c -> chain_same_open a c) as Ht. { unfold chain_same_open. congruence. }
  assert (forall o o', SameAt o o' calc_at -> chain_same_open o o') as Hs. { by intros ? ? []. }
  assert (forall v l o, chain_same_open o (book_part_close (wb_path b) v l o).1) as Hk. { intros v l o0. apply Hs, keep_book_part_close, Q4. }
  destruct (close_steps b chain_same_open calc_at Ht Hs Hc Hr Q1 Q2 Q3 Hk (b, o) (same_paths_refl b)) as [H1 R1].
  destruct (wb_close (b, o)) as [[b1 o1] r]. cbn [fst snd] in *. eapply Ht; [exact R1|].
  by apply (drop_steps b chain_same_open calc_at Ht Hs Hc Hr Q1 Q2 Q3 Hk).
Qed.
Lemma drop_rels b0 b o : BookShape b0 -> same_paths b0 b -> rels_stay o (wb_drop b o).
Proof.
  intros [B1 B2 B3 B4 B5 B6 _ _] Hb.
  apply (drop_steps b0 rels_stay rels_at); [| | | |by rewrite ?B1, ?B3, ?B5, ?B6..| |done].
  - intros x y z H1 H2 H. destruct (H1 H) as [H3 H4]. destruct (H2 H3) as [H5 H6]. split; [done|congruence].
  - intros o1 o2 [H1 H2] H. split; congruence.
  - intros s. intros H. destruct (keep_calc_close (wb_calc b0) s rels_at) as [H1 H2]; [by rewrite B4|]. split; congruence.
  - intros r o1 Hr H. unfold rels_close, bind, with_doc. rewrite Hr, B2, H. done.
  - intros v l o1 H. destruct (keep_book_part_close (wb_path b0) v l o1 rels_at) as [H1 H2]; [by rewrite B1|]. unfold id in *. split; congruence.
Qed.
(** What closing the workbook leaves at its relationships part: a stored list without calculation
    chain. *)
Definition NoChain (l : list rel) : Prop := Forall (fun x => r_type x <> c_type c_calc_chain) l.
Definition Reloads (path : string) (l : list rel) (e : entry) : Prop :=
  forall o2 e2, of_open o2 !! path = None -> of_archive o2 !! path = Some e2 -> part_bytes e2 = part_bytes e ->
     exists o3, rels_new path o2 = (o3, Ok (mkRelations l path))
     /\ of_archive o3 = delete path (of_archive o2) /\ (forall q, q <> path -> of_open o3 !! q = of_open o2 !! q).
Lemma calc_empty_rels s : (calc_close (mkCalc [] calc_at) s).1.1 = delete_relationship calc_at s.1.
Proof. by destruct s as [r o]. Qed.
Lemma sst_close_rels c s : (sst_close c s).1.1 = s.1 \/ (sst_close c s).1.1 = delete_relationship (ss_path c) s.1.
Proof.
  destruct s as [r o]. unfold sst_close. destruct (ss_strings c) as [|x l]; [by right|]. left. unfold bind, on_office. cbn [fst snd].
  destruct (with_doc _ _ o) as [o1 [y|e|e]]; [|done..]. cbn [fst snd]. by destruct (close_xml_document _ o1).
Qed.
Lemma escaped_known x : x ∈ base_rels \/ sheet_rel x -> r_target x <> "/" +:+ calc_at -> r_type (escaped_rel x) <> c_type c_calc_chain.
Proof.
  intros [Hx|(Hx & _)] Ht.
  - unfold base_rels in Hx. rewrite !elem_of_cons in Hx. destruct Hx as [-> | [-> | [-> | [-> | Hx%elem_of_nil]]]]; [by vm_compute|by vm_compute|done|by vm_compute|done].
  - unfold escaped_rel. cbn [r_type]. rewrite Hx. by vm_compute.
Qed.
Lemma close_rels b o b1 o1 : BookShape b -> RelsOpen o rels_at -> wb_close (b, o) = ((b1, o1), Ok tt) ->
  of_open o1 !! rels_at = None /\ exists e l, of_archive o1 !! rels_at = Some e /\ Reloads rels_at l e /\ NoChain l.
Proof.
  intros [B1 B2 B3 B4 B5 B6 (ext & B7 & Hext) _] Hro. unfold wb_close. unfold bind at 1. unfold get at 1. cbn [fst snd].
  rewrite B1, B3. unfold services_close. rewrite B4.
  unfold bind at 1. unfold on_wb_office at 1. cbn [fst snd].
  pose proof (keep_close theme_at o rels_at) as K1. unfold id in K1. specialize (K1 ltac:(done)). unfold theme_close.
  destruct (close_xml_document theme_at o) as [o2 [[]|e|e]]; [|done..]. cbn [fst snd] in *.
  unfold bind at 1. unfold bind at 1. unfold on_wb_rels at 1. cbn [fst snd].
  pose proof (keep_calc_close (mkCalc [] calc_at) (wb_rels b, o2) rels_at ltac:(done)) as K2.
  pose proof (calc_empty_rels (wb_rels b, o2)) as L2.
  destruct (calc_close (mkCalc [] calc_at) (wb_rels b, o2)) as [[r3 o3] [[]|e|e]]; [|done..]. cbn [fst snd] in *.
  unfold bind at 1. unfold on_wb_rels at 1. cbn [fst snd set_wb_rels wb_rels].
  pose proof (keep_sst_close (wb_sst b) (r3, o3) rels_at) as K3. rewrite B5 in K3. specialize (K3 ltac:(done)).
  pose proof (sst_close_rels (wb_sst b) (r3, o3)) as L3. rewrite B5 in L3. pose proof (sst_close_path (wb_sst b) (r3, o3)) as P3.
  destruct (sst_close (wb_sst b) (r3, o3)) as [[r4 o4] [[]|e|e]]; [|done..]. cbn [fst snd] in *.
  unfold on_wb_office at 1. cbn [fst snd].
  pose proof (keep_style_close (wb_style b) o4 rels_at) as K4. unfold id in K4. rewrite B6 in K4. specialize (K4 ltac:(done)).
  destruct (style_close (wb_style b) o4) as [o5 [[]|e|e]]; [|done..]. cbn [fst snd] in *.
  unfold bind at 1. unfold on_wb_office at 1. cbn [fst snd set_wb_rels wb_rels].
  assert (rl_path r4 = rels_at) as Hp4. { rewrite P3, L2. cbn. by rewrite B2. }
  assert (mkRel "rId1" ("/" +:+ theme_at) (c_type c_theme) None ∈ rl_rels r4 /\
    forall x, x ∈ rl_rels r4 -> (x ∈ base_rels \/ sheet_rel x) /\ r_target x <> "/" +:+ calc_at) as [Hth Hall].
  { assert (mkRel "rId1" ("/" +:+ theme_at) (c_type c_theme) None ∈ rl_rels r3 /\
      forall x, x ∈ rl_rels r3 -> (x ∈ base_rels \/ sheet_rel x) /\ r_target x <> "/" +:+ calc_at) as [H1 H2].
    { rewrite L2, delete_rels, B7. split.
      - apply elem_of_list_In, filter_In. split; [by left|done].
      - intros x [Hx Ht]%elem_of_list_In%filter_In. apply in_app_or in Hx. rewrite <- !elem_of_list_In in Hx. rewrite Forall_forall in Hext. split.
        + destruct Hx as [Hx|Hx]; [by left|right; by apply Hext].
        + intros Hx'. rewrite Hx' in Ht. by vm_compute in Ht. }
    destruct L3 as [-> | ->]; [done|]. rewrite delete_rels. split.
    - apply elem_of_list_In, filter_In. split; [by apply elem_of_list_In|done].
    - intros x [Hx _]%elem_of_list_In%filter_In. apply H2. by apply elem_of_list_In. }
  assert (RelsOpen o5 rels_at) as Ho5. { eapply rels_open_same; [exact K4|]. eapply rels_open_same; [exact K3|]. eapply rels_open_same; [exact K2|]. by eapply rels_open_same. }
  destruct (rels_roundtrip o5 r4) as (e & Hc & Hre); [by rewrite Hp4|intros Hz; rewrite Hz in Hth; by apply elem_of_nil in Hth|].
  rewrite Hc. cbn [fst snd]. unfold on_wb_office at 1. cbn [fst snd]. rewrite Hp4 in *.
  match goal with |- context [book_part_close book_at (wb_view b) (wb_sheets b) ?o6] => pose proof (keep_book_part_close book_at (wb_view b) (wb_sheets b) o6 rels_at ltac:(done)) as [K5 K6]; unfold id in K5, K6;
    destruct (book_part_close book_at (wb_view b) (wb_sheets b) o6) as [o7 [[]|m|m]] end; [|done..]. cbn [fst snd of_open of_archive] in *.
  intros [= <- <-]. split; [rewrite K5; apply lookup_delete|]. exists e, (map escaped_rel (rl_rels r4)). split; [rewrite K6; apply lookup_insert|]. split.
  - intros o8 e8 H1 H2 H3. destruct (Hre o8 e8 H1 H2 H3) as (o9 & R1 & _ & R3 & R4). eauto.
  - apply Forall_forall. intros y (x & -> & Hx)%elem_of_list_fmap. destruct (Hall x Hx). by apply escaped_known.
Qed.
Lemma flush_rels b o o' : BookShape b -> RelsOpen o rels_at -> wb_flush b o = (o', Ok tt) ->
  of_open o' !! rels_at = None /\ exists e l, of_archive o' !! rels_at = Some e /\ Reloads rels_at l e /\ NoChain l.
Proof.
  intros Hb Hr. unfold wb_flush. pose proof (stays_close (b, o)) as Hst. destruct (wb_close (b, o)) as [[b1 o1] r] eqn:Hc. cbn [fst snd] in Hst. intros [= <- ->].
  destruct (close_rels _ _ _ _ Hb Hr Hc) as (H1 & e & l & H2 & H3 & H4). destruct (drop_rels b b1 o1 Hb Hst H1) as [H5 H6].
  split; [done|]. exists e, l. by rewrite H6.
Qed.

(** ** Opening the file again *)
(** A part at the place of the calculation chain that cannot be read. *)
Definition BadChain (o : office) : Prop :=
  of_open o !! calc_at = None /\ exists e data m, of_archive o !! calc_at = Some e /\ part_bytes e = Ok data /\ read_doc data = Err m.
Lemma bad_same o o' : SameAt o o' calc_at -> BadChain o -> BadChain o'.
Proof. intros [H1 H2] [H3 H4]. split; [congruence|]. by rewrite H2. Qed.
Lemma bad_get init o : BadChain o -> exists o' m, get_xml_document init calc_at o = (o', Err m).
Proof.
  intros (Ho & e & data & m & Ha & Hb & Hr). unfold get_xml_document, bind, get_xml_tree. rewrite Ho, Ha. unfold part_bytes in Hb.
  destruct (en_content e) as [c|]; cbn [of_option rbind] in *; [|cbn [fst snd]; eauto]. rewrite Hb. cbn [rbind]. rewrite Hr. cbn [fst snd]. eauto.
Qed.
Lemma bad_step init path o o' : BadChain o -> get_xml_document init path o = (o', Ok tt) -> BadChain o'.
Proof.
  intros Hb Hg. destruct (decide (calc_at = path)) as [<-|Hne]. { destruct (bad_get init o Hb) as (o1 & m & Hx). rewrite Hg in Hx. done. }
  pose proof (keep_get_xml init path o calc_at Hne) as K. rewrite Hg in K. by eapply bad_same.
Qed.
Lemma bad_doc {A} (k : M doc A) path o : BadChain o -> BadChain (with_doc path k o).1.
Proof.
  intros Hb. destruct (decide (calc_at = path)) as [<-|Hne].
  - unfold with_doc. destruct Hb as [Ho Hb]. by rewrite Ho.
  - pose proof (keep_with_doc path k o calc_at Hne) as K. unfold id in K. by eapply bad_same.
Qed.
Lemma chain_part c path r : NoChain (rl_rels r) -> c_type c <> c_type c_calc_chain -> NoChain (rl_rels (part_path c path r).1).
Proof.
  intros Hn Hc. unfold part_path, get_target_by_type. destruct (List.find _ _); [done|]. cbn. apply Forall_app. split; [done|]. by apply Forall_singleton.
Qed.
Lemma chain_path r : NoChain (rl_rels r) -> (part_path c_calc_chain None r).2 = Ok calc_at.
Proof.
  intros Hn. unfold part_path, get_target_by_type. destruct (List.find _ _) as [x|] eqn:Ef; [|by vm_compute].
  apply find_some in Ef as [Hx Ht]. apply seqb_true in Ht. unfold NoChain in Hn. rewrite Forall_forall in Hn. by destruct (Hn x (proj2 (elem_of_list_In _ _) Hx)).
Qed.
Lemma services_bad r o s2 v : NoChain (rl_rels r) -> BadChain o ->
  bind theme_new (fun theme => bind sst_new (fun s => bind calc_new (fun c => bind style_new (fun y => ret (theme, s, c, y))))) (r, o) <> (s2, Ok v).
Proof.
  intros Hn Hb. unfold theme_new. unfold bind at 1. unfold bind at 1. unfold on_rels at 1. cbn [fst snd].
  pose proof (chain_part c_theme (Some ("xl/" +:+ c_path c_theme)) r Hn ltac:(by vm_compute)) as N1.
  destruct (part_path c_theme _ r) as [r1 [p1|e|e]]; [|done..]. cbn [fst snd] in *.
  unfold bind at 1. unfold on_office at 1. cbn [fst snd].
  destruct (get_xml_document theme_init p1 o) as [o1 [[]|e|e]] eqn:G1; [|done..]. pose proof (bad_step _ _ _ _ Hb G1) as Hb1. cbn [fst snd]. unfold ret at 1.
  unfold bind at 1. unfold sst_new at 1. unfold bind at 1. unfold on_rels at 1. cbn [fst snd].
  pose proof (chain_part c_share_string None r1 N1 ltac:(by vm_compute)) as N2.
  destruct (part_path c_share_string _ r1) as [r2 [p2|e|e]]; [|done..]. cbn [fst snd] in *.
  unfold bind at 1. unfold on_office at 1. cbn [fst snd].
  destruct (get_xml_document sst_init p2 o1) as [o2 [[]|e|e]] eqn:G2; [|done..]. pose proof (bad_step _ _ _ _ Hb1 G2) as Hb2. cbn [fst snd].
  unfold bind at 1. unfold on_office at 1. cbn [fst snd]. pose proof (bad_doc load_strings p2 o2 Hb2) as Hb3.
  destruct (with_doc p2 load_strings o2) as [o3 [l|e|e]]; [|done..]. cbn [fst snd] in *. unfold ret at 1.
  unfold bind at 1. unfold calc_new at 1. unfold bind at 1. unfold on_rels at 1. cbn [fst snd].
  pose proof (chain_path r2 N2) as Hp. destruct (part_path c_calc_chain None r2) as [r3 x]. cbn [fst snd] in *. subst x. cbn [fst snd].
  unfold bind at 1. unfold on_office at 1. cbn [fst snd]. destruct (bad_get calc_init o3 Hb3) as (o4 & m & ->). done.
Qed.
Theorem reopen_fails path fs o er el l x' : office_new (Some path) fs = Ok o ->
  BadChain o -> of_archive o !! root_at = Some er -> Reloads root_at (rl_rels root_rels) er ->
  of_archive o !! rels_at = Some el -> Reloads rels_at l el -> NoChain l -> of_open o = ∅ ->
  excel_new (Some path) fs <> Ok x'.
Proof.
  intros Hn Hb Hroot Lroot Hrels Lrels Hl Ho. unfold excel_new, suite_new. rewrite Hn. cbn [rbind]. change "_rels/.rels" with root_at.
  assert (forall q, of_open o !! q = None) as Hc. { intros q. rewrite Ho. apply lookup_empty. }
  destruct (Lroot o er (Hc _) Hroot eq_refl) as (o1 & -> & A1 & F1). change (mkRelations (rl_rels root_rels) root_at) with root_rels.
  assert (forall q, q <> root_at -> SameAt o o1 q) as K1. { intros q Hq. split; [by apply F1|]. rewrite A1. by apply lookup_delete_ne. }
  unfold core_new. unfold bind at 1. unfold on_rels at 1. cbn [fst snd].
  assert (part_path c_core None root_rels = (root_rels, Ok core_at)) as P1 by reflexivity.
  rewrite P1. unfold bind at 1. unfold on_office at 1. cbn [fst snd].
  pose proof (keep_get_xml core_init core_at o1) as K2. unfold id in K2.
  destruct (get_xml_document core_init core_at o1) as [o2 [[]|e|e]]; [|done..]. cbn [fst snd] in *. unfold ret. cbn [rbind su_root su_office].
  unfold workbook_new. unfold bind at 1. unfold on_rels at 1. cbn [fst snd].
  assert (part_path c_workbook None root_rels = (root_rels, Ok book_at)) as P2 by reflexivity.
  rewrite P2. unfold bind at 1. unfold on_office at 1. cbn [fst snd].
  pose proof (keep_get_xml workbook_init book_at o2) as K3. unfold id in K3.
  destruct (get_xml_document workbook_init book_at o2) as [o3 [[]|e|e]]; [|done..]. cbn [fst snd] in *.
  assert (forall q, q <> root_at -> q <> core_at -> q <> book_at -> SameAt o o3 q) as K03.
  { intros q H1 H2 H3. eapply same_trans; [by apply K1|]. eapply same_trans; [by apply K2|by apply K3]. }
  unfold bind at 1. unfold lift at 1. change (book_rels_path book_at) with (Ok rels_at). cbn [fst snd]. unfold bind at 1. unfold on_office at 1. cbn [fst snd].
  destruct (K03 rels_at) as [Ko Ka]; [done..|].
  destruct (Lrels o3 el) as (o4 & -> & A4 & F4); [by rewrite Ko|by rewrite Ka|done|]. cbn [fst snd].
  unfold bind at 1. unfold get at 1. cbn [fst snd].
  assert (BadChain o4) as Hb4.
  { eapply (bad_same o3). { split; [by apply F4|]. rewrite A4. by apply lookup_delete_ne. } eapply bad_same; [by apply K03|done]. }
  match goal with |- context [?m (mkRelations l rels_at, o4)] => destruct (m (mkRelations l rels_at, o4)) as [[rels5 o5] [v|e|e]] eqn:E5 end; [|done..].
  by apply services_bad in E5.
Qed.
Theorem saved_not_reopened t f path x fs tr fs' x' :
  su_root (x_suite x) = root_rels -> su_core (x_suite x) = core_at -> BookShape (x_book x) -> NewParts (x_office x) ->
  excel_save t f path x fs = (tr, Ok tt) -> last tr = Some fs' -> excel_new (Some path) fs' <> Ok x'.
Proof.
  intros Hroot Hcore Hb [N1 N2 N3 _] Hs Hl. unfold excel_save in Hs.
  pose proof (flush_chain _ (x_office x) Hb) as Ch. pose proof (flush_keeps (x_book x) (x_office x) root_at) as Kr.
  destruct (wb_flush (x_book x) (x_office x)) as [o1 [[]|e|e]] eqn:Hf; [|done..]. cbn [fst snd] in *.
  destruct (flush_rels _ _ _ Hb N2 Hf) as (Ho & el & l & Ha & Lel & Hno).
  assert (RelsOpen o1 root_at) as R1.
  { eapply rels_open_same; [apply Kr|exact N1]. unfold own_parts, own_parts_but_rels. destruct Hb as [B1 B2 B3 B4 B5 B6 _ _]. rewrite B1, B2, B3, B4, B5, B6.
    apply (bool_decide_unpack _); by vm_compute. }
  destruct N3 as (p & Hp & Hd & Hns). unfold chain_same_open in Ch. rewrite Hp in Ch.
  unfold suite_save in Hs. cbn [su_core su_root su_office] in Hs. rewrite Hroot, Hcore in Hs.
  unfold bind in Hs. pose proof (keep_core_flush t core_at o1) as K2. unfold id in K2.
  destruct (core_flush t core_at o1) as [o2 [[]|e|e]]; [|done..]. cbn [fst snd] in *.
  assert (RelsOpen o2 root_at) as R2 by (by eapply rels_open_same; [apply K2|]).
  destruct (rels_roundtrip o2 root_rels R2) as (er & Hc & Ler); [done|]. rewrite Hc in Hs.
  set (o3 := mkOffice _ _) in Hs. destruct (office_save f path o3 fs) as [o4 [tr4 r4]] eqn:Hsave. cbn [snd] in Hs. injection Hs as -> ->.
  destruct (office_new (Some path) fs') as [o5|m|m] eqn:Hnew; [|by unfold excel_new, suite_new; rewrite Hnew..].
  destruct (K2 calc_at) as [C1 _]; [done|]. destruct (K2 rels_at) as [L1 L2]; [done|].
  destruct (save_reopen _ _ _ _ _ _ _ _ Hsave Hl Hnew) as [Hclosed _].
  destruct (save_reopen_open _ _ _ _ _ _ _ _ calc_at p Hsave Hl Hnew) as (ec & data & E1 & E2 & E3); [done|cbn; rewrite lookup_delete_ne by done; by rewrite C1|].
  destruct (save_reopen_closed _ _ _ _ _ _ _ _ root_at er Hsave Hl Hnew) as (er2 & F1 & F2); [done|cbn; apply lookup_delete|cbn; apply lookup_insert|].
  destruct (save_reopen_closed _ _ _ _ _ _ _ _ rels_at el Hsave Hl Hnew) as (el2 & G1 & G2); [done|cbn; rewrite lookup_delete_ne by done; by rewrite L1|cbn; rewrite lookup_insert_ne by done; by rewrite L2|].
  eapply (reopen_fails path fs' o5 er2 el2 l); [done| |done| |done| |done|done].
  - split; [rewrite Hclosed; apply lookup_empty|]. rewrite (Doc_write _ _ Hd) in E3. injection E3 as <-.
    destruct (read_empty_root (d_ns (op_doc p)) "calcChain" (Some ∅)) as [m Hm]; [apply names_ok_node; split; [by vm_compute|split; [apply attrs_ok_empty|constructor]]|done|]. eauto 10.
  - intros o6 e6 H1 H2 H3. destruct (Ler o6 e6 H1 H2) as (o7 & I1 & _ & I3 & I4); [congruence|]. exists o7.
    assert (map escaped_rel (rl_rels root_rels) = rl_rels root_rels) as He by (by vm_compute). rewrite He in I1. done.
  - intros o6 e6 H1 H2 H3. apply (Lel o6 e6 H1 H2). congruence.
Qed.

(** ** What a save stores of the other parts *)
Lemma save_other t f path x fs tr fs' : su_root (x_suite x) = root_rels -> su_core (x_suite x) = core_at -> BookShape (x_book x) ->
  excel_save t f path x fs = (tr, Ok tt) -> last tr = Some fs' ->
  exists l, Stored fs' path l /\ forall q data, q ∉ book_parts -> (q, data) ∈ l <-> part_data (x_office x) q = Ok (Some data).
Proof.
  intros Hroot Hcore [B1 B2 B3 B4 B5 B6 _ _] Hs Hl. unfold excel_save in Hs.
  assert (forall q, q ∉ book_parts -> SameAt (x_office x) (wb_flush (x_book x) (x_office x)).1 q) as K1.
  { intros q Hq. apply flush_keeps. unfold own_parts. rewrite B1, B2, B3, B4, B5, B6. unfold book_parts in Hq. rewrite !not_elem_of_cons in *. tauto. }
  destruct (wb_flush (x_book x) (x_office x)) as [o1 [[]|e|e]]; [|done..]. cbn [fst snd] in *.
  unfold suite_save in Hs. cbn [su_core su_root su_office] in Hs. rewrite Hroot, Hcore in Hs.
  unfold bind in Hs. pose proof (keep_core_flush t core_at o1) as K2. unfold id in K2.
  destruct (core_flush t core_at o1) as [o2 [[]|e|e]]; [|done..]. cbn [fst snd] in *.
  pose proof (keep_rels_close root_rels o2) as K3. unfold id in K3.
  destruct (rels_close root_rels o2) as [o3 [[]|e|e]]; [|done..]. cbn [fst snd] in *.
  destruct (office_save f path o3 fs) as [o4 [tr4 r4]] eqn:Hsave. cbn [snd] in Hs. injection Hs as -> ->.
  destruct (saved_file _ _ _ _ _ _ _ Hsave Hl) as (l & Hst & Hin & _). exists l. split; [done|].
  intros q data Hq. rewrite Hin.
  - assert (SameAt (x_office x) o3 q) as [S1 S2].
    { unfold book_parts in Hq. eapply same_trans; [by apply K1|]. rewrite !not_elem_of_cons in Hq. destruct Hq as (H1 & H2 & H3 & _).
      eapply same_trans; [by apply K2|by apply K3]. }
    unfold part_data. by rewrite S1, S2.
  - unfold book_parts in Hq. rewrite !not_elem_of_cons in Hq. by destruct Hq.
Qed.
End with_env.

Section sessions.
Context `{E : Env} `{Hs : Hashes}.
Lemma use_suite h m s : x_suite (use h m s).1.1 = x_suite s.1.
Proof. unfold use. destruct (handle h s) as [w|]; [|done]. by destruct (m _) as [[w1 t1] r]. Qed.
Lemma write_suite c s : writes_only c -> x_suite (call_step c s).1.1 = x_suite s.1.
Proof. destruct c; cbn [writes_only]; try done; intros _; cbn [call_step]; apply use_suite. Qed.
Lemma writes_suite cs : forall s s', Forall writes_only cs -> calls cs s = Some s' -> x_suite s'.1 = x_suite s.1.
Proof.
  induction cs as [|c cs IH]; intros s s' Hf; cbn [calls]; [by intros [= <-]|]. apply Forall_cons in Hf as [Hc Hf]. pose proof (write_suite c s Hc) as Hw.
  destruct (call_step c s) as [s1 [[]|e|e]]; [| |done]; intros Hr; rewrite (IH _ _ Hf Hr); done.
Qed.
Lemma calls_app cs1 cs2 s : calls (cs1 ++ cs2) s = calls cs1 s ≫= calls cs2.
Proof. revert s. induction cs1 as [|c cs1 IH]; intros s; [done|]. cbn [app calls]. by destruct (call_step c s) as [s1 [[]|e|e]]; rewrite ?IH. Qed.
(** One sheet's history through the session. *)
Definition table (s : session) : list string := ss_strings (wb_sst (x_book s.1)).
Lemma op_step h op s w w1 t1 r : handle h s = Some w -> run_sheet_op op (w, table s) = ((w1, t1), r) ->
  call_step (op_call h op) s = ((mkExcel (x_suite s.1) (set_wb_strings (x_book s.1) t1), <[h := Some w1]> s.2), r).
Proof.
  intros Hh. destruct op as [r0 c cs|r0 p]; cbn [op_call call_step run_sheet_op]; unfold use; rewrite Hh; fold (table s).
  - by intros ->.
  - unfold on_handle. cbn [fst snd]. destruct (set_row_props r0 p w) as [w2 x]. by intros [= <- <- <-].
Qed.
Lemma handle_insert h s w w1 x : handle h s = Some w -> handle h (x, <[h := Some w1]> s.2) = Some w1.
Proof.
  unfold handle. cbn [snd]. destruct (s.2 !! h) as [y|] eqn:Ey; [|done]. intros _. rewrite list_lookup_insert; [done|]. by eapply lookup_lt_Some.
Qed.
Lemma ops_run h ops : forall s w w' t', handle h s = Some w -> run_sheet_ops ops (w, table s) = ((w', t'), Ok tt) ->
  exists s', calls (map (op_call h) ops) s = Some s' /\ handle h s' = Some w' /\ table s' = t' /\ x_suite s'.1 = x_suite s.1.
Proof.
  induction ops as [|op ops IH]; intros s w w' t' Hh; cbn [run_sheet_ops map calls]; [intros [= <- <-]; by exists s|].
  unfold bind. destruct (run_sheet_op op (w, table s)) as [[w1 t1] r] eqn:E1. rewrite (op_step _ _ _ _ _ _ _ Hh E1).
  destruct r as [[]|e|e]; [|done..]. intros Hr. destruct (IH (mkExcel (x_suite s.1) (set_wb_strings (x_book s.1) t1), <[h := Some w1]> s.2) w1 w' t') as (s' & H1 & H2 & H3 & H4).
  { by eapply handle_insert. } { done. } exists s'. done.
Qed.
(** A sheet that did not exist before. *)
Lemma new_sheet_open name s s' w : (forall n x, name = Some n -> x ∈ s.1 -> sh_name x <> n) -> get_relative_path s.2.1 = Ok "xl/" ->
  ws_new name s = (s', Ok w) -> exists k rels, w = fresh_sheet (sheet_path sheet_dir k) (default (sheet_file k) name) rels /\ SheetOpen s'.2.2 (ws_path w)
    /\ rl_path rels <> ws_path w.
Proof.
  destruct s as [sheets [r o]]. cbn [fst snd]. intros Hn Hr Hnew. destruct (file_name_new name sheets r o "xl/" Hn Hr) as (k & Hg & _ & Ha & _).
  change ("xl/" +:+ c_path c_worksheet) with sheet_dir in *. set (P := sheet_path sheet_dir k) in *.
  pose proof (sheet_beside k : rels_beside P = _) as Hb. set (rp := sheet_dir +:+ _) in Hb. pose proof (rels_beside_ne _ _ Hb) as Hne.
  destruct ws_init_spec as (d & d' & t' & Hi & Hl & Hd' & Hn' & Hns' & Hv' & Ha' & Hc').
  set (p0 := mkOpen d _ _ _) in Hi. match type of Hg with _ = (?x, _) => set (s1 := x) in Hg end.
  assert (exists o1 o2 rels, get_xml_document ws_init P o = (o1, Ok tt) /\ of_open o1 !! P = Some p0 /\ rels_new rp o1 = (o2, Ok rels)) as (o1 & o2 & rels & Hx & Hp1 & Hr2).
  { clear -Hnew Hg Hi Ha Hb Hne. unfold ws_new in Hnew. unfold bind at 1 in Hnew. rewrite Hg in Hnew. unfold bind at 1 in Hnew. unfold on_pkg at 1 in Hnew. unfold on_office at 1 in Hnew.
    subst s1. cbn [fst snd] in Hnew. destruct (of_open o !! P) as [p|] eqn:Ho.
    { unfold get_xml_document, get_xml_tree, bind in Hnew. rewrite Ho in Hnew. done. }
    assert (get_xml_document ws_init P o = (set_open o (<[P := p0]> (of_open o)), Ok tt)) as Hx.
    { unfold get_xml_document, get_xml_tree, bind. rewrite Ho, Ha. unfold lift. by rewrite Hi. }
    rewrite Hx in Hnew. unfold bind at 1 in Hnew. unfold lift at 1 in Hnew. rewrite Hb in Hnew. unfold bind at 1 in Hnew. unfold on_pkg at 1 in Hnew. unfold on_office at 1 in Hnew.
    cbn [fst snd] in Hnew. set (o1 := set_open _ _) in *. destruct (rels_new rp o1) as [o2 [rels|e|e]] eqn:Er; [|done..].
    exists o1, o2, rels. split; [done|]. split; [cbn; apply lookup_insert|done]. }
  pose proof (keep_rels_new rp o1 P (not_eq_sym Hne)) as [K _]. unfold id in K. rewrite Hr2 in K. cbn [fst] in K.
  pose proof (ws_new_eq name _ s1 P _ rp o1 o2 _ rels p0 d' _ _ _ _ Hg Hb Hx Hr2 (eq_trans K Hp1) Hl eq_refl) as Heq.
  rewrite Hnew in Heq. injection Heq as -> ->. exists k, rels. split; [done|]. split.
  - apply (with_doc_open o2 P p0 d' t'); try done; [by rewrite K|]. rewrite Hc'. constructor.
  - cbn [ws_path]. assert (rl_path rels = rp) as ->; [|done]. clear -Hr2. unfold rels_new, bind in Hr2. destruct (get_xml_document rels_init rp o1) as [o3 [[]|e|e]]; [|done..].
    destruct (with_doc rp load_relations o3) as [o4 [l|e|e]]; [|done..]. by injection Hr2 as <- <-.
Qed.
(** The part of a released sheet. *)
Lemma drop_written o w : SheetOpen o (ws_path w) -> sheet_typed w -> rl_path (ws_rels w) <> ws_path w ->
  exists e root nsl text, part_data (ws_drop w o) (ws_path w) = Ok (Some (prolog +:+ text)) /\ part_bytes e = Ok (prolog +:+ text) /\ Renders (Some nsl) root text
  /\ forall m, ws_data w = Some m -> only_child "sheetData" root (data_tree m) /\ RowsWritten w (data_tree m) (row_list m).
Proof.
  intros Ho Hw Hne. destruct (sheet_cycle o w Ho Hw) as (e & root & nsl & ref & Hc & (text & Hb & Ht) & _ & _ & Hd & _).
  exists e, root, nsl, text. split; [|split; [done|split; [done|]]].
  - unfold ws_drop. rewrite Hc. cbn [ws_rels].
    match goal with |- context [rels_close ?r ?o1] => pose proof (keep_rels_close r o1 (ws_path w)) as K end. unfold id in K.
    destruct K as [K1 K2]; [by destruct w|]. unfold part_data. rewrite K1, K2. cbn [of_open of_archive]. rewrite lookup_delete, lookup_insert. by rewrite Hb.
  - intros m Hm. split; [by apply Hd|]. apply rows_written; [done|]. by apply Hw.
Qed.
Lemma op_data op w t : is_Some (ws_data w) -> is_Some (ws_data (run_sheet_op op (w, t)).1.1).
Proof.
  intros Hw. destruct op as [r c cs|r p]; cbn [run_sheet_op].
  - unfold set_row_value. destruct (u16_sub env_mode c 1); [|done..]. destruct (store_cells cs t) as [t1 cs1].
    destruct (place_cells _ _ _ _ _) as [[dim cells] x]. by destruct x; cbn; try destruct (rd_cells _).
  - done.
Qed.
Lemma ops_data ops : forall w t w' t', is_Some (ws_data w) -> run_sheet_ops ops (w, t) = ((w', t'), Ok tt) -> is_Some (ws_data w').
Proof.
  induction ops as [|op ops IH]; intros w t w' t' Hw; cbn [run_sheet_ops]; [by intros [= <- <-]|]. unfold bind.
  pose proof (op_data op w t Hw) as H1. destruct (run_sheet_op op (w, t)) as [[w1 t1] [[]|e|e]]; [|done..]. by apply IH.
Qed.
End sessions.
