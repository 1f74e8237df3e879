(** Which parts of a package an operation leaves alone. *)
From Verif.Model Require Import Excel.
From Verif.Spec Require Import PackageSpec.
From Verif.Proofs Require Import BaseFacts PackageFacts BookFacts.
Open Scope N_scope.

Definition SameAt (o o' : office) (q : string) : Prop :=
  of_open o' !! q = of_open o !! q /\ of_archive o' !! q = of_archive o !! q.
Lemma same_refl o q : SameAt o o q.
Proof. done. Qed.
Lemma same_trans o1 o2 o3 q : SameAt o1 o2 q -> SameAt o2 o3 q -> SameAt o1 o3 q.
Proof. intros [H1 H2] [H3 H4]. split; congruence. Qed.
(** The operation [m], on states holding a package, leaves the parts [P] alone. *)
Definition Keep {S A} (off : S -> office) (P : string -> Prop) (m : M S A) : Prop :=
  forall s q, P q -> SameAt (off s) (off (m s).1) q.

Section with_env.
Context `{E : Env}.
Lemma keep_bind {S A B} off P (m : M S A) (k : A -> M S B) : Keep off P m -> (forall a, Keep off P (k a)) -> Keep off P (bind m k).
Proof.
  intros Hm Hk s q Hq. unfold bind. pose proof (Hm s q Hq) as H1. destruct (m s) as [s1 [a|e|e]]; [|done|done].
  eapply same_trans; [exact H1|]. by apply Hk.
Qed.
Lemma keep_ret {S A} off P (a : A) : Keep (S := S) off P (ret a).
Proof. intros s q _. done. Qed.
Lemma keep_lift {S A} off P (r : res A) : Keep (S := S) off P (lift r).
Proof. intros s q _. done. Qed.
Lemma keep_get {S} off P : Keep (S := S) off P get.
Proof. intros s q _. done. Qed.
Lemma keep_fail {S A} off P e : Keep (S := S) off P (fail (A := A) e).
Proof. intros s q _. done. Qed.
Lemma keep_weaken {S A} off (P Q : string -> Prop) (m : M S A) : Keep off P m -> (forall q, Q q -> P q) -> Keep off Q m.
Proof. intros Hm HQ s q Hq. by apply Hm, HQ. Qed.

Lemma keep_close path : Keep id (fun q => q <> path) (close_xml_document path).
Proof. intros o q Hq. apply close_other. congruence. Qed.
Lemma keep_delete path : Keep id (fun q => q <> path) (delete_document path).
Proof. intros o q Hq. by apply delete_document_other. Qed.
Lemma keep_with_doc {A} path (m : M doc A) : Keep id (fun q => q <> path) (with_doc path m).
Proof. intros o q Hq. destruct (with_doc_other path m o q Hq) as [H1 H2]. split; [done|]. unfold id. by rewrite H2. Qed.
Lemma keep_get_xml init path : Keep id (fun q => q <> path) (get_xml_document init path).
Proof.
  intros o q Hq. unfold get_xml_document, get_xml_tree, get_xml_document_ref, bind, modify, lift, ret, id.
  destruct (of_open o !! path) eqn:Eo; [done|]. destruct (of_archive o !! path) as [e|] eqn:Ea.
  - destruct (rbind _ _) as [[p|]|x|x]; cbn [fst].
    + split; cbn; [by rewrite lookup_insert_ne|by rewrite lookup_delete_ne].
    + destruct init as [p|x|x]; cbn [fst]; split; cbn; rewrite ?lookup_insert_ne, ?lookup_delete_ne by done; done.
    + split; cbn; [done|by rewrite lookup_delete_ne].
    + split; cbn; [done|by rewrite lookup_delete_ne].
  - destruct init as [p|x|x]; cbn [fst]; [|done|done]. split; cbn; [by rewrite lookup_insert_ne|done].
Qed.
Lemma keep_rels_close r : Keep id (fun q => q <> rl_path r) (rels_close r).
Proof. intros o q Hq. by apply rels_close_other. Qed.
Lemma keep_rels_new path : Keep id (fun q => q <> path) (rels_new path).
Proof.
  unfold rels_new. apply keep_bind; [apply keep_get_xml|intros _]. apply keep_bind; [apply keep_with_doc|intros l; apply keep_ret].
Qed.
(** Lifting. *)
Lemma keep_on_rels {A} P (m : M relations A) : Keep snd P (on_rels m).
Proof. intros [r o] q _. unfold on_rels. cbn. by destruct (m r). Qed.
Lemma keep_on_office {A} P (m : M office A) : Keep id P m -> Keep snd P (on_office m).
Proof. intros Hm [r o] q Hq. unfold on_office. cbn. specialize (Hm o q Hq). by destruct (m o). Qed.
Lemma keep_wb_office {A} P (m : M office A) : Keep id P m -> Keep snd P (on_wb_office m).
Proof. intros Hm [b o] q Hq. unfold on_wb_office. cbn. specialize (Hm o q Hq). by destruct (m o). Qed.
Lemma keep_wb_rels {A} P (m : M pkg_state A) : Keep snd P m -> Keep snd P (on_wb_rels m).
Proof. intros Hm [b o] q Hq. unfold on_wb_rels. cbn. specialize (Hm (wb_rels b, o) q Hq). by destruct (m (wb_rels b, o)) as [[r o1] x]. Qed.

(** The parts. *)
Lemma keep_calc_close c : Keep snd (fun q => q <> cc_path c) (calc_close c).
Proof.
  unfold calc_close. destruct (cc_entries c); (apply keep_bind; [|intros _]); try apply keep_on_rels; apply keep_on_office;
    (apply keep_delete || apply keep_with_doc || apply keep_close).
Qed.
Lemma keep_sst_close c : Keep snd (fun q => q <> ss_path c) (sst_close c).
Proof.
  unfold sst_close. destruct (ss_strings c); (apply keep_bind; [|intros _]); try apply keep_on_rels; apply keep_on_office;
    (apply keep_delete || apply keep_with_doc || apply keep_close).
Qed.
Lemma keep_style_close c : Keep id (fun q => q <> sp_path c) (style_close c).
Proof. unfold style_close. apply keep_bind; [apply keep_with_doc|intros _; apply keep_close]. Qed.
Lemma keep_core_close n1 n2 path : Keep id (fun q => q <> path) (core_close n1 n2 path).
Proof. unfold core_close. apply keep_bind; [apply keep_with_doc|intros _; apply keep_close]. Qed.
Lemma keep_core_flush t path : Keep id (fun q => q <> path) (core_flush t path).
Proof.
  intros o q Hq. unfold core_flush. pose proof (keep_core_close (ck_1 t) (ck_2 t) path o q Hq) as H1.
  destruct (core_close (ck_1 t) (ck_2 t) path o) as [o1 r]. cbn [fst]. eapply same_trans; [exact H1|]. by apply keep_core_close.
Qed.
Lemma keep_book_part_close path v l : Keep id (fun q => q <> path) (book_part_close path v l).
Proof. unfold book_part_close. apply keep_bind; [apply keep_with_doc|intros _; apply keep_close]. Qed.
(** The parts that belong to the workbook itself. *)
Definition own_parts (b : workbook) : list string :=
  [wb_path b; rl_path (wb_rels b); wb_theme b; cc_path (wb_calc b); ss_path (wb_sst b); sp_path (wb_style b)].
Definition own_parts_but_rels (b : workbook) : list string :=
  [wb_path b; wb_theme b; cc_path (wb_calc b); ss_path (wb_sst b); sp_path (wb_style b)].
(** Closing the workbook never moves its parts. *)
Definition same_paths (b b' : workbook) : Prop :=
  wb_path b' = wb_path b /\ rl_path (wb_rels b') = rl_path (wb_rels b) /\ wb_theme b' = wb_theme b /\ wb_calc b' = wb_calc b
  /\ wb_sst b' = wb_sst b /\ wb_style b' = wb_style b.
Definition Stays {A} (m : M wb_state A) : Prop := forall s, same_paths s.1 (m s).1.1.
Lemma same_paths_refl b : same_paths b b.
Proof. done. Qed.
Lemma same_paths_trans a b c : same_paths a b -> same_paths b c -> same_paths a c.
Proof. intros (H1 & H2 & H3 & H4 & H5 & H6) (G1 & G2 & G3 & G4 & G5 & G6). unfold same_paths. split_and!; congruence. Qed.
Lemma stays_bind {A B} (m : M wb_state A) (k : A -> M wb_state B) : Stays m -> (forall a, Stays (k a)) -> Stays (bind m k).
Proof.
  intros Hm Hk s. unfold bind. pose proof (Hm s) as H1. destruct (m s) as [s1 [a|e|e]]; [|done|done].
  eapply same_paths_trans; [exact H1|apply Hk].
Qed.
Lemma stays_get : Stays get.
Proof. intros s. apply same_paths_refl. Qed.
Lemma stays_office {A} (m : M office A) : Stays (on_wb_office m).
Proof. intros [b o]. unfold on_wb_office. cbn. by destruct (m o). Qed.
Lemma stays_rels {A} (m : M pkg_state A) : (forall s, rl_path (m s).1.1 = rl_path s.1) -> Stays (on_wb_rels m).
Proof. intros Hm [b o]. unfold on_wb_rels. cbn. specialize (Hm (wb_rels b, o)). by destruct (m (wb_rels b, o)) as [[r o1] x]. Qed.
Lemma calc_close_path c s : rl_path (calc_close c s).1.1 = rl_path s.1.
Proof.
  destruct s as [r o]. unfold calc_close, bind, on_rels, on_office, modify. cbn [fst snd]. destruct (cc_entries c); cbn [fst snd].
  - by destruct (delete_document (cc_path c) o).
  - destruct (with_doc _ _ o) as [o1 [x|e|e]]; cbn; [|done|done]. by destruct (close_xml_document _ o1).
Qed.
Lemma sst_close_path c s : rl_path (sst_close c s).1.1 = rl_path s.1.
Proof.
  destruct s as [r o]. unfold sst_close, bind, on_rels, on_office, modify. cbn [fst snd]. destruct (ss_strings c); cbn [fst snd].
  - by destruct (delete_document (ss_path c) o).
  - destruct (with_doc _ _ o) as [o1 [x|e|e]]; cbn; [|done|done]. by destruct (close_xml_document _ o1).
Qed.
Lemma stays_services b : Stays (services_close b).
Proof.
  unfold services_close. apply stays_bind; [apply stays_rels; intros s; apply calc_close_path|intros _].
  apply stays_bind; [apply stays_rels; intros s; apply sst_close_path|intros _]. apply stays_office.
Qed.
Lemma stays_rels_close : Stays (fun s => on_wb_office (rels_close (wb_rels s.1)) s).
Proof. intros s. apply stays_office. Qed.
Lemma stays_close : Stays wb_close.
Proof.
  unfold wb_close. apply stays_bind; [apply stays_get|intros s]. apply stays_bind; [apply stays_office|intros _].
  apply stays_bind; [apply stays_services|intros _]. apply stays_bind; [apply stays_rels_close|intros _]. apply stays_office.
Qed.
Lemma keep_services b : Keep snd (fun q => q ∉ own_parts_but_rels b) (services_close b).
Proof.
  unfold services_close, own_parts_but_rels.
  apply keep_bind; [|intros _; apply keep_bind; [|intros _]]; [apply keep_wb_rels|apply keep_wb_rels|apply keep_wb_office];
  (eapply keep_weaken; [(apply keep_calc_close || apply keep_sst_close || apply keep_style_close)|]; intros q; rewrite !not_elem_of_cons; tauto).
Qed.
Lemma not_own b q : q ∉ own_parts b <-> q <> rl_path (wb_rels b) /\ q ∉ own_parts_but_rels b.
Proof. unfold own_parts, own_parts_but_rels. rewrite !not_elem_of_cons. tauto. Qed.
Lemma close_keeps b o q : q ∉ own_parts b -> SameAt o (wb_close (b, o)).1.2 q.
Proof.
  intros [Hr Hq]%not_own. unfold wb_close, get. unfold bind at 1. cbn [fst]. unfold bind at 1.
  assert (SameAt o (on_wb_office (theme_close (wb_theme b)) (b, o)).1.2 q) as H1.
  { eapply (keep_wb_office _ _ (keep_close (wb_theme b)) (b, o) q). unfold own_parts_but_rels in Hq. rewrite !not_elem_of_cons in Hq. tauto. }
  pose proof (stays_office (theme_close (wb_theme b)) (b, o)) as S1.
  destruct (on_wb_office (theme_close (wb_theme b)) (b, o)) as [s1 [[]|e|e]]; [|done|done]. unfold bind at 1.
  pose proof (keep_services b s1 q Hq) as H2. pose proof (stays_services b s1) as S2.
  destruct (services_close b s1) as [s2 [[]|e|e]]; cbn [fst snd] in *; [|by eapply same_trans..].
  assert (SameAt o s2.2 q) as H12 by (by eapply same_trans). assert (same_paths b s2.1) as S12 by (by eapply same_paths_trans).
  unfold bind at 1.
  assert (SameAt s2.2 (on_wb_office (rels_close (wb_rels s2.1)) s2).1.2 q) as H3.
  { apply (keep_wb_office _ _ (keep_rels_close (wb_rels s2.1)) s2 q). destruct S12 as (_ & -> & _). done. }
  destruct (on_wb_office (rels_close (wb_rels s2.1)) s2) as [s3 [[]|e|e]]; cbn [fst snd] in *; [|by eapply same_trans..].
  eapply same_trans; [exact H12|]. eapply same_trans; [exact H3|].
  apply (keep_wb_office _ _ (keep_book_part_close (wb_path b) (wb_view b) (wb_sheets b)) s3 q).
  unfold own_parts_but_rels in Hq. rewrite !not_elem_of_cons in Hq. tauto.
Qed.
Lemma same_paths_own b b' : same_paths b b' -> own_parts b' = own_parts b.
Proof. intros (H1 & H2 & H3 & H4 & H5 & H6). unfold own_parts. by rewrite H1, H2, H3, H4, H5, H6. Qed.
Lemma quietly_keep P (m : M wb_state unit) s q : Keep snd P m -> P q -> SameAt s.2 (quietly m s).2 q.
Proof. intros Hm Hq. by apply Hm. Qed.
Lemma quietly_stays (m : M wb_state unit) s : Stays m -> same_paths s.1 (quietly m s).1.
Proof. intros Hm. apply Hm. Qed.
Lemma drop_keeps b o q : q ∉ own_parts b -> SameAt o (wb_drop b o) q.
Proof.
  intros Hq. unfold wb_drop.
  pose proof (close_keeps b o q Hq) as K1. pose proof (quietly_stays wb_close (b, o) stays_close) as S1. cbn [fst] in S1.
  change (SameAt o (quietly wb_close (b, o)).2 q) in K1. destruct (quietly wb_close (b, o)) as [b1 o1]. cbn [fst snd] in *.
  unfold own_parts in Hq. rewrite !not_elem_of_cons in Hq. destruct Hq as (Q1 & Q2 & Q3 & Q4 & Q5 & Q6 & _).
  eapply same_trans; [exact K1|].
  pose proof (quietly_keep _ _ (b1, o1) q (keep_wb_rels _ _ (keep_calc_close (wb_calc b))) Q4) as K2.
  pose proof (quietly_stays _ (b1, o1) (stays_rels _ (calc_close_path (wb_calc b)))) as S2.
  destruct (quietly (on_wb_rels (calc_close (wb_calc b))) (b1, o1)) as [b2 o2]. cbn [fst snd] in *.
  eapply same_trans; [exact K2|].
  pose proof (quietly_keep _ _ (b2, o2) q (keep_wb_rels _ _ (keep_sst_close (wb_sst b))) Q5) as K3.
  pose proof (quietly_stays _ (b2, o2) (stays_rels _ (sst_close_path (wb_sst b)))) as S3.
  destruct (quietly (on_wb_rels (sst_close (wb_sst b))) (b2, o2)) as [b3 o3]. cbn [fst snd] in *.
  eapply same_trans; [exact K3|].
  pose proof (quietly_keep _ _ (b3, o3) q (keep_wb_office _ _ (keep_style_close (wb_style b))) Q6) as K4.
  pose proof (quietly_stays _ (b3, o3) (stays_office (style_close (wb_style b)))) as S4.
  destruct (quietly (on_wb_office (style_close (wb_style b))) (b3, o3)) as [b4 o4]. cbn [fst snd] in *.
  eapply same_trans; [exact K4|].
  assert (same_paths b b4) as S. { repeat (eapply same_paths_trans; [eassumption|]). apply same_paths_refl. }
  assert (q <> rl_path (wb_rels b4)) as Q2' by (by destruct S as (_ & -> & _)).
  pose proof (quietly_keep _ _ (b4, o4) q (keep_wb_office _ _ (keep_rels_close (wb_rels b4))) Q2') as K5.
  destruct (quietly (on_wb_office (rels_close (wb_rels b4))) (b4, o4)) as [b5 o5]. cbn [fst snd] in *.
  eapply same_trans; [exact K5|]. by apply (quietly_keep _ _ (b5, o5) q (keep_wb_office _ _ (keep_close (wb_theme b)))).
Qed.
Lemma flush_keeps b o q : q ∉ own_parts b -> SameAt o (wb_flush b o).1 q.
Proof.
  intros Hq. unfold wb_flush. pose proof (close_keeps b o q Hq) as K1. pose proof (stays_close (b, o)) as S1.
  destruct (wb_close (b, o)) as [[b1 o1] r]. cbn [fst snd] in *. eapply same_trans; [exact K1|]. apply drop_keeps. by rewrite (same_paths_own b b1).
Qed.

(** ** Sheets *)
Lemma ws_close_keeps w o q : q <> ws_path w -> SameAt o (ws_close (w, o)).1.2 q.
Proof.
  intros Hq. unfold ws_close. destruct (of_open o !! ws_path w) as [p|]; [|done].
  destruct (ws_save (w, op_doc p)) as [[w1 d] r]. set (o1 := set_open o _).
  assert (SameAt o o1 q) as H1. { split; [|done]. subst o1. cbn. by rewrite lookup_insert_ne. }
  destruct r as [[]|e|e]; [|done|done]. pose proof (keep_close (ws_path w) o1 q Hq) as H2.
  destruct (close_xml_document (ws_path w) o1) as [o2 r2]. cbn [fst snd] in *. by eapply same_trans.
Qed.
Lemma ws_save_frame w d : ws_path (ws_save (w, d)).1.1 = ws_path w /\ ws_rels (ws_save (w, d)).1.1 = ws_rels w /\ ws_name (ws_save (w, d)).1.1 = ws_name w.
Proof.
  assert (forall A (m : M (worksheet * doc) A), (forall s, ws_path (m s).1.1 = ws_path s.1 /\ ws_rels (m s).1.1 = ws_rels s.1 /\ ws_name (m s).1.1 = ws_name s.1)
    -> True) as _ by done.
  pose (G := fun A (m : M (worksheet * doc) A) => forall s, ws_path (m s).1.1 = ws_path s.1 /\ ws_rels (m s).1.1 = ws_rels s.1 /\ ws_name (m s).1.1 = ws_name s.1).
  assert (forall A B (m : M (worksheet * doc) A) (k : A -> M (worksheet * doc) B), G A m -> (forall a, G B (k a)) -> G B (bind m k)) as Gb.
  { intros A B m k Hm Hk s. unfold bind. specialize (Hm s). destruct (m s) as [s1 [a|e|e]]; [|done|done]. destruct Hm as (<- & <- & <-). apply Hk. }
  assert (forall A (m : M doc A), G A (on_doc m)) as Gd. { intros A m [w0 d0]. unfold on_doc. cbn. by destruct (m d0). }
  assert (G unit ws_save) as Gs; [|apply (Gs (w, d))].
  unfold ws_save. apply Gb; [intros s; done|intros s]. apply Gb; [intros s'; done|intros ref].
  repeat (apply Gb; [first [apply Gd|intros s'; done]|intros _]). apply Gd.
Qed.
Lemma ws_close_frame w o : ws_path (ws_close (w, o)).1.1 = ws_path w /\ ws_rels (ws_close (w, o)).1.1 = ws_rels w.
Proof.
  unfold ws_close. destruct (of_open o !! ws_path w) as [p|]; [|done]. destruct (ws_save_frame w (op_doc p)) as (H1 & H2 & _).
  destruct (ws_save (w, op_doc p)) as [[w1 d] [[]|e|e]]; cbn [fst snd] in *; [|done|done].
  by destruct (close_xml_document (ws_path w) _).
Qed.
Lemma ws_drop_keeps w o q : q <> ws_path w -> q <> rl_path (ws_rels w) -> SameAt o (ws_drop w o) q.
Proof.
  intros H1 H2. unfold ws_drop. pose proof (ws_close_keeps w o q H1) as K1. destruct (ws_close_frame w o) as [_ F].
  destruct (ws_close (w, o)) as [[w1 o1] r]. cbn [fst snd] in *. eapply same_trans; [exact K1|]. apply keep_rels_close. by rewrite F.
Qed.
Lemma ws_flush_keeps w o q : q <> ws_path w -> q <> rl_path (ws_rels w) -> SameAt o (ws_flush w o).1 q.
Proof.
  intros H1 H2. unfold ws_flush. pose proof (ws_close_keeps w o q H1) as K1. destruct (ws_close_frame w o) as [F1 F2].
  destruct (ws_close (w, o)) as [[w1 o1] r]. cbn [fst snd] in *. eapply same_trans; [exact K1|]. apply ws_drop_keeps; [by rewrite F1|by rewrite F2].
Qed.
Lemma delete_keeps w b o q : q <> ws_path w -> q <> rl_path (ws_rels w) -> SameAt o (wb_delete_sheet w (b, o)).1.2 q.
Proof.
  intros H1 H2. unfold wb_delete_sheet, delete_sheet, bind, on_sheets, on_pkg, on_rels, on_office, modify. cbn [fst snd].
  unfold delete_document, modify. cbn [fst snd].
  match goal with |- context [ws_flush w ?x] => pose proof (ws_flush_keeps w x q H1 H2) as K; destruct (ws_flush w x) as [o1 r]; set (oo := x) in * end.
  cbn [fst snd] in *. eapply same_trans; [|exact K]. subst oo. split; [done|]. cbn. by rewrite lookup_delete_ne.
Qed.
Lemma ws_new_keeps name s q : let r := get_sheet_file_name name s in
  (forall path nm rp, r.2 = Ok (path, nm) -> rels_beside path = Ok rp -> q <> path /\ q <> rp) ->
  (forall path nm, r.2 = Ok (path, nm) -> q <> path) ->
  SameAt s.2.2 (ws_new name s).1.2.2 q.
Proof.
  cbn zeta. intros Hq Hq'. unfold ws_new. unfold bind at 1.
  assert (forall s', (get_sheet_file_name name s).1 = s' -> s'.2.2 = s.2.2) as Hs.
  { intros s' <-. destruct s as [l [r o]]. unfold get_sheet_file_name, bind, get, lift, put, ret. cbn [snd].
    destruct (name ≫= _) as [x|].
    - destruct (get_target_by_id r (sh_rel x)) as [[p|]|e|e]; done.
    - destruct (get_relative_path r) as [rp|e|e]; [|done|done]. destruct (free_number _ _ _ _) as [n|e|e]; [|done|done]. done. }
  destruct (get_sheet_file_name name s) as [s1 [[path nm]|e|e]]; cbn [fst snd] in *; [|by rewrite (Hs _ eq_refl)..].
  specialize (Hs _ eq_refl). rewrite <- Hs. specialize (Hq' path nm eq_refl).
  destruct s1 as [l [r o]]. cbn [fst snd] in *. unfold bind at 1. unfold on_pkg at 1, on_office at 1. cbn [fst snd].
  pose proof (keep_get_xml ws_init path o q Hq') as K1. unfold id in K1.
  destruct (get_xml_document ws_init path o) as [o1 [[]|e|e]]; cbn [fst snd] in *; [|done|done]. unfold bind at 1, lift at 1.
  destruct (rels_beside path) as [rp|e|e] eqn:Erp; cbn [fst snd]; [|done|done]. specialize (Hq path nm rp eq_refl Erp) as [_ Hq2].
  unfold bind at 1. unfold on_pkg at 1, on_office at 1. cbn [fst snd].
  pose proof (keep_rels_new rp o1 q Hq2) as K2. unfold id in K2.
  assert (forall r0, rels_new rp o1 = r0 -> forall rl, r0.2 = Ok rl -> rl_path rl = rp) as Hrl.
  { intros r0 <- rl. unfold rels_new, bind. destruct (get_xml_document rels_init rp o1) as [o' [[]|e|e]]; [|done|done].
    destruct (with_doc rp load_relations o') as [o'' [x|e|e]]; [|done|done]. by intros [= <-]. }
  destruct (rels_new rp o1) as [o2 [rels|e|e]]; cbn [fst snd] in *; [|by eapply same_trans..].
  specialize (Hrl _ eq_refl rels eq_refl). pose proof (keep_with_doc path ws_load o2 q Hq') as K3. unfold id in K3.
  unfold on_pkg, on_office. cbn [fst snd].
  assert (SameAt o o2 q) as K12 by (by eapply same_trans).
  destruct (with_doc path ws_load o2) as [o3 [x|e|e]]; cbn [fst snd] in *.
  - destruct (default _ x) as [[[cols data] views] dim]. cbn [fst snd]. by eapply same_trans.
  - eapply same_trans; [by eapply same_trans|]. apply keep_rels_close. by rewrite Hrl.
  - eapply same_trans; [by eapply same_trans|]. apply keep_rels_close. by rewrite Hrl.
Qed.
End with_env.
