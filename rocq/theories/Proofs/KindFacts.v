(** The kinds of parts: which extensions they are recorded with, through a session and in the file saved. *)
From Verif.Model Require Import Excel.
From Verif.Spec Require Import XmlSpec XmlRepr PackageSpec SessionSpec FlowSpec ReopenSpec OpenSpec GrowSpec CarrySpec KindSpec.
From Verif.Proofs Require Import BaseFacts XmlWriteFacts XmlReadFacts XmlTreeFacts XmlNsFacts ReadAnyFacts DocBuild PartFacts PackageFacts TypesFacts SaveFacts BookFacts SheetDocFacts SheetCycleFacts SessionFacts FrameFacts KeepFacts
  OwnFacts FlowFacts FlowSaveFacts OpenBookFacts RestFacts ReopenFacts GrowFacts CarryFacts.
Open Scope N_scope.

Section with_env.
Context `{E : Env}.
Section kinds.
Context (K : string * string -> Prop) (Kxml : K ("xml", "application/xml")) (Krels : K ("rels", "application/vnd.openxmlformats-package.relationships+xml")).
Record KInv (o : office) : Prop := {
  ki_open : forall q p, of_open o !! q = Some p -> K (op_ext p, op_ext_type p);
  ki_stored : forall q e, of_archive o !! q = Some e -> K (en_ext e, en_ext_type e);
}.
(** What the library starts its own parts with. *)
Definition KInit (init : res open_part) : Prop := forall p, init = Ok p -> K (op_ext p, op_ext_type p).
Lemma k_of c ct (r : res doc) : K (c_ext c, c_ext_type c) -> KInit (rmap (fun d => mkOpen d ct (c_ext c) (c_ext_type c)) r).
Proof. intros Hk p. destruct r as [d| |]; [|done..]. by intros [= <-]. Qed.
Ltac kinit := apply k_of; assumption.
(** Whatever the outcome, the invariant is kept. *)
Definition Pres {S A} (f : S -> office) (m : M S A) : Prop := forall s, KInv (f s) -> KInv (f (m s).1).
Definition OPres {A} (m : M office A) : Prop := Pres id m.
Definition PPres {A} (m : M pkg_state A) : Prop := Pres snd m.
Lemma p_bind {S A B} (f : S -> office) (m : M S A) (k : A -> M S B) : Pres f m -> (forall a, Pres f (k a)) -> Pres f (bind m k).
Proof. intros Hm Hk s Hs. unfold bind. specialize (Hm s Hs). destruct (m s) as [s1 [a|e|e]]; [by apply Hk|done|done]. Qed.
Lemma p_ret {S A} (f : S -> office) (a : A) : Pres f (ret a).
Proof. by intros s. Qed.
Lemma p_fail {S A} (f : S -> office) e : Pres f (fail (A := A) e).
Proof. by intros s. Qed.
Lemma p_lift {S A} (f : S -> office) (r : res A) : Pres f (lift r).
Proof. by intros s. Qed.
Lemma p_get {S} (f : S -> office) : Pres f get.
Proof. by intros s. Qed.
Lemma p_rels {A} (m : M relations A) : PPres (on_rels m).
Proof. intros [r o] Ho. unfold on_rels. cbn in *. by destruct (m r). Qed.
Lemma p_office {A} (m : M office A) : OPres m -> PPres (on_office m).
Proof. intros Hm [r o] Ho. unfold on_office. cbn in *. specialize (Hm o Ho). by destruct (m o). Qed.
Lemma oi_set_open o q p : KInv o -> K (op_ext p, op_ext_type p) -> KInv (set_open o (<[q := p]> (of_open o))).
Proof. intros [H1 H2] Hp. constructor; [|done]. intros q' p'. cbn. rewrite lookup_insert_Some. intros [[<- <-]|[_ H]]; [done|by apply (H1 q')]. Qed.
Lemma o_delete q : OPres (delete_document q).
Proof. intros o [H1 H2]. constructor; [done|]. cbn. intros q' e He. apply lookup_delete_Some in He as [_ He]. by apply (H2 q'). Qed.
Lemma o_with {A} q (m : M doc A) : OPres (with_doc q m).
Proof.
  intros o Ho. unfold with_doc, id. destruct (of_open o !! q) as [p|] eqn:Ep; [|done]. destruct (m (op_doc p)) as [d r]. cbn [fst]. apply oi_set_open; [done|].
  exact (ki_open o Ho _ _ Ep).
Qed.
Lemma o_close q : OPres (close_xml_document q).
Proof.
  intros o Ho. unfold close_xml_document, id. destruct (of_open o !! q) as [p|] eqn:Ep; [|done].
  assert (forall q' p', delete q (of_open o) !! q' = Some p' -> K (op_ext p', op_ext_type p')) as H1.
  { intros q' p' Hp. apply lookup_delete_Some in Hp as [_ Hp]. by apply (ki_open o Ho q'). }
  destruct (write_doc (op_doc p)) as [data|e|e]; (constructor; cbn [set_archive set_open of_open of_archive fst]; [done|]); [|apply Ho..].
  intros q' e. rewrite lookup_insert_Some. intros [[<- <-]|[_ He]]; [|by apply (ki_stored o Ho q')]. exact (ki_open o Ho _ _ Ep).
Qed.
Lemma o_get init q : KInit init -> OPres (get_xml_document init q).
Proof.
  intros Hi o Ho. unfold get_xml_document, bind, get_xml_tree, id. destruct (of_open o !! q) as [p|] eqn:Ep; [done|].
  destruct (of_archive o !! q) as [e|] eqn:Ee.
  - assert (KInv (set_archive o (delete q (of_archive o)))) as Ho'.
    { constructor; [apply Ho|]. cbn. intros q' e' He. apply lookup_delete_Some in He as [_ He]. by apply (ki_stored o Ho q'). }
    destruct (en_content e) as [c|]; cbn [of_option rbind]; [|done]. destruct (decompress_content c) as [data| |]; cbn [rbind]; [|done..].
    destruct (read_doc data) as [d| |]; [|done..]. cbn [rbind]. apply oi_set_open; [done|]. exact (ki_stored o Ho _ _ Ee).
  - unfold lift. destruct init as [p|e|e]; [|done..]. apply oi_set_open; [done|]. by apply Hi.
Qed.
Lemma o_rels_new q : OPres (rels_new q).
Proof. apply p_bind; [apply o_get; kinit|intros _]. apply p_bind; [apply o_with|intros l; apply p_ret]. Qed.
Lemma o_rels_close r : OPres (rels_close r).
Proof.
  apply p_bind; [apply o_with|]. intros [[]|]; [apply o_close| |apply p_fail].
  apply o_delete.
Qed.
Lemma p_sst_new : PPres sst_new.
Proof.
  apply p_bind; [apply p_rels|intros q]. apply p_bind; [apply p_office, o_get; kinit|intros _].
  apply p_bind; [apply p_office, o_with|intros l; apply p_ret].
Qed.
Lemma p_calc_new : PPres calc_new.
Proof.
  apply p_bind; [apply p_rels|intros q]. apply p_bind; [apply p_office, o_get; kinit|intros _].
  apply p_bind; [apply p_office, o_with|intros l; apply p_ret].
Qed.
Lemma p_core_new : PPres core_new.
Proof.
  apply p_bind; [apply p_rels|intros q]. apply p_bind; [|intros _; apply p_ret]. apply p_office, o_get; kinit.
Qed.
Lemma p_theme_new : PPres theme_new.
Proof.
  apply p_bind; [apply p_rels|intros q]. apply p_bind; [|intros _; apply p_ret]. apply p_office, o_get; kinit.
Qed.
Lemma p_style_new : PPres style_new.
Proof.
  apply p_bind; [apply p_rels|intros q]. apply p_bind; [|intros _; apply p_bind; [|intros l; apply p_ret]].
  - apply p_office, o_get; kinit.
  - apply p_office, o_with.
Qed.
Lemma p_calc_close c : PPres (calc_close c).
Proof.
  unfold calc_close. destruct (cc_entries c) as [|x l]; [apply p_bind; [apply p_rels|intros _; apply p_office, o_delete]|].
  apply p_bind; [apply p_office, o_with|intros _; apply p_office, o_close].
Qed.
Lemma p_sst_close c : PPres (sst_close c).
Proof.
  unfold sst_close. destruct (ss_strings c) as [|x l]; [apply p_bind; [apply p_rels|intros _; apply p_office, o_delete]|].
  apply p_bind; [apply p_office, o_with|intros _; apply p_office, o_close].
Qed.
Lemma o_core_close a b q : OPres (core_close a b q).
Proof. apply p_bind; [apply o_with|intros _; apply o_close]. Qed.
Lemma o_style_close c : OPres (style_close c).
Proof. apply p_bind; [apply o_with|intros _; apply o_close]. Qed.
Lemma o_theme_close q : OPres (theme_close q).
Proof. apply o_close. Qed.

(** The workbook. *)
Definition BPres {A} (m : M wb_state A) : Prop := Pres snd m.
Lemma p_workbook_new s : KInv s.2 -> KInv (workbook_new s).1.2.
Proof.
  revert s. change (PPres workbook_new). apply p_bind; [apply p_rels|intros path].
  apply p_bind; [apply p_office, o_get; kinit|intros _]. apply p_bind; [apply p_lift|intros rp].
  apply p_bind; [apply p_office, o_rels_new|intros rels]. intros [r o] Ho. unfold bind at 1, get. cbn [fst snd] in *.
  match goal with |- context [match ?m (rels, o) with _ => _ end] => assert (PPres m) as Hm; [|specialize (Hm (rels, o) Ho); revert Hm; destruct (m (rels, o)) as [[r1 o1] [[[[a b] c] y]|e|e]]; intros Hm; [|done|done]; cbn [fst snd] in Hm] end.
  { apply p_bind; [apply p_theme_new|intros a]. apply p_bind; [apply p_sst_new|intros b]. apply p_bind; [apply p_calc_new|intros c].
    apply p_bind; [apply p_style_new|intros e; apply p_ret]. }
  unfold bind at 1, put. cbn [fst snd]. revert Hm. change (KInv (snd (r, o1)) -> KInv (snd (bind (on_office (with_doc path load_book))
    (fun x => let '(sheets, view) := default ([], None) x in ret (mkBook path c b y r1 a sheets view)) (r, o1)).1)).
  apply (p_bind snd); [apply p_office, o_with|]. intros x. destruct (default ([], None) x). apply p_ret.
Qed.
Lemma b_office {A} (m : M office A) : OPres m -> BPres (on_wb_office m).
Proof. intros Hm [b o] Ho. unfold on_wb_office. cbn in *. specialize (Hm o Ho). by destruct (m o). Qed.
Lemma b_rels {A} (m : M pkg_state A) : PPres m -> BPres (on_wb_rels m).
Proof. intros Hm [b o] Ho. unfold on_wb_rels. cbn in *. specialize (Hm (wb_rels b, o) Ho). by destruct (m (wb_rels b, o)) as [[r1 o1] x]. Qed.
Lemma b_rels_close : BPres (fun s : wb_state => on_wb_office (rels_close (wb_rels s.1)) s).
Proof. intros s Hs. by apply (b_office _ (o_rels_close _)). Qed.
Lemma b_close : BPres wb_close.
Proof.
  apply p_bind; [apply p_get|intros s]. apply p_bind; [apply b_office, o_theme_close|intros _]. apply p_bind.
  { apply p_bind; [apply b_rels, p_calc_close|intros _]. apply p_bind; [apply b_rels, p_sst_close|intros _; apply b_office, o_style_close]. }
  intros _. apply p_bind; [apply b_rels_close|intros _]. apply b_office. apply p_bind; [apply o_with|intros _; apply o_close].
Qed.
Lemma o_drop b o : KInv o -> KInv (wb_drop b o).
Proof.
  intros Ho. unfold wb_drop, quietly. cbv zeta. apply (b_office _ (o_theme_close _)). apply b_rels_close. apply (b_office _ (o_style_close _)).
  apply (b_rels _ (p_sst_close _)). apply (b_rels _ (p_calc_close _)). by apply b_close.
Qed.
Lemma o_flush b : OPres (wb_flush b).
Proof.
  intros o Ho. unfold wb_flush. pose proof (b_close (b, o) Ho) as H1. destruct (wb_close (b, o)) as [[b1 o1] r]. by apply o_drop.
Qed.
(** Sheets. *)
Lemma o_ws_close w o : KInv o -> KInv (ws_close (w, o)).1.2.
Proof.
  intros Ho. unfold ws_close. destruct (of_open o !! ws_path w) as [p|] eqn:Ep; [|done]. pose proof (ki_open o Ho _ _ Ep) as Hs.
  destruct (ws_save (w, op_doc p)) as [[w1 d] r]. pose proof (oi_set_open o (ws_path w) (mkOpen d (op_ct p) (op_ext p) (op_ext_type p)) Ho Hs) as Ho1.
  destruct r as [[]|e|e]; [|done|done]. pose proof (o_close (ws_path w) _ Ho1) as Hc. by destruct (close_xml_document _ _).
Qed.
Lemma o_ws_drop w o : KInv o -> KInv (ws_drop w o).
Proof.
  intros Ho. unfold ws_drop. pose proof (o_ws_close w o Ho) as H1. destruct (ws_close (w, o)) as [[w1 o1] r]. by apply o_rels_close.
Qed.
Lemma o_ws_flush w : OPres (ws_flush w).
Proof.
  intros o Ho. unfold ws_flush. pose proof (o_ws_close w o Ho) as H1. destruct (ws_close (w, o)) as [[w1 o1] r]. by apply o_ws_drop.
Qed.
Definition SPres {A} (m : M book_state A) : Prop := Pres (fun s => s.2.2) m.
Lemma s_pkg {A} (m : M pkg_state A) : PPres m -> SPres (on_pkg m).
Proof. intros Hm [l p] Hp. unfold on_pkg. cbn in *. specialize (Hm p Hp). by destruct (m p). Qed.
Lemma s_sheets {A} (m : M (list sheet) A) : SPres (on_sheets m).
Proof. intros [l p] Hp. unfold on_sheets. cbn in *. by destruct (m l). Qed.
Lemma s_file_name name : SPres (get_sheet_file_name name).
Proof.
  intros [l [r o]] Ho. unfold get_sheet_file_name, bind, get. cbn [fst snd] in *. destruct (_ ≫= _) as [x|].
  - unfold lift. destruct (get_target_by_id r (sh_rel x)) as [[p|]|e|e]; done.
  - unfold lift. destruct (get_relative_path r) as [rp|e|e]; [|done..]. destruct (free_number _ _ _ _) as [n|e|e]; [|done..].
    destruct (set_new_relationship _ _ _ r) as [r1 i]. done.
Qed.
Lemma s_ws_new name : SPres (ws_new name).
Proof.
  apply p_bind; [apply s_file_name|intros [path nm]]. apply p_bind; [apply s_pkg, p_office, o_get; kinit|intros _].
  apply p_bind; [apply p_lift|intros rp]. apply p_bind; [apply s_pkg, p_office, o_rels_new|intros rels]. intros s Hs.
  pose proof (s_pkg _ (p_office _ (o_with path ws_load)) s Hs) as H1. destruct (on_pkg _ s) as [s1 [x|e|e]]; cbn [fst] in H1.
  - by destruct (default _ x) as [[[? ?] ?] ?].
  - by apply (o_rels_close rels).
  - by apply (o_rels_close rels).
Qed.
Lemma b_add name : BPres (add_sheet name).
Proof.
  intros [b o] Ho. unfold add_sheet. cbn [fst snd] in *. pose proof (s_ws_new name (wb_sheets b, (wb_rels b, o)) Ho) as H1.
  by destruct (ws_new name _) as [[l [r o1]] x].
Qed.
Lemma b_delete w : BPres (wb_delete_sheet w).
Proof.
  intros [b o] Ho. unfold wb_delete_sheet. cbn [fst snd] in *. assert (SPres (delete_sheet w)) as Hd.
  { apply p_bind; [apply s_sheets|intros _]. apply p_bind; [apply s_pkg, p_rels|intros _].
    apply p_bind; [apply s_pkg, p_office, o_delete|intros _]. apply s_pkg, p_office, o_ws_flush. }
  specialize (Hd (wb_sheets b, (wb_rels b, o)) Ho). by destruct (delete_sheet w _) as [[l [r o1]] x].
Qed.
(** Files. *)
Lemma suite_new_inv file fs s : (match file with Some _ => forall o, office_new file fs = Ok o -> KInv o | None => True end) ->
  suite_new file fs = Ok s -> KInv (su_office s).
Proof.
  intros Hf. unfold suite_new. destruct (office_new file fs) as [o| |] eqn:Eo; [|done..]. cbn [rbind].
  assert (KInv o) as Ho. { destruct file; [by apply Hf|]. injection Eo as <-. constructor; intros q x Hx; cbn in Hx; by rewrite lookup_empty in Hx. }
  pose proof (o_rels_new "_rels/.rels" o Ho) as H1. destruct (rels_new "_rels/.rels" o) as [o1 [root| |]]; [|done..]. cbn in H1.
  pose proof (p_core_new (root, o1) H1) as H2. destruct (core_new (root, o1)) as [[root1 o2] [core| |]]; [|done..]. by intros [= <-].
Qed.
Lemma excel_new_inv file fs x : (match file with Some _ => forall o, office_new file fs = Ok o -> KInv o | None => True end) ->
  excel_new file fs = Ok x -> KInv (x_office x).
Proof.
  intros Hf. unfold excel_new. destruct (suite_new file fs) as [s| |] eqn:Es; [|done..]. cbn [rbind]. pose proof (suite_new_inv _ _ _ Hf Es) as H1.
  pose proof (p_workbook_new (su_root s, su_office s) H1) as H2. destruct (workbook_new _) as [[root o] [b| |]]; [|done..]. cbn [fst snd] in H2.
  destruct file as [p|]; [by intros [= <-]|]. unfold on_book, x_state, x_office. cbn [x_suite x_book su_office].
  pose proof (b_add None (b, o) H2) as H3. destruct (add_sheet None (b, o)) as [s1 [w| |]]; [|done..]. intros [= <-]. by apply o_ws_drop.
Qed.
Lemma call_inv `{Hs : Hashes} c s : KInv (x_office s.1) -> KInv (x_office (call_step c s).1.1).
Proof.
  assert (forall A (m : M wb_state A), BPres m -> Pres x_office (on_book m)) as Hb.
  { intros A m Hm x Hx. unfold on_book. specialize (Hm (x_state x) Hx). by destruct (m (x_state x)) as [[b o] r]. }
  assert (forall m, Pres x_office m -> Pres (fun s : session => x_office s.1) (give m)) as Hg.
  { intros m Hm [x l] Hx. unfold give. cbn [fst snd] in *. specialize (Hm x Hx). by destruct (m x) as [x1 [w|e|e]]. }
  assert (forall A (m : M excel A), Pres x_office m -> Pres (fun s : session => x_office s.1) (on_excel m)) as He.
  { intros A m Hm [x l] Hx. unfold on_excel. cbn [fst snd] in *. specialize (Hm x Hx). by destruct (m x) as [x1 r]. }
  assert (forall A (m : M workbook A), BPres (pure_book m)) as Hp.
  { intros A m [b o] Ho. unfold pure_book. cbn [fst snd] in *. by destruct (m b). }
  assert (forall h m, Pres (fun s : session => x_office s.1) (use h m)) as Hu.
  { intros h m s0 H0. unfold use. destruct (handle h s0); [|done]. by destruct (m _) as [[w1 t] r]. }
  assert (forall h m, (forall w, BPres (m w)) -> Pres (fun s : session => x_office s.1) (spend h m)) as Hsp.
  { intros h m Hm s0 H0. unfold spend. destruct (handle h s0) as [w|]; [|done]. pose proof (Hb _ _ (Hm w) s0.1 H0) as H1. by destruct (on_book (m w) s0.1). }
  revert s. change (Pres (fun s : session => x_office s.1) (call_step c)). destruct c; cbn [call_step]; auto.
  - apply Hg, Hb, b_add.
  - apply Hg, Hb, b_add.
  - apply Hsp. intros w [b o] Ho. by apply o_ws_drop.
  - apply Hsp. intros w. apply b_office, o_ws_flush.
  - apply Hsp. intros w. apply b_delete.
Qed.
Lemma calls_inv `{Hs : Hashes} cs : forall s s', KInv (x_office s.1) -> calls cs s = Some s' -> KInv (x_office s'.1).
Proof.
  induction cs as [|c cs IH]; intros s s' Ho; cbn [calls]; [by intros [= <-]|]. pose proof (call_inv c s Ho) as H1.
  destruct (call_step c s) as [s1 [[]|e|e]]; [by apply IH|by apply IH|done].
Qed.
Lemma o_close_all : OPres close_all.
Proof.
  intros o. unfold close_all, id. generalize (env_order (map_keys (of_open o))). intros l. revert o. induction l as [|q l IH]; intros o Ho; cbn [iterM]; [done|].
  unfold bind. pose proof (o_close q o Ho) as H1. destruct (close_xml_document q o) as [o1 [[]|e|e]]; [by apply IH|done|done].
Qed.
(** The file saved is made from parts of these kinds, and stored ones are among them as they are. *)
Theorem kinds_saved `{Hs : Hashes} t f path s fs tr fs' : LInv s -> KInv (x_office s.1) -> excel_save t f path s.1 fs = (tr, Ok tt) -> last tr = Some fs' ->
  exists a b, fs' !! path = Some b /\ save_archive a = Ok b /\ (forall q e, a !! q = Some e -> K (en_ext e, en_ext_type e)) /\ forall q e, StoredAt s q e -> a !! q = Some e.
Proof.
  intros I Ho Hsave Hl. unfold excel_save in Hsave. set (b := x_book s.1) in *.
  pose proof (flush_keeps b (x_office s.1)) as K0. pose proof (o_flush b _ Ho) as P0. unfold id in P0. destruct (wb_flush b (x_office s.1)) as [o0 [[]|e|e]] eqn:Ef; [|done..]. cbn [fst] in K0, P0.
  unfold suite_save, bind in Hsave. cbn [su_core su_root su_office] in Hsave.
  pose proof (keep_core_flush t (su_core (x_suite s.1)) o0) as K1. assert (KInv (core_flush t (su_core (x_suite s.1)) o0).1) as P1.
  { unfold core_flush. pose proof (o_core_close (ck_1 t) (ck_2 t) (su_core (x_suite s.1)) o0 P0) as H2. destruct (core_close _ _ _ o0) as [o1 r]. by apply o_core_close. }
  unfold id in K1. destruct (core_flush t (su_core (x_suite s.1)) o0) as [o1 [[]|e|e]]; [|done..]. cbn [fst] in *.
  pose proof (keep_rels_close (su_root (x_suite s.1)) o1) as K2. pose proof (o_rels_close (su_root (x_suite s.1)) o1 P1) as P2. unfold id in K2, P2.
  destruct (rels_close (su_root (x_suite s.1)) o1) as [o2 [[]|e|e]]; [|done..]. cbn [fst] in *.
  unfold office_save in Hsave. pose proof (o_close_all o2 P2) as P3. unfold id in P3. destruct (close_all o2) as [o3 [[]|e|e]] eqn:Eall; [|done..]. cbn [fst] in P3.
  destruct (save_archive (of_archive o3)) as [by_|e|e] eqn:Es; [|done..]. cbn [snd] in Hsave.
  destruct (write_file_last _ _ _ _ _ Hsave) as (fs2 & Hl2 & Hb). rewrite Hl in Hl2. injection Hl2 as <-. exists (of_archive o3), by_. split; [done|]. split; [done|]. split; [apply P3|].
  intros q e [H1 H2]. assert (q ∉ held s) as Hq. { intros Hq. destruct (li_open _ I q Hq). congruence. } unfold held in Hq. rewrite !elem_of_app in Hq.
  destruct (K0 q) as [A1 A2]; [tauto|]. assert (q ∉ DocsIn (x_suite s.1)) as Hd by tauto. unfold DocsIn in Hd. rewrite !not_elem_of_cons in Hd. destruct Hd as (D1 & D2 & _).
  destruct (K1 q D2) as [B1 B2]. destruct (K2 q D1) as [C1 C2]. destruct (close_all_spec o2 o3 q Eall) as [_ Hc]. rewrite C1, B1, A1, H1 in Hc. by rewrite Hc, C2, B2, A2.
Qed.
End kinds.
(** ** Loading *)
Lemma types_loaded fs file l types root ns o : Stored fs file l -> (content_types_name, types) ∈ l -> ReadsIn types root ns -> office_new (Some file) fs = Ok o ->
  exists exts, extensions_of (t_children root) = Ok exts /\ forall q e, of_archive o !! q = Some e -> q ∈ l.*1 /\ exists ct data,
    override_of (List.filter (fun t => negb (seqb (t_tag t) "Default")) (t_children root)) q = Ok ct /\ e = pack (extension_of exts q).1 (extension_of exts q).2 ct data.
Proof.
  intros (b & Hb & Hu) Hin Hr. destruct (reads_in _ _ _ Hr) as (d & R1 & R2 & _). unfold office_new. rewrite Hb. cbn [of_option rbind].
  assert (List.find (fun f : string * string => seqb f.1 content_types_name) l = Some (content_types_name, types)) as Hfind.
  { pose proof (env_unzip_nodup _ _ Hu) as Hnd. clear -Hin Hnd. induction l as [|[n x] l IH]; [by apply elem_of_nil in Hin|]. cbn in Hnd. apply NoDup_cons in Hnd as [N1 N2].
    cbn [List.find fst]. apply elem_of_cons in Hin as [[= <- <-]|Hin]; [done|]. unfold seqb. rewrite (proj2 (String.eqb_neq n content_types_name)); [by apply IH|].
    intros ->. apply N1. apply elem_of_list_fmap. by exists (content_types_name, types). }
  destruct root as [g a v cs]. cbn [t_children]. rewrite (load_archive_pure b l types d g a v cs Hu Hfind R1 R2). destruct (extensions_of cs) as [exts|e|e]; cbn [rbind]; [|done..].
  destruct (rmapM _ _) as [m|e|e] eqn:Em; [|done..]. intros [= <-]. exists exts. split; [done|]. intros q e He. cbn [of_archive] in He.
  destruct (decide (q ∈ m.*1)) as [Hq|Hq]; [|by rewrite foldl_insert_none, lookup_empty in He].
  assert (forall files m0, rmapM (loaded_entry exts (List.filter (fun t => negb (seqb (t_tag t) "Default")) cs)) files = Ok m0 ->
    forall ne, ne ∈ m0 -> exists nb, nb ∈ files /\ loaded_entry exts (List.filter (fun t => negb (seqb (t_tag t) "Default")) cs) nb = Ok ne) as Hback.
  { induction files as [|nb files IH]; intros m0 H0 ne Hne; [injection H0 as <-; by apply elem_of_nil in Hne|]. cbn [rmapM] in H0.
    destruct (loaded_entry _ _ nb) as [y|?|?] eqn:Ey; cbn [rbind] in H0; [|done..]. destruct (rmapM _ files) as [ys|?|?] eqn:Eys; [|done..]. injection H0 as <-.
    apply elem_of_cons in Hne as [->|Hne]; [exists nb; split; [by left|done]|]. destruct (IH ys eq_refl ne Hne) as (nb' & H1 & H2). exists nb'. split; [by right|done]. }
  assert (NoDup m.*1) as Hnd.
  { assert (m.*1 = (List.filter (fun f : string * string => negb (seqb content_types_name f.1)) l).*1) as ->.
    { revert Em. clear. generalize (List.filter (fun f : string * string => negb (seqb content_types_name f.1)) l). intros fl. revert m. induction fl as [|nb fl IH]; intros m Hm; [by injection Hm as <-|].
      cbn [rmapM] in Hm. destruct (loaded_entry _ _ nb) as [y|?|?] eqn:Ey; cbn [rbind] in Hm; [|done..]. destruct (rmapM _ fl) as [ys|?|?] eqn:Eys; [|done..]. injection Hm as <-.
      cbn. f_equal; [|by apply IH]. unfold loaded_entry in Ey. destruct (override_of _ nb.1); [|done..]. by injection Ey as <-. }
    pose proof (env_unzip_nodup _ _ Hu) as Hnd. clear -Hnd. induction l as [|f l IH]; [constructor|]. cbn in Hnd. apply NoDup_cons in Hnd as [H1 H2]. cbn.
    destruct (negb _); [|by apply IH]. cbn. apply NoDup_cons. split; [|by apply IH]. intros Hin. apply H1. apply elem_of_list_fmap in Hin as (y & -> & Hy).
    apply elem_of_list_fmap. exists y. split; [done|]. apply elem_of_list_In, filter_In in Hy as [Hy _]. by apply elem_of_list_In. }
  apply elem_of_list_fmap in Hq as ([q' e'] & Heq & Hq). cbn [fst] in Heq. subst q'. rewrite (foldl_insert_lookup m ∅ q e' Hnd Hq) in He. injection He as ->.
  destruct (Hback _ _ Em _ Hq) as ([n data] & H1 & H2). unfold loaded_entry in H2. cbn [fst snd] in H2. destruct (override_of _ n) as [ct|?|?] eqn:Eo; [|done..]. injection H2 as <- <-.
  split. { apply elem_of_list_In, filter_In in H1 as [H1 _]. apply elem_of_list_fmap. exists (n, data). split; [done|]. by apply elem_of_list_In. }
  by exists ct, data.
Qed.
(** The extension of a name. *)
Lemma no_dot x : (forall a b, x <> a +:+ "." +:+ b) -> sforall (fun a => negb (aeqb a ".")) x = true.
Proof.
  induction x as [|c x IH]; [done|]. intros H. cbn [sforall]. apply andb_true_iff. split.
  - destruct (aeqb c ".") eqn:Ex; [|done]. unfold aeqb in Ex. apply Ascii.eqb_eq in Ex as ->. by destruct (H "" x).
  - apply IH. intros a b ->. by apply (H (String c a) b).
Qed.
Lemma extension_name q x : Extension q x -> file_extension q = x.
Proof. intros [[base ->] Hx]. unfold file_extension. change ("." +:+ x) with (String "." x). rewrite rsplit_intro; [done|done|]. by apply no_dot. Qed.
Lemma name_extension q : file_extension q = q \/ Extension q (file_extension q).
Proof.
  unfold file_extension. destruct (rsplit_at_byte _ q) as [[[l c] r]|] eqn:Es; [right|by left]. pose proof (rsplit_at_byte_hit _ _ _ _ _ Es) as Hb. unfold aeqb in Hb. apply Ascii.eqb_eq in Hb as ->.
  split; [exists l; by apply rsplit_at_byte_app in Es|]. assert (sforall (fun a => negb (aeqb a ".")) r = true) as Hr.
  { unfold rsplit_at_byte in Es. destruct (split_at_byte _ (srev q)) as [[[x y] z]|] eqn:E0; [|done]. injection Es as _ _ <-. rewrite sforall_srev. by eapply split_front. }
  intros a b ->. rewrite sforall_app in Hr. apply andb_true_iff in Hr as [_ Hr]. by cbn in Hr.
Qed.
(** Which types the parts of a file are loaded with. *)
Definition declared (cs : list tree) (xt : string * string) : Prop := exists c, c ∈ cs /\ DefaultFor xt.1 xt.2 c.
Lemma defaults_said cs exts xt : extensions_of cs = Ok exts -> xt ∈ exts <-> declared cs xt.
Proof.
  unfold extensions_of, declared. revert exts. induction cs as [|c cs IH]; intros exts; cbn [List.filter map rmapM].
  - intros [= <-]. rewrite elem_of_nil. split; [done|]. intros (c & Hc & _). by apply elem_of_nil in Hc.
  - destruct (seqb (t_tag c) "Default") eqn:Et.
    + cbn [map rmapM]. destruct (default_entry (t_attrs c)) as [y|?|?] eqn:Ed; cbn [rbind]; [|done..]. destruct (rmapM _ _) as [ys|?|?] eqn:Ey; [|done..]. intros [= <-].
      assert (DefaultFor y.1 y.2 c) as Hy.
      { unfold default_entry, need_attr in Ed. apply String.eqb_eq in Et. split; [done|]. unfold child_attr. destruct (t_attrs c) as [m|]; cbn in Ed; [|done]. destruct (m !! "Extension"); cbn in Ed; [|done].
        destruct (m !! "ContentType"); cbn in Ed; [|done]. by injection Ed as <-. }
      rewrite elem_of_cons, (IH ys eq_refl). split.
      * intros [->|(c' & H1 & H2)]; [exists c; split; [by left|done]|exists c'; split; [by right|done]].
      * intros (c' & [->|H1]%elem_of_cons & H2); [left|right; by exists c']. destruct Hy as (_ & Y1 & Y2), H2 as (_ & Z1 & Z2). rewrite Y1 in Z1. rewrite Y2 in Z2. destruct xt, y. cbn in *. congruence.
    + intros Hx. rewrite (IH exts Hx). split; intros (c' & H1 & H2); exists c'; (split; [|done]); [by right|]. apply elem_of_cons in H1 as [->|H1]; [|done]. destruct H2 as [H2 _]. by rewrite H2 in Et.
Qed.
Lemma extension_found exts q : extension_of exts q = ("", "") \/ (extension_of exts q ∈ exts /\ (extension_of exts q).1 = file_extension q).
Proof.
  unfold extension_of. destruct (List.find _ exts) as [x|] eqn:Ef; [|by left]. right. apply find_some in Ef as [H1 H2]. split; [by apply elem_of_list_In|]. by apply String.eqb_eq.
Qed.
Lemma speaks_has cs q : List.filter (has_attr "PartName" ("/" +:+ q)) cs = List.filter (speaks_of q) cs.
Proof. apply filter_ext_in'. intros c _. unfold has_attr, speaks_of, child_attr, attr_opt, seqb. by destruct (t_attrs c). Qed.
Lemma filter_twice (f g : tree -> bool) l : List.filter f (List.filter g l) = List.filter g (List.filter f l).
Proof. induction l as [|x l IH]; [done|]. cbn. destruct (f x) eqn:Ef, (g x) eqn:Eg; cbn; rewrite ?Ef, ?Eg, IH; done. Qed.
Lemma loaded_named root q ty : TypedByName root q ty -> override_of (List.filter (fun t => negb (seqb (t_tag t) "Default")) (t_children root)) q = Ok (Some ty).
Proof.
  intros (c & Hc & H1 & H2 & H3). unfold override_of. rewrite speaks_has, filter_twice, Hc. cbn [List.filter]. rewrite H1. change (seqb "Override" "Default") with false. cbn [negb List.filter last].
  unfold child_attr in H3. unfold attr_opt. destruct (t_attrs c) as [m|]; [|done]. cbn. by rewrite H3.
Qed.
Lemma loaded_unnamed root q : List.filter (speaks_of q) (t_children root) = [] -> override_of (List.filter (fun t => negb (seqb (t_tag t) "Default")) (t_children root)) q = Ok None.
Proof. intros Hn. unfold override_of. by rewrite speaks_has, filter_twice, Hn. Qed.
(** ** Saving *)
Lemma escape_plain x : plain_text (spec_escape x) -> spec_escape x = x.
Proof.
  unfold plain_text. induction x as [|a x IH]; [done|]. cbn [spec_escape]. destruct (entity_of a) as [e|] eqn:Ee.
  - rewrite sexists_app. unfold entity_of in Ee. repeat (destruct (Ascii.eqb a _); [injection Ee as <-; done|]). done.
  - cbn [sexists]. intros [_ H]%orb_false_iff. by rewrite IH.
Qed.
Lemma escape_is x y : plain_text y -> spec_escape x = y <-> x = y.
Proof. intros Hy. split; [intros Hx; rewrite <- Hx; symmetry; apply escape_plain; by rewrite Hx|intros ->; by apply spec_escape_fixed]. Qed.
Definition saved_root (a : gmap string entry) : tree := reread (types_tree (arch_exts a) (arch_ovs a)).
Lemma saved_children a : t_children (saved_root a) = map (fun xt => reread (default_tree xt)) (arch_exts a) ++ map (fun nt => reread (override_tree nt)) (arch_ovs a).
Proof. change (t_children (saved_root a)) with (map reread (map default_tree (arch_exts a) ++ map override_tree (arch_ovs a))). by rewrite map_app, !map_map. Qed.
Lemma saved_at fs path a b : fs !! path = Some b -> save_archive a = Ok b -> a <> ∅ -> TypesAt fs path (saved_root a).
Proof.
  intros Hb Hs Hne. destruct (save_archive_text a b Hs) as (l & Hu & _). eexists _, _, _. split; [by exists b|]. split; [apply elem_of_app; right; by left|]. apply reads_written; [apply types_tree_ok|apply types_ns_ok|].
  cbn. destruct (arch_exts a) eqn:Ex; [|done]. exfalso. apply Hne. apply map_empty. intros n. destruct (a !! n) as [e|] eqn:Ea; [|done].
  assert ((en_ext e, en_ext_type e) ∈ arch_exts a) as Hin by (apply arch_exts_elem; eauto). rewrite Ex in Hin. by apply elem_of_nil in Hin.
Qed.
Lemma saved_default a x ty : (exists c, c ∈ t_children (saved_root a) /\ DefaultFor x ty c) <-> exists n e, a !! n = Some e /\ spec_escape (en_ext e) = x /\ spec_escape (en_ext_type e) = ty.
Proof.
  rewrite saved_children. split.
  - intros (c & Hc & H1 & H2 & H3). apply elem_of_app in Hc as [Hc|Hc]; apply elem_of_list_fmap in Hc as ([x' t'] & -> & Hin); [|done].
    apply arch_exts_elem in Hin as (n & e & He & [= -> ->]). exists n, e. split; [done|]. by injection H2 as <-; injection H3 as <-.
  - intros (n & e & He & <- & <-). exists (reread (default_tree (en_ext e, en_ext_type e))). split; [|done]. apply elem_of_app. left. apply elem_of_list_fmap. eexists. split; [done|]. apply arch_exts_elem. eauto.
Qed.
Lemma saved_speaks a q : plain_text q -> List.filter (speaks_of q) (t_children (saved_root a)) = map (fun nt => reread (override_tree nt)) (List.filter (fun nt => seqb nt.1 ("/" +:+ q)) (arch_ovs a)).
Proof.
  intros Hq. rewrite saved_children, List.filter_app, filter_none. 2: { intros c Hc. by apply elem_of_list_fmap in Hc as (xt & -> & _). }
  cbn [app]. rewrite filter_map_comm. f_equal. apply filter_ext_in'. intros [p t] _. change (String.eqb (spec_escape p) ("/" +:+ q) = seqb p ("/" +:+ q)). unfold seqb.
  destruct (String.eqb_spec p ("/" +:+ q)) as [->|Hne]; [apply String.eqb_eq; by apply (escape_is _ _ (plain_slash q Hq))|].
  apply String.eqb_neq. intros Heq. apply Hne. by apply (escape_is _ _ (plain_slash q Hq)).
Qed.
Lemma saved_named a q e ty : a !! q = Some e -> en_ct e = Some ty -> plain_text q -> plain_text ty -> TypedByName (saved_root a) q ty.
Proof.
  intros He Hct Hq Hty. exists (reread (override_tree ("/" +:+ q, ty))). rewrite saved_speaks by done. rewrite (filter_speaks _ _ ("/" +:+ q) ty); [|apply arch_ovs_nodup|apply arch_ovs_elem; eauto|done].
  split; [done|]. split; [done|]. split; [change (Some (spec_escape ("/" +:+ q)) = Some ("/" +:+ q))|change (Some (spec_escape ty) = Some ty)]; f_equal; by apply spec_escape_fixed.
Qed.
Lemma saved_unnamed a q : (forall e, a !! q = Some e -> en_ct e = None) -> plain_text q -> List.filter (speaks_of q) (t_children (saved_root a)) = [].
Proof.
  intros He Hq. rewrite saved_speaks by done. rewrite (filter_speaks_none _ _ ("/" +:+ q)); [done| |done]. intros t Hin. apply arch_ovs_elem in Hin as (n & e & H1 & H2 & H3).
  change (String "/" q = String "/" n) in H3. injection H3 as <-. rewrite (He e H1) in H2. done.
Qed.
(** ** A whole session *)
Section session.
Context `{Hs : Hashes}.
(** The kinds of a file, and those of the library. *)
Definition file_kind (names : list string) (exts : list (string * string)) (xt : string * string) : Prop :=
  xt ∈ [("xml", "application/xml"); ("rels", "application/vnd.openxmlformats-package.relationships+xml")] \/ exists q, q ∈ names /\ xt = extension_of exts q.
Lemma session_saved file fs0 l0 types root ns x cs s t f path fs tr fs' : Stored fs0 file l0 -> (content_types_name, types) ∈ l0 -> ReadsIn types root ns -> excel_new (Some file) fs0 = Ok x ->
  calls cs (x, []) = Some s -> excel_save t f path s.1 fs = (tr, Ok tt) -> last tr = Some fs' ->
  exists exts a b, extensions_of (t_children root) = Ok exts /\ fs' !! path = Some b /\ save_archive a = Ok b /\ (forall q e, a !! q = Some e -> file_kind l0.*1 exts (en_ext e, en_ext_type e))
    /\ forall q data, (q, data) ∈ l0 -> Foreign x q -> LeftOut cs (x, []) q -> exists ct, override_of (List.filter (fun t => negb (seqb (t_tag t) "Default")) (t_children root)) q = Ok ct
       /\ a !! q = Some (pack (extension_of exts q).1 (extension_of exts q).2 ct data).
Proof.
  intros Hst Hin Hr Hx Hc Hsv Hl. destruct (new_linv _ _ _ Hx) as (I & o & Ho & _ & Hopen). destruct (types_loaded _ _ _ _ _ _ _ Hst Hin Hr Ho) as (exts & Hexts & Hparts).
  set (K := file_kind l0.*1 exts).
  assert (K ("xml", "application/xml")) as Kx by (left; by left). assert (K ("rels", "application/vnd.openxmlformats-package.relationships+xml")) as Kr by (left; right; by left).
  assert (KInv K o) as KO.
  { constructor.
    - intros q p Hp. unfold office_new in Ho. destruct (of_option _ _) as [bs|?|?]; cbn [rbind] in Ho; [|done..]. destruct (load_archive bs); [|done..]. injection Ho as <-. cbn in Hp. by rewrite lookup_empty in Hp.
    - intros q e He. destruct (Hparts q e He) as (Hq & ct & data & _ & ->). right. exists q. split; [done|]. cbn. by destruct (extension_of exts q). }
  assert (KInv K (x_office x)) as KX. { eapply excel_new_inv; [done|done| |exact Hx]. cbv iota beta. intros o' Ho'. rewrite Ho in Ho'. by injection Ho' as <-. }
  pose proof (calls_inv K Kx Kr cs (x, []) s KX Hc) as KS. destruct (calls_effect _ _ _ I Hc) as [I' _].
  destruct (kinds_saved K t f path s fs tr fs' I' KS Hsv Hl) as (a & b & A1 & A2 & A3 & A4). exists exts, a, b. split; [done|]. split; [done|]. split; [done|]. split; [done|].
  intros q data Hq Hf Hlo. destruct Hf as [F1 F2]. pose proof (opened_closed _ _ _ _ Hx F2) as Hcl.
  destruct (reopened_file _ _ _ _ Hst Ho) as (_ & Hfiles & _). destruct (Hfiles q data F1 Hq) as (e & He & Hb).
  assert (StoredAt (x, []) q e) as Hse. { destruct (Hopen q e He) as [[H1 H2]|[[? H1]|H1]]; [done|by rewrite Hcl in H1|done]. }
  destruct (Hparts q e He) as (_ & ct & data' & Hov & ->). exists ct. split; [done|]. rewrite part_bytes_pack in Hb. injection Hb as ->.
  apply A4. eapply apart_calls; [exact I|exact Hc|exact Hse|exact Hlo].
Qed.
Theorem named_kept file fs0 l0 types root ns x cs s t f path fs tr fs' q data ty : Stored fs0 file l0 -> (content_types_name, types) ∈ l0 -> ReadsIn types root ns -> excel_new (Some file) fs0 = Ok x ->
  (q, data) ∈ l0 -> Foreign x q -> LeftOut cs (x, []) q -> plain_text q -> plain_text ty -> TypedByName root q ty ->
  calls cs (x, []) = Some s -> excel_save t f path s.1 fs = (tr, Ok tt) -> last tr = Some fs' -> exists root', TypesAt fs' path root' /\ TypedByName root' q ty.
Proof.
  intros Hst Hin Hr Hx Hq Hf Hlo Pq Pt Hty Hc Hsv Hl. destruct (session_saved _ _ _ _ _ _ _ _ _ _ _ _ _ _ _ Hst Hin Hr Hx Hc Hsv Hl) as (exts & a & b & _ & A1 & A2 & _ & A4).
  destruct (A4 q data Hq Hf Hlo) as (ct & C1 & C2). rewrite (loaded_named _ _ _ Hty) in C1. injection C1 as <-. exists (saved_root a). split.
  - eapply saved_at; [done..|]. intros ->. by rewrite lookup_empty in C2.
  - by eapply saved_named.
Qed.
Theorem extension_kept file fs0 l0 types root ns x cs s t f path fs tr fs' q data ext ty : Stored fs0 file l0 -> (content_types_name, types) ∈ l0 -> ReadsIn types root ns -> excel_new (Some file) fs0 = Ok x ->
  (q, data) ∈ l0 -> Foreign x q -> LeftOut cs (x, []) q -> plain_text q -> plain_text ty -> ext <> "" -> OwnExtension ext ty -> TypedByExtension root q ext ty ->
  calls cs (x, []) = Some s -> excel_save t f path s.1 fs = (tr, Ok tt) -> last tr = Some fs' -> exists root', TypesAt fs' path root' /\ TypedByExtension root' q ext ty.
Proof.
  intros Hst Hin Hr Hx Hq Hf Hlo Pq Pt Hne [Ow1 Ow2] (T1 & T2 & T3 & T4) Hc Hsv Hl. destruct (session_saved _ _ _ _ _ _ _ _ _ _ _ _ _ _ _ Hst Hin Hr Hx Hc Hsv Hl) as (exts & a & b & A0 & A1 & A2 & A3 & A4).
  destruct (A4 q data Hq Hf Hlo) as (ct & C1 & C2). rewrite (loaded_unnamed _ _ T1) in C1. injection C1 as <-.
  assert (plain_text ext) as Px. { destruct T2 as [[base ->] _]. unfold plain_text in *. rewrite !sexists_app in Pq. apply orb_false_iff in Pq as [_ Pq]. by apply orb_false_iff in Pq as [_ Pq]. }
  assert (forall ty', (ext, ty') ∈ exts -> ty' = ty) as Huniq. { intros ty' Hx'. apply (defaults_said _ _ _ A0) in Hx' as (c & Hc1 & Hc2). by apply (T4 c). }
  assert (extension_of exts q = (ext, ty)) as Hex.
  { unfold extension_of. rewrite (extension_name q ext T2). rewrite (find_ext exts ext ty); [done| |done]. by apply (defaults_said _ _ _ A0). }
  rewrite Hex in C2. cbn [fst snd] in C2. exists (saved_root a). split. { eapply saved_at; [done..|]. intros ->. by rewrite lookup_empty in C2. }
  split. { apply saved_unnamed; [|done]. intros e He. rewrite C2 in He. by injection He as <-. }
  split; [done|]. split.
  - apply saved_default. exists q, (pack ext ty None data). split; [done|]. split; by apply spec_escape_fixed.
  - intros c ty' Hc1 Hc2. destruct (proj1 (saved_default a ext ty')) as (n & e & E1 & E2 & E3); [by exists c|]. apply (proj1 (escape_is _ _ Px)) in E2.
    assert (en_ext_type e = ty) as Het; [|rewrite Het in E3; rewrite <- E3; by apply spec_escape_fixed].
    destruct (A3 n e E1) as [Hk|(n' & _ & Hk)]; rewrite E2 in Hk.
    + rewrite !elem_of_cons, elem_of_nil in Hk. destruct Hk as [[= H1 H2]|[[= H1 H2]|[]]]; rewrite H2; symmetry; auto.
    + destruct (extension_found exts n') as [H1|[H1 _]]; rewrite <- Hk in H1; [by injection H1 as ? _|]. by apply Huniq.
Qed.
(** Types of extensions no part has are forgotten. *)
Theorem extension_lost file fs0 l0 types root ns x cs s t f path fs tr fs' ext : Stored fs0 file l0 -> (content_types_name, types) ∈ l0 -> ReadsIn types root ns -> excel_new (Some file) fs0 = Ok x ->
  plain_text ext -> ext ∉ ["";"xml";"rels"] -> (forall q, q ∈ l0.*1 -> q <> ext /\ ~ Extension q ext) ->
  calls cs (x, []) = Some s -> excel_save t f path s.1 fs = (tr, Ok tt) -> last tr = Some fs' -> (exists q data, (q, data) ∈ l0 /\ Foreign x q /\ LeftOut cs (x, []) q) ->
  exists root', TypesAt fs' path root' /\ forall c ty, c ∈ t_children root' -> ~ DefaultFor ext ty c.
Proof.
  intros Hst Hin Hr Hx Px Hne Hno Hc Hsv Hl (q & data & Q1 & Q2 & Q3). destruct (session_saved _ _ _ _ _ _ _ _ _ _ _ _ _ _ _ Hst Hin Hr Hx Hc Hsv Hl) as (exts & a & b & A0 & A1 & A2 & A3 & A4).
  destruct (A4 q data Q1 Q2 Q3) as (ct & C1 & C2). exists (saved_root a). split. { eapply saved_at; [done..|]. intros ->. by rewrite lookup_empty in C2. }
  intros c ty Hc1 Hc2. destruct (proj1 (saved_default a ext ty)) as (n & e & E1 & E2 & E3); [by exists c|]. apply (proj1 (escape_is _ _ Px)) in E2.
  destruct (A3 n e E1) as [Hk|(n' & Hn' & Hk)]; rewrite E2 in Hk.
  - rewrite !elem_of_cons, elem_of_nil in Hk. apply Hne. rewrite !elem_of_cons. destruct Hk as [[= -> _]|[[= -> _]|[]]]; tauto.
  - destruct (extension_found exts n') as [H1|[_ H1]]; rewrite <- Hk in H1; [injection H1 as -> _; apply Hne; by left|]. cbn [fst] in H1. destruct (Hno n' Hn') as [N1 N2].
    destruct (name_extension n') as [H2|H2]; rewrite <- H1 in H2; congruence.
Qed.
(** Any number of files. *)
Lemma types_unique fs path root root' : TypesAt fs path root -> TypesAt fs path root' -> root = root'.
Proof.
  intros (l & ty & ns & (b & B1 & B2) & L1 & R) (l' & ty' & ns' & (b' & B1' & B2') & L1' & R'). rewrite B1 in B1'. injection B1' as <-. rewrite B2 in B2'. injection B2' as <-.
  assert (ty = ty') as <-.
  { pose proof (env_unzip_nodup _ _ B2) as Hnd. clear -Hnd L1 L1'. induction l as [|[n x] l IH]; [by apply elem_of_nil in L1|]. cbn in Hnd. apply NoDup_cons in Hnd as [N1 N2].
    assert (forall y, n = content_types_name -> (content_types_name, y) ∉ l) as Hn. { intros y -> Hin. apply N1. apply elem_of_list_fmap. by exists (content_types_name, y). }
    apply elem_of_cons in L1 as [[= E1 E2]|L1]; apply elem_of_cons in L1' as [[= E3 E4]|L1']; [congruence| | |by apply IH]; exfalso; by eapply Hn. }
  destruct (reads_in _ _ _ R) as (d & R1 & R2 & _). destruct (reads_in _ _ _ R') as (d' & R1' & R2' & _). rewrite R1 in R1'. injection R1' as <-.
  apply doc_tree_Doc in R2. apply doc_tree_Doc in R2'. congruence.
Qed.
Theorem journey_named q ty rs a b : Journey q rs a b -> plain_text q -> plain_text ty -> (exists data l, Stored a.2 a.1 l /\ (q, data) ∈ l) ->
  (exists root, TypesAt a.2 a.1 root /\ TypedByName root q ty) -> exists root, TypesAt b.2 b.1 root /\ TypedByName root q ty.
Proof.
  intros Hj Pq Pt. induction Hj as [a|r rs file fs0 x fs s fs1 b Hx Hf Ha (Hc & tr & Hsv & Hl) Hj IH]; [done|]. intros (data & l & Hst & Hin) (root & (l' & types & ns & Hst' & L1 & L2) & Hty). cbn [fst snd] in *.
  assert (l' = l) as ->. { destruct Hst as (b1 & B1 & B2), Hst' as (b2 & B3 & B4). congruence. } apply IH.
  - destruct (carried_saved _ _ _ _ _ _ _ _ _ _ _ _ _ _ Hst Hin Hx Hf Ha Hc Hsv Hl) as (l1 & C1 & C2). exists data, l1. split; [done|]. by apply C2.
  - by eapply named_kept.
Qed.
Theorem journey_extension q ext ty rs a b : Journey q rs a b -> plain_text q -> plain_text ty -> ext <> "" -> OwnExtension ext ty -> (exists data l, Stored a.2 a.1 l /\ (q, data) ∈ l) ->
  (exists root, TypesAt a.2 a.1 root /\ TypedByExtension root q ext ty) -> exists root, TypesAt b.2 b.1 root /\ TypedByExtension root q ext ty.
Proof.
  intros Hj Pq Pt Hne Hown. induction Hj as [a|r rs file fs0 x fs s fs1 b Hx Hf Ha (Hc & tr & Hsv & Hl) Hj IH]; [done|]. intros (data & l & Hst & Hin) (root & (l' & types & ns & Hst' & L1 & L2) & Hty). cbn [fst snd] in *.
  assert (l' = l) as ->. { destruct Hst as (b1 & B1 & B2), Hst' as (b2 & B3 & B4). congruence. } apply IH.
  - destruct (carried_saved _ _ _ _ _ _ _ _ _ _ _ _ _ _ Hst Hin Hx Hf Ha Hc Hsv Hl) as (l1 & C1 & C2). exists data, l1. split; [done|]. by apply C2.
  - by eapply extension_kept.
Qed.
End session.
End with_env.
