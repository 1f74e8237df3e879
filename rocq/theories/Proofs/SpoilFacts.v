(** Sheets with a cell in column 0. *)
From Verif.Model Require Import Excel.
From Verif.Spec Require Import XmlSpec XmlRepr PackageSpec ColumnSpec SheetSpec SessionSpec FlowSpec PanicSpec AnswerSpec.
From Verif.Proofs Require Import BaseFacts ConverterFacts PackageFacts DocBuild XmlReadFacts SaveFacts BookFacts SheetDocFacts SheetFacts SessionFacts FrameFacts KeepFacts OwnFacts OpenMoreFacts FlowFacts FlowSaveFacts PanicFacts AnswerFacts GrowFacts OnceFacts HeldFacts DamageFacts.
Open Scope N_scope.

Section with_env.
Context `{E : Env} `{HH : Hashes}.
(** ** Calls on the handle *)
Lemma spoiled_row r c cs w t : Spoiled w -> Spoiled (set_row_value r c cs (w, t)).1.1.
Proof.
  intros Hs. pose proof Hs as [H0 (m & r0 & x0 & Hm & Hx)]. unfold set_row_value. destruct (u16_sub env_mode c 1) as [col|e|e]; [|done..]. destruct (store_cells cs t) as [t1 cs1]. rewrite Hm. change (default ∅ (Some m)) with m.
  generalize (match m !! r with Some x => x | None => mkRowData row_default None end). intros old.
  pose proof (place_low env_mode cs1 col (ws_dim w) (default ∅ (rd_cells old)) H0) as L. destruct (place_cells _ _ _ _ _) as [[dim cells] x]. cbn [fst snd] in L.
  assert (forall y, Spoiled (set_ws_data (set_ws_dim w dim) (Some (<[r := y]> m)))) as Hi. { intros y. split; [exact L|]. eexists _, r, y. split; [reflexivity|]. apply lookup_insert. }
  assert (Spoiled (set_ws_dim w dim)) as Hj. { split; [exact L|]. by exists m, r0, x0. }
  destruct x as [[]|e|e]; cbn [fst]; [apply Hi|..]; destruct (rd_cells old); [apply Hi|apply Hj|apply Hi|apply Hj].
Qed.
Lemma spoiled_ref ref cs w t : Spoiled w -> Spoiled (set_row_value_ref ref cs (w, t)).1.1.
Proof. intros Hs. unfold set_row_value_ref, bind, lift. destruct (get_cell_index ref) as [[r c]|e|e]; [by apply spoiled_row|done..]. Qed.
Lemma spoiled_use c h s w w' : through c = Some h -> handle h s = Some w -> Spoiled w -> handle h (call_step c s).1 = Some w' -> Spoiled w'.
Proof.
  intros Ht Hw Hs.
  assert (forall m, Spoiled (m (w, ss_strings (wb_sst (x_book s.1)))).1.1 -> call_step c s = use h m s -> handle h (call_step c s).1 = Some w' -> Spoiled w') as H.
  { intros m H1 ->. unfold use. rewrite Hw. destruct (m _) as [[w1 t1] r]. cbn [fst snd] in *. unfold handle. cbn [snd].
    apply handle_lookup in Hw. rewrite list_lookup_insert by (by eapply lookup_lt_Some). cbn. by intros [= <-]. }
  pose proof Hs as [H0 (m & r0 & x0 & Hm & Hx)].
  destruct c as [| | | | | | | | | | |k r c cs|k ref cs|k r p|k c p|k ref p|k|k|k]; try done; cbn [through] in Ht; injection Ht as ->.
  - apply (H (set_row_value r c cs)); [by apply spoiled_row|done].
  - apply (H (set_row_value_ref ref cs)); [by apply spoiled_ref|done].
  - apply (H (on_handle (set_row_props r p))); [|done]. split; [done|]. cbn. eexists _, r, _. split; [reflexivity|]. apply lookup_insert.
  - apply (H (on_handle (set_column_index c p))); [|done]. split; [done|]. by exists m, r0, x0.
  - apply (H (on_handle (set_column_ref ref p))); [|done]. unfold on_handle, set_column_ref, bind, lift. cbn [fst snd]. destruct (get_column_index ref) as [c|e|e]; cbn [fst snd]; [|done..]. split; [done|]. by exists m, r0, x0.
  - cbn [call_step]. by rewrite spend_gone.
  - cbn [call_step]. by rewrite spend_gone.
  - cbn [call_step]. by rewrite spend_gone.
Qed.
(** Giving the handle back: nothing is written. *)
Lemma spoiled_drop w o p : Spoiled w -> ws_path w <> rl_path (ws_rels w) -> of_open o !! ws_path w = Some p -> of_open (ws_drop w o) !! ws_path w = Some p.
Proof.
  intros Hs Hne Hp. destruct (spoiled_close o w Hs) as [e He]; [by exists p|]. unfold ws_drop. rewrite He. destruct (keep_rels_close (ws_rels w) o (ws_path w) Hne) as [K _]. unfold id in K. congruence.
Qed.
Lemma spoiled_flush w o : Spoiled w -> is_Some (of_open o !! ws_path w) -> exists e, ws_flush w o = (ws_drop w o, Err e).
Proof. intros Hs Hp. destruct (spoiled_close o w Hs Hp) as [e He]. exists e. unfold ws_flush. by rewrite He. Qed.
Lemma spoiled_spend c h s w p : LInv s -> through c = Some h -> handle h s = Some w -> Spoiled w -> of_open (x_office s.1) !! ws_path w = Some p -> handle h (call_step c s).1 = None ->
  of_open (x_office (call_step c s).1.1) !! ws_path w = Some p.
Proof.
  intros I Ht Hw Hs Hp Hn. assert (ws_path w <> rl_path (ws_rels w)) as Hne.
  { pose proof (li_nodup _ I) as Hnd. unfold held in Hnd. apply handle_lookup in Hw. destruct (live_split _ _ _ Hw) as (a & b & L1 & _). rewrite L1 in Hnd.
    apply NoDup_app in Hnd as (_ & _ & Hnd). apply NoDup_app in Hnd as (_ & _ & Hnd). apply NoDup_app in Hnd as (_ & _ & Hnd). apply NoDup_app in Hnd as (Hnd & _ & _). cbn [handle_parts] in Hnd.
    apply NoDup_cons in Hnd as [Hnd _]. intros Hq. apply Hnd. rewrite Hq. left. }
  assert (forall m, call_step c s = use h m s -> False) as Huse.
  { intros m Hm. rewrite Hm in Hn. unfold use in Hn. rewrite Hw in Hn. destruct (m _) as [[w1 t1] r]. unfold handle in Hn. cbn [fst snd] in Hn. apply handle_lookup in Hw. by rewrite list_lookup_insert in Hn by (by eapply lookup_lt_Some). }
  destruct c as [| | | | | | | | | | |k r c cs|k ref cs|k r p0|k c p0|k ref p0|k|k|k]; try done; cbn [through] in Ht; injection Ht as ->; try (by exfalso; eapply Huse); clear Huse; cbn [call_step]; unfold spend; rewrite Hw; unfold Excel.on_book, x_state; cbn [fst snd].
  - by apply spoiled_drop.
  - unfold on_wb_office. cbn [fst snd]. destruct (spoiled_flush w (x_office s.1) Hs) as [e ->]; [by exists p|]. by apply spoiled_drop.
  - unfold wb_delete_sheet, delete_sheet, bind, on_sheets, on_pkg, on_rels, on_office, modify. cbn [fst snd]. unfold delete_document, modify. cbn [fst snd].
    set (o1 := set_archive _ _). assert (of_open o1 !! ws_path w = Some p) as Hp1 by done. destruct (spoiled_flush w o1 Hs) as [e ->]; [by exists p|]. by apply spoiled_drop.
Qed.
(** ** The part of a sheet with a cell in column 0 *)
Definition Lost (q : string) (p : open_part) (s : session) : Prop :=
  of_open (x_office s.1) !! q = Some p /\ forall h w, handle h s = Some w -> q ∈ handle_parts (Some w) -> ws_path w = q /\ Spoiled w.
Lemma lost_step c s q p : LInv s -> Lost q p s -> Lost q p (call_step c s).1.
Proof.
  intros I [Hp Hh]. split.
  - assert ((exists h w, through c = Some h /\ handle h s = Some w /\ q ∈ handle_parts (Some w)) \/ ~ (exists h w, through c = Some h /\ handle h s = Some w /\ q ∈ handle_parts (Some w))) as [(h & w & Ht & Hw & Hq)|Hn].
    { destruct (through c) as [h|]; [|right; naive_solver]. destruct (handle h s) as [w|] eqn:Ew; [|right; naive_solver]. destruct (decide (q ∈ handle_parts (Some w))); [left; by exists h, w|right; naive_solver]. }
    + destruct (Hh h w Hw Hq) as [<- Hs]. destruct (handle h (call_step c s).1) as [w'|] eqn:Ew.
      * by destruct (held_still c s h w w' p I Hw Ew Hp).
      * by apply (spoiled_spend c h).
    + destruct (call_around c s I) as [_ _ _ A _]. apply A; [|done]. intros h w Ht Hw Hq. apply Hn. by exists h, w.
  - intros h w' Hw' Hq. destruct (call_handles _ _ _ _ Hw') as [(w & H1 & H2 & H3)|(H1 & H2 & ->)].
    + assert (q ∈ handle_parts (Some w)) as Hq1. { cbn [handle_parts] in *. by rewrite <- H2, <- H3. } destruct (Hh h w H1 Hq1) as [P1 P2]. split; [congruence|].
      destruct (decide (through c = Some h)) as [Ht|Ht]; [by apply (spoiled_use c h s w)|]. destruct (call_around c s I) as [_ _ A _ _]. rewrite (A _ _ Ht H1) in Hw'. by injection Hw' as <-.
    + destruct (call_step c s) as [s' x] eqn:Ec. cbn [fst snd] in *. subst x. destruct (call_new _ _ _ _ I H1 Ec Hw') as [O1 _]. by rewrite (op_closed _ _ _ O1 q Hq) in Hp.
Qed.
Lemma lost_calls cs : forall s s' q p, LInv s -> Lost q p s -> calls cs s = Some s' -> Lost q p s'.
Proof.
  induction cs as [|c cs IH]; intros s s' q p I Hl Hc; [by injection Hc as <-|]. apply calls_cons in Hc as [Hn Hc]. destruct (call_effect c s I Hn) as [I1 _].
  apply (IH (call_step c s).1); [done|by apply lost_step|done].
Qed.
(** ** The call that puts the cell *)
Lemma put_spoils c h col cs s w : Puts h c col cs -> Given c -> handle h s = Some w -> reaches_0 col cs = true -> NoPanic (call_step c s).2 ->
  (call_step c s).2 = Ok tt /\ x_office (call_step c s).1.1 = x_office s.1 /\ exists w', handle h (call_step c s).1 = Some w' /\ ws_path w' = ws_path w /\ Spoiled w'.
Proof.
  intros Hp Hg Hw H0 Hn. assert (exists r, call_step c s = use h (set_row_value r col cs) s /\ col <= u16_max) as (r & Hc & Hcol).
  { destruct Hp as [r c cs|v r cs Hv].
    - exists r. split; [done|]. by destruct Hg as (_ & ? & _).
    - destruct Hg as (_ & v' & r' & Hr & Hv' & Hm & Hu). assert (v = v') as -> by (by eapply word_same). exists r'. split; [|done]. rewrite Hr. cbn [call_step]. unfold use. destruct (handle h s) as [y|]; [|done]. unfold set_row_value_ref, bind, lift. by rewrite get_cell_index_word. }
  rewrite Hc in *. rewrite use_office. unfold use in *. rewrite Hw in *.
  destruct (put_result r col cs w (ss_strings (wb_sst (x_book s.1))) Hcol) as (w' & t' & He & P1 & P2 & P3 & P4 & P5 & _). { by destruct (set_row_value r col cs _) as [[? ?] ?]. }
  rewrite He. cbn [fst snd]. split; [done|]. split; [done|]. exists w'. split; [|split; [done|]].
  - unfold handle. cbn [snd]. apply handle_lookup in Hw. by rewrite list_lookup_insert by (by eapply lookup_lt_Some).
  - split; [apply P5; by right|]. destruct P4 as (m & y & ? & ?). eauto.
Qed.
Lemma put_lost c h col cs s w p : LInv s -> handle h s = Some w -> Puts h c col cs -> Given c -> reaches_0 col cs = true -> of_open (x_office s.1) !! ws_path w = Some p -> NoPanic (call_step c s).2 ->
  LInv (call_step c s).1 /\ Lost (ws_path w) p (call_step c s).1.
Proof.
  intros I Hw Hput Hg H0 Hp Hn. destruct (put_spoils _ _ _ _ _ _ Hput Hg Hw H0 Hn) as (_ & Ho & w' & Hw' & Hpath & Hs). destruct (call_effect c s I Hn) as [I1 _]. split; [done|]. split; [by rewrite Ho|].
  intros k v Hk Hq. destruct (decide (k = h)) as [->|Hne]; [split; congruence|]. exfalso. apply (apart_handle _ h k w' v (ws_path w) I1); [congruence|done|done| |done]. rewrite <- Hpath. cbn [handle_parts]. left.
Qed.
Lemma put_saved c h col cells cs s s2 w p t f path fs tr fs' : LInv s -> handle h s = Some w -> Puts h c col cells -> Given c -> reaches_0 col cells = true -> of_open (x_office s.1) !! ws_path w = Some p ->
  calls (c :: cs) s = Some s2 -> excel_save t f path s2.1 fs = (tr, Ok tt) -> last tr = Some fs' ->
  exists l data, Stored fs' path l /\ write_doc (op_doc p) = Ok data /\ forall b, (ws_path w, b) ∈ l <-> b = data.
Proof.
  intros I Hw Hput Hg H0 Hp Hcs Hs Hl. pose proof (calls_cons _ _ _ _ Hcs) as [Hn Hc]. destruct (put_lost _ _ _ _ _ _ _ I Hw Hput Hg H0 Hp Hn) as [I1 HL].
  destruct (lost_calls _ _ _ _ _ I1 HL Hc) as [Hop _]. destruct (own_stays _ _ _ I Hcs) as [Hown _]. destruct (docs_stay _ _ _ I Hcs) as (D1 & D2 & _).
  assert (ws_path w ∉ own_parts (x_book s.1) /\ ws_path w ∉ DocsIn (x_suite s.1)) as [Ho Hd].
  { pose proof (li_nodup _ I) as Hnd. unfold held in Hnd. apply handle_lookup in Hw. destruct (live_split _ _ _ Hw) as (a & b & L1 & _). rewrite L1 in Hnd.
    assert (ws_path w ∈ handle_parts (Some w)) as Hq by (cbn; left).
    apply NoDup_app in Hnd as (_ & E1 & Hnd). apply NoDup_app in Hnd as (_ & E2 & _). split; intros H; [apply (E1 _ H)|apply (E2 _ H)]; rewrite !elem_of_app; tauto. }
  destruct (open_saved t f path s2.1 fs tr fs' (ws_path w) p) as (_ & l & data & S1 & S2 & S3); [by rewrite Hown| |done|done|done|by exists l, data].
  unfold DocsIn in *. by rewrite D1, D2.
Qed.
(** ** What the calls answer *)
Lemma put_quiet c h col cs s : env_mode = Wrapping -> Puts h c col cs -> Given c -> NoPanic (call_step c s).2.
Proof.
  intros Hm Hput Hg. assert (forall r x w t, NoPanic (set_row_value r x cs (w, t)).2) as H by (intros; apply np_row; congruence).
  destruct Hput as [r c cs|v r cs Hv].
  - cbn [call_step]. unfold use. destruct (handle h s) as [w|]; [|done]. specialize (H r c w (ss_strings (wb_sst (x_book s.1)))). by destruct (set_row_value r c cs _) as [[? ?] ?].
  - destruct Hg as (_ & v' & r' & Hr & Hv' & Hm' & Hu). cbn [call_step]. unfold use. destruct (handle h s) as [w|]; [|done]. rewrite Hr. unfold set_row_value_ref, bind, lift. rewrite get_cell_index_word by done.
    specialize (H r' (word_value v') w (ss_strings (wb_sst (x_book s.1)))). by destruct (set_row_value r' (word_value v') cs _) as [[? ?] ?].
Qed.
Lemma drop_answers h s : (call_step (CDrop h) s).2 = Ok tt.
Proof. cbn [call_step]. unfold spend. by destruct (handle h s). Qed.
Lemma put_unstored c col cells cs s s2 h w w2 : LInv s -> handle h s = Some w -> Puts h c col cells -> Given c -> reaches_0 col cells = true -> calls (c :: cs) s = Some s2 -> handle h s2 = Some w2 ->
  exists e, (call_step (CFlush h) s2).2 = Err e.
Proof.
  intros I Hw Hput Hg H0 Hcs Hw2. pose proof (calls_cons _ _ _ _ Hcs) as [Hn Hc]. destruct (li_open _ I (ws_path w)) as [p Hp].
  { apply handle_lookup in Hw. destruct (live_split _ _ _ Hw) as (a & b & L1 & _). unfold held. rewrite L1, !elem_of_app. cbn [handle_parts]. rewrite !elem_of_cons. tauto. }
  destruct (put_lost _ _ _ _ _ _ _ I Hw Hput Hg H0 Hp Hn) as [I1 HL]. destruct (put_spoils _ _ _ _ _ _ Hput Hg Hw H0 Hn) as (_ & Ho & w' & Hw' & Hpath & Hs).
  assert (ws_path w2 = ws_path w') as Hp2. { eapply held_stays; [exact I1|exact Hw'| |exact Hc|exact Hw2]. rewrite Hpath. apply HL. }
  destruct (lost_calls _ _ _ _ _ I1 HL Hc) as [Hop HH2]. destruct (HH2 h w2 Hw2) as [Q1 Q2]. { rewrite <- Hpath, <- Hp2. cbn [handle_parts]. left. }
  cbn [call_step]. unfold spend. rewrite Hw2. unfold Excel.on_book, x_state, on_wb_office. cbn [fst snd]. destruct (spoiled_flush w2 (x_office s2.1) Q2) as [e ->]; [exists p; by rewrite Q1|]. by exists e.
Qed.
End with_env.
