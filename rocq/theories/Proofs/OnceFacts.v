(** Sheets without relationships: handed out once, never again. *)
From Verif.Model Require Import Excel.
From Verif.Spec Require Import XmlSpec XmlRepr PackageSpec SessionSpec FlowSpec ReopenSpec PanicSpec GrowSpec.
From Verif.Proofs Require Import BaseFacts PackageFacts DocBuild XmlReadFacts RelDocFacts SaveFacts BookFacts SheetDocFacts SheetCycleFacts SessionFacts FrameFacts KeepFacts OwnFacts OpenMoreFacts FlowFacts AnswerFacts PanicFacts GrowFacts.
Open Scope N_scope.

Section with_env.
Context `{E : Env} `{HH : Hashes}.
(** ** Relationships there are none of *)
Definition Bare (p : open_part) : Prop := Doc (op_doc p) (Node "Relationships" (Some ∅) None []) /\ ns_ok (d_ns (op_doc p)).
Lemma rels_new_bare o q : of_open o !! q = None -> of_archive o !! q = None ->
  exists p, rels_new q o = (set_open o (<[q := p]> (of_open o)), Ok (mkRelations [] q)) /\ Bare p.
Proof.
  intros Ho Ha. destruct rels_init_spec as (d & Hi & Hd & Hns).
  destruct (Doc_load_relations d _ _ _ _ Hd) as (d' & Hl & Hd' & Hns'). cbn [List.filter] in Hl, Hd'.
  unfold rels_new, bind at 1. unfold get_xml_document at 1, get_xml_tree at 1, bind at 1. rewrite Ho, Ha.
  unfold bind at 1, lift. rewrite Hi. unfold get_xml_document_ref, modify. unfold bind.
  set (o1 := set_open _ _). rewrite (with_doc_spec q load_relations o1 _ d' (Ok []) (lookup_insert _ _ _) Hl). cbn [rmap rbind].
  eexists. split.
  - unfold o1, set_open. cbn [of_open of_archive op_ct op_ext op_ext_type]. rewrite insert_insert. reflexivity.
  - split; cbn [op_doc]; [exact Hd'|]. rewrite Hns', Hns. apply map_Forall_singleton. split; [done|by left].
Qed.
Lemma bare_close o r p : rl_rels r = [] -> of_open o !! rl_path r = Some p -> Bare p -> of_open (rels_close r o).1 = of_open o.
Proof. intros Hr Hp [Hd _]. rewrite rels_close_empty; [done|done|]. by eexists _, _, _, _. Qed.
Lemma drop_bare w o p : rl_rels (ws_rels w) = [] -> rl_path (ws_rels w) <> ws_path w -> of_open o !! rl_path (ws_rels w) = Some p -> Bare p -> of_open (ws_drop w o) !! rl_path (ws_rels w) = Some p.
Proof.
  intros Hr Hne Hp Hb. unfold ws_drop. destruct (ws_close_keeps w o _ Hne) as [K _]. destruct (ws_close_frame w o) as [_ F2]. destruct (ws_close (w, o)) as [[w1 o1] r]. cbn [fst snd] in *.
  rewrite F2, (bare_close _ _ p Hr); [congruence|congruence|done].
Qed.
Lemma flush_bare w o p : rl_rels (ws_rels w) = [] -> rl_path (ws_rels w) <> ws_path w -> of_open o !! rl_path (ws_rels w) = Some p -> Bare p -> of_open (ws_flush w o).1 !! rl_path (ws_rels w) = Some p.
Proof.
  intros Hr Hne Hp Hb. unfold ws_flush. destruct (ws_close_keeps w o _ Hne) as [K _]. destruct (ws_close_frame w o) as [F1 F2]. destruct (ws_close (w, o)) as [[w1 o1] r]. cbn [fst snd] in *.
  rewrite <- F2. apply drop_bare; rewrite ?F2, ?F1; try done. congruence.
Qed.
Lemma delete_bare w b o p : rl_rels (ws_rels w) = [] -> rl_path (ws_rels w) <> ws_path w -> of_open o !! rl_path (ws_rels w) = Some p -> Bare p ->
  of_open (wb_delete_sheet w (b, o)).1.2 !! rl_path (ws_rels w) = Some p.
Proof.
  intros Hr Hne Hp Hb. unfold wb_delete_sheet, delete_sheet, bind, on_sheets, on_pkg, on_rels, on_office, modify. cbn [fst snd].
  unfold delete_document, modify. cbn [fst snd].
  match goal with |- context [ws_flush w ?x] => pose proof (flush_bare w x p Hr Hne Hp Hb) as K; destruct (ws_flush w x) as [o1 r] end. exact K.
Qed.

(** ** Handles and parts across a call *)
Lemma call_handles c s h w' : handle h (call_step c s).1 = Some w' ->
  (exists w, handle h s = Some w /\ ws_path w' = ws_path w /\ ws_rels w' = ws_rels w) \/ (opens c /\ (call_step c s).2 = Ok tt /\ h = length s.2).
Proof.
  assert (forall m, handle h (on_excel (on_book (A := unit) (pure_book m)) s).1 = Some w' -> exists w, handle h s = Some w /\ ws_path w' = ws_path w /\ ws_rels w' = ws_rels w) as Hpure.
  { intros m. unfold on_excel, on_book, pure_book, x_state. cbn [fst snd]. destruct (m (x_book s.1)) as [b r]. cbn [fst]. unfold handle. cbn [snd]. eauto. }
  assert (forall k m, WsStays m -> handle h (use k m s).1 = Some w' -> exists w, handle h s = Some w /\ ws_path w' = ws_path w /\ ws_rels w' = ws_rels w) as Huse.
  { intros k m Hm. unfold use. destruct (handle k s) as [w|] eqn:Ek; [|eauto]. destruct (Hm (w, ss_strings (wb_sst (x_book s.1)))) as [H1 H2]. destruct (m _) as [[w1 t] r]. cbn [fst snd] in *.
    unfold handle. cbn [snd]. destruct (decide (h = k)) as [->|Hne]; [|rewrite list_lookup_insert_ne by congruence; eauto].
    rewrite list_lookup_insert by (apply handle_lookup in Ek; by eapply lookup_lt_Some). cbn. intros [= <-]. exists w. done. }
  assert (forall k (m : worksheet -> M wb_state unit), handle h (spend k m s).1 = Some w' -> exists w, handle h s = Some w /\ ws_path w' = ws_path w /\ ws_rels w' = ws_rels w) as Hspend.
  { intros k m. unfold spend. destruct (handle k s) as [w|] eqn:Ek; [|eauto]. unfold on_book, x_state. destruct (m w _) as [[b1 o1] r]. cbn [fst].
    unfold handle. cbn [snd]. destruct (decide (h = k)) as [->|Hne]; [|rewrite list_lookup_insert_ne by congruence; eauto].
    by rewrite list_lookup_insert by (apply handle_lookup in Ek; by eapply lookup_lt_Some). }
  assert (forall name, handle h (give (on_book (add_sheet name)) s).1 = Some w' -> (exists w, handle h s = Some w /\ ws_path w' = ws_path w /\ ws_rels w' = ws_rels w) \/ ((give (on_book (add_sheet name)) s).2 = Ok tt /\ h = length s.2)) as Hgive.
  { intros name. unfold give. destruct (on_book (add_sheet name) s.1) as [x1 [w|e|e]]; cbn [fst snd]; [|unfold handle; cbn [snd]; eauto..].
    unfold handle. cbn [snd]. destruct (decide (h < length s.2)%nat) as [Hlt|Hge]; [rewrite lookup_app_l by done; eauto|]. rewrite lookup_app_r by lia.
    destruct (h - length s.2)%nat as [|i] eqn:Ei; [|done]. intros _. right. split; [done|lia]. }
  destruct c; cbn [call_step]; intros Hh; try (left; by eapply Hpure); try (left; by eapply Hspend).
  - destruct (Hgive _ Hh) as [?|[? ?]]; [by left|right]. by split.
  - change (get_worksheet name) with (add_sheet (Some name)) in *. destruct (Hgive _ Hh) as [?|[? ?]]; [by left|right]. by split.
  - left. eapply Huse; [|exact Hh]. apply stays_row.
  - left. eapply Huse; [|exact Hh]. apply stays_row_ref.
  - left. eapply Huse; [|exact Hh]. apply stays_row_props.
  - left. eapply Huse; [|exact Hh]. apply stays_col.
  - left. eapply Huse; [|exact Hh]. apply stays_col_ref.
Qed.
Lemma give_new name s s' w : LInv s -> give (on_book (add_sheet name)) s = (s', Ok tt) -> handle (length s.2) s' = Some w ->
  Opens [ws_path w; rl_path (ws_rels w)] (x_office s.1) (x_office s'.1) /\ rels_beside (ws_path w) = Ok (rl_path (ws_rels w)).
Proof.
  intros I. unfold give, on_book, x_state, add_sheet. cbn [fst snd]. set (st := (wb_sheets (x_book s.1), (wb_rels (x_book s.1), x_office s.1))).
  pose proof (ws_new_handle name st) as Hh. pose proof (fun s' x => ws_new_kept name st s' x (li_docs _ I)) as Hk.
  destruct (ws_new name st) as [[l [r o]] [w1|e|e]]; cbn [fst snd] in *; [|done..]. intros [= <-] Hw. unfold handle in Hw. cbn [snd] in Hw.
  rewrite lookup_app_r, Nat.sub_diag in Hw by lia. injection Hw as <-. split; [by apply (Hk _ _ eq_refl)|]. by apply Hh.
Qed.
Lemma call_new c s s' w : LInv s -> opens c -> call_step c s = (s', Ok tt) -> handle (length s.2) s' = Some w ->
  Opens [ws_path w; rl_path (ws_rels w)] (x_office s.1) (x_office s'.1) /\ rels_beside (ws_path w) = Ok (rl_path (ws_rels w)).
Proof. intros I Ho. destruct c; try done; cbn [call_step]; [apply (give_new name)|apply (give_new (Some name))]; done. Qed.
Lemma call_same c s q : ~ opens c -> (forall h w, through c = Some h -> handle h s = Some w -> q ∉ handle_parts (Some w)) ->
  SameAt (x_office s.1) (x_office (call_step c s).1.1) q.
Proof.
  intros Ho Hq.
  assert (forall m, SameAt (x_office s.1) (x_office (on_excel (on_book (A := unit) (pure_book m)) s).1.1) q) as Hpure.
  { intros m. unfold on_excel, on_book, pure_book, x_state. cbn [fst snd]. by destruct (m (x_book s.1)). }
  assert (forall h m, SameAt (x_office s.1) (x_office (use h m s).1.1) q) as Huse.
  { intros h m. unfold use. destruct (handle h s) as [w|]; [|done]. by destruct (m _) as [[w1 t] r]. }
  assert (forall h (m : worksheet -> M wb_state unit), through c = Some h -> (forall w b o, q <> ws_path w -> q <> rl_path (ws_rels w) -> SameAt o (m w (b, o)).1.2 q) ->
    SameAt (x_office s.1) (x_office (spend h m s).1.1) q) as Hspend.
  { intros h m Hc Hm. unfold spend. destruct (handle h s) as [w|] eqn:Eh; [|done]. specialize (Hq h w Hc Eh). cbn [handle_parts] in Hq. rewrite !not_elem_of_cons in Hq. destruct Hq as (H1 & H2 & _).
    unfold on_book, x_state. specialize (Hm w (x_book s.1) (x_office s.1) H1 H2). destruct (m w (x_book s.1, x_office s.1)) as [[b1 o1] r]. exact Hm. }
  destruct c; cbn [call_step]; try (by destruct Ho); try apply Hpure; try apply Huse.
  - apply Hspend; [done|]. intros w b o H1 H2. cbn [fst snd]. by apply ws_drop_keeps.
  - apply Hspend; [done|]. intros w b o H1 H2. unfold on_wb_office. cbn [fst snd]. pose proof (ws_flush_keeps w o q H1 H2) as K. by destruct (ws_flush w o).
  - apply Hspend; [done|]. intros w b o H1 H2. by apply delete_keeps.
Qed.
Lemma held_handle s h w q : handle h s = Some w -> q ∈ handle_parts (Some w) -> q ∈ held s.
Proof. intros Hh Hq. apply handle_lookup in Hh. destruct (live_split _ _ _ Hh) as (a & b & L1 & _). unfold held. rewrite L1, !elem_of_app. tauto. Qed.

(** ** The session in which the sheet is handed out *)
Record Once (q : string) (p : open_part) (s : session) : Prop := {
  oc_open : of_open (x_office s.1) !! q = Some p;
  oc_bare : Bare p;
  oc_handle : forall h w, handle h s = Some w -> q ∈ handle_parts (Some w) -> q <> ws_path w /\ q = rl_path (ws_rels w) /\ rl_rels (ws_rels w) = [];
}.
Lemma once_open c s q p : LInv s -> Once q p s -> of_open (x_office (call_step c s).1.1) !! q = Some p.
Proof.
  intros I O. destruct (call_around c s I) as [_ _ _ A _]. specialize (A q p).
  destruct (through c) as [h|] eqn:Et; [|apply A; [done|apply O]]. destruct (handle h s) as [w|] eqn:Eh; [|apply A; [congruence|apply O]].
  destruct (decide (q ∈ handle_parts (Some w))) as [Hin|Hout]; [|apply A; [congruence|apply O]]. clear A.
  destruct (oc_handle _ _ _ O h w Eh Hin) as (H1 & H2 & H3). pose proof (oc_open _ _ _ O) as Hp. pose proof (oc_bare _ _ _ O) as Hb.
  assert (forall m, of_open (x_office (use h m s).1.1) !! q = Some p) as Huse.
  { intros m. unfold use. rewrite Eh. by destruct (m _) as [[w1 t] r]. }
  assert (forall m : worksheet -> M wb_state unit, (forall b o, of_open o !! q = Some p -> of_open (m w (b, o)).1.2 !! q = Some p) -> of_open (x_office (spend h m s).1.1) !! q = Some p) as Hspend.
  { intros m Hm. unfold spend. rewrite Eh. unfold on_book, x_state. specialize (Hm (x_book s.1) (x_office s.1) Hp). destruct (m w (x_book s.1, x_office s.1)) as [[b1 o1] r]. exact Hm. }
  destruct c; try discriminate Et; injection Et as ->; cbn [call_step]; try apply Huse; apply Hspend; intros b o Ho; subst q; cbn [fst snd].
  - by apply drop_bare.
  - unfold on_wb_office. cbn [fst snd]. pose proof (flush_bare w o p H3 H1 Ho Hb) as K. by destruct (ws_flush w o).
  - by apply delete_bare.
Qed.
Lemma once_step c s q p : LInv s -> Once q p s -> Once q p (call_step c s).1.
Proof.
  intros I O. constructor; [by apply once_open|apply O|]. intros h w' Hh Hq. destruct (call_handles _ _ _ _ Hh) as [(w & H1 & H2 & H3)|(H1 & H2 & ->)].
  - cbn [handle_parts] in *. rewrite H2, H3 in *. by apply (oc_handle _ _ _ O h).
  - destruct (call_step c s) as [s' r] eqn:Ec. cbn [fst snd] in *. subst r. destruct (call_new _ _ _ _ I H1 Ec Hh) as [O1 _]. pose proof (oc_open _ _ _ O) as Hp. by rewrite (op_closed _ _ _ O1 q Hq) in Hp.
Qed.
Lemma once_calls cs : forall s s' q p, LInv s -> Once q p s -> calls cs s = Some s' -> LInv s' /\ Once q p s'.
Proof.
  induction cs as [|c cs IH]; intros s s' q p I O; [intros [= <-]; done|]. cbn [calls]. pose proof (call_effect c s I) as HE. pose proof (once_step c s q p I O) as O1.
  destruct (call_step c s) as [s1 [[]|e|e]]; cbn [fst snd] in *; [destruct (HE Logic.I) as [I1 _]; by apply (IH s1)..|done].
Qed.
(** The first time. *)
Lemma ws_new_bare name st st' w q : ws_new name st = (st', Ok w) -> rels_beside (ws_path w) = Ok q -> of_open st.2.2 !! q = None -> of_archive st.2.2 !! q = None ->
  exists p, of_open st'.2.2 !! q = Some p /\ Bare p /\ ws_rels w = mkRelations [] q.
Proof.
  intros Hw Hb Ho Ha. pose proof (ws_new_handle name st w) as Hh. rewrite Hw in Hh. destruct (Hh eq_refl) as [(nm & Hf) _]. clear Hh. rewrite ws_new_after in Hw.
  pose proof (file_name_office name st) as Hs. destruct (get_sheet_file_name name st) as [[l [r o]] x]. cbn [fst snd] in *. subst x o. unfold after_name in Hw. unfold bind at 1, on_pkg at 1, on_office at 1 in Hw. cbn [fst snd] in Hw.
  pose proof (rels_beside_ne _ _ Hb) as Hne. pose proof (keep_get_xml ws_init (ws_path w) st.2.2 q ltac:(congruence)) as [K1 K2]. unfold id in K1, K2.
  destruct (get_xml_document ws_init (ws_path w) st.2.2) as [o1 [[]|e|e]]; [|done..]. cbn [fst snd] in *. unfold bind at 1, lift at 1 in Hw. rewrite Hb in Hw. unfold bind at 1, on_pkg at 1, on_office at 1 in Hw. cbn [fst snd] in Hw.
  destruct (rels_new_bare o1 q) as (p & Hn & Hp); [congruence|congruence|]. rewrite Hn in Hw. cbn [fst snd] in Hw. unfold on_pkg, on_office in Hw. cbn [fst snd] in Hw.
  set (o2 := set_open _ _) in Hw. pose proof (keep_with_doc (ws_path w) ws_load o2 q ltac:(congruence)) as [K3 _]. unfold id in K3. destruct (with_doc (ws_path w) ws_load o2) as [o3 [x|e|e]]; [|done..]. cbn [fst snd] in *.
  destruct (default _ x) as [[[cols data] views] dim]. injection Hw as <- Hw. exists p. split; [cbn [snd]; rewrite K3; apply lookup_insert|]. split; [done|]. by rewrite <- Hw.
Qed.
Lemma give_bare name s s' w q : LInv s -> give (on_book (add_sheet name)) s = (s', Ok tt) -> handle (length s.2) s' = Some w -> rels_beside (ws_path w) = Ok q -> ~ Present (x_office s.1) q ->
  exists p, of_open (x_office s'.1) !! q = Some p /\ Bare p /\ ws_rels w = mkRelations [] q.
Proof.
  intros I. unfold give, on_book, x_state, add_sheet. cbn [fst snd]. set (st := (wb_sheets (x_book s.1), (wb_rels (x_book s.1), x_office s.1))).
  pose proof (fun st' w => ws_new_bare name st st' w q) as Hk. destruct (ws_new name st) as [[l [r o]] [w1|e|e]]; cbn [fst snd] in *; [|done..]. intros [= <-] Hw Hb Hp. unfold handle in Hw. cbn [snd] in Hw.
  rewrite lookup_app_r, Nat.sub_diag in Hw by lia. injection Hw as <-. unfold Present in Hp. apply (Hk _ _ eq_refl); [done|apply eq_None_not_Some; tauto..].
Qed.
Lemma once_start c s s' w q : LInv s -> opens c -> call_step c s = (s', Ok tt) -> handle (length s.2) s' = Some w -> Beside (ws_path w) q -> ~ Present (x_office s.1) q ->
  LInv s' /\ q ∈ handle_parts (Some w) /\ exists p, Once q p s'.
Proof.
  intros I Ho Hc Hw Hb Hp. apply beside_spec in Hb. destruct (call_new _ _ _ _ I Ho Hc Hw) as [Op Hr]. assert (q = rl_path (ws_rels w)) as Hq by congruence.
  pose proof (call_effect c s I) as HE. rewrite Hc in HE. destruct (HE Logic.I) as [I' _]. cbn [fst] in I'. split; [done|]. split; [subst q; right; by left|].
  assert (exists p, of_open (x_office s'.1) !! q = Some p /\ Bare p /\ ws_rels w = mkRelations [] q) as (p & P1 & P2 & P3).
  { destruct c; try done; cbn [call_step] in Hc; [exact (give_bare name s s' w q I Hc Hw Hb Hp)|exact (give_bare (Some name) s s' w q I Hc Hw Hb Hp)]. }
  exists p. constructor; [done|done|]. intros h w' Hh Hin. assert (w' = w) as ->.
  { destruct (call_handles c s h w') as [(w0 & H1 & H2 & H3)|(_ & _ & ->)]; [by rewrite Hc| |congruence].
    exfalso. apply Hp. left. apply (li_open _ I). eapply held_handle; [exact H1|]. cbn [handle_parts] in *. by rewrite <- H2, <- H3. }
  split; [by apply rels_beside_ne|]. split; [done|]. by rewrite P3.
Qed.
Lemma once_later cs s q p w w' : LInv s -> Once q p s -> Beside (ws_path w) q -> HandedOut cs s w' -> ws_path w' <> ws_path w.
Proof.
  intros I O Hb (cs1 & c & cs2 & s1 & s2 & -> & H1 & H2 & H3 & H4) He. destruct (once_calls _ _ _ _ _ I O H1) as [I1 O1]. destruct (call_new _ _ _ _ I1 H2 H3 H4) as [Op Hr].
  apply beside_spec in Hb. rewrite He, Hb in Hr. injection Hr as ->. pose proof (oc_open _ _ _ O1) as Hq. rewrite (op_closed _ _ _ Op) in Hq; [done|]. right. by left.
Qed.
(** ** What is saved *)
Lemma bare_refused p : Bare p -> exists data m, write_doc (op_doc p) = Ok data /\ read_doc data = Err m.
Proof.
  intros [Hd Hn]. destruct (read_empty_root (d_ns (op_doc p)) "Relationships" (Some ∅)) as [m Hm]; [apply names_ok_node; split; [by vm_compute|split; [apply attrs_ok_empty|constructor]]|done|].
  eexists _, m. split; [by apply (Doc_write _ _ Hd)|done].
Qed.
Lemma saved_bare t f path (s : session) fs tr fs' o2 q p : excel_save t f path s.1 fs = (tr, Ok tt) -> last tr = Some fs' -> office_new (Some path) fs' = Ok o2 -> q <> content_types_name ->
  q ∉ own_parts (x_book s.1) -> q ∉ DocsIn (x_suite s.1) -> of_open (x_office s.1) !! q = Some p -> Bare p -> Unreadable o2 q.
Proof.
  intros Hs Hl Hn Hq Ho Hd Hp Hb. unfold excel_save in Hs. pose proof (flush_keeps (x_book s.1) (x_office s.1)) as K. destruct (wb_flush (x_book s.1) (x_office s.1)) as [o [[]|e|e]]; [|done..]. cbn [fst] in K.
  destruct (K q Ho) as [K1 _]. unfold DocsIn in Hd. rewrite !not_elem_of_cons in Hd. destruct Hd as (D1 & D2 & _). unfold suite_save, bind in Hs. cbn [su_core su_root su_office] in Hs.
  pose proof (keep_core_flush t (su_core (x_suite s.1)) o q D2) as [K2 _]. unfold id in K2. destruct (core_flush t (su_core (x_suite s.1)) o) as [o1 [[]|e|e]]; [|done..]. cbn [fst] in *.
  pose proof (keep_rels_close (su_root (x_suite s.1)) o1 q D1) as [K3 _]. unfold id in K3. destruct (rels_close (su_root (x_suite s.1)) o1) as [o3 [[]|e|e]]; [|done..]. cbn [fst] in *.
  destruct (office_save f path o3 fs) as [o4 [tr3 r3]] eqn:Hsave. cbn [snd] in Hs. injection Hs as -> ->.
  destruct (save_reopen_open _ _ _ _ _ _ _ _ q p Hsave Hl Hn Hq) as (e & data & E1 & E2 & E3); [congruence|]. destruct (save_reopen _ _ _ _ _ _ _ _ Hsave Hl Hn) as [Hop _].
  destruct (bare_refused p Hb) as (data' & m & B1 & B2). rewrite B1 in E3. injection E3 as ->. split; [by rewrite Hop, lookup_empty|]. exists e. split; [done|]. intros c d0 d Hc Hg.
  unfold part_bytes in E2. rewrite Hc in E2. unfold decompress_content in E2. rewrite Hg in E2. injection E2 as ->. by rewrite B2.
Qed.

(** ** The session after that *)
Definition Stuck (r : string) (s : session) : Prop := is_Some (of_open (x_office s.1) !! r) /\ forall h w, handle h s = Some w -> r ∉ handle_parts (Some w).
Lemma stuck_step c s r : LInv s -> Stuck r s -> Stuck r (call_step c s).1.
Proof.
  intros I [[p Hp] Hh]. split.
  - destruct (call_around c s I) as [_ _ _ A _]. exists p. apply A; [|done]. intros h w _ Hw. by eapply Hh.
  - intros h w' Hw Hin. destruct (call_handles _ _ _ _ Hw) as [(w & H1 & H2 & H3)|(H1 & H2 & ->)].
    + apply (Hh h w H1). cbn [handle_parts] in *. by rewrite <- H2, <- H3.
    + destruct (call_step c s) as [s' x] eqn:Ec. cbn [fst snd] in *. subst x. destruct (call_new _ _ _ _ I H1 Ec Hw) as [O1 _]. by rewrite (op_closed _ _ _ O1 r Hin) in Hp.
Qed.
Definition Spoilt (path q : string) (s : session) : Prop := Stuck path s \/ Stuck q s \/ Unreadable (x_office s.1) q.
Lemma beside_path p p' q : Beside p q -> Beside p' q -> p = p'.
Proof.
  intros (d & f & -> & Hf & ->) (d' & f' & -> & Hf' & Hq).
  assert (forall x y, no_folder y -> rsplit_at_byte (fun a => aeqb a "/") ((x +:+ "/_rels") +:+ String "/" y) = Some (x +:+ "/_rels", "/"%char, y)) as Hs. { intros x y Hy. apply rsplit_intro; [done|by apply no_slash]. }
  assert ((d +:+ "/_rels") +:+ String "/" f = (d' +:+ "/_rels") +:+ String "/" f') as He.
  { apply (app_inj_r ".rels"). rewrite <- !app_assoc_s. exact Hq. }
  pose proof (Hs d f Hf) as H1. rewrite He, (Hs d' f' Hf') in H1. injection H1 as H1 ->. apply app_inj_r in H1. by rewrite H1.
Qed.
Lemma after_spoilt path nm l r o q z x : rels_beside path = Ok q -> q <> path -> Unreadable o q -> after_name path nm (l, (r, o)) = (z, x) ->
  Unreadable z.2.2 q \/ (is_Some (of_open z.2.2 !! path) /\ of_open o !! path = None /\ forall w, x <> Ok w).
Proof.
  intros Hr Hqp Hu. unfold after_name. unfold bind at 1, on_pkg at 1, on_office at 1. cbn [fst snd].
  pose proof (keep_get_xml ws_init path o q Hqp) as K. unfold id in K. destruct (get_xml_document ws_init path o) as [o1 [[]|e|e]] eqn:Eg; cbn [fst snd] in *; [|intros [= <- <-]; left; by apply (same_unreadable _ _ _ K)..].
  apply (same_unreadable _ _ _ K) in Hu. destruct (get_stored _ _ _ _ Eg) as (p0 & Hp0 & _). unfold bind at 1, lift at 1. rewrite Hr. unfold bind at 1, on_pkg at 1, on_office at 1. cbn [fst snd].
  pose proof (rels_keeps_open q o1 path p0 Hp0) as Hk. unfold id in Hk. assert (forall rl, (rels_new q o1).2 <> Ok rl) as Hno2.
  { unfold rels_new, bind. destruct (get_xml_document rels_init q o1) as [o2 [[]|e|e]] eqn:E2; [|done..]. by destruct (get_readable _ _ _ _ E2). }
  destruct (rels_new q o1) as [o2 [rl|e|e]]; [by destruct (Hno2 rl)| |]; cbn [fst snd] in *; (intros [= <- <-]; right; split; [by eexists|]; split; [by eapply get_was_closed|done]).
Qed.
Lemma spoilt_give name c s path q : asks c name -> LInv s -> Beside path q -> ~ AsksFor s c q -> Unreadable (x_office s.1) q -> Spoilt path q (give (on_book (add_sheet name)) s).1.
Proof.
  intros Ha I Hb Hno Hu. unfold give, on_book, x_state, add_sheet. cbn [fst snd]. pose proof (fun path nm => asked_path name c s path nm Ha) as Hasked.
  set (st := (wb_sheets (x_book s.1), (wb_rels (x_book s.1), x_office s.1))) in *.
  assert (Unreadable (ws_new name st).1.2.2 q \/ (is_Some (of_open (ws_new name st).1.2.2 !! path) /\ of_open (x_office s.1) !! path = None /\ forall w, (ws_new name st).2 <> Ok w)) as Hend.
  { destruct (get_sheet_file_name name st) as [st1 x] eqn:Ef. pose proof (file_name_office name st) as Hs. rewrite Ef in Hs. cbn [fst snd] in Hs, Hasked.
    destruct x as [[p nm]|e|e]; [|rewrite ws_new_after, Ef; left; cbn [fst]; by rewrite Hs..]. specialize (Hasked p nm eq_refl). assert (q <> p) as Hqp by (intros ->; done).
    destruct (decide (rels_beside p = Ok q)) as [Hr|Hr].
    - assert (p = path) as -> by (eapply beside_path; [by apply beside_spec|done]). rewrite ws_new_after, Ef. destruct st1 as [l [r o]]. cbn [fst snd] in Hs. subst o. destruct (after_name path nm (l, (r, st.2.2))) as [z x] eqn:Ez. exact (after_spoilt _ _ _ _ _ _ _ _ Hr Hqp Hu Ez).
    - left. apply (same_unreadable _ _ _ (ws_new_keeps name st q ltac:(rewrite Ef; cbn [snd]; intros p' nm' rp [= <- <-] Hrp; split; [done|congruence]) ltac:(rewrite Ef; by intros p' nm' [= <- <-]))). done. }
  destruct (ws_new name st) as [[l [r o]] x]. cbn [fst snd] in Hend. destruct Hend as [Hend|(H1 & H2 & H3)]; [right; right; by destruct x|left].
  destruct x as [w|e|e]; [by destruct (H3 w)| |]; (split; [done|]; cbn [fst]; intros h w Hh Hin; destruct (li_open _ I path) as [? Hop]; [by eapply (held_handle s)|congruence]).
Qed.
Lemma spoilt_step c s path q : LInv s -> Beside path q -> ~ AsksFor s c q -> Spoilt path q s -> Spoilt path q (call_step c s).1.
Proof.
  intros I Hb Ha [Hs|[Hs|Hu]]; [left; by apply stuck_step|right; left; by apply stuck_step|].
  assert (~ opens c -> Spoilt path q (call_step c s).1) as Hother.
  { intros Ho. right; right. apply (same_unreadable _ _ _ (call_same c s q Ho ltac:(intros h w _ Hw Hin; destruct (li_open _ I q) as [? Hop]; [by eapply held_handle|]; destruct Hu as [Hu _]; congruence))). done. }
  destruct c; try (apply Hother; by intros []); cbn [call_step].
  - apply (spoilt_give name (CAdd name)); [by left|done..].
  - apply (spoilt_give (Some name) (CGet name)); [right; by eexists|done..].
Qed.
Lemma asked_none c cs s q : NoPanic (call_step c s).2 -> ~ AskedFor (c :: cs) s q -> ~ AsksFor s c q /\ ~ AskedFor cs (call_step c s).1 q.
Proof. intros Hn Ha. split; intros H; apply Ha; [by exists [], c, cs, s|by apply asked_cons]. Qed.
Lemma spoilt_calls cs : forall s s' path q, LInv s -> Beside path q -> ~ AskedFor cs s q -> Spoilt path q s -> calls cs s = Some s' -> LInv s' /\ Spoilt path q s'.
Proof.
  induction cs as [|c cs IH]; intros s s' path q I Hb Ha Hs Hc; [by injection Hc as <-|].
  assert (NoPanic (call_step c s).2 /\ calls cs (call_step c s).1 = Some s') as [Hn Hg]. { cbn [calls] in Hc. by destruct (call_step c s) as [s1 [[]|m|m]]. }
  destruct (asked_none _ _ _ _ Hn Ha) as [A1 A2]. destruct (call_effect c s I Hn) as [I1 _]. apply (IH (call_step c s).1); [done|done|done|by apply spoilt_step|done].
Qed.
Lemma spoilt_none cs s path q w' : LInv s -> Beside path q -> ~ AskedFor cs s q -> Spoilt path q s -> HandedOut cs s w' -> ws_path w' <> path.
Proof.
  intros I Hb Ha Hs (cs1 & c & cs2 & s1 & s2 & -> & H1 & H2 & H3 & H4) <-. 
  assert (calls (cs1 ++ [c]) s = Some s2) as Hc. { clear - H1 H3. revert s H1. induction cs1 as [|a cs1 IH]; intros s; cbn [app calls]; [intros [= ->]; by rewrite H3|]. destruct (call_step a s) as [s4 [[]|m|m]]; [apply IH..|done]. }
  destruct (spoilt_calls (cs1 ++ [c]) s s2 _ q I Hb) as [I2 S2]; [|done|done|].
  { intros (d1 & d & d2 & t & Hd & Hd'). apply Ha. exists d1, d, (d2 ++ cs2), t. split; [|done]. change (c :: cs2) with ([c] ++ cs2). by rewrite app_assoc, Hd, <- app_assoc. }
  destruct (calls_effect _ _ _ I H1) as (I1 & _). destruct (call_new _ _ _ _ I1 H2 H3 H4) as [Op Hr]. apply beside_spec in Hb. rewrite Hb in Hr. injection Hr as Hr.
  assert (ws_path w' ∈ handle_parts (Some w') /\ q ∈ handle_parts (Some w')) as [M1 M2]. { cbn [handle_parts]. rewrite <- Hr, !elem_of_cons. tauto. }
  destruct S2 as [[_ S2]|[[_ S2]|[S2 _]]]; [by destruct (S2 _ _ H4)..|]. destruct (li_open _ I2 q) as [? Hop]; [by eapply held_handle|congruence].
Qed.
(** From one session to the next. *)
Lemma spoilt_start t f path s fs tr fs' x1 p q pt : LInv s -> excel_save t f path s.1 fs = (tr, Ok tt) -> last tr = Some fs' -> excel_new (Some path) fs' = Ok x1 -> q <> content_types_name ->
  q ∉ own_parts (x_book s.1) -> q ∉ DocsIn (x_suite s.1) -> of_open (x_office s.1) !! q = Some p -> Bare p -> Spoilt pt q (x1, []).
Proof.
  intros I Hs Hl Hn Hq Ho Hd Hp Hb. destruct (new_linv _ _ _ Hn) as (_ & o & Hoff & _ & Hkeep). destruct (saved_bare _ _ _ _ _ _ _ _ _ _ Hs Hl Hoff Hq Ho Hd Hp Hb) as (_ & e & He & Hu).
  right. destruct (Hkeep q e He) as [[H1 H2]|[H1|H1]]; [|left; by split|done]. right. split; [done|]. by exists e.
Qed.
Lemma excel_root file fs x : excel_new (Some file) fs = Ok x -> rl_path (su_root (x_suite x)) = root_part.
Proof.
  unfold excel_new. destruct (suite_new (Some file) fs) as [s|e|e] eqn:Es; cbn [rbind]; [|done..]. pose proof (suite_root _ _ _ Es) as Hroot. destruct (opens_suite _ _ _ Es) as (o & _ & _ & O1).
  destruct (workbook_new (su_root s, su_office s)) as [[root o1] [b|e|e]] eqn:Ew; [|done..]. destruct (opens_workbook (su_root s, su_office s) _ _ (op_docs _ _ _ O1) Ew) as [_ Hr].
  intros [= <-]. cbn [fst x_suite su_root] in *. congruence.
Qed.
Lemma first_absent file fs0 l0 x0 cs s q : Stored fs0 file l0 -> excel_new (Some file) fs0 = Ok x0 -> calls cs (x0, []) = Some s -> q <> content_types_name -> q ∉ l0.*1 -> of_open (x_office s.1) !! q = None ->
  (forall p, AskedFor cs (x0, []) p -> q <> p /\ ~ Beside p q) -> ~ Present (x_office s.1) q.
Proof.
  intros Hst Hn Hc Hq Hl Ho Ha Hp. destruct (opened_calls _ _ _ _ _ _ Hst Hn Hc) as (ps & P1 & _ & P3 & _). destruct (P1 q Hq Hp) as [H|[H|H]]; [done| |].
  - destruct (new_linv _ _ _ Hn) as [I _]. destruct (opened_present _ _ _ Hn) as (o & _ & Hpr). destruct (calls_effect _ _ _ I Hc) as (I' & _).
    destruct (li_open _ I' q) as [? Hop]; [|congruence]. destruct (own_stays _ _ _ I Hc) as [O1 _]. destruct (docs_stay _ _ _ I Hc) as (D1 & D2 & _). unfold held, DocsIn. rewrite O1, D1, D2. cbn [fst].
    unfold basic_parts, other_parts in H. cbn [app] in H. rewrite !elem_of_cons, elem_of_nil in H. rewrite (excel_root _ _ _ Hn), !elem_of_app. unfold own_parts. rewrite !elem_of_cons. tauto.
  - destruct (P3 q H) as (p & A1 & A2). destruct (Ha p A1). tauto.
Qed.
(** Who is handed out was asked for. *)
Lemma give_asked name c s s' : asks c name -> give (on_book (add_sheet name)) s = (s', Ok tt) -> exists w, handle (length s.2) s' = Some w /\ AsksFor s c (ws_path w).
Proof.
  intros Ha. unfold give, on_book, x_state, add_sheet. cbn [fst snd]. pose proof (fun path nm => asked_path name c s path nm Ha) as Hasked.
  set (st := (wb_sheets (x_book s.1), (wb_rels (x_book s.1), x_office s.1))) in *. pose proof (ws_new_handle name st) as Hh.
  destruct (ws_new name st) as [[l [r o]] [w|e|e]]; cbn [fst snd] in *; [|done..]. intros [= <-]. exists w. destruct (Hh w eq_refl) as [(nm & Hf) _]. split; [|by eapply Hasked].
  unfold handle. cbn [snd]. by rewrite lookup_app_r, Nat.sub_diag by lia.
Qed.
Lemma get_asked n s s' : call_step (CGet n) s = (s', Ok tt) -> n ∈ list_sheet_names (x_book s.1) -> exists w, handle (length s.2) s' = Some w /\ LeadsTo s n (ws_path w).
Proof.
  intros Hc Hn. cbn [call_step] in Hc. change (get_worksheet n) with (add_sheet (Some n)) in Hc. destruct (give_asked (Some n) (CGet n) s s') as (w & H1 & H2); [right; by eexists|done|].
  exists w. split; [done|]. destruct H2 as [(n' & Ha & Hl)|(name & dir & m & Ha & Hno & _)]; destruct Ha as [Ha|(k & Ha1 & Ha2)]; try discriminate Ha.
  - injection Ha1 as ->. by injection Ha2 as ->.
  - subst name. injection Ha2 as ->. by destruct (Hno k eq_refl).
Qed.
Lemma get_asks n s q : AsksFor s (CGet n) q -> n ∈ list_sheet_names (x_book s.1) -> LeadsTo s n q.
Proof.
  intros H2 Hn. destruct H2 as [(n' & Ha & Hl)|(name & dir & m & Ha & Hno & _)]; destruct Ha as [Ha|(k & Ha1 & Ha2)]; try discriminate Ha.
  - injection Ha1 as ->. by injection Ha2 as ->.
  - subst name. injection Ha2 as ->. by destruct (Hno k eq_refl).
Qed.
Lemma beside_types p q : Beside p q -> q <> content_types_name.
Proof. intros (d & f & _ & _ & ->) H. apply (f_equal srev) in H. rewrite !srev_app_dist in H. by vm_compute in H. Qed.
End with_env.
