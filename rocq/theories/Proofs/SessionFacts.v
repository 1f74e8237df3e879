(** Sessions of a workbook created by the library: what every sequence of calls keeps. *)
From Verif.Model Require Import Excel.
From Verif.Spec Require Import RelSpec XmlSpec XmlRepr PackageSpec.
From Verif.Proofs Require Import BaseFacts RelFacts PackageFacts XmlTreeFacts XmlNsFacts DocBuild RelDocFacts SmallPartFacts SheetDocFacts SheetCycleFacts BookFacts FrameFacts.
Open Scope N_scope.

Definition calc_at : string := "xl/calcChain.xml".
Definition rels_at : string := "xl/_rels/workbook.xml.rels".
Definition root_at : string := "_rels/.rels".
Definition core_at : string := "docProps/core.xml".
Definition book_at : string := "xl/workbook.xml".
Definition theme_at : string := "xl/theme/theme1.xml".
Definition sst_at : string := "xl/sharedStrings.xml".
Definition style_at : string := "xl/styles.xml".
(** Where sheets and their relationships live. *)
Definition sheet_dir : string := "xl/worksheets".
Definition in_area (q : string) : Prop := starts_with "xl/worksheets/" q = true.
(** The relationships a new workbook starts with. *)
Definition base_rels : list rel :=
  [mkRel "rId1" ("/" +:+ theme_at) (c_type c_theme) None; mkRel "rId2" ("/" +:+ sst_at) (c_type c_share_string) None;
   mkRel "rId3" ("/" +:+ calc_at) (c_type c_calc_chain) None; mkRel "rId4" ("/" +:+ style_at) (c_type c_style) None].
Definition root_rels : relations :=
  mkRelations [mkRel "rId1" ("/" +:+ core_at) (c_type c_core) None; mkRel "rId2" ("/" +:+ book_at) (c_type c_workbook) None] root_at.
Definition sheet_rel (x : rel) : Prop :=
  r_type x = c_type c_worksheet /\ (exists k, r_target x = "/" +:+ sheet_path sheet_dir k) /\ r_id x ∉ map r_id base_rels
  /\ (exists k, r_id x = rid k) /\ r_mode x = None.
Record BookShape (b : workbook) : Prop := {
  bs_path : wb_path b = book_at;
  bs_rels : rl_path (wb_rels b) = rels_at;
  bs_theme : wb_theme b = theme_at;
  bs_calc : wb_calc b = mkCalc [] calc_at;
  bs_sst : ss_path (wb_sst b) = sst_at;
  bs_style : sp_path (wb_style b) = style_at;
  bs_list : exists ext, rl_rels (wb_rels b) = base_rels ++ ext /\ Forall sheet_rel ext;
  bs_sheets : Forall (fun s => sh_rel s ∉ map r_id base_rels) (wb_sheets b);
}.
Definition HandleOk (w : worksheet) : Prop :=
  (exists k, ws_path w = sheet_path sheet_dir k) /\ rels_beside (ws_path w) = Ok (rl_path (ws_rels w)).
Record SessionInv (o0 : office) (s : session) : Prop := {
  si_root : su_root (x_suite s.1) = root_rels;
  si_core : su_core (x_suite s.1) = core_at;
  si_book : BookShape (x_book s.1);
  si_live : Forall (fun h => forall w, h = Some w -> HandleOk w) s.2;
  si_parts : forall q, ~ in_area q -> SameAt o0 (x_office s.1) q;
}.

Section with_env.
Context `{E : Env} `{Hs : Hashes}.

Lemma split_intro p l b r : p b = true -> sforall (fun a => negb (p a)) l = true -> split_at_byte p (l +:+ String b r) = Some (l, b, r).
Proof.
  intros Hb. induction l as [|a l IH]; cbn [String.append sforall split_at_byte]; [by rewrite Hb|].
  intros [Ha Hl]%andb_true_iff. apply Bool.negb_true_iff in Ha. by rewrite Ha, IH.
Qed.
Lemma sforall_srev p s : sforall p (srev s) = sforall p s.
Proof.
  induction s as [|a s IH]; [done|]. rewrite srev_cons, sforall_app, IH. cbn [sforall]. rewrite andb_true_r. apply andb_comm.
Qed.
Lemma rsplit_intro p l b r : p b = true -> sforall (fun a => negb (p a)) r = true -> rsplit_at_byte p (l +:+ String b r) = Some (l, b, r).
Proof.
  intros Hb Hr. unfold rsplit_at_byte. rewrite srev_app_dist, srev_cons, <- app_assoc_s. cbn [String.append].
  rewrite split_intro; [|done|by rewrite sforall_srev]. by rewrite !srev_involutive.
Qed.
Lemma sheet_in_area k : in_area (sheet_path sheet_dir k).
Proof. reflexivity. Qed.
Lemma sheet_beside k : rels_beside (sheet_path sheet_dir k) = Ok (sheet_dir +:+ "/_rels/" +:+ (sheet_file k +:+ "." +:+ c_ext c_worksheet) +:+ ".rels").
Proof.
  unfold rels_beside, sheet_path. change ("/" +:+ ?x) with (String "/" x). rewrite rsplit_intro; [done|done|].
  unfold sheet_file. rewrite !sforall_app. rewrite (sforall_impl is_digit_byte _ (show_N k)); [done| |apply show_N_digits].
  intros [[] [] [] [] [] [] [] []]; by vm_compute.
Qed.
Lemma handle_area w : HandleOk w -> in_area (ws_path w) /\ in_area (rl_path (ws_rels w)).
Proof.
  intros [(k & Hk) Hb]. rewrite Hk in Hb |- *. rewrite sheet_beside in Hb. injection Hb as <-. split; reflexivity.
Qed.

(** ** Opening a sheet *)
Lemma ws_new_handle name s w : (ws_new name s).2 = Ok w ->
  (exists nm, (get_sheet_file_name name s).2 = Ok (ws_path w, nm)) /\ rels_beside (ws_path w) = Ok (rl_path (ws_rels w)).
Proof.
  unfold ws_new, bind. destruct (get_sheet_file_name name s) as [[l [r o]] [[path nm]|e|e]]; [|done..].
  unfold on_pkg, on_office, lift. cbn [fst snd].
  destruct (get_xml_document ws_init path o) as [o1 [[]|e|e]]; cbn [fst snd]; [|done..].
  destruct (rels_beside path) as [rp|e|e] eqn:Erp; [|done..]. cbn [fst snd].
  assert (forall o' rl, rels_new rp o1 = (o', Ok rl) -> rl_path rl = rp) as Hrl.
  { intros o' rl. unfold rels_new, bind. destruct (get_xml_document rels_init rp o1) as [oa [[]|e|e]]; [|done..].
    destruct (with_doc rp load_relations oa) as [ob [x|e|e]]; [|done..]. by intros [= _ <-]. }
  destruct (rels_new rp o1) as [o2 [rels|e|e]]; cbn [fst snd]; [|done..].
  specialize (Hrl _ _ eq_refl). destruct (with_doc path ws_load o2) as [o3 [x|e|e]]; cbn [fst snd]; [|done..].
  destruct (default _ x) as [[[cols data] views] dim]. cbn. intros [= <-]. cbn. split; [by exists nm|]. by rewrite Hrl.
Qed.
Lemma shape_relative b : BookShape b -> get_relative_path (wb_rels b) = Ok "xl/".
Proof. intros Hb. unfold get_relative_path. rewrite (bs_rels _ Hb). reflexivity. Qed.
(** The file name of a sheet of this workbook, old or new. *)
Lemma shape_target b id p : BookShape b -> id ∉ map r_id base_rels -> get_target_by_id (wb_rels b) id = Ok (Some p) ->
  exists k, p = sheet_path sheet_dir k.
Proof.
  intros Hb Hid. unfold get_target_by_id. destruct (bs_list _ Hb) as (ext & Hl & Hext).
  destruct (List.find _ _) as [x|] eqn:Ef; [|done]. apply find_some in Ef as [Hx Hi]. apply seqb_true in Hi. rewrite Hl in Hx.
  apply in_app_or in Hx as [Hx|Hx]. { destruct Hid. rewrite <- Hi. apply elem_of_list_In. by apply in_map. }
  rewrite Forall_forall in Hext. apply elem_of_list_In in Hx. destruct (Hext x Hx) as (_ & (k & Hk) & _).
  unfold resolve_target. rewrite (shape_relative _ Hb). cbn [rbind]. rewrite Hk. change (strip_prefix "/" ("/" +:+ sheet_path sheet_dir k)) with (Some (sheet_path sheet_dir k)).
  intros [= <-]. eauto.
Qed.
Lemma shape_file b o name : BookShape b ->
  let r := get_sheet_file_name name (wb_sheets b, (wb_rels b, o)) in
  BookShape (set_wb_rels (set_wb_sheets b r.1.1) r.1.2.1) /\ (forall path nm, r.2 = Ok (path, nm) -> exists k, path = sheet_path sheet_dir k).
Proof.
  intros Hb. cbn zeta.
  assert (forall n, name = Some n -> n ∈ BookSpec.names (wb_sheets b) ->
     BookShape (set_wb_rels (set_wb_sheets b (get_sheet_file_name name (wb_sheets b, (wb_rels b, o))).1.1) (get_sheet_file_name name (wb_sheets b, (wb_rels b, o))).1.2.1)
     /\ (forall path nm, (get_sheet_file_name name (wb_sheets b, (wb_rels b, o))).2 = Ok (path, nm) -> exists k, path = sheet_path sheet_dir k)) as Hold.
  { intros n -> Hn. pose proof (find_named n (wb_sheets b)) as Hf.
    destruct (List.find _ (wb_sheets b)) as [x|] eqn:Ef; [|done]. destruct Hf as [Hx _].
    rewrite (file_name_old n x _ _ o Ef). cbn [fst snd]. split; [by destruct Hb; constructor|].
    intros path nm. destruct (get_target_by_id (wb_rels b) (sh_rel x)) as [[p|]|e|e] eqn:Et; [|done..]. intros [= <- _].
    eapply shape_target; [exact Hb| |exact Et]. pose proof (bs_sheets _ Hb) as Hsh. rewrite Forall_forall in Hsh. by apply Hsh. }
  assert ((forall n, name = Some n -> n ∉ BookSpec.names (wb_sheets b)) ->
     BookShape (set_wb_rels (set_wb_sheets b (get_sheet_file_name name (wb_sheets b, (wb_rels b, o))).1.1) (get_sheet_file_name name (wb_sheets b, (wb_rels b, o))).1.2.1)
     /\ (forall path nm, (get_sheet_file_name name (wb_sheets b, (wb_rels b, o))).2 = Ok (path, nm) -> exists k, path = sheet_path sheet_dir k)) as Hnew.
  { intros Hn. destruct (file_name_new name (wb_sheets b) (wb_rels b) o "xl/") as (k & Hk); [|by apply shape_relative|].
    { intros n x Hnm Hx Heq. apply (Hn n Hnm). apply in_names. eauto. }
    cbn zeta in Hk. destruct Hk as (-> & _ & _ & _). cbn [fst snd]. change ("xl/" +:+ c_path c_worksheet) with sheet_dir. split; [|intros path nm [= <- _]; eauto].
    destruct (get_next_spec (wb_rels b)) as (j & Hj & _ & Hnot & _). rewrite Hj.
    destruct (bs_list _ Hb) as (ext & Hl & Hext).
    assert (rid j ∉ map r_id base_rels) as Hjb. { unfold rel_ids in Hnot. rewrite Hl, map_app in Hnot. intros Hin. apply Hnot, elem_of_app. by left. }
    destruct Hb as [B1 B2 B3 B4 B5 B6 B7 B8]. constructor; try done; cbn [set_wb_rels set_wb_sheets wb_rels wb_sheets set_rels rl_rels].
    - exists (ext ++ [mkRel (rid j) ("/" +:+ sheet_path sheet_dir k) (c_type c_worksheet) None]). split; [by rewrite Hl, app_assoc|].
      apply Forall_app. split; [done|]. apply Forall_singleton. split; [done|]. split; [by exists k|]. split; [done|]. split; [by exists j|done].
    - apply Forall_app. split; [done|]. by apply Forall_singleton. }
  destruct name as [n|]; [|by apply Hnew]. destruct (decide (n ∈ BookSpec.names (wb_sheets b))) as [Hn|Hn]; [by eapply Hold|]. apply Hnew. by intros ? [= <-].
Qed.
Lemma add_inv b o name : BookShape b ->
  let r := add_sheet name (b, o) in
  BookShape r.1.1 /\ (forall w, r.2 = Ok w -> HandleOk w) /\ (forall q, ~ in_area q -> SameAt o r.1.2 q).
Proof.
  intros Hb. cbn zeta. destruct (shape_file b o name Hb) as [S1 S2]. set (s := (wb_sheets b, (wb_rels b, o))) in *.
  destruct (ws_new_list name s) as (L1 & L2 & _).
  pose proof (fun w H => ws_new_handle name s w H) as L3.
  assert (forall q, ~ in_area q -> SameAt o (ws_new name s).1.2.2 q) as L4.
  { intros q Hq. apply (ws_new_keeps name s q).
    - intros path nm rp Hp Hrp. destruct (S2 _ _ Hp) as (k & ->). split; [intros ->; apply Hq, sheet_in_area|].
      rewrite sheet_beside in Hrp. injection Hrp as <-. intros ->. by apply Hq.
    - intros path nm Hp. destruct (S2 _ _ Hp) as (k & ->). intros ->; apply Hq, sheet_in_area. }
  unfold add_sheet. cbn [fst snd]. fold s. destruct (ws_new name s) as [[l [r o1]] x]. cbn [fst snd] in *. subst l r. split; [done|]. split; [|done].
  intros w Hw. destruct (L3 w Hw) as [(nm & Hn) H2]. split; [|done]. by eapply S2.
Qed.
Lemma delete_inv b o w : BookShape b -> HandleOk w ->
  let r := wb_delete_sheet w (b, o) in BookShape r.1.1 /\ (forall q, ~ in_area q -> SameAt o r.1.2 q).
Proof.
  intros Hb Hw. cbn zeta. destruct (delete_list w b o) as [D1 D2]. destruct (handle_area w Hw) as [A1 A2]. split.
  - assert (same_paths b (wb_delete_sheet w (b, o)).1.1) as Hp.
    { unfold wb_delete_sheet. destruct (delete_sheet w _) as [[l [r o1]] x] eqn:Ed. cbn [fst snd] in *.
      unfold wb_delete_sheet in D2. cbn [fst snd] in D2. rewrite Ed in D2. cbn in D2. subst r. done. }
    destruct Hp as (P1 & P2 & P3 & P4 & P5 & P6). destruct Hb as [B1 B2 B3 B4 B5 B6 B7 B8].
    constructor; try congruence.
    + rewrite D2, delete_rels. destruct B7 as (ext & Hl & Hext). destruct Hw as [(k & ->) _].
      exists (List.filter (fun x => negb (seqb (r_target x) (absolute (sheet_path sheet_dir k)))) ext). rewrite Hl, List.filter_app. split; [reflexivity|].
      apply Forall_forall. intros x Hx. rewrite Forall_forall in Hext. apply Hext. apply elem_of_list_In in Hx. apply filter_In in Hx as [Hx _]. by apply elem_of_list_In.
    + rewrite D1. apply Forall_forall. intros x [_ Hx]%elem_of_list_filter. rewrite Forall_forall in B8. by apply B8.
  - intros q Hq. apply delete_keeps; intros ->; by apply Hq.
Qed.

(** ** Calls on a handle *)
Definition WsStays {T} (m : M (worksheet * T) unit) : Prop := forall s, ws_path (m s).1.1 = ws_path s.1 /\ ws_rels (m s).1.1 = ws_rels s.1.
Lemma stays_row r c cs : WsStays (set_row_value r c cs).
Proof.
  intros [w t]. unfold set_row_value. destruct (u16_sub env_mode c 1); [|done..]. destruct (store_cells cs t) as [t1 cs1].
  destruct (place_cells _ _ _ _ _) as [[dim cells] x]. destruct x; [done|..]; cbn; by destruct (rd_cells _).
Qed.
Lemma stays_row_ref ref cs : WsStays (set_row_value_ref ref cs).
Proof.
  intros s. unfold set_row_value_ref, bind, lift. destruct (get_cell_index ref) as [[r c]|e|e]; [|done..]. apply stays_row.
Qed.
Lemma stays_row_props {T} r p : WsStays (T := T) (on_handle (set_row_props r p)).
Proof. intros [w t]. done. Qed.
Lemma stays_col {T} c p : WsStays (T := T) (on_handle (set_column_index c p)).
Proof. intros [w t]. done. Qed.
Lemma stays_col_ref {T} ref p : WsStays (T := T) (on_handle (set_column_ref ref p)).
Proof. intros [w t]. unfold on_handle, set_column_ref, bind, lift. cbn [fst snd]. by destruct (get_column_index ref). Qed.
Lemma use_inv o0 h m s : WsStays m -> SessionInv o0 s -> SessionInv o0 (use h m s).1.
Proof.
  intros Hm [I1 I2 I3 I4 I5]. unfold use. destruct (handle h s) as [w|] eqn:Eh; [|by constructor].
  destruct (Hm (w, ss_strings (wb_sst (x_book s.1)))) as [H1 H2]. destruct (m _) as [[w1 t1] r]. cbn [fst snd] in *.
  constructor; cbn [fst snd x_suite x_book]; [done|done| | |done].
  - destruct I3. by constructor.
  - assert (HandleOk w1) as Hw1.
    { assert (HandleOk w) as [Hk Hb]. { unfold handle in Eh. destruct (s.2 !! h) as [y|] eqn:El; [|done]. rewrite Forall_lookup in I4. by apply (I4 h y El). }
      split; [by rewrite H1|by rewrite H1, H2]. }
    apply Forall_insert; [done|]. by intros w' [= <-].
Qed.
Lemma handle_ok o0 h s w : SessionInv o0 s -> handle h s = Some w -> HandleOk w.
Proof. intros [_ _ _ I4 _] Eh. unfold handle in Eh. destruct (s.2 !! h) as [y|] eqn:El; [|done]. rewrite Forall_lookup in I4. by apply (I4 h y El). Qed.
Lemma spend_inv o0 h m s : SessionInv o0 s ->
  (forall w b o, HandleOk w -> BookShape b -> let r := m w (b, o) in BookShape r.1.1 /\ (forall q, ~ in_area q -> SameAt o r.1.2 q)) ->
  SessionInv o0 (spend h m s).1.
Proof.
  intros I Hm. unfold spend. destruct (handle h s) as [w|] eqn:Eh; [|done]. pose proof (handle_ok _ _ _ _ I Eh) as Hw.
  destruct I as [I1 I2 I3 I4 I5]. unfold on_book, x_state. destruct (Hm w (x_book s.1) (x_office s.1) Hw I3) as [M1 M2].
  destruct (m w (x_book s.1, x_office s.1)) as [[b o] r]. cbn [fst snd] in *. constructor; cbn; [done|done|done| |].
  - by apply Forall_insert.
  - intros q Hq. eapply same_trans; [by apply I5|]. by apply M2.
Qed.
Lemma give_inv o0 name s : SessionInv o0 s -> SessionInv o0 (give (on_book (add_sheet name)) s).1.
Proof.
  intros [I1 I2 I3 I4 I5]. unfold give, on_book, x_state. destruct (add_inv (x_book s.1) (x_office s.1) name I3) as (A1 & A2 & A3).
  destruct (add_sheet name (x_book s.1, x_office s.1)) as [[b o] r]. cbn [fst snd] in *.
  assert (forall live, Forall (fun h => forall w, h = Some w -> HandleOk w) live -> SessionInv o0 (set_x s.1 (b, o), live)) as Hgo.
  { intros live Hl. constructor; cbn; [done|done|done|done|]. intros q Hq. eapply same_trans; [by apply I5|]. by apply A3. }
  destruct r as [w|e|e]; apply Hgo; [|done|done]. apply Forall_app. split; [done|]. apply Forall_singleton. intros w' [= <-]. by apply A2.
Qed.
Definition KeepsShape {A} (m : M workbook A) : Prop := forall b, BookShape b -> BookShape (m b).1.
Lemma pure_inv o0 m s : KeepsShape m -> SessionInv o0 s -> SessionInv o0 (on_excel (on_book (A := unit) (pure_book m)) s).1.
Proof.
  intros Hm [I1 I2 I3 I4 I5]. unfold on_excel, on_book, pure_book, x_state. cbn [fst snd]. specialize (Hm _ I3). destruct (m (x_book s.1)) as [b r].
  cbn [fst snd] in *. by constructor.
Qed.
Lemma shape_view f : KeepsShape (on_view f).
Proof. intros b []. by constructor. Qed.
Lemma shape_map f b : (forall s, sh_rel (f s) = sh_rel s) -> BookShape b -> BookShape (set_wb_sheets b (map f (wb_sheets b))).
Proof.
  intros Hf [B1 B2 B3 B4 B5 B6 B7 B8]. constructor; try done. cbn. apply Forall_map. eapply List.Forall_impl; [|exact B8]. intros s H0. by rewrite Hf.
Qed.
Lemma shape_rename old new : KeepsShape (rename_sheet old new).
Proof.
  intros b Hb. destruct (rename_sheet_spec old new b) as [(_ & e & ->)|(l1 & x & l2 & Hl & _ & _ & _ & ->)]; [done|].
  destruct Hb as [B1 B2 B3 B4 B5 B6 B7 B8]. constructor; try done. cbn. rewrite Hl in B8. apply Forall_app in B8 as [? [? ?]%Forall_cons]. apply Forall_app. split; [done|]. by apply Forall_cons.
Qed.
Lemma shape_style st : KeepsShape (bind (wb_style_id st) (fun _ => ret tt)).
Proof.
  intros b Hb. unfold bind, wb_style_id. destruct (get_style_id st _) as [st' [r|e|e]]; cbn; destruct Hb; by constructor.
Qed.
Theorem call_inv o0 c s : SessionInv o0 s -> SessionInv o0 (call_step c s).1.
Proof.
  intros I. destruct c; cbn [call_step].
  - by apply give_inv.
  - by apply give_inv.
  - apply pure_inv; [apply shape_rename|done].
  - apply pure_inv; [|done]. intros b Hb. by apply shape_map.
  - apply pure_inv; [|done]. intros b Hb. by apply shape_map.
  - apply pure_inv; [apply shape_view|done].
  - apply pure_inv; [apply shape_view|done].
  - apply pure_inv; [apply shape_view|done].
  - apply pure_inv; [apply shape_view|done].
  - apply pure_inv; [apply shape_view|done].
  - apply pure_inv; [apply shape_style|done].
  - apply use_inv; [apply stays_row|done].
  - apply use_inv; [apply stays_row_ref|done].
  - apply use_inv; [apply stays_row_props|done].
  - apply use_inv; [apply stays_col|done].
  - apply use_inv; [apply stays_col_ref|done].
  - apply spend_inv; [done|]. intros w b o Hw Hb. cbn. split; [done|]. destruct (handle_area w Hw). intros q Hq. apply ws_drop_keeps; intros ->; by apply Hq.
  - apply spend_inv; [done|]. intros w b o Hw Hb. destruct (handle_area w Hw). unfold on_wb_office. cbn [fst snd].
    pose proof (ws_flush_keeps w o) as K. destruct (ws_flush w o). cbn in *. split; [done|]. intros q Hq. apply K; intros ->; by apply Hq.
  - apply spend_inv; [done|]. intros w b o Hw Hb. by apply delete_inv.
Qed.
Theorem calls_inv o0 cs : forall s s', SessionInv o0 s -> calls cs s = Some s' -> SessionInv o0 s'.
Proof.
  induction cs as [|c cs IH]; intros s s' I; cbn [calls]; [by intros [= <-]|]. pose proof (call_inv o0 c s I) as I1.
  destruct (call_step c s) as [s1 [[]|e|e]]; [by apply IH|by apply IH|done].
Qed.

(** ** A new workbook *)
(** The calculation chain part is open and holds nothing. *)
Definition ChainEmpty (o : office) : Prop := exists p, of_open o !! calc_at = Some p /\ Doc (op_doc p) (Node "calcChain" (Some ∅) None [])
  /\ ns_ok (d_ns (op_doc p)).
Record NewParts (o : office) : Prop := {
  np_root : RelsOpen o root_at;
  np_rels : RelsOpen o rels_at;
  np_chain : ChainEmpty o;
  np_book : exists rest, BookSpec.BookOpen o book_at rest;
}.
Lemma rels_open_same o o' q : SameAt o o' q -> RelsOpen o q -> RelsOpen o' q.
Proof. intros [H1 _] (p & it & Hp & Hr). exists p, it. by rewrite H1. Qed.
Lemma chain_same o o' : SameAt o o' calc_at -> ChainEmpty o -> ChainEmpty o'.
Proof. intros [H1 _] (p & Hp & Hr). exists p. by rewrite H1. Qed.
Lemma book_open_same o o' q rest : SameAt o o' q -> BookSpec.BookOpen o q rest -> BookSpec.BookOpen o' q rest.
Proof. intros [H1 _] (p & it & Hp & Hr). exists p, it. by rewrite H1. Qed.
Lemma new_parts_same o o' : (forall q, ~ in_area q -> SameAt o o' q) -> NewParts o -> NewParts o'.
Proof.
  intros Hq [N1 N2 N3 [rest N4]]. constructor; [eapply rels_open_same; [by apply Hq|done]..| |].
  - eapply chain_same; [by apply Hq|done].
  - exists rest. eapply book_open_same; [by apply Hq|done].
Qed.
Definition Absent (o : office) (q : string) : Prop := of_open o !! q = None /\ of_archive o !! q = None.
Lemma absent_same o o' q : SameAt o o' q -> Absent o q -> Absent o' q.
Proof. intros [H1 H2] [H3 H4]. split; congruence. Qed.
Lemma chain_new r r' o : part_path c_calc_chain None r = (r', Ok calc_at) -> Absent o calc_at ->
  exists o1, calc_new (r, o) = ((r', o1), Ok (mkCalc [] calc_at)) /\ ChainEmpty o1 /\ forall q, q <> calc_at -> SameAt o o1 q.
Proof.
  intros Hp [Ho Ha]. destruct (init_with_ns_spec c_calc_chain "calcChain") as (d & Hi & Hd & Hns); [by vm_compute|].
  destruct (Doc_load_calc d _ _ _ _ Hd) as (d' & Hl & Hd' & Hns'). cbn [List.filter] in Hl, Hd'.
  set (p0 := mkOpen d _ _ _) in Hi.
  assert (get_xml_document calc_init calc_at o = (mkOffice (<[calc_at := p0]> (of_open o)) (of_archive o), Ok tt)) as Hget.
  { unfold get_xml_document, get_xml_tree, bind. rewrite Ho, Ha. unfold lift. unfold calc_init. by rewrite Hi. }
  unfold calc_new, bind, on_rels. cbn [fst snd]. rewrite Hp. unfold on_office. cbn [fst snd]. rewrite Hget. cbn [fst snd].
  rewrite (with_doc_spec calc_at load_calc _ p0 d' _ (lookup_insert _ _ _) Hl). cbn. eexists. split; [done|]. split.
  - exists (mkOpen d' (op_ct p0) (op_ext p0) (op_ext_type p0)). cbn [of_open op_doc]. split; [apply lookup_insert|]. split; [done|].
    rewrite Hns', Hns. apply ns_ok_single. by vm_compute.
  - intros q Hq. split; [|done]. cbn. by rewrite !lookup_insert_ne.
Qed.
Lemma services_new o s2 theme s c y : Absent o calc_at ->
  bind theme_new (fun theme => bind sst_new (fun s => bind calc_new (fun c => bind style_new (fun y => ret (theme, s, c, y))))) (mkRelations [] rels_at, o)
    = (s2, Ok (theme, s, c, y)) ->
  s2.1 = mkRelations base_rels rels_at /\ theme = theme_at /\ ss_path s = sst_at /\ c = mkCalc [] calc_at /\ sp_path y = style_at
  /\ ChainEmpty s2.2 /\ (forall q, q ∉ [theme_at; sst_at; calc_at; style_at] -> SameAt o s2.2 q).
Proof.
  intros Hz. unfold theme_new. unfold bind at 1. unfold bind at 1. unfold on_rels at 1. cbn [fst snd].
  assert (part_path c_theme (Some ("xl/" +:+ c_path c_theme)) (mkRelations [] rels_at) = (mkRelations (take 1 base_rels) rels_at, Ok theme_at)) as P1 by reflexivity.
  rewrite P1. unfold bind at 1. unfold on_office at 1. cbn [fst snd].
  pose proof (keep_get_xml theme_init theme_at o) as K1. unfold id in K1.
  destruct (get_xml_document theme_init theme_at o) as [o1 [[]|e|e]]; [|done..]. cbn [fst snd] in *. unfold ret at 1.
  unfold sst_new at 1. unfold bind at 1. unfold bind at 1. unfold on_rels at 1. cbn [fst snd].
  assert (part_path c_share_string None (mkRelations (take 1 base_rels) rels_at) = (mkRelations (take 2 base_rels) rels_at, Ok sst_at)) as P2 by reflexivity.
  rewrite P2. unfold bind at 1. unfold on_office at 1. cbn [fst snd].
  pose proof (keep_get_xml sst_init sst_at o1) as K2. unfold id in K2.
  destruct (get_xml_document sst_init sst_at o1) as [o2 [[]|e|e]]; [|done..]. cbn [fst snd] in *.
  unfold bind at 1. unfold on_office at 1. cbn [fst snd].
  pose proof (keep_with_doc sst_at load_strings o2) as K3. unfold id in K3.
  destruct (with_doc sst_at load_strings o2) as [o3 [strs|e|e]]; [|done..]. cbn [fst snd] in *. unfold ret at 1.
  assert (forall q, q <> theme_at -> q <> sst_at -> SameAt o o3 q) as K123.
  { intros q H1 H2. eapply same_trans; [by apply K1|]. eapply same_trans; [by apply K2|by apply K3]. }
  assert (part_path c_calc_chain None (mkRelations (take 2 base_rels) rels_at) = (mkRelations (take 3 base_rels) rels_at, Ok calc_at)) as P4 by reflexivity.
  destruct (chain_new _ _ o3 P4) as (o4 & E4 & C4 & K4). { eapply absent_same; [|exact Hz]. by apply K123. }
  unfold bind at 1. rewrite E4. unfold style_new at 1. unfold bind at 1. unfold bind at 1. unfold on_rels at 1. cbn [fst snd].
  assert (part_path c_style None (mkRelations (take 3 base_rels) rels_at) = (mkRelations base_rels rels_at, Ok style_at)) as P5 by reflexivity.
  rewrite P5. unfold bind at 1. unfold on_office at 1. cbn [fst snd].
  pose proof (keep_get_xml style_init style_at o4) as K5. unfold id in K5.
  destruct (get_xml_document style_init style_at o4) as [o5 [[]|e|e]]; [|done..]. cbn [fst snd] in *.
  unfold bind at 1. unfold on_office at 1. cbn [fst snd].
  pose proof (keep_with_doc style_at load_styles o5) as K6. unfold id in K6.
  destruct (with_doc style_at load_styles o5) as [o6 [st|e|e]]; [|done..]. cbn [fst snd] in *. unfold ret. intros [= <- <- <- <- <-]. cbn [fst snd].
  split; [done|]. split; [done|]. split; [done|]. split; [done|]. split; [done|]. split.
  - eapply chain_same; [|exact C4]. eapply same_trans; [by apply K5|by apply K6].
  - intros q. rewrite !not_elem_of_cons. intros (H1 & H2 & H3 & H4 & _). eapply same_trans; [by apply K123|]. eapply same_trans; [by apply K4|].
    eapply same_trans; [by apply K5|by apply K6].
Qed.
Lemma new_book fs s root o b : suite_new None fs = Ok s -> workbook_new (su_root s, su_office s) = ((root, o), Ok b) ->
  NewParts o /\ BookShape b /\ rl_rels (wb_rels b) = base_rels /\ wb_sheets b = [] /\ wb_view b = None /\ root = root_rels /\ su_core s = core_at.
Proof.
  unfold suite_new, office_new. cbn [rbind].
  destruct (rels_new_fresh (mkOffice ∅ ∅) root_at) as (o1 & E1 & R1 & A1 & F1); [apply lookup_empty..|].
  change "_rels/.rels" with root_at. rewrite E1.
  assert (forall q, q <> root_at -> Absent o1 q) as Z1. { intros q Hq. split; [rewrite F1 by done; apply lookup_empty|rewrite A1; apply lookup_empty]. }
  unfold core_new. unfold bind at 1. unfold on_rels at 1. cbn [fst snd].
  assert (part_path c_core None (mkRelations [] root_at) = (mkRelations [mkRel "rId1" ("/" +:+ core_at) (c_type c_core) None] root_at, Ok core_at)) as P1 by reflexivity.
  rewrite P1. unfold bind at 1. unfold on_office at 1. cbn [fst snd].
  pose proof (keep_get_xml core_init core_at o1) as K2. unfold id in K2.
  destruct (get_xml_document core_init core_at o1) as [o2 [[]|e|e]]; [|done..]. cbn [fst snd ret] in *. unfold ret. intros Hsu. assert (forall A (x y : A), Ok x = Ok y -> x = y) as Hok by congruence. apply Hok in Hsu. subst s. clear Hok. cbn [rbind su_root su_office su_core].
  assert (RelsOpen o2 root_at) as R2 by (by eapply rels_open_same; [apply K2|]).
  assert (forall q, q <> root_at -> q <> core_at -> Absent o2 q) as Z2. { intros q H1 H2. eapply absent_same; [by apply K2|by apply Z1]. }
  unfold workbook_new. unfold bind at 1. unfold on_rels at 1. cbn [fst snd].
  assert (part_path c_workbook None (mkRelations [mkRel "rId1" ("/" +:+ core_at) (c_type c_core) None] root_at) = (root_rels, Ok book_at)) as P2 by reflexivity.
  rewrite P2. unfold bind at 1. unfold on_office at 1. cbn [fst snd].
  pose proof (keep_get_xml workbook_init book_at o2) as K3. unfold id in K3.
  assert (forall p0, workbook_init = Ok p0 -> of_open (get_xml_document workbook_init book_at o2).1 !! book_at = Some p0) as B3.
  { intros p0 Hp0. destruct (Z2 book_at) as [Zo Za]; [done..|]. unfold get_xml_document, get_xml_tree, bind. rewrite Zo, Za. unfold lift. rewrite Hp0. cbn. apply lookup_insert. }
  destruct (get_xml_document workbook_init book_at o2) as [o3 [[]|e|e]]; [|done..]. cbn [fst snd] in *.
  assert (RelsOpen o3 root_at) as R3 by (by eapply rels_open_same; [apply K3|]).
  assert (forall q, q <> root_at -> q <> core_at -> q <> book_at -> Absent o3 q) as Z3. { intros q H1 H2 H3. eapply absent_same; [by apply K3|by apply Z2]. }
  unfold bind at 1. unfold lift at 1. change (book_rels_path book_at) with (Ok rels_at). cbn [fst snd]. unfold bind at 1. unfold on_office at 1. cbn [fst snd].
  destruct (Z3 rels_at) as [Zo Za]; [done..|].
  destruct (rels_new_fresh o3 rels_at Zo Za) as (o4 & E4 & RR4 & A4 & F4). rewrite E4. cbn [fst snd].
  assert (RelsOpen o4 root_at) as R4. { eapply (rels_open_same o3); [|done]. split; [by apply F4|by rewrite A4]. }
  assert (forall q, q <> root_at -> q <> core_at -> q <> book_at -> q <> rels_at -> Absent o4 q) as Z4.
  { intros q H1 H2 H3 H4. eapply (absent_same o3); [split; [by apply F4|by rewrite A4]|by apply Z3]. }
  unfold bind at 1. unfold get at 1. cbn [fst snd].
  match goal with |- context [match ?m (?r, ?o) with _ => _ end] => destruct (m (r, o)) as [[rels5 o5] [[[[theme st] c] y]|e|e]] eqn:E5 end; [|done..].
  apply services_new in E5 as (R5 & -> & S5 & -> & Y5 & C5 & K5); [|by apply Z4]. cbn [fst snd] in *. subst rels5. unfold bind at 1. unfold put at 1. cbn [fst snd].
  unfold bind at 1. unfold on_office at 1. cbn [fst snd].
  assert (forall q, q ∉ [theme_at; sst_at; calc_at; style_at; rels_at] -> SameAt o3 o5 q) as K35.
  { intros q Hq. rewrite !not_elem_of_cons in Hq. destruct Hq as (? & ? & ? & ? & ? & ?). eapply (same_trans _ o4); [split; [by apply F4|by rewrite A4]|]. apply K5. by rewrite !not_elem_of_cons. }
  pose proof (keep_with_doc book_at load_book o5) as K6. unfold id in K6.
  destruct workbook_init_spec as (d & d' & t' & Hi & Hl & Hd' & Hn' & Hns' & Hv' & Hc').
  assert (exists o6, with_doc book_at load_book o5 = (o6, Ok (Some ([], None))) /\ BookSpec.BookOpen o6 book_at (t_children t')) as (o6 & E6 & B6).
  { destruct (K35 book_at) as [Hop _]; [apply (bool_decide_unpack _); by vm_compute|]. rewrite (B3 _ Hi) in Hop.
    eexists. split; [exact (with_doc_spec book_at load_book o5 _ d' _ Hop Hl)|].
    apply BookOpen_Doc. eexists _, t'. split; [cbn; by rewrite lookup_insert|]. do 4 (split; [done|]). split; [done|].
    rewrite <- (Forall_map t_tag (fun x => x ∉ BookSpec.book_tags)). rewrite Hc'. apply (bool_decide_unpack _). by vm_compute. }
  rewrite E6 in K6 |- *. cbn [fst snd default] in *. unfold ret, id. intros [= <- <- <-]. split; [|split; [|done]].
  - constructor.
    + eapply rels_open_same; [by apply K6|]. eapply rels_open_same; [|exact R4]. apply K5. apply (bool_decide_unpack _); by vm_compute.
    + eapply rels_open_same; [by apply K6|]. eapply rels_open_same; [|exact RR4]. apply K5. apply (bool_decide_unpack _); by vm_compute.
    + eapply chain_same; [by apply K6|exact C5].
    + eauto.
  - constructor; try done; [|constructor]. exists []. split; [done|constructor].
Qed.
Lemma new_session fs x0 : excel_new None fs = Ok x0 -> NewParts (x_office x0) /\ SessionInv (x_office x0) (x0, []).
Proof.
  unfold excel_new. destruct (suite_new None fs) as [s|e|e] eqn:Es; cbn [rbind]; [|done..].
  destruct (workbook_new (su_root s, su_office s)) as [[root o6] [b1|e|e]] eqn:Ew; [|done..].
  destruct (new_book _ _ _ _ _ Es Ew) as (N6 & Sb & _ & _ & _ & -> & Hc). rewrite Hc.
  destruct (add_inv b1 o6 None Sb) as (A7 & H7 & K7). unfold on_book, x_state. cbn [x_book x_office x_suite su_office].
  unfold x_office. cbn [x_suite su_office].
  destruct (add_sheet None (b1, o6)) as [[b7 o7] [w|e|e]]; [|done..]. cbn [fst snd] in *. intros [= <-]. unfold set_x_office, set_x, x_office. cbn [x_suite x_book su_office su_root su_core fst snd].
  assert (forall q, ~ in_area q -> SameAt o6 (ws_drop w o7) q) as K8.
  { destruct (handle_area w (H7 w eq_refl)). intros q Hq. eapply same_trans; [by apply K7|]. apply ws_drop_keeps; intros ->; by apply Hq. }
  split; [by eapply new_parts_same|]. constructor; cbn; [done|done|done|constructor|]. intros q _. apply same_refl.
Qed.
End with_env.
