(** From the calls of a session to the parts of the saved file. *)
From Verif.Model Require Import Excel.
From Verif.Spec Require Import RelSpec XmlSpec XmlRepr PackageSpec PartSpec ColumnSpec SheetSpec SessionSpec FlowSpec.
From Verif.Proofs Require Import BaseFacts ConverterFacts PackageFacts XmlWriteFacts DocBuild SmallPartFacts SheetFacts SheetDocFacts SheetCycleFacts
  BookFacts FrameFacts SaveFacts SessionFacts ExcelFacts XmlHistFacts KeepFacts ReadAnyFacts.
Open Scope N_scope.

Section with_env.
Context `{E : Env}.
(** ** Opening a part leaves the open ones alone *)
Definition KeepsOpen {S A} (f : S -> office) (m : M S A) : Prop :=
  forall s q p, of_open (f s) !! q = Some p -> of_open (f (m s).1) !! q = Some p.
Lemma get_keeps_open init path : KeepsOpen id (get_xml_document init path).
Proof.
  intros o q p Hq. unfold id in *. unfold get_xml_document, get_xml_tree, get_xml_document_ref, bind, modify, lift, ret.
  destruct (of_open o !! path) eqn:Eo; [done|]. assert (path <> q) as Hne by congruence.
  destruct (of_archive o !! path) as [e|].
  - destruct (en_content e) as [c|]; cbn [of_option rbind fst]; [|done]. destruct (decompress_content c) as [data|x|x]; cbn [rbind fst]; [|done..].
    destruct (read_doc data) as [d|x|x]; cbn; [|done..]. by rewrite lookup_insert_ne.
  - destruct init as [x|x|x]; cbn; [|done..]. by rewrite lookup_insert_ne.
Qed.
Lemma get_was_closed init path o o' : get_xml_document init path o = (o', Ok tt) -> of_open o !! path = None.
Proof. unfold get_xml_document, get_xml_tree, bind. by destruct (of_open o !! path). Qed.
Lemma rels_keeps_open path : KeepsOpen id (rels_new path).
Proof.
  intros o q p Hq. unfold id in *. unfold rels_new, bind. pose proof (get_keeps_open rels_init path o q p Hq) as H1. unfold id in H1.
  destruct (get_xml_document rels_init path o) as [o1 [[]|e|e]] eqn:Eg; [|done..]. apply get_was_closed in Eg. cbn [fst] in H1.
  assert (q <> path) as Hne by congruence. destruct (keep_with_doc path load_relations o1 q Hne) as [K _]. unfold id in K.
  destruct (with_doc path load_relations o1) as [o2 [l|e|e]]; cbn [fst ret] in *; by rewrite K.
Qed.
Lemma rels_was_closed path o o' r : rels_new path o = (o', Ok r) -> of_open o !! path = None /\ rl_path r = path.
Proof.
  unfold rels_new, bind. destruct (get_xml_document rels_init path o) as [o1 [[]|e|e]] eqn:Eg; [|done..]. apply get_was_closed in Eg.
  destruct (with_doc path load_relations o1) as [o2 [l|e|e]]; [|done..]. by intros [= <- <-].
Qed.
Lemma ws_new_keeps_open name : KeepsOpen (fun s : book_state => s.2.2) (ws_new name).
Proof.
  intros s q p Hq. unfold ws_new. unfold bind at 1. pose proof (file_name_office name s) as Hs.
  destruct (get_sheet_file_name name s) as [s1 [[path nm]|e|e]]; cbn [fst snd] in *; [|by rewrite Hs..]. rewrite <- Hs in Hq. clear Hs.
  destruct s1 as [l [r o]]. cbn [fst snd] in *. unfold bind at 1. unfold on_pkg at 1, on_office at 1. cbn [fst snd].
  pose proof (get_keeps_open ws_init path o q p Hq) as H1. unfold id in H1.
  destruct (get_xml_document ws_init path o) as [o1 [[]|e|e]] eqn:Eg; cbn [fst snd] in *; [|done..]. apply get_was_closed in Eg. assert (q <> path) as N1 by congruence.
  unfold bind at 1, lift at 1. destruct (rels_beside path) as [rp|e|e]; cbn [fst snd]; [|done..].
  unfold bind at 1. unfold on_pkg at 1, on_office at 1. cbn [fst snd].
  pose proof (rels_keeps_open rp o1 q p H1) as H2. unfold id in H2.
  destruct (rels_new rp o1) as [o2 [rels|e|e]] eqn:Er; cbn [fst snd] in *; [|done..]. apply rels_was_closed in Er as [Er Hrp]. assert (q <> rp) as N2 by congruence.
  unfold on_pkg, on_office. cbn [fst snd]. destruct (keep_with_doc path ws_load o2 q N1) as [K3 _]. unfold id in K3.
  assert (forall o3, of_open o3 !! q = Some p -> of_open (rels_close rels o3).1 !! q = Some p) as Hc.
  { intros o3 H3. destruct (keep_rels_close rels o3 q) as [K _]; [by rewrite Hrp|]. unfold id in K. by rewrite K. }
  destruct (with_doc path ws_load o2) as [o3 [y|e|e]]; cbn [fst snd] in *.
  - destruct (default _ y) as [[[cols data] views] dim]. cbn. by rewrite K3.
  - apply Hc. by rewrite K3.
  - apply Hc. by rewrite K3.
Qed.
Lemma add_keeps_open name : KeepsOpen (fun s : wb_state => s.2) (add_sheet name).
Proof.
  intros [b o] q p Hq. unfold add_sheet. cbn [fst snd] in *. pose proof (ws_new_keeps_open name (wb_sheets b, (wb_rels b, o)) q p Hq) as H1.
  destruct (ws_new name _) as [[l [r o1]] x]. done.
Qed.
End with_env.

(** ** One call, seen from a part or a handle it does not concern *)
Section sessions.
Context `{E : Env} `{Hs : Hashes}.
Record Around (c : call) (s s' : session) : Prop := {
  ar_table : exists new, table s' = table s ++ new;
  ar_path : ss_path (wb_sst (x_book s'.1)) = ss_path (wb_sst (x_book s.1));
  ar_handle : forall h w, through c <> Some h -> handle h s = Some w -> handle h s' = Some w;
  ar_open : forall q p, (forall h w, through c = Some h -> handle h s = Some w -> q ∉ handle_parts (Some w)) ->
    of_open (x_office s.1) !! q = Some p -> of_open (x_office s'.1) !! q = Some p;
  ar_closed : forall q e, of_open (x_office s.1) !! q = None -> of_archive (x_office s.1) !! q = Some e -> ~ rels_name q ->
    (forall n, c = CAdd (Some n) \/ c = CGet n -> ~ LeadsTo s n q) -> SameAt (x_office s.1) (x_office s'.1) q;
}.
Lemma around_same c s : Around c s s.
Proof. constructor; try done. exists []. by rewrite app_nil_r. Qed.
Definition Grows (m : M (worksheet * list string) unit) : Prop := forall w t, exists new, (m (w, t)).1.2 = t ++ new.
Lemma grows_row r c cs : Grows (set_row_value r c cs).
Proof.
  intros w t. unfold set_row_value. destruct (u16_sub env_mode c 1); [|by exists []; rewrite app_nil_r..].
  destruct (store_cells cs t) as [t1 cs1] eqn:Es. apply store_cells_spec in Es as [_ [new ->]]. exists new.
  destruct (place_cells _ _ _ _ _) as [[dim cells] x]. by destruct x.
Qed.
Lemma grows_row_ref ref cs : Grows (set_row_value_ref ref cs).
Proof.
  intros w t. unfold set_row_value_ref, bind, lift. destruct (get_cell_index ref) as [[r c]|e|e]; [apply grows_row|by exists []; rewrite app_nil_r..].
Qed.
Lemma grows_handle m : Grows (on_handle m).
Proof. intros w t. unfold on_handle. cbn [fst snd]. destruct (m w). exists []. by rewrite app_nil_r. Qed.
Lemma use_around c h m s : through c = Some h -> Grows m -> Around c s (use h m s).1.
Proof.
  intros Hc Hm. unfold use. destruct (handle h s) as [w|] eqn:Eh; [|apply around_same].
  destruct (Hm w (ss_strings (wb_sst (x_book s.1)))) as [new Hnew]. destruct (m _) as [[w1 t1] r]. cbn [fst snd] in *. subst t1.
  constructor; cbn [fst snd x_book]; try done.
  - by exists new.
  - intros k w2 Hk. rewrite Hc in Hk. unfold handle. cbn [snd]. rewrite list_lookup_insert_ne; [done|congruence].
Qed.
Definition KeepsSst {A} (m : M workbook A) : Prop := forall b, wb_sst (m b).1 = wb_sst b.
Lemma pure_around c m s : KeepsSst m -> Around c s (on_excel (on_book (A := unit) (pure_book m)) s).1.
Proof.
  intros Hm. unfold on_excel, on_book, pure_book, x_state. cbn [fst snd]. specialize (Hm (x_book s.1)). destruct (m (x_book s.1)) as [b r].
  cbn [fst snd] in *. constructor; try done; cbn [fst snd x_book set_x].
  - exists []. rewrite app_nil_r. unfold table. cbn. by rewrite Hm.
  - by rewrite Hm.
Qed.
Lemma spend_around c h m s : through c = Some h -> LInv s ->
  (forall w b o, wb_sst (m w (b, o)).1.1 = wb_sst b /\ (forall q, q <> ws_path w -> q <> rl_path (ws_rels w) -> SameAt o (m w (b, o)).1.2 q)) ->
  Around c s (spend h m s).1.
Proof.
  intros Hc I Hm. unfold spend. destruct (handle h s) as [w|] eqn:Eh; [|apply around_same].
  unfold on_book, x_state. destruct (Hm w (x_book s.1) (x_office s.1)) as (M1 & M3).
  destruct (m w (x_book s.1, x_office s.1)) as [[b1 o1] r]. cbn [fst snd] in *.
  assert (forall q, q ∉ handle_parts (Some w) -> SameAt (x_office s.1) o1 q) as K.
  { intros q Hq. cbn in Hq. rewrite !not_elem_of_cons in Hq. apply M3; tauto. }
  constructor; cbn [fst snd x_book set_x].
  - exists []. rewrite app_nil_r. unfold table. cbn. by rewrite M1.
  - by rewrite M1.
  - intros k w2 Hk. rewrite Hc in Hk. unfold handle. cbn [snd]. rewrite list_lookup_insert_ne; [done|congruence].
  - intros q p Hq Hp. destruct (K q (Hq h w Hc Eh)) as [K1 _]. unfold x_office. cbn. by rewrite K1.
  - intros q e Hn _ _ _. unfold x_office at 2. cbn. apply K. intros Hin. destruct (li_open _ I q) as [p Hp]; [|congruence].
    apply handle_lookup in Eh. destruct (live_split _ _ _ Eh) as (a & b & L1 & _). unfold held. rewrite L1, !elem_of_app. tauto.
Qed.
Lemma rels_beside_name path rp : rels_beside path = Ok rp -> rels_name rp.
Proof. unfold rels_beside. destruct (rsplit_at_byte _ path) as [[[dir b] file]|]; [|done]. intros [= <-]. by exists dir, file. Qed.
Lemma give_around c name s : LInv s -> (forall n, name = Some n -> c = CAdd (Some n) \/ c = CGet n) -> through c = None ->
  Around c s (give (on_book (add_sheet name)) s).1.
Proof.
  intros I Hc Ht. unfold give, on_book, x_state.
  pose proof (add_keeps_open name (x_book s.1, x_office s.1)) as K1.
  assert (wb_sst (add_sheet name (x_book s.1, x_office s.1)).1.1 = wb_sst (x_book s.1)) as K2.
  { unfold add_sheet. cbn [fst snd]. by destruct (ws_new name _) as [[l [r o]] x]. }
  assert (forall q e, of_archive (x_office s.1) !! q = Some e -> ~ rels_name q -> (forall n, c = CAdd (Some n) \/ c = CGet n -> ~ LeadsTo s n q) ->
    SameAt (x_office s.1) (add_sheet name (x_book s.1, x_office s.1)).1.2 q) as K3.
  { intros q e He Hq Hl. unfold add_sheet. cbn [fst snd]. pose proof (ws_new_keeps name (wb_sheets (x_book s.1), (wb_rels (x_book s.1), x_office s.1)) q) as K. cbn zeta in K.
    assert (forall path nm, (get_sheet_file_name name (wb_sheets (x_book s.1), (wb_rels (x_book s.1), x_office s.1))).2 = Ok (path, nm) -> q <> path) as Hp.
    { intros path nm. unfold get_sheet_file_name, bind, get. 
      destruct (name ≫= (fun n => List.find (fun x => seqb (sh_name x) n) (wb_sheets (x_book s.1)))) as [x|] eqn:Ef.
      - destruct name as [n|]; [|done]. cbn in Ef. apply find_some in Ef as [Hx Heq]. apply seqb_true in Heq. unfold lift.
        destruct (get_target_by_id (wb_rels (x_book s.1)) (sh_rel x)) as [[p|]|m|m] eqn:Et; [|done..]. cbn. intros [= -> _] ->.
        apply (Hl n); [auto|]. exists x. split; [by apply elem_of_list_In|]. done.
      - clear Ef. unfold lift. destruct (get_relative_path _) as [rp|m|m]; [|done..]. cbn zeta.
        destruct (free_number_total (x_office s.1) (rp +:+ c_path c_worksheet) (N.of_nat (length (wb_sheets (x_book s.1))) + 1)) as (k & H1 & _ & H3 & _).
        rewrite H1. destruct (set_new_relationship _ _ _ _) as [rels1 id]. unfold put, ret. cbn [fst snd]. intros Hok ->.
        assert (path = sheet_path (rp +:+ c_path c_worksheet) k) as Hk by (unfold sheet_path; congruence). rewrite Hk in He. congruence. }
    destruct (ws_new name _) as [[l [r o]] x]. cbn [fst snd] in *. apply K; [|done]. intros path nm rp H1 H2. split; [by eapply Hp|].
    intros ->. apply Hq. by eapply rels_beside_name. }
  destruct (add_sheet name (x_book s.1, x_office s.1)) as [[b1 o1] r]. cbn [fst snd] in *.
  assert (forall l, (forall h w, handle h s = Some w -> (l !! h) ≫= id = Some w) -> Around c s (set_x s.1 (b1, o1), l)) as Hgo.
  { intros l Hl. constructor; cbn [fst snd x_book set_x].
    - exists []. rewrite app_nil_r. unfold table. cbn. by rewrite K2.
    - by rewrite K2.
    - intros h w _ Hh. unfold handle. cbn [snd]. by apply Hl.
    - intros q p _ Hq. unfold x_office. cbn. by apply K1.
    - intros q e _ He Hq Hl'. unfold x_office at 2. cbn. by eapply K3. }
  destruct r as [w|e|e]; cbn [fst]; apply Hgo.
  - intros h w1. unfold handle. destruct (s.2 !! h) as [y|] eqn:Ey; [|done]. intros Hy. by rewrite lookup_app_l by (by eapply lookup_lt_Some); rewrite Ey.
  - done.
  - done.
Qed.
Theorem call_around c s : LInv s -> Around c s (call_step c s).1.
Proof.
  intros I. destruct c; cbn [call_step].
  - apply give_around; [done| |done]. intros n ->. by left.
  - apply give_around; [done| |done]. intros n [= ->]. by right.
  - apply pure_around. intros b. unfold rename_sheet. destruct (existsb _ _); [done|]. by destruct (rename_first _ _ _).
  - by apply pure_around.
  - by apply pure_around.
  - by apply pure_around.
  - by apply pure_around.
  - by apply pure_around.
  - by apply pure_around.
  - by apply pure_around.
  - apply pure_around. intros b. unfold bind, wb_style_id. by destruct (get_style_id _ _) as [st' [r|e|e]].
  - apply use_around; [done|apply grows_row].
  - apply use_around; [done|apply grows_row_ref].
  - apply use_around; [done|apply grows_handle].
  - apply use_around; [done|apply grows_handle].
  - apply use_around; [done|apply grows_handle].
  - apply spend_around; [done|done|]. intros w b o. cbn. split; [done|]. intros q. apply ws_drop_keeps.
  - apply spend_around; [done|done|]. intros w b o. unfold on_wb_office. cbn [fst snd]. pose proof (ws_flush_keeps w o) as K.
    destruct (ws_flush w o). cbn in *. split; [done|]. intros q. apply K.
  - apply spend_around; [done|done|]. intros w b o. split; [|intros q; apply delete_keeps].
    unfold wb_delete_sheet. by destruct (delete_sheet w _) as [[l [r o1]] x].
Qed.
(** Two handles, and a handle and the workbook, have no part in common. *)
Lemma live_in l h w q : l !! h = Some (Some w) -> q ∈ handle_parts (Some w) -> q ∈ live_parts l.
Proof. intros Hl Hq. destruct (live_split _ _ _ Hl) as (a & b & -> & _). rewrite !elem_of_app. tauto. Qed.
Lemma apart s k w' q : LInv s -> handle k s = Some w' -> q ∈ own_parts (x_book s.1) ++ DocsIn (x_suite s.1) ++ live_parts (<[k := None]> s.2) ->
  q ∉ handle_parts (Some w').
Proof.
  intros I Hk Hq Hq'. apply handle_lookup in Hk. destruct (live_split _ _ _ Hk) as (a & b & L1 & L2). pose proof (li_nodup _ I) as Hnd. unfold held in Hnd.
  rewrite L1 in Hnd. rewrite L2 in Hq.
  assert (own_parts (x_book s.1) ++ DocsIn (x_suite s.1) ++ a ++ handle_parts (Some w') ++ b ≡ₚ (own_parts (x_book s.1) ++ DocsIn (x_suite s.1) ++ a ++ b) ++ handle_parts (Some w')) as Hp.
  { rewrite <- !app_assoc. do 3 apply Permutation_app_head. apply Permutation_app_comm. }
  rewrite Hp in Hnd. apply NoDup_app in Hnd as (_ & Hnd & _). by apply (Hnd q).
Qed.
Lemma apart_handle s h k w w' q : LInv s -> h <> k -> handle h s = Some w -> handle k s = Some w' -> q ∈ handle_parts (Some w) -> q ∉ handle_parts (Some w').
Proof.
  intros I Hne Hh Hk Hq. apply (apart s k); [done|done|]. rewrite !elem_of_app. right. right. apply (live_in _ h w); [|done].
  rewrite list_lookup_insert_ne by done. by apply handle_lookup.
Qed.
Lemma apart_own s k w' q : LInv s -> handle k s = Some w' -> q ∈ own_parts (x_book s.1) -> q ∉ handle_parts (Some w').
Proof. intros I Hk Hq. apply (apart s k); [done|done|]. rewrite !elem_of_app. by left. Qed.

(** ** A held sheet during a session *)
Record Shows (w0 w : worksheet) (table : list string) (ops : list sheet_op) : Prop := {
  sh_cell : forall r c x, LastWrite r c ops (Some x) -> exists y, cell_at w r c = Some y /\ CellStored table x y;
  sh_old : forall r c, LastWrite r c ops None -> cell_at w r c = cell_at w0 r c;
  sh_props : forall r p, LastProps r ops (Some p) -> props_at w r = Some p;
  sh_untouched : forall r, Forall (fun op => ~ Touches op r) ops -> props_at w r = props_at w0 r;
  sh_old_props : forall r p, LastProps r ops None -> props_at w0 r = Some p -> props_at w r = Some p;
}.
Record Flow (w0 : worksheet) (h : nat) (ops : list sheet_op) (s : session) (w : worksheet) : Prop := {
  fw_handle : handle h s = Some w;
  fw_path : ws_path w = ws_path w0;
  fw_rels : ws_rels w = ws_rels w0;
  fw_open : SheetOpen (x_office s.1) (ws_path w0);
  fw_typed : sheet_typed w;
  fw_data : is_Some (ws_data w);
  fw_shows : Shows w0 w (table s) ops;
}.
Lemma shows_start w table : Shows w w table [].
Proof.
  constructor; [| done | | done | done].
  - intros r c x Hl. inversion Hl as [|ops op y Hw Hx|ops op y Hn Hl' Hx]; by destruct ops.
  - intros r x Hl. inversion Hl as [|ops y Hx|ops op y Hn Hl' Hx]; by destruct ops.
Qed.
Lemma shows_grow w0 w t new ops : Shows w0 w t ops -> Shows w0 w (t ++ new) ops.
Proof. intros [H1 H2 H3 H4 H5]. constructor; [|done..]. intros r c x Hl. destruct (H1 r c x Hl) as (y & Hy & Hst). exists y. split; [done|]. by apply CellStored_app. Qed.
Lemma shows_op w0 w t ops op w1 t1 : Shows w0 w t ops -> in_range op -> run_sheet_op op (w, t) = ((w1, t1), Ok tt) -> Shows w0 w1 t1 (ops ++ [op]).
Proof.
  intros S Hr Hrun. destruct (run_sheet_op_spec op w t Hr) as (w2 & t2 & E2 & (new & Hnew) & _ & B1 & B2 & B3 & B4 & B5 & _). rewrite E2 in Hrun. injection Hrun as -> ->.
  rewrite Hnew in B1 |- *. destruct (shows_grow _ _ _ new _ S) as [H1 H2 H3 H4 H5]. constructor.
  - intros r c x Hl. apply LastWrite_snoc in Hl as [(y & [= <-] & Hw)|[Hn Hl]]; [by apply B1|]. rewrite B2 by done. by apply H1.
  - intros r c Hl. apply LastWrite_snoc in Hl as [(y & ? & Hw)|[Hn Hl]]; [done|]. rewrite B2 by done. by apply H2.
  - intros r p Hl. apply LastProps_snoc in Hl as [(y & [= <-] & Hw)|[Hn Hl]]; [by apply B3|].
    destruct (Touches_dec op r) as [Ht|Ht]; [|rewrite B5 by done; by apply H3]. rewrite B4 by done. by rewrite (H3 _ _ Hl).
  - intros r Hf. apply Forall_app in Hf as [Hf Ho]. apply Forall_cons in Ho as [Ho _]. rewrite B5 by done. by apply H4.
  - intros r p Hl Hp. apply LastProps_snoc in Hl as [(y & ? & Hw)|[Hn Hl]]; [done|].
    destruct (Touches_dec op r) as [Ht|Ht]; [|rewrite B5 by done; by apply H5]. rewrite B4 by done. by rewrite (H5 _ _ Hl Hp).
Qed.
Lemma sheet_open_same o o' q : of_open o' !! q = of_open o !! q -> SheetOpen o q -> SheetOpen o' q.
Proof. intros Hq (p & it & Hp & Hr). exists p, it. by rewrite Hq. Qed.
Lemma same_call h c op s : Says h c [op] -> call_step c s = call_step (op_call h op) s.
Proof.
  intros Hc. inversion Hc; subst; try done. cbn [op_call call_step]. unfold set_row_value_ref, bind, lift. by rewrite get_cell_index_word.
Qed.
Definition dim_ok (d : dimension) : Prop := 1 <= dm_start d <= u16_max /\ 1 <= dm_end d <= u16_max.
Lemma place_dim m cs : forall col dim cells, col + N.of_nat (length cs) <= 65535 -> dim_ok dim -> dim_ok (place_cells m col cs dim cells).1.1.
Proof.
  induction cs as [|c cs IH]; intros col dim cells Hl Hd; [done|]. cbn [place_cells length] in *.
  assert (u16_add m col 1 = Ok (col + 1)) as -> by (unfold u16_add, u16_wrap; destruct (N.ltb_spec (col + 1) 65536) as [_|Hb]; [done|lia]). apply IH; [lia|].
  destruct Hd as [H1 H2]. unfold dim_ok, dim_add. cbn [dm_start dm_end]. unfold u16_max in *. lia.
Qed.
Lemma typed_op op w t w' t' : in_range op -> op_typed op -> sheet_typed w -> run_sheet_op op (w, t) = ((w', t'), Ok tt) -> sheet_typed w'.
Proof.
  intros Hr Ht [Hc Hv Hd Hdim] Hrun. pose proof (data_ok_op op w t w' t' Hr Ht Hd Hrun) as Hd'.
  destruct (run_sheet_op_spec op w t Hr) as (w2 & t2 & E2 & _ & (_ & _ & _ & Fc & Fv) & _). rewrite E2 in Hrun. injection Hrun as -> ->.
  split; [by rewrite Fc|by rewrite Fv|done|].
  destruct op as [r c cs|r p]; cbn [run_sheet_op] in E2.
  - unfold set_row_value in E2. destruct Hr as [H1 H2]. rewrite u16_sub_one in E2 by done. destruct (store_cells cs t) as [t1 cs1] eqn:Es.
    assert (length cs1 = length cs) as Hl. { apply store_cells_spec in Es as [Hf _]. by apply Forall2_length in Hf. }
    match type of E2 with context [place_cells env_mode (c - 1) cs1 (ws_dim w) ?cells] => pose proof (place_dim env_mode cs1 (c - 1) (ws_dim w) cells) as Hp;
      destruct (place_cells env_mode (c - 1) cs1 (ws_dim w) cells) as [[dim cells'] x] end.
    cbn [fst] in Hp. assert (ws_dim w' = dim) as ->; [|apply Hp; [lia|done]]. destruct x; [|done..]. by injection E2 as <- <-.
  - by injection E2 as <- <-.
Qed.
Lemma flow_op w0 h ops s w op : Flow w0 h ops s w -> in_range op -> op_typed op ->
  exists w1, Flow w0 h (ops ++ [op]) (call_step (op_call h op) s).1 w1 /\ (call_step (op_call h op) s).2 = Ok tt.
Proof.
  intros [F1 F2 F3 F4 F5 F7 F8] Hr Ht.
  destruct (run_sheet_op_spec op w (table s) Hr) as (w1 & t1 & Hrun & _ & (G1 & G2 & G3 & _) & _). exists w1.
  rewrite (op_step h op s w w1 t1 (Ok tt) F1 Hrun). cbn [fst snd]. split; [|done].
  pose proof (typed_op op w (table s) w1 t1 Hr Ht F5 Hrun) as T1.
  constructor; [by eapply handle_insert|congruence|congruence|done|done| |].
  - pose proof (op_data op w (table s) F7) as Hd. by rewrite Hrun in Hd.
  - by eapply shows_op.
Qed.
Lemma cut_typed c p : col_typed p -> (forall x, (cut_range c p).1 = Some x -> col_typed x) /\ (forall x, (cut_range c p).2 = Some x -> col_typed x).
Proof.
  intros (H1 & H2 & H3 & H4). unfold cut_range.
  destruct ((co_min p =? c) && (co_max p =? c)) eqn:E1; [by split; intros x|].
  destruct ((co_min p <=? c) && (c <=? co_max p)) eqn:E2; [|split; intros x; [by intros [= <-]|done]].
  destruct (co_min p =? c) eqn:E3; [|destruct (co_max p =? c) eqn:E4]; split; intros x; cbn; intros Hx; try done; injection Hx as <-;
    unfold col_typed; cbn; repeat split; try done; lia.
Qed.
Lemma set_column_typed c p l : c <= u16_max -> col_arg p -> (forall k, l = Some k -> Forall col_typed k) -> forall k, set_column c p l = Some k -> Forall col_typed k.
Proof.
  intros Hc Hp Hl k. unfold set_column. destruct l as [l|]; [|done]. intros [= <-]. specialize (Hl l eq_refl). rewrite Forall_forall in Hl.
  apply Forall_app. split; [|apply Forall_app; split].
  - apply Forall_forall. intros x (y & Hy & Hx)%elem_of_list_omap. exact (proj1 (cut_typed c y (Hl y Hy)) x Hx).
  - destruct p as [p|]; [|constructor]. apply Forall_singleton. destruct Hp as (H1 & H2 & H3 & H4). by unfold col_typed.
  - apply Forall_forall. intros x (y & Hy & Hx)%elem_of_list_omap. exact (proj2 (cut_typed c y (Hl y Hy)) x Hx).
Qed.
Lemma flow_col w0 h ops s w c p : Flow w0 h ops s w -> c <= u16_max -> col_arg p -> exists w1, Flow w0 h ops (use h (on_handle (set_column_index c p)) s).1 w1.
Proof.
  intros [F1 F2 F3 F4 F5 F7 F8] Hc Hp. unfold use. rewrite F1. cbn. eexists. constructor; [by eapply handle_insert|done|done|done| |done|].
  - destruct F5 as [T1 T2 T3 T4]. constructor; [|done..]. cbn. by apply set_column_typed.
  - destruct F8 as [T1 T2 T3 T4]. by constructor.
Qed.
Lemma flow_step w0 h ops s w c op : LInv s -> Flow w0 h ops s w -> Says h c op -> Forall in_range op -> Forall op_typed op ->
  exists w1, Flow w0 h (ops ++ op) (call_step c s).1 w1.
Proof.
  intros I F Hc Hr Ht.
  assert (forall x, op = [x] -> exists w1, Flow w0 h (ops ++ op) (call_step c s).1 w1) as Hone.
  { intros x ->. rewrite (same_call h c x s Hc). rewrite Forall_singleton in Hr; rewrite Forall_singleton in Ht. destruct (flow_op w0 h ops s w x F Hr Ht) as (w1 & H1 & _). eauto. }
  inversion Hc; subst; try (by eapply Hone); rewrite app_nil_r.
  - by eapply flow_col.
  - cbn [call_step]. assert (set_column_ref name p = set_column_index (word_value name) p) as ->; [|by eapply flow_col].
    assert (get_column_index name = Ok (word_value name)) as Hi by (rewrite <- (app_nil_r_s name) at 1; rewrite get_column_index_exact; [done|done|done|unfold u16_max in *; lia]).
    unfold set_column_ref, bind, lift. by rewrite Hi.
  - exists w. destruct (call_around c s I) as [[new A1] _ A3 A4 _]. destruct F as [F1 F2 F3 F4 F5 F7 F8].
    constructor; [by apply A3|done..| |done|done|rewrite A1; by apply shows_grow].
    destruct F4 as (p & it & Hp & F4). exists p, it. split; [|done]. apply A4; [|done]. intros k w' Hk Hw'.
    apply (apart_handle s h k w); [done|congruence|done|done|]. rewrite <- F2. cbn. left.
Qed.
Theorem flow_calls w0 h cs : forall ops0 ops s s' w, LInv s -> Flow w0 h ops0 s w -> History h cs ops -> Forall in_range ops -> Forall op_typed ops ->
  calls cs s = Some s' -> LInv s' /\ exists w', Flow w0 h (ops0 ++ ops) s' w'.
Proof.
  induction cs as [|c cs IH]; intros ops0 ops s s' w I F Hh Hr Ht; inversion Hh as [|? ? op ops1 Hc Hh']; subst; cbn [calls].
  - intros [= <-]. split; [done|]. rewrite app_nil_r. eauto.
  - apply Forall_app in Hr as [Hr1 Hr2]. apply Forall_app in Ht as [Ht1 Ht2]. destruct (flow_step w0 h ops0 s w c op I F Hc Hr1 Ht1) as (w1 & F1).
    pose proof (call_effect c s I) as Eff. destruct (call_step c s) as [s1 [[]|e|e]]; cbn [fst snd] in *; [| |done]; rewrite app_assoc; (eapply IH; [|exact F1|done..]); by apply Eff.
Qed.
End sessions.
