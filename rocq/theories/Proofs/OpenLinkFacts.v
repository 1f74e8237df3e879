(** The sheets that a workbook saved from an opened one lists lead to parts. *)
From Verif.Model Require Import Excel.
From Verif.Spec Require Import RelSpec XmlSpec XmlRepr XmlHistory PackageSpec PartSpec SheetSpec SessionSpec LinkSpec FlowSpec BookSpec OpenSpec OpenMoreSpec OpenLinkSpec.
From Verif.Proofs Require Import BaseFacts RelFacts PackageFacts XmlWriteFacts XmlReadFacts PartFacts XmlTreeFacts XmlNsFacts DocBuild RelDocFacts SmallPartFacts
  SheetFacts SheetDocFacts SheetCycleFacts BookFacts FrameFacts SaveFacts SessionFacts ExcelFacts KeepFacts FlowOpenFacts OwnFacts OpenRelFacts OpenBookFacts FoundFacts LinkFacts.
Open Scope N_scope.

Lemma resolves_once folder t p q : Resolves folder t p -> Resolves folder t q -> p = q.
Proof. intros H1 H2. inversion H1; subst; inversion H2; subst; congruence. Qed.
Lemma found_id (l : list rel) r : NoDup (map r_id l) -> r ∈ l -> List.find (fun y => seqb (r_id y) (r_id r)) l = Some r.
Proof.
  induction l as [|y l IH]; cbn [map]; [by intros _ ?%elem_of_nil|]. rewrite NoDup_cons. intros [Hn Hnd] [->|Hin]%elem_of_cons; cbn [List.find].
  - by rewrite seqb_refl.
  - rewrite (proj2 (seqb_false _ _)); [by apply IH|]. intros Hy. apply Hn. rewrite Hy. by apply elem_of_list_fmap_1.
Qed.
Lemma leads_get r folder id p : NoDup (rel_ids r) -> OwnerFolder (rl_path r) folder -> LeadsTo (rl_rels r) folder id p <-> get_target_by_id r id = Ok (Some p).
Proof.
  intros Hn Hf. split.
  - intros (x & Hx & <- & Hr). unfold get_target_by_id. rewrite (found_id _ _ Hn Hx). destruct (resolve_spec r folder (r_target x) Hf) as (q & -> & Hq). cbn [rmap rbind]. by rewrite (resolves_once _ _ _ _ Hr Hq).
  - unfold get_target_by_id. destruct (List.find _ _) as [x|] eqn:Ef; [|done]. apply find_some in Ef as [Hx Hi]. apply seqb_true in Hi. destruct (resolve_spec r folder (r_target x) Hf) as (q & -> & Hq).
    cbn [rmap rbind]. intros [= <-]. exists x. split; [by apply elem_of_list_In|done].
Qed.

Lemma slash_in a b : In "/"%char (list_ascii_of_string (a +:+ "/" +:+ b)).
Proof. induction a as [|c a IH]; cbn; [by left|by right]. Qed.
Lemma sheet_not_types dir k : sheet_path dir k <> content_types_name.
Proof. intros H. pose proof (slash_in dir (sheet_file k +:+ "." +:+ c_ext c_worksheet)) as Hin. unfold sheet_path in H. rewrite H in Hin. cbn in Hin. intuition discriminate. Qed.

Section with_env.
Context `{E : Env} `{Hs : Hashes}.
Context (folder : string) (taken : list string) (old : list rel).

(** ** The invariant *)
Definition Leading (b : workbook) (o : office) (x : sheet) (p : string) : Prop :=
  (exists r, r ∈ rl_rels (wb_rels b) /\ r_id r = sh_rel x /\ Resolves folder (r_target r) p /\ (r ∈ old \/ r_type r = worksheet_type)) /\ Present o p /\ Proper p /\ p ∉ taken.
Record OLinks (b : workbook) (o : office) : Prop := {
  ol_ids : NoDup (map r_id (rl_rels (wb_rels b)));
  ol_folder : OwnerFolder (rl_path (wb_rels b)) folder;
  ol_sheets : exists ps, NoDup ps /\ Forall2 (Leading b o) (wb_sheets b) ps;
}.
Definition OInv (s : session) : Prop := OLinks (x_book s.1) (x_office s.1) /\ forall w, Some w ∈ s.2 -> Proper (ws_path w).
Lemma leading_get b o x p : OLinks b o -> Leading b o x p -> get_target_by_id (wb_rels b) (sh_rel x) = Ok (Some p).
Proof. intros [H1 H2 _] ((r & R1 & R2 & R3 & _) & _). apply (leads_get _ folder); [done|done|]. by exists r. Qed.
Lemma leading_of b o x : OLinks b o -> x ∈ wb_sheets b -> exists p, Leading b o x p.
Proof.
  intros [_ _ (ps & _ & Hf)] [i Hi]%elem_of_list_lookup. destruct (Forall2_lookup_l _ _ _ _ _ Hf Hi) as (p & _ & Hp). by exists p.
Qed.
Lemma forall2_rels {A} (P Q : sheet -> A -> Prop) l l' ps : map sh_rel l' = map sh_rel l -> (forall x x' p, sh_rel x' = sh_rel x -> x ∈ l -> P x p -> Q x' p) -> Forall2 P l ps -> Forall2 Q l' ps.
Proof.
  intros Hm HPQ Hf. revert l' Hm HPQ. induction Hf as [|x p l ps Hx Hf IH]; intros [|y l'] Hm HPQ; try discriminate Hm; [constructor|]. injection Hm as H1 H2.
  constructor; [apply (HPQ x); [done|by left|done]|]. apply IH; [done|]. intros a b c Hab Ha. apply HPQ; [done|by right].
Qed.
Lemma olinks_keep b b' o o' : wb_rels b' = wb_rels b -> map sh_rel (wb_sheets b') = map sh_rel (wb_sheets b) ->
  (forall x p, x ∈ wb_sheets b -> get_target_by_id (wb_rels b) (sh_rel x) = Ok (Some p) -> Present o p -> Present o' p) ->
  OLinks b o -> OLinks b' o'.
Proof.
  intros H1 H2 H4 L. pose proof L as [L1 L2 (ps & L3 & L4)]. constructor; rewrite ?H1; [done|done|]. exists ps. split; [done|]. eapply forall2_rels; [exact H2| |exact L4].
  intros x x' p Hr Hx Hp. pose proof (leading_get _ _ _ _ L Hp) as Hg. destruct Hp as ((r & R1 & R2 & R3) & Q1 & Q2). split; [exists r; rewrite H1, Hr; done|]. split; [by eapply H4|done].
Qed.
(** Adding a sheet. *)
Lemma proper_folder q : Proper folder -> folder <> "" -> Proper (folder +:+ q).
Proof. intros H1 H2 p Hp. destruct folder as [|a f]; [done|]. cbn in Hp. injection Hp as -> _. by apply (H1 f). Qed.
Lemma olinks_add b o name b' o' w : Proper folder -> folder <> "" -> (forall q, q ∈ taken -> Present o q \/ q = content_types_name) -> DocsOk o -> OLinks b o ->
  add_sheet name (b, o) = ((b', o'), Ok w) -> OLinks b' o' /\ Proper (ws_path w)
  /\ ((wb_sheets b' = wb_sheets b /\ wb_rels b' = wb_rels b /\ exists x, x ∈ wb_sheets b /\ sh_name x = ws_name w /\ Leading b o x (ws_path w))
     \/ exists x, wb_sheets b' = wb_sheets b ++ [x] /\ (forall r, r ∈ rl_rels (wb_rels b) -> r ∈ rl_rels (wb_rels b')) /\ sh_name x = ws_name w /\ Leading b' o' x (ws_path w) /\ ~ Present o (ws_path w)).
Proof.
  intros Hpf Hne Htk Ho L. unfold add_sheet. cbn [fst snd].
  set (s := (wb_sheets b, (wb_rels b, o))).
  destruct (ws_new_list name s) as (L1 & L2 & L3).
  pose proof (fun s' x => ws_new_kept name s s' x Ho) as K.
  destruct (ws_new name s) as [[l [r o1]] x]. cbn [fst snd] in *. specialize (K _ _ eq_refl). cbn [fst snd] in K. intros [= <- <- ->].
  destruct (L3 _ eq_refl) as (path & nm & Hfile & Hpath & Hnm). clear L3. change (s.2.2) with o in K. pose proof K as [_ _ A3 A4 _].
  assert (forall q, Present o q -> Present o1 q) as Hkeep by (apply (opens_safe _ _ _ K)).
  assert ((exists n, name = Some n /\ n ∈ BookSpec.names (wb_sheets b)) \/ (forall n, name = Some n -> n ∉ BookSpec.names (wb_sheets b))) as [(n & -> & Hn)|Hn].
  { destruct name as [n|]; [|by right]. destruct (decide (n ∈ BookSpec.names (wb_sheets b))); [left; eauto|right; by intros ? [= <-]]. }
  - pose proof (find_named n (wb_sheets b)) as Hf. destruct (List.find _ (wb_sheets b)) as [x|] eqn:Ef; [|done]. destruct Hf as [Hx Hxn].
    unfold s in L1, L2, Hfile. rewrite (file_name_old n x _ _ o Ef) in L1, L2, Hfile. cbn [fst snd] in L1, L2, Hfile. subst l r. split.
    + eapply (olinks_keep b); [done|done|intros y p _ _; apply Hkeep|done].
    + destruct (leading_of _ _ _ L Hx) as (p & Hp). rewrite (leading_get _ _ _ _ L Hp) in Hfile. cbn in Hfile. injection Hfile as <- <-. rewrite Hpath. split; [apply Hp|]. left. split; [done|]. split; [done|].
      exists x. split; [done|]. by rewrite Hnm.
  - destruct (file_name_new name (wb_sheets b) (wb_rels b) o folder) as (k & Hk); [|apply relative_path, L|].
    { intros n x Hnm' Hx Heq. apply (Hn n Hnm'). apply in_names. eauto. }
    cbn zeta in Hk. fold s in Hk. destruct Hk as (Hk & _ & Harch & _). rewrite Hk in L1, L2, Hfile. cbn [fst snd] in L1, L2, Hfile. subst l r.
    injection Hfile as Hp Hnm'. rewrite <- Hp in Hpath. rewrite <- Hnm in Hnm'. clear path Hp Hk. change (c_path c_worksheet) with "worksheets" in *.
    assert (~ Present o (ws_path w)) as Hnp.
    { intros [Hq|Hq]; [|rewrite Hpath, Harch in Hq; by destruct Hq]. rewrite (A3 (ws_path w)) in Hq by left. by destruct Hq. }
    assert (Proper (ws_path w)) as Hpp. { rewrite Hpath. unfold sheet_path. rewrite <- app_assoc_s. by apply proper_folder. }
    assert (ws_path w <> content_types_name) as Hct.
    { rewrite Hpath. apply sheet_not_types. }
    rewrite <- Hpath.
    destruct (get_next_spec (wb_rels b)) as (j & Hj & _ & Hnot & _). unfold rel_ids in Hnot. rewrite <- Hj in Hnot.
    match goal with |- OLinks ?b' _ /\ _ => set (b1 := b') end.
    assert (forall r, r ∈ rl_rels (wb_rels b) -> r ∈ rl_rels (wb_rels b1)) as Hmore by (intros r Hr; cbn; rewrite elem_of_app; by left).
    match goal with b1 := context [wb_sheets b ++ [?y]] |- _ => set (x := y) in b1 end.
    assert (Leading b1 o1 x (ws_path w)) as Hlead.
    { split; [|split; [left; apply A4; right; by left|split; [done|]]].
      - eexists. split; [cbn; rewrite elem_of_app; right; by left|]. split; [done|]. split; [constructor|by right].
      - intros Hin. destruct (Htk _ Hin) as [?|?]; done. }
    split; [|split; [done|right; exists x; split_and!; [done|done|exact Hnm'|done|done]]].
    destruct L as [K1 K2 (ps & K3 & K4)]. constructor.
    + cbn. rewrite map_app. apply NoDup_app. split; [done|]. split; [|apply NoDup_singleton]. intros i Hi ->%elem_of_list_singleton. done.
    + done.
    + exists (ps ++ [ws_path w]). split.
      * apply NoDup_app. split; [done|]. split; [|apply NoDup_singleton]. intros q Hq ->%elem_of_list_singleton. apply Hnp.
        apply elem_of_list_lookup in Hq as [i Hi]. destruct (Forall2_lookup_r _ _ _ _ _ K4 Hi) as (y & _ & _ & Hpr & _). done.
      * change (wb_sheets b1) with (wb_sheets b ++ [x]). apply Forall2_app; [|by constructor].
        eapply Forall2_impl; [exact K4|]. intros y p ((r & R1 & R2) & Q1 & Q2). split; [exists r; split; [by apply Hmore|done]|]. split; [by apply Hkeep|done].
Qed.
(** Deleting a sheet. *)
Lemma forall2_filter {A B} (P Q : A -> B -> Prop) (f : A -> Prop) `{!forall x, Decision (f x)} l ps : Forall2 P l ps -> NoDup ps -> (forall x p, x ∈ l -> f x -> P x p -> Q x p) ->
  exists ps', NoDup ps' /\ (forall p, p ∈ ps' -> p ∈ ps) /\ Forall2 Q (filter f l) ps'.
Proof.
  intros Hf. induction Hf as [|x p l ps Hx Hf IH]; intros Hn HPQ; [exists []; split_and!; [constructor|done|constructor]|].
  apply NoDup_cons in Hn as [Hp Hn]. destruct IH as (ps' & H1 & H2 & H3); [done|intros y q Hy; apply HPQ; by right|].
  destruct (decide (f x)) as [Hd|Hd].
  - exists (p :: ps'). rewrite filter_cons_True by done. split; [apply NoDup_cons; split; [intros Hq; by apply Hp, H2|done]|]. split; [|constructor; [apply HPQ; [by left|done|done]|done]].
    intros q [->|Hq]%elem_of_cons; [by left|right; by apply H2].
  - exists ps'. rewrite filter_cons_False by done. split; [done|]. split; [intros q Hq; right; by apply H2|done].
Qed.
Lemma proper_absolute q : Proper q -> absolute q = "/" +:+ q.
Proof. intros H. destruct q as [|a q]; [done|]. cbn. destruct (aeqb a "/") eqn:Ha; [|done]. apply Ascii.eqb_eq in Ha as ->. by destruct (H q). Qed.
Lemma olinks_delete b o o' w : Proper (ws_path w) -> OLinks b o ->
  (forall x, x ∈ wb_sheets b -> get_target_by_id (wb_rels b) (sh_rel x) = Ok (Some (ws_path w)) -> sh_name x = ws_name w) ->
  (forall x p, x ∈ wb_sheets b -> get_target_by_id (wb_rels b) (sh_rel x) = Ok (Some p) -> Present o p -> Present o' p) ->
  OLinks (wb_delete_sheet w (b, o)).1.1 o'.
Proof.
  intros Hw L Hfresh Hkeep. destruct (delete_list w b o) as [D1 D2]. pose proof L as [L1 L2 (ps & L3 & L4)].
  assert (rl_path (delete_relationship (ws_path w) (wb_rels b)) = rl_path (wb_rels b)) as Hrp by done.
  constructor; rewrite ?D2, ?D1, ?Hrp, ?delete_rels; [by apply filter_NoDup|done|].
  destruct (forall2_filter _ (Leading (wb_delete_sheet w (b, o)).1.1 o') (fun x => sh_name x <> ws_name w) _ _ L4 L3) as (ps' & H1 & _ & H3); [|by exists ps'].
  intros x p Hx Hn Hp. pose proof (leading_get _ _ _ _ L Hp) as Hg. destruct Hp as ((r & R1 & R2 & R3 & R4) & Q1 & Q2). split; [|split; [by eapply Hkeep|done]].
  exists r. split; [|done]. rewrite D2, delete_rels, (proper_absolute _ Hw). apply elem_of_list_In, filter_In. split; [by apply elem_of_list_In|].
  destruct (seqb (r_target r) ("/" +:+ ws_path w)) eqn:Ht; [|done]. exfalso. apply seqb_true in Ht. apply Hn, Hfresh; [done|]. rewrite Hg. do 2 f_equal.
  rewrite Ht in R3. eapply resolves_once; [exact R3|]. apply (Res_abs folder (ws_path w)).
Qed.
(** ** Calls *)
Lemma use_paths h m s w : WsStays m -> Some w ∈ (use h m s).1.2 -> exists w0, Some w0 ∈ s.2 /\ ws_path w0 = ws_path w.
Proof.
  intros Hm. unfold use. destruct (handle h s) as [w1|] eqn:Eh; [|by eauto]. apply handle_lookup in Eh. destruct (Hm (w1, ss_strings (wb_sst (x_book s.1)))) as [Hp _].
  destruct (m _) as [[w2 t1] r]. cbn [fst snd] in *. intros Hin. apply elem_of_list_lookup in Hin as [i Hi]. apply list_lookup_insert_Some in Hi as [(-> & [= <-] & _)|[_ Hi]].
  - exists w1. split; [by eapply elem_of_list_lookup_2|done].
  - exists w. split; [by eapply elem_of_list_lookup_2|done].
Qed.
Lemma spend_paths h m s w : Some w ∈ (spend h m s).1.2 -> exists w0, Some w0 ∈ s.2 /\ ws_path w0 = ws_path w.
Proof.
  unfold spend. destruct (handle h s) as [w1|]; [|by eauto]. destruct (Excel.on_book _ _) as [x1 r]. cbn [fst snd]. intros Hin%in_released. eauto.
Qed.
Definition Asks (c : call) (name : option string) : Prop := c = CAdd name \/ exists n, c = CGet n /\ name = Some n.
Lemma asks_step c name s : Asks c name -> call_step c s = give (Excel.on_book (add_sheet name)) s.
Proof. intros [->|(n & -> & ->)]; done. Qed.
Lemma call_paths c s w : Some w ∈ (call_step c s).1.2 -> (exists w0, Some w0 ∈ s.2 /\ ws_path w0 = ws_path w)
  \/ exists name b o, Asks c name /\ add_sheet name (x_book s.1, x_office s.1) = ((b, o), Ok w).
Proof.
  assert (forall name, Asks c name -> Some w ∈ (call_step c s).1.2 -> (exists w0, Some w0 ∈ s.2 /\ ws_path w0 = ws_path w)
    \/ exists name b o, Asks c name /\ add_sheet name (x_book s.1, x_office s.1) = ((b, o), Ok w)) as Hg.
  { intros name Ha. rewrite (asks_step _ _ s Ha). unfold give, Excel.on_book, x_state. destruct (add_sheet name _) as [[b o] [w1|e|e]] eqn:Ea; cbn [fst snd]; [|by eauto..].
    rewrite elem_of_app, elem_of_list_singleton. intros [H|[= ->]]; [by eauto|]. right. by exists name, b, o. }
  assert (Some w ∈ s.2 -> exists w0, Some w0 ∈ s.2 /\ ws_path w0 = ws_path w) as Hsame by eauto.
  destruct c; try (eapply Hg; first [by left|right; by eauto]); cbn [call_step]; intros H; left;
    try (apply Hsame; unfold on_excel in H; by destruct (Excel.on_book _ _) in H); try (by eapply spend_paths).
  - eapply use_paths; [apply stays_row|done].
  - eapply use_paths; [apply stays_row_ref|done].
  - eapply use_paths; [apply stays_row_props|done].
  - eapply use_paths; [apply stays_col|done].
  - eapply use_paths; [apply stays_col_ref|done].
Qed.
Context (Hpf : Proper folder) (Hne : folder <> "").
Lemma step_olinks c s : (forall q, q ∈ taken -> q ∈ own_parts (x_book s.1) \/ q = content_types_name) -> LInv s -> OInv s -> NoPanic (call_step c s).2 ->
  ~ BadStep listed_rel c s -> ~ Stale c s -> OInv (call_step c s).1.
Proof.
  intros Htk I [L Hh] Hn Hb Hst.
  assert (forall q, q ∈ taken -> Present (x_office s.1) q \/ q = content_types_name) as Htk'.
  { intros q Hq. destruct (Htk q Hq) as [Ho|]; [|by right]. left. left. apply (li_open _ I). unfold held. apply elem_of_app. by left. }
  assert (forall x p, x ∈ wb_sheets (x_book s.1) -> get_target_by_id (wb_rels (x_book s.1)) (sh_rel x) = Ok (Some p) -> Present (x_office s.1) p -> Present (x_office (call_step c s).1.1) p) as Hkeep.
  { intros x p Hx. apply (step_present listed_rel c s I Hn Hb). by exists x. }
  split.
  2: { intros w Hw. destruct (call_paths _ _ _ Hw) as [(w0 & H1 & <-)|(name & b & o & Ha & He)]; [by apply Hh|]. by destruct (olinks_add _ _ _ _ _ _ Hpf Hne Htk' (li_docs _ I) L He) as (_ & ? & _). }
  assert (forall b', wb_rels b' = wb_rels (x_book s.1) -> map sh_rel (wb_sheets b') = map sh_rel (wb_sheets (x_book s.1)) -> OLinks b' (x_office (call_step c s).1.1)) as H0.
  { intros b' H1 H2. by apply (olinks_keep (x_book s.1) b' (x_office s.1)). }
  assert (forall name, Asks c name -> OLinks (x_book (call_step c s).1.1) (x_office (call_step c s).1.1)) as Hgive.
  { intros name Ha. pose proof (fun e => step_listed listed_rel name c s e Hb Ha) as Hlist. pose proof (asks_step _ _ s Ha) as Heq. rewrite Heq in *.
    pose proof (add_old name (x_book s.1) (x_office s.1)) as Hadd. unfold give, Excel.on_book, x_state in *.
    destruct (add_sheet name (x_book s.1, x_office s.1)) as [[b o] [w|e|e]] eqn:Ea; cbn [fst snd] in *; [| |done].
    - by destruct (olinks_add _ _ _ _ _ _ Hpf Hne Htk' (li_docs _ I) L Ea).
    - destruct (Hadd (Hlist _ eq_refl)) as (A1 & A2 & _). apply (H0 b); [done|by rewrite A1]. }
  assert (forall h m, wb_rels (x_book (use h m s).1.1) = wb_rels (x_book s.1) /\ map sh_rel (wb_sheets (x_book (use h m s).1.1)) = map sh_rel (wb_sheets (x_book s.1))) as Hu.
  { intros h m. destruct (book_use h m s) as (B1 & _ & B2). by rewrite B1, B2. }
  assert (forall m, KeepsLinks m -> wb_rels (x_book (on_excel (Excel.on_book (A := unit) (pure_book m)) s).1.1) = wb_rels (x_book s.1)
    /\ map sh_rel (wb_sheets (x_book (on_excel (Excel.on_book (A := unit) (pure_book m)) s).1.1)) = map sh_rel (wb_sheets (x_book s.1))) as Hp.
  { intros m Hm. rewrite book_pure. by destruct (Hm (x_book s.1)) as (H1 & H2 & _). }
  destruct c; try (eapply Hgive; first [by left|right; by eauto]); cbn [call_step] in *; try (apply H0; apply Hu).
  - apply H0; apply Hp, keeps_rename.
  - apply H0; apply Hp; by apply keeps_map.
  - apply H0; apply Hp; by apply keeps_map.
  - apply H0; apply Hp; by apply keeps_view.
  - apply H0; apply Hp; by apply keeps_view.
  - apply H0; apply Hp; by apply keeps_view.
  - apply H0; apply Hp; by apply keeps_view.
  - apply H0; apply Hp; by apply keeps_view.
  - apply H0; apply Hp; by apply keeps_style.
  - apply H0; rewrite book_spend; by destruct (handle h s).
  - apply H0; rewrite book_spend; (destruct (handle h s) as [w|]; [|done]); unfold on_wb_office; cbn [fst snd]; by destruct (ws_flush w _).
  - rewrite book_spend. destruct (handle h s) as [w|] eqn:Eh; [|by apply H0].
    apply olinks_delete; [apply Hh; apply handle_lookup in Eh; by eapply elem_of_list_lookup_2|done| |done].
    intros x Hx Ht. destruct (decide (sh_name x = ws_name w)); [done|]. exfalso. apply Hst. exists h, w, x. done.
Qed.
Lemma calls_olinks cs : forall s s', (forall q, q ∈ taken -> q ∈ own_parts (x_book s.1) \/ q = content_types_name) -> LInv s -> OInv s -> calls cs s = Some s' ->
  ~ BadOpen cs s listed_rel -> ~ StaleDelete cs s -> OInv s'.
Proof.
  induction cs as [|c cs IH]; intros s s' Htk I L Hc Hb Hst; [by injection Hc as <-|]. apply FlowSaveFacts.calls_cons in Hc as [Hn Hc].
  destruct (call_effect c s I Hn) as [I1 _].
  assert (forall cs1, calls (c :: cs1) s = calls cs1 (call_step c s).1) as Hgo. { intros cs1. cbn [calls]. by destruct (call_step c s) as [s1 [[]|e|e]]. }
  apply (IH (call_step c s).1); [by rewrite own_call|done| |done| |].
  - apply step_olinks; [done|done|done|done| |].
    + intros (name & e & B1 & B2 & B3). apply Hb. exists [], c, cs, s, name, e. done.
    + intros (h & w & x & -> & H1 & H2). apply Hst. exists [], h, cs, s, w, x. done.
  - intros (cs1 & c1 & cs2 & s2 & name & e & -> & H2 & H3). apply Hb. exists (c :: cs1), c1, cs2, s2, name, e. rewrite Hgo. done.
  - intros (cs1 & h & cs2 & s2 & w & x & -> & H2 & H3). apply Hst. exists (c :: cs1), h, cs2, s2, w, x. rewrite Hgo. done.
Qed.
(** ** Without renaming no handle is stale *)
Definition OFresh (s : session) : Prop := forall w x, Some w ∈ s.2 -> x ∈ wb_sheets (x_book s.1) -> get_target_by_id (wb_rels (x_book s.1)) (sh_rel x) = Ok (Some (ws_path w)) -> sh_name x = ws_name w.
Definition same_list (b b' : workbook) : Prop := wb_rels b' = wb_rels b /\ map (fun x => (sh_name x, sh_rel x)) (wb_sheets b') = map (fun x => (sh_name x, sh_rel x)) (wb_sheets b).
Lemma ofresh_same s s' : same_list (x_book s.1) (x_book s'.1) -> (forall w, Some w ∈ s'.2 -> exists w0, Some w0 ∈ s.2 /\ ws_path w0 = ws_path w /\ ws_name w0 = ws_name w) -> OFresh s -> OFresh s'.
Proof.
  intros [H1 H2] H3 F w x Hw Hx Ht. destruct (H3 w Hw) as (w0 & W1 & W2 & <-).
  assert ((sh_name x, sh_rel x) ∈ map (fun x => (sh_name x, sh_rel x)) (wb_sheets (x_book s.1))) as Hin.
  { rewrite <- H2. apply elem_of_list_In. apply (in_map (fun x => (sh_name x, sh_rel x))). by apply elem_of_list_In. }
  apply elem_of_list_In, in_map_iff in Hin as (y & [= Y1 Y2] & Hy). rewrite <- Y1. apply F; [done|by apply elem_of_list_In|]. by rewrite Y2, W2, <- H1.
Qed.
Lemma use_handles h m s w : WsStays m -> WsNamed m -> Some w ∈ (use h m s).1.2 -> exists w0, Some w0 ∈ s.2 /\ ws_path w0 = ws_path w /\ ws_name w0 = ws_name w.
Proof.
  intros Hm Hn. unfold use. destruct (handle h s) as [w1|] eqn:Eh; [|by eauto]. apply handle_lookup in Eh. destruct (Hm (w1, ss_strings (wb_sst (x_book s.1)))) as [Hp _].
  specialize (Hn (w1, ss_strings (wb_sst (x_book s.1)))).
  destruct (m _) as [[w2 t1] r]. cbn [fst snd] in *. intros Hin. apply elem_of_list_lookup in Hin as [i Hi]. apply list_lookup_insert_Some in Hi as [(-> & [= <-] & _)|[_ Hi]].
  - exists w1. split; [by eapply elem_of_list_lookup_2|done].
  - exists w. split; [by eapply elem_of_list_lookup_2|done].
Qed.
Lemma spend_handles h m s w : Some w ∈ (spend h m s).1.2 -> Some w ∈ s.2.
Proof. unfold spend. destruct (handle h s) as [w1|]; [|done]. destruct (Excel.on_book _ _) as [x1 r]. cbn [fst snd]. apply in_released. Qed.
Lemma leading_same b o x y p : OLinks b o -> x ∈ wb_sheets b -> y ∈ wb_sheets b -> Leading b o x p -> Leading b o y p -> x = y.
Proof.
  intros L Hx Hy Lx Ly. pose proof L as [_ _ (ps & L3 & L4)]. apply elem_of_list_lookup in Hx as [i Hi]. apply elem_of_list_lookup in Hy as [j Hj].
  destruct (Forall2_lookup_l _ _ _ _ _ L4 Hi) as (p1 & P1 & Q1). destruct (Forall2_lookup_l _ _ _ _ _ L4 Hj) as (p2 & P2 & Q2).
  pose proof (leading_get _ _ _ _ L Lx) as G1. pose proof (leading_get _ _ _ _ L Ly) as G2. pose proof (leading_get _ _ _ _ L Q1) as G3. pose proof (leading_get _ _ _ _ L Q2) as G4.
  assert (p1 = p) as -> by congruence. assert (p2 = p) as -> by congruence. pose proof (NoDup_lookup ps i j p L3 P1 P2) as ->. congruence.
Qed.
Lemma get_leading b o x p : OLinks b o -> x ∈ wb_sheets b -> get_target_by_id (wb_rels b) (sh_rel x) = Ok (Some p) -> Leading b o x p.
Proof. intros L Hx Hg. destruct (leading_of _ _ _ L Hx) as (q & Hq). rewrite (leading_get _ _ _ _ L Hq) in Hg. by injection Hg as <-. Qed.
Lemma step_ofresh c s : (forall q, q ∈ taken -> q ∈ own_parts (x_book s.1) \/ q = content_types_name) -> LInv s -> OInv s -> OFresh s -> NoPanic (call_step c s).2 ->
  ~ BadStep listed_rel c s -> ~ renames c -> OFresh (call_step c s).1.
Proof.
  intros Htk I [L Hh] F Hn Hb Hr.
  assert (forall q, q ∈ taken -> Present (x_office s.1) q \/ q = content_types_name) as Htk'.
  { intros q Hq. destruct (Htk q Hq) as [Ho|]; [|by right]. left. left. apply (li_open _ I). unfold held. apply elem_of_app. by left. }
  assert (forall name, Asks c name -> OFresh (call_step c s).1) as Hgive.
  { intros name Ha. pose proof (fun e => step_listed listed_rel name c s e Hb Ha) as Hlist. pose proof (asks_step _ _ s Ha) as Heq. rewrite Heq in *.
    pose proof (add_old name (x_book s.1) (x_office s.1)) as Hadd. unfold give, Excel.on_book, x_state in *.
    destruct (add_sheet name (x_book s.1, x_office s.1)) as [[b o] [w|e|e]] eqn:Ea; cbn [fst snd] in *; [| |done].
    2: { destruct (Hadd (Hlist _ eq_refl)) as (A1 & A2 & _). eapply (ofresh_same s); [|by eauto|done]. split; [done|]. cbn [fst x_book set_x]. by rewrite A1. }
    destruct (olinks_add _ _ _ _ _ _ Hpf Hne Htk' (li_docs _ I) L Ea) as (L' & _ & [(H1 & H2 & x & H3 & H4 & H5)|(x & H1 & H2 & H3 & H4 & H5)]).
    - intros w1 x1 Hw Hx Ht. cbn [fst snd x_book set_x] in *. rewrite H1 in Hx. rewrite H2 in Ht. apply elem_of_app in Hw as [Hw|[= ->]%elem_of_list_singleton]; [by apply F|].
      by rewrite (leading_same _ _ x1 x (ws_path w) L Hx H3 (get_leading _ _ _ _ L Hx Ht) H5).
    - intros w1 x1 Hw Hx Ht. cbn [fst snd x_book set_x] in *. rewrite H1 in Hx. apply elem_of_app in Hx as [Hx| ->%elem_of_list_singleton].
      + assert (get_target_by_id (wb_rels (x_book s.1)) (sh_rel x1) = Ok (Some (ws_path w1))) as Hg.
        { destruct (leading_of _ _ _ L Hx) as (p & Lp). rewrite (leading_get _ _ _ _ L Lp). rewrite <- Ht. symmetry. apply (leading_get _ o _ _ L').
          destruct (leading_of _ _ x1 L') as (p' & Lp'); [rewrite H1, elem_of_app; by left|]. destruct Lp as ((r & R1 & R2 & R3 & _) & _). pose proof Lp' as ((r' & R1' & R2' & R3' & _) & _).
          assert (r' = r) as ->. { eapply same_id; [apply (ol_ids _ _ L')|done|by apply H2|congruence]. } by rewrite (resolves_once _ _ _ _ R3 R3'). }
        apply elem_of_app in Hw as [Hw|[= ->]%elem_of_list_singleton]; [by apply F|]. exfalso. apply H5. by apply (get_leading _ _ _ _ L Hx Hg).
      + rewrite (leading_get _ _ _ _ L' H4) in Ht. injection Ht as Ht. apply elem_of_app in Hw as [Hw|[= ->]%elem_of_list_singleton]; [|done]. exfalso. apply H5. rewrite Ht. left.
        apply (li_open _ I). unfold KeepFacts.held. rewrite !elem_of_app. right. right. unfold live_parts.
        apply elem_of_list_In, in_concat. exists (handle_parts (Some w1)). split; [apply elem_of_list_In, elem_of_list_fmap; eauto|by left]. }
  assert (forall w, Some w ∈ s.2 -> exists w0, Some w0 ∈ s.2 /\ ws_path w0 = ws_path w /\ ws_name w0 = ws_name w) as Hsame by eauto.
  assert (forall m, (forall b, same_list b (m b).1) -> OFresh (on_excel (Excel.on_book (A := unit) (pure_book m)) s).1) as Hp.
  { intros m Hm. apply (ofresh_same s); [rewrite book_pure; apply Hm| |done]. intros w Hw. apply Hsame. unfold on_excel in Hw. by destruct (Excel.on_book _ _) in Hw. }
  assert (forall h m, WsStays m -> WsNamed m -> OFresh (use h m s).1) as Hu.
  { intros h m H1 H2. apply (ofresh_same s); [|intros w; by apply use_handles|done]. destruct (book_use h m s) as (B1 & _ & B2). split; [done|by rewrite B1]. }
  destruct c; try (exfalso; by apply Hr); try (eapply Hgive; first [by left|right; by eauto]); cbn [call_step] in *.
  - apply Hp. intros b. split; [done|]. cbn. by rewrite map_map.
  - apply Hp. intros b. split; [done|]. cbn. by rewrite map_map.
  - by apply Hp.
  - by apply Hp.
  - by apply Hp.
  - by apply Hp.
  - by apply Hp.
  - apply Hp. intros b. unfold bind, wb_style_id. by destruct (get_style_id _ _) as [st' [r|e|e]].
  - apply Hu; [apply stays_row|apply named_row].
  - apply Hu; [apply stays_row_ref|apply named_row_ref].
  - apply Hu; [apply stays_row_props|apply named_row_props].
  - apply Hu; [apply stays_col|apply named_col].
  - apply Hu; [apply stays_col_ref|apply named_col_ref].
  - apply (ofresh_same s); [|intros w Hw%spend_handles; by apply Hsame|done]. rewrite book_spend. by destruct (handle h s).
  - apply (ofresh_same s); [|intros w Hw%spend_handles; by apply Hsame|done]. rewrite book_spend. destruct (handle h s) as [w|]; [|done]. unfold on_wb_office. cbn [fst snd]. by destruct (ws_flush w _).
  - intros w1 x Hw%spend_handles Hx Ht. rewrite book_spend in Hx, Ht. destruct (handle h s) as [w|] eqn:Eh; [|by apply F].
    destruct (delete_list w (x_book s.1) (x_office s.1)) as [D1 D2]. rewrite D1 in Hx. apply elem_of_list_filter in Hx as [Hn' Hx]. rewrite D2 in Ht. apply F; [done|done|].
    apply (leads_get _ folder) in Ht as (r & R1 & R2 & R3); [|unfold rel_ids; rewrite delete_rels; apply filter_NoDup, L|apply L].
    apply (leads_get _ folder); [apply L|apply L|]. exists r. split; [|done]. rewrite delete_rels in R1. apply elem_of_list_In, filter_In in R1 as [R1 _]. by apply elem_of_list_In.
Qed.
Lemma ofresh_not_stale c s : OFresh s -> ~ Stale c s.
Proof. intros F (h & w & x & _ & Hw & Hx & Ht & Hn). apply Hn, F; [|done|done]. apply handle_lookup in Hw. by eapply elem_of_list_lookup_2. Qed.
Lemma calls_ofresh cs : forall s, (forall q, q ∈ taken -> q ∈ own_parts (x_book s.1) \/ q = content_types_name) -> LInv s -> OInv s -> OFresh s -> ~ BadOpen cs s listed_rel ->
  Forall (fun c => ~ renames c) cs -> ~ StaleDelete cs s.
Proof.
  induction cs as [|c cs IH]; intros s Htk I L F Hf Hr (cs1 & h & cs2 & s1 & w & x & Hcs & Hc & Hst); [by destruct cs1|].
  apply Forall_cons in Hr as [Hr1 Hr2]. destruct cs1 as [|c1 cs1]; cbn in Hcs; injection Hcs as -> Hcs.
  - injection Hc as <-. apply (ofresh_not_stale (CDelete h) s F). by exists h, w, x.
  - apply FlowSaveFacts.calls_cons in Hc as [Hn Hc]. destruct (call_effect c1 s I Hn) as [I1 _].
    assert (forall cs1, calls (c1 :: cs1) s = calls cs1 (call_step c1 s).1) as Hgo. { intros cs3. cbn [calls]. by destruct (call_step c1 s) as [s3 [[]|e|e]]. }
    assert (~ BadStep listed_rel c1 s) as Hbad. { intros (name & e & B1 & B2 & B3). apply Hf. exists [], c1, cs, s, name, e. done. }
    apply (IH (call_step c1 s).1); [by rewrite own_call|done| | | |done|].
    + apply step_olinks; [done..|]. by apply ofresh_not_stale.
    + by apply step_ofresh.
    + intros (cs3 & c3 & cs4 & s3 & name & e & -> & H2 & H3). apply Hf. exists (c1 :: cs3), c3, cs4, s3, name, e. rewrite Hgo. done.
    + exists cs1, h, cs2, s1, w, x. done.
Qed.
End with_env.

(** ** From the file opened to the file saved *)
Section with_env.
Context `{E : Env} `{Hs : Hashes}.
Lemma opened_olinks file fs0 l0 x0 rels folder taken : Stored fs0 file l0 -> excel_new (Some file) fs0 = Ok x0 -> rl_path (wb_rels (x_book x0)) <> content_types_name ->
  Lists l0 (rl_path (wb_rels (x_book x0))) rels -> OwnerFolder (rl_path (wb_rels (x_book x0))) folder -> content_types_name ∈ taken ->
  FileLinks l0 taken rels folder (wb_sheets (x_book x0)) -> OInv folder taken rels (x0, []).
Proof.
  intros Hst Hx Hct Hl Hf Htk [Hnd (ps & Hps & Hall)]. destruct (sources_opened _ _ _ Hx) as (o & Ho & S). destruct (reopened_file _ _ _ _ Hst Ho) as (_ & Hparts & _).
  destruct (so_rels _ _ _ S) as (p0 & d' & r0 & Hsrc & Hload & _ & (_ & (new & G1 & G2) & G3)).
  assert (rl_rels r0 = rels) as <-. { eapply lists_read; [|done|exact Hsrc|exact Hload]. intros data Hin. by apply Hparts. }
  destruct (new_linv _ _ _ Hx) as (_ & o' & Ho' & [_ Hsafe] & _). assert (o' = o) as -> by congruence.
  split; [|by intros w Hw%elem_of_nil]. constructor; [by apply G3|done|]. cbn [fst]. exists ps. split; [done|].
  eapply Forall2_impl; [exact Hall|]. intros x p ((r & R1 & R2 & R3) & H1 & H2 & H3). split; [|split; [|done]].
  - exists r. rewrite G1, elem_of_app. auto.
  - apply Hsafe. right. apply elem_of_list_fmap in H1 as ([q data] & -> & Hin). cbn [fst] in *. destruct (Hparts q data) as (e & He & _); [by intros ->|done|]. by exists e.
Qed.
Lemma emptied_keeps b r x p folder : x ∈ rl_rels r -> Proper (cc_path (wb_calc b)) -> Proper (ss_path (wb_sst b)) -> Resolves folder (r_target x) p ->
  p <> cc_path (wb_calc b) -> p <> ss_path (wb_sst b) -> x ∈ rl_rels (emptied b r).
Proof.
  intros Hx Hc Hp Hr H1 H2.
  assert (forall q r', Proper q -> p <> q -> x ∈ rl_rels r' -> x ∈ rl_rels (delete_relationship q r')) as Hd.
  { intros q r' Hq Hne Hin. rewrite delete_rels, (proper_absolute _ Hq). apply elem_of_list_In, filter_In. split; [by apply elem_of_list_In|].
    destruct (seqb (r_target x) ("/" +:+ q)) eqn:Ht; [|done]. exfalso. apply seqb_true in Ht. rewrite Ht in Hr. apply Hne. eapply resolves_once; [exact Hr|]. apply (Res_abs folder q). }
  unfold emptied. cbn zeta. destruct (cc_entries _), (ss_strings _); auto.
Qed.
Theorem links_flow file fs0 l0 data root ns sheets view rdata rroot rns rels folder x0 cs s t f path fs tr fs' :
  Stored fs0 file l0 -> excel_new (Some file) fs0 = Ok x0 ->
  (wb_path (x_book x0), data) ∈ l0 -> wb_path (x_book x0) <> content_types_name -> ReadsIn data root ns -> t_value root = None -> ListSaid root sheets -> ViewSaid root view ->
  (rl_path (wb_rels (x_book x0)), rdata) ∈ l0 -> rl_path (wb_rels (x_book x0)) <> content_types_name -> ReadsIn rdata rroot rns -> t_value rroot = None -> RelsSaid rroot rels ->
  OwnerFolder (rl_path (wb_rels (x_book x0))) folder -> folder <> "" -> Proper folder -> Proper (cc_path (wb_calc (x_book x0))) -> Proper (ss_path (wb_sst (x_book x0))) ->
  FileLinks l0 [content_types_name; cc_path (wb_calc (x_book x0)); ss_path (wb_sst (x_book x0))] rels folder sheets ->
  calls cs (x0, []) = Some s -> ~ BadOpen cs (x0, []) listed_rel -> ~ StaleDelete cs (x0, []) -> list_sheet_names (x_book s.1) <> [] ->
  excel_save t f path s.1 fs = (tr, Ok tt) -> last tr = Some fs' ->
  exists l, Stored fs' path l /\ KeptLinks l (wb_path (x_book x0)) (rl_path (wb_rels (x_book x0))) folder rels (list_sheet_names (x_book s.1)).
Proof.
  intros Hst Hx Hbk Hbct Hbr Hbv Hls Hvs Hrk Hrct Hrr Hrv Hrs Hf Hne Hpf Hpc Hps HF Hcs Hbad Hstale Hnames Hsave Hlast.
  destruct (book_flow file fs0 l0 data root ns sheets view x0 cs s t f path fs tr fs' Hst Hx Hbk Hbct Hbr Hbv Hls Hvs) as (Hsh & _ & Hbook).
  destruct (Hbook Hcs Hsave Hlast) as (l & Hl & (btext & broot & bns & ts & B1 & B2 & _ & _ & _ & B3 & (_ & B4 & B5) & _) & _). clear Hbook.
  destruct (rels_flow_now file fs0 l0 rdata rroot rns rels x0 cs s t f path fs tr fs' Hst Hx Hrk Hrct Hrr Hrv Hrs Hcs Hsave Hlast) as (l' & kept & new & Hl' & Hshown & _ & _ & Hids & Hem).
  pose proof (stored_once _ _ _ _ Hl Hl') as <-. clear Hl'. destruct HF as [Hnd HF]. specialize (Hids Hnd).
  set (taken := [content_types_name; cc_path (wb_calc (x_book x0)); ss_path (wb_sst (x_book x0))]) in *.
  destruct (new_linv _ _ _ Hx) as [I0 _]. destruct (own_stays _ _ _ I0 Hcs) as [Hown _]. destruct (calls_effect _ _ _ I0 Hcs) as [I _]. cbn [fst] in *.
  assert (OInv folder taken rels s) as [L _].
  { apply (calls_olinks folder taken rels Hpf Hne cs (x0, []) s); [|done| |done..].
    - cbn [fst]. unfold taken, own_parts. intros q. rewrite !elem_of_cons. tauto.
    - apply (opened_olinks file fs0 l0 x0 rels folder taken); [done|done|done| |done|by left|rewrite Hsh; done]. exists rdata, rroot, rns. done. }
  pose proof L as [L1 L2 (ps & L3 & L4)].
  assert (cc_path (wb_calc (x_book s.1)) = cc_path (wb_calc (x_book x0)) /\ ss_path (wb_sst (x_book s.1)) = ss_path (wb_sst (x_book x0))) as [Hcc Hss].
  { pose proof Hown as Hq. unfold own_parts in Hq. by injection Hq. }
  (* every sheet has its relationship among those written *)
  assert (forall i x p, wb_sheets (x_book s.1) !! i = Some x -> ps !! i = Some p -> exists j r, (kept ++ new) !! j = Some r /\ r_id r = sh_rel x /\ Resolves folder (r_target r) p /\ (r ∈ rels \/ r_type r = worksheet_type)
    /\ Present (x_office s.1) p /\ p ∉ taken) as Hrel.
  { intros i x p Hi Hp. destruct (Forall2_lookup_lr _ _ _ _ _ _ L4 Hi Hp) as ((r & R1 & R2 & R3 & R4) & Q1 & Q2 & Q3).
    assert (r ∈ kept ++ new) as [j Hj]%elem_of_list_lookup.
    { rewrite <- Hem. eapply emptied_keeps; [done|by rewrite Hcc|by rewrite Hss|done| |]; rewrite ?Hcc, ?Hss; intros ->; apply Q3; unfold taken; rewrite !elem_of_cons; tauto. }
    exists j, r. done. }
  assert (kept ++ new <> []) as Hne'.
  { destruct (wb_sheets (x_book s.1)) as [|x xs] eqn:Ex; [unfold list_sheet_names in Hnames; by rewrite Ex in Hnames|]. destruct ps as [|p ps]; [by inversion L4|].
    destruct (Hrel 0%nat x p eq_refl eq_refl) as (j & r & Hj & _). intros Hz. by rewrite Hz in Hj. }
  destruct (Hshown Hne') as (rtext & rroot' & rns' & R1 & R2 & _ & _ & _ & R3 & _). unfold RelsSaid in R3. fold (relations_in rroot') in R3.
  assert (forall j j' r r', (kept ++ new) !! j = Some r -> (kept ++ new) !! j' = Some r' -> r_id r = r_id r' -> j = j') as Hid.
  { intros j j' r r' H1 H2 H3. eapply NoDup_lookup; [exact Hids| |].
    - change (map r_id (kept ++ new)) with (r_id <$> (kept ++ new)). rewrite list_lookup_fmap, H1. done.
    - change (map r_id (kept ++ new)) with (r_id <$> (kept ++ new)). rewrite list_lookup_fmap, H2. cbn. by rewrite H3. }
  assert (NoDup (own_parts (x_book s.1)) /\ forall q, q ∈ own_parts (x_book s.1) -> is_Some (of_open (x_office s.1) !! q)) as [Hnd' Hop].
  { split; [pose proof (li_nodup _ I) as H; unfold held in H; by apply NoDup_app in H as [? _]|]. intros q Hq. apply (li_open _ I). unfold held. apply elem_of_app. by left. }
  destruct (excel_kept _ _ _ _ _ _ _ (li_docs _ I) Hnd' Hop Hsave Hlast) as (l' & Hl' & Hk & _). pose proof (stored_once _ _ _ _ Hl Hl') as <-. clear Hl'.
  (* an entry leads to the part of its sheet *)
  assert (forall i n part, SheetIn ts rroot' folder rels i n part -> ps !! i = Some part) as Hin.
  { intros i n part (c & id & j & rt & H1 & _ & H2 & H3 & H4 & _ & (tg & H5 & H6) & _).
    assert (is_Some (wb_sheets (x_book s.1) !! i)) as [x Hi]. { apply lookup_lt_is_Some. rewrite <- B4. by eapply lookup_lt_Some. }
    destruct (B5 _ _ Hi) as (c' & C1 & _ & _ & _ & C2 & _). assert (c' = c) as -> by congruence. assert (id = sh_rel x) as -> by congruence.
    destruct (Forall2_lookup_l _ _ _ _ _ L4 Hi) as (p & Hp & _). destruct (Hrel _ _ _ Hi Hp) as (j' & r & J1 & J2 & J3 & _).
    destruct (Forall2_lookup_r _ _ _ _ _ R3 H3) as (r' & J4 & (J5 & J6 & _)).
    assert (j' = j) as -> by (eapply Hid; [done|done|congruence]). assert (r' = r) as -> by congruence. assert (tg = r_target r) as -> by congruence.
    rewrite Hp. f_equal. by eapply resolves_once. }
  exists l. split; [done|]. exists broot, ts, rroot'. split; [by exists btext, bns|]. split; [done|]. split; [by exists rtext, rns'|].
  split; [rewrite B4; unfold list_sheet_names; by rewrite map_length|]. split.
  - intros i name Hi. unfold list_sheet_names in Hi. change (map sh_name (wb_sheets (x_book s.1))) with (sh_name <$> wb_sheets (x_book s.1)) in Hi. rewrite list_lookup_fmap in Hi.
    destruct (wb_sheets (x_book s.1) !! i) as [x|] eqn:Ex; [|done]. injection Hi as <-. destruct (Forall2_lookup_l _ _ _ _ _ L4 Ex) as (p & Hp & _).
    destruct (Hrel _ _ _ Ex Hp) as (j & r & J1 & J2 & J3 & J4 & J5 & J6). destruct (B5 _ _ Ex) as (c & C1 & _ & C2 & _ & C3 & _).
    destruct (Forall2_lookup_l _ _ _ _ _ R3 J1) as (rt & K1 & K2). exists p. split.
    + exists c, (sh_rel x), j, rt. pose proof K2 as (K3 & K4 & K5 & _). split; [done|]. split; [done|]. split; [done|]. split; [done|]. split; [by rewrite K3, J2|]. split; [|split; [by exists (r_target r)|]].
      * intros j' rt' M1 M2. destruct (Forall2_lookup_r _ _ _ _ _ R3 M1) as (r' & M3 & (M4 & _)). eapply Hid; [exact M3|exact J1|congruence].
      * destruct J4 as [Ho|Ht]; [left; by exists r|right; by rewrite K5, Ht].
    + apply Hk; [|done]. intros ->. apply J6. by left.
  - intros i j n m part H1%Hin H2%Hin. exact (NoDup_lookup ps i j part L3 H1 H2).
Qed.
End with_env.
