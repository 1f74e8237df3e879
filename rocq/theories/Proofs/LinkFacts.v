(** The sheets a saved workbook lists lead to parts. *)
From Verif.Model Require Import Excel.
From Verif.Spec Require Import RelSpec XmlSpec XmlRepr PackageSpec PartSpec SheetSpec SessionSpec LinkSpec.
From Verif.Proofs Require Import BaseFacts RelFacts PackageFacts XmlWriteFacts XmlReadFacts PartFacts XmlTreeFacts XmlNsFacts DocBuild RelDocFacts SmallPartFacts
  SheetFacts SheetDocFacts SheetCycleFacts BookFacts FrameFacts SaveFacts SessionFacts ExcelFacts KeepFacts.
Open Scope N_scope.

Section with_env.
Context `{E : Env} `{Hs : Hashes}.

(** ** The invariant *)
Record Links (b : workbook) (o : office) : Prop := {
  lk_ids : NoDup (map r_id (rl_rels (wb_rels b)));
  lk_targets : NoDup (map r_target (rl_rels (wb_rels b)));
  lk_parts : forall r p, r ∈ rl_rels (wb_rels b) -> sheet_rel r -> r_target r = "/" +:+ p -> Present o p;
  lk_sheets : forall x, x ∈ wb_sheets b -> exists r, r ∈ rl_rels (wb_rels b) /\ r_id r = sh_rel x /\ sheet_rel r;
  lk_once : NoDup (map sh_rel (wb_sheets b));
  lk_view : forall v, wb_view b = Some v -> BookSpec.ratio_typed v;
}.
Lemma slash_inj (p q : string) : "/" +:+ p = "/" +:+ q -> p = q.
Proof. by intros [= ?]. Qed.
(** Ids decide relationships. *)
Lemma same_id (l : list rel) x y : NoDup (map r_id l) -> x ∈ l -> y ∈ l -> r_id x = r_id y -> x = y.
Proof.
  intros Hn Hx Hy He. apply elem_of_list_lookup in Hx as [i Hi]. apply elem_of_list_lookup in Hy as [j Hj].
  assert (i = j) as ->; [|congruence]. eapply NoDup_lookup; [exact Hn| |].
  - change (map r_id l) with (r_id <$> l). rewrite list_lookup_fmap, Hi. done.
  - change (map r_id l) with (r_id <$> l). rewrite list_lookup_fmap, Hj. cbn. by rewrite He.
Qed.
Lemma target_of b o r : BookShape b -> Links b o -> r ∈ rl_rels (wb_rels b) -> sheet_rel r ->
  exists p, r_target r = "/" +:+ p /\ get_target_by_id (wb_rels b) (r_id r) = Ok (Some p) /\ in_area p.
Proof.
  intros Hb L Hr Hsr. destruct Hsr as (Ht & (k & Hk) & Hrest). exists (sheet_path sheet_dir k). split; [done|]. split; [|apply sheet_in_area].
  unfold get_target_by_id. destruct (List.find _ _) as [y|] eqn:Ef.
  - apply find_some in Ef as [Hy Hi]. apply seqb_true in Hi. apply elem_of_list_In in Hy.
    pose proof (same_id _ _ _ (lk_ids _ _ L) Hy Hr Hi) as ->.
    unfold resolve_target. rewrite (shape_relative _ Hb). cbn [rbind]. rewrite Hk. done.
  - exfalso. apply elem_of_list_In in Hr. pose proof (find_none _ _ Ef r Hr) as Hn. cbn in Hn. by rewrite seqb_refl in Hn.
Qed.
(** Steps that change neither list nor lose parts. *)
Lemma links_keep b b' o o' : rl_rels (wb_rels b') = rl_rels (wb_rels b) -> map sh_rel (wb_sheets b') = map sh_rel (wb_sheets b) ->
  (forall v, wb_view b' = Some v -> wb_view b = Some v \/ BookSpec.ratio_typed v) ->
  (forall r p, r ∈ rl_rels (wb_rels b) -> sheet_rel r -> r_target r = "/" +:+ p -> Present o p -> Present o' p) ->
  Links b o -> Links b' o'.
Proof.
  intros H1 H2 H3 H4 [L1 L2 L3 L4 L5 L6]. constructor; rewrite ?H1, ?H2; [done|done| | |done|].
  - intros r p Hr Hsr Ht. apply (H4 r); [done..|]. by eapply L3.
  - intros x Hx. assert (sh_rel x ∈ map sh_rel (wb_sheets b)) as Hin. { rewrite <- H2. apply elem_of_list_In, in_map. by apply elem_of_list_In. }
    apply elem_of_list_In, in_map_iff in Hin as (y & Hy & Hin). destruct (L4 y) as (r & R1 & R2 & R3); [by apply elem_of_list_In|]. exists r. by rewrite R2.
  - intros v Hv. destruct (H3 v Hv); auto.
Qed.
(** The area of sheet parts is not that of the workbook's own parts. *)
Lemma base_not_area r p : r ∈ base_rels -> r_target r = "/" +:+ p -> ~ in_area p.
Proof.
  unfold base_rels. rewrite !elem_of_cons. intros [-> | [-> | [-> | [-> | H%elem_of_nil]]]]; [..|done]; cbn [r_target]; intros H%slash_inj; subst p; by vm_compute.
Qed.
Lemma rel_cases b r : BookShape b -> r ∈ rl_rels (wb_rels b) -> r ∈ base_rels \/ sheet_rel r.
Proof.
  intros Hb. destruct (bs_list _ Hb) as (ext & -> & Hext). rewrite elem_of_app. intros [H|H]; [by left|right]. rewrite Forall_forall in Hext. by apply Hext.
Qed.
(** Adding a sheet. *)
Lemma ws_new_name name s w path nm : (ws_new name s).2 = Ok w -> (get_sheet_file_name name s).2 = Ok (path, nm) -> ws_name w = nm.
Proof.
  unfold ws_new, bind. destruct (get_sheet_file_name name s) as [[l [r o]] [[path' nm']|e|e]]; [|done..]. cbn [snd].
  unfold on_pkg, on_office, lift. cbn [fst snd].
  destruct (get_xml_document ws_init path' o) as [o1 [[]|e|e]]; cbn [fst snd]; [|done..].
  destruct (rels_beside path') as [rp|e|e] eqn:Erp; [|done..]. cbn [fst snd].
  destruct (rels_new rp o1) as [o2 [rels|e|e]]; cbn [fst snd]; [|done..].
  destruct (with_doc path' ws_load o2) as [o3 [x|e|e]]; cbn [fst snd]; [|done..].
  destruct (default _ x) as [[[cols data] views] dim]. cbn. intros [= <-] [= _ <-]. done.
Qed.
Lemma links_add b o name b' o' w : BookShape b -> DocsOk o -> Links b o -> add_sheet name (b, o) = ((b', o'), Ok w) ->
  Links b' o' /\
  ((wb_sheets b' = wb_sheets b /\ wb_rels b' = wb_rels b /\ exists x, x ∈ wb_sheets b /\ sh_name x = ws_name w /\ get_target_by_id (wb_rels b) (sh_rel x) = Ok (Some (ws_path w)))
   \/ exists x r, wb_sheets b' = wb_sheets b ++ [x] /\ rl_rels (wb_rels b') = rl_rels (wb_rels b) ++ [r] /\ sh_name x = ws_name w /\ sh_rel x = r_id r
      /\ r_target r = "/" +:+ ws_path w /\ ~ Present o (ws_path w) /\ r_id r ∉ map r_id (rl_rels (wb_rels b))).
Proof.
  intros Hb Ho L. unfold add_sheet. cbn [fst snd].
  set (s := (wb_sheets b, (wb_rels b, o))).
  destruct (ws_new_list name s) as (L1 & L2 & _). pose proof (fun H => ws_new_handle name s w H) as L3. pose proof (ws_new_name name s w) as L4.
  pose proof (fun s' x => ws_new_kept name s s' x Ho) as K.
  destruct (ws_new name s) as [[l [r o1]] x]. cbn [fst snd] in *. specialize (K _ _ eq_refl). cbn [fst snd] in K. intros [= <- <- ->].
  destruct (L3 eq_refl) as [(nm & Hfile) _]. specialize (L4 _ _ eq_refl Hfile). subst nm. clear L3. change (s.2.2) with o in K. pose proof K as [_ _ A3 A4 _].
  assert (forall q, Present o q -> Present o1 q) as Hkeep by (apply (opens_safe _ _ _ K)).
  assert ((exists n, name = Some n /\ n ∈ BookSpec.names (wb_sheets b)) \/ (forall n, name = Some n -> n ∉ BookSpec.names (wb_sheets b))) as [(n & -> & Hn)|Hn].
  { destruct name as [n|]; [|by right]. destruct (decide (n ∈ BookSpec.names (wb_sheets b))); [left; eauto|right; by intros ? [= <-]]. }
  - pose proof (find_named n (wb_sheets b)) as Hf. destruct (List.find _ (wb_sheets b)) as [x|] eqn:Ef; [|done]. destruct Hf as [Hx Hxn].
    unfold s in L1, L2, Hfile. rewrite (file_name_old n x _ _ o Ef) in L1, L2, Hfile. cbn [fst snd] in L1, L2, Hfile. subst l r. split.
    + eapply (links_keep b); [done|done|by left|intros y p _ _ _; apply Hkeep|done].
    + left. split; [done|]. split; [done|]. exists x. split; [done|]. destruct (get_target_by_id (wb_rels b) (sh_rel x)) as [[p|]|e|e]; [|done..].
      cbn in Hfile. injection Hfile as -> <-. done.
  - destruct (file_name_new name (wb_sheets b) (wb_rels b) o "xl/") as (k & Hk); [|by apply shape_relative|].
    { intros n x Hnm Hx Heq. apply (Hn n Hnm). apply in_names. eauto. }
    cbn zeta in Hk. fold s in Hk. destruct Hk as (Hk & _ & Harch & _). rewrite Hk in L1, L2, Hfile. cbn [fst snd] in L1, L2, Hfile. subst l r.
    change ("xl/" +:+ c_path c_worksheet) with sheet_dir in *. injection Hfile as Hp Hnm.
    assert (~ Present o (ws_path w)) as Hnp.
    { rewrite <- Hp. intros [Hq|Hq]; [|rewrite Harch in Hq; by destruct Hq]. rewrite Hp in Hq. rewrite (A3 (ws_path w)) in Hq by left. by destruct Hq. }
    destruct (get_next_spec (wb_rels b)) as (j & Hj & _ & Hnot & _). rewrite Hj in *. unfold rel_ids in Hnot. rewrite Hp in *.
    set (r := mkRel (rid j) ("/" +:+ ws_path w) (c_type c_worksheet) None).
    assert (sheet_rel r) as Hsr.
    { split; [done|]. split; [exists k; by rewrite Hp|]. split; [|split; [by exists j|done]]. destruct (bs_list _ Hb) as (ext & Hl & _). rewrite Hl, map_app in Hnot.
      intros Hin. apply Hnot, elem_of_app. by left. }
    split.
    + destruct L as [K1 K2 K3 K4 K5 K6]. constructor; cbn [set_wb_rels set_wb_sheets wb_rels wb_sheets set_rels rl_rels wb_view].
      * rewrite map_app. apply NoDup_app. split; [done|]. split; [|apply NoDup_singleton]. intros i Hi ->%elem_of_list_singleton. done.
      * rewrite map_app. apply NoDup_app. split; [done|]. split; [|apply NoDup_singleton]. intros t Ht ->%elem_of_list_singleton.
        apply elem_of_list_In, in_map_iff in Ht as (y & Hy & Hin). apply elem_of_list_In in Hin.
        destruct (rel_cases _ _ Hb Hin) as [Hbase|Hsy]; [|apply Hnp; by apply (K3 y)].
        apply (base_not_area y (ws_path w)); [done|done|]. rewrite <- Hp. apply sheet_in_area.
      * intros y p Hy Hsy Ht. apply elem_of_app in Hy as [Hy| ->%elem_of_list_singleton]; [apply Hkeep; by apply (K3 y)|].
        apply slash_inj in Ht. subst p. left. apply A4. right. by left.
      * intros x Hx. apply elem_of_app in Hx as [Hx| ->%elem_of_list_singleton].
        -- destruct (K4 x Hx) as (y & Y1 & Y2). exists y. split; [|done]. apply elem_of_app. by left.
        -- exists r. split; [apply elem_of_app; right; by left|]. done.
      * rewrite map_app. apply NoDup_app. split; [done|]. split; [|apply NoDup_singleton]. intros i Hi ->%elem_of_list_singleton.
        apply elem_of_list_In, in_map_iff in Hi as (x & Hx & Hin). apply elem_of_list_In in Hin. destruct (K4 x Hin) as (y & Y1 & Y2 & _).
        apply Hnot. cbn [sh_rel] in Hx. rewrite <- Hx, <- Y2. apply elem_of_list_In, in_map. by apply elem_of_list_In.
      * done.
    + right. eexists _, r. split; [done|]. split; [done|]. done.
Qed.
(** Deleting a sheet through a handle that has the name of its sheet. *)
Lemma filter_NoDup {A B} (f : A -> B) (g : A -> bool) l : NoDup (map f l) -> NoDup (map f (List.filter g l)).
Proof.
  induction l as [|x l IH]; cbn; [done|]. rewrite NoDup_cons. intros [H1 H2]. destruct (g x); cbn; [|by apply IH]. apply NoDup_cons. split; [|by apply IH].
  intros Hin. apply H1. apply elem_of_list_In, in_map_iff in Hin as (y & Hy & Hin). apply filter_In in Hin as [Hin _]. rewrite <- Hy. apply elem_of_list_In. by apply in_map.
Qed.
Lemma links_delete b o o' w : BookShape b -> HandleOk w -> Links b o ->
  (forall x, x ∈ wb_sheets b -> get_target_by_id (wb_rels b) (sh_rel x) = Ok (Some (ws_path w)) -> sh_name x = ws_name w) ->
  (forall r p, r ∈ rl_rels (wb_rels b) -> sheet_rel r -> r_target r = "/" +:+ p -> Present o p -> Present o' p) -> Links (wb_delete_sheet w (b, o)).1.1 o'.
Proof.
  intros Hb Hw L Hfresh Hkeep. destruct (delete_list w b o) as [D1 D2].
  assert (wb_view (wb_delete_sheet w (b, o)).1.1 = wb_view b) as D3.
  { unfold wb_delete_sheet. by destruct (delete_sheet w _) as [[l [r o1]] x]. }
  assert (absolute (ws_path w) = "/" +:+ ws_path w) as Habs. { destruct Hw as [(k & ->) _]. done. }
  pose proof L as [K1 K2 K3 K4 K5 K6].
  constructor; rewrite ?D1, ?D2, ?D3, ?delete_rels, ?Habs.
  - by apply filter_NoDup.
  - by apply filter_NoDup.
  - intros r p Hr Hsr Ht. apply elem_of_list_In, filter_In in Hr as [Hr _]. apply elem_of_list_In in Hr. apply (Hkeep r p Hr Hsr Ht). by apply (K3 r p).
  - intros x [Hn Hx]%elem_of_list_filter. destruct (K4 x Hx) as (r & R1 & R2 & R3). exists r. split; [|done].
    apply elem_of_list_In, filter_In. split; [by apply elem_of_list_In|]. destruct (seqb (r_target r) ("/" +:+ ws_path w)) eqn:Ht; [|done]. exfalso.
    apply seqb_true in Ht. destruct (target_of b o r Hb L R1 R3) as (p & P1 & P2 & _). rewrite P1 in Ht. apply slash_inj in Ht. subst p.
    apply Hn, Hfresh; [done|]. by rewrite <- R2.
  - rewrite <- filter_ne. by apply filter_NoDup.
  - done.
Qed.
(** Calls on the workbook that touch no relationship and no part. *)
Definition KeepsLinks {A} (m : M workbook A) : Prop := forall b, wb_rels (m b).1 = wb_rels b /\ map sh_rel (wb_sheets (m b).1) = map sh_rel (wb_sheets b)
  /\ (forall v, wb_view (m b).1 = Some v -> bv_ratio v = bv_ratio (default book_view_default (wb_view b))).
Lemma keeps_map f : (forall x, sh_rel (f x) = sh_rel x) -> KeepsLinks (modify (fun b => set_wb_sheets b (map f (wb_sheets b)))).
Proof.
  intros Hf b. cbn. split; [done|]. split; [|by cbn; intros v ->]. rewrite map_map. apply map_ext, Hf.
Qed.
Lemma keeps_view f : (forall v, bv_ratio (f v) = bv_ratio v) -> KeepsLinks (on_view f).
Proof. intros Hf b. cbn. split; [done|]. split; [done|]. by intros v [= <-]. Qed.
Lemma keeps_rename old new : KeepsLinks (rename_sheet old new).
Proof.
  intros b. unfold rename_sheet. destruct (existsb _ _); [split; [done|]; split; [done|]; by cbn; intros v ->|].
  destruct (rename_first old new (wb_sheets b)) as [l|] eqn:Er; (split; [done|]; split; [|by cbn; intros v ->]); [|done]. cbn [fst wb_sheets set_wb_sheets].
  revert l Er. generalize (wb_sheets b). induction l as [|x l IH]; intros l' Er; [done|]. cbn [rename_first] in Er.
  destruct (seqb (sh_name x) old); [by injection Er as <-|]. destruct (rename_first old new l) as [l1|]; [|done]. injection Er as <-. cbn. by rewrite (IH l1).
Qed.
Lemma keeps_style st : KeepsLinks (bind (wb_style_id st) (fun _ => ret tt)).
Proof. intros b. unfold bind, wb_style_id. destruct (get_style_id st _) as [st' [r|e|e]]; (split; [done|]; split; [done|]; by cbn; intros v ->). Qed.
Definition SLinks (s : session) : Prop := Links (x_book s.1) (x_office s.1).
Lemma pure_links m s : KeepsLinks m -> SLinks s -> SLinks (on_excel (on_book (A := unit) (pure_book m)) s).1.
Proof.
  intros Hm L. unfold SLinks, on_excel, on_book, pure_book, x_state. cbn [fst snd]. destruct (Hm (x_book s.1)) as (H1 & H2 & H3). destruct (m (x_book s.1)) as [b r]. cbn [fst snd] in *.
  unfold x_office. cbn [x_suite x_book su_office set_x fst snd]. eapply (links_keep (x_book s.1)); [by rewrite H1|done| |done|exact L].
  intros v Hv. right. unfold BookSpec.ratio_typed. rewrite (H3 v Hv). destruct (wb_view (x_book s.1)) as [v0|] eqn:Ev; [by apply (lk_view _ _ L)|cbn; lia].
Qed.
Lemma use_links h m s : SLinks s -> SLinks (use h m s).1.
Proof.
  intros L. unfold use. destruct (handle h s) as [w|]; [|done]. destruct (m _) as [[w1 t1] r]. cbn [fst snd]. unfold SLinks in *. cbn [fst x_book].
  eapply (links_keep (x_book s.1)); [done|done|by left|done|exact L].
Qed.
Lemma spend_links h m s : SLinks s -> (forall w, handle h s = Some w -> Links (m w (x_book s.1, x_office s.1)).1.1 (m w (x_book s.1, x_office s.1)).1.2) ->
  SLinks (spend h m s).1.
Proof.
  intros L Hm. unfold spend. destruct (handle h s) as [w|]; [|done]. specialize (Hm w eq_refl). unfold on_book, x_state. destruct (m w _) as [[b o] r]. done.
Qed.
Definition Stale (c : call) (s : session) : Prop := exists h w x, c = CDelete h /\ handle h s = Some w
  /\ x ∈ wb_sheets (x_book s.1) /\ get_target_by_id (wb_rels (x_book s.1)) (sh_rel x) = Ok (Some (ws_path w)) /\ sh_name x <> ws_name w.
(** A step that asks for a sheet and fails. *)
Definition BadStep (ids : session -> string -> Prop) (c : call) (s : session) : Prop :=
  exists name e, (c = CAdd name \/ exists n, name = Some n /\ c = CGet n) /\ (call_step c s).2 = Err e
  /\ ((forall x, x ∈ wb_sheets (x_book s.1) -> name <> Some (sh_name x))
      \/ exists id p, ids s id /\ get_target_by_id (wb_rels (x_book s.1)) id = Ok (Some p) /\ Unreadable (x_office s.1) p).
Lemma add_old name b o : ~ (forall x, x ∈ wb_sheets b -> name <> Some (sh_name x)) ->
  wb_sheets (add_sheet name (b, o)).1.1 = wb_sheets b /\ wb_rels (add_sheet name (b, o)).1.1 = wb_rels b /\ wb_view (add_sheet name (b, o)).1.1 = wb_view b.
Proof.
  intros Hold. unfold add_sheet. cbn [fst snd]. destruct (ws_new_list name (wb_sheets b, (wb_rels b, o))) as (L1 & L2 & _).
  destruct (ws_new name (wb_sheets b, (wb_rels b, o))) as [[l [r o1]] x]. cbn [fst snd] in *.
  destruct name as [n|]; [|by exfalso; apply Hold].
  destruct (List.find (fun x => seqb (sh_name x) n) (wb_sheets b)) as [y|] eqn:Ef.
  - rewrite (file_name_old n y _ _ o Ef) in L1, L2. cbn [fst snd] in *. by subst l r.
  - exfalso. apply Hold. intros y Hy [= ->]. apply elem_of_list_In in Hy. pose proof (find_none _ _ Ef y Hy) as Hf. cbn in Hf. by rewrite seqb_refl in Hf.
Qed.
(** What calls that are not bad keep. *)
Lemma step_present ids c s : LInv s -> NoPanic (call_step c s).2 -> ~ BadStep ids c s ->
  forall id q, ids s id -> get_target_by_id (wb_rels (x_book s.1)) id = Ok (Some q) -> Present (x_office s.1) q -> Present (x_office (call_step c s).1.1) q.
Proof.
  intros I Hn Hb id q Hid Hg Hq. destruct (call_effect c s I Hn) as [_ [Hk _]]. destruct (Hk q Hq) as [?|[Hu [Ho [e He]]]]; [done|]. exfalso. apply Hb.
  destruct c; try done; [exists name, e|exists (Some name), e]; (split; [eauto|]; split; [done|right; eauto]).
Qed.
Lemma step_listed ids name c s e : ~ BadStep ids c s -> (c = CAdd name \/ exists n, c = CGet n /\ name = Some n) -> (call_step c s).2 = Err e ->
  ~ (forall x, x ∈ wb_sheets (x_book s.1) -> name <> Some (sh_name x)).
Proof. intros Hb Hc He Hx. apply Hb. exists name, e. split; [destruct Hc as [->|(n & -> & ->)]; eauto|]. split; [done|by left]. Qed.
Lemma step_links o0 c s : LInv s -> SessionInv o0 s -> SLinks s -> NoPanic (call_step c s).2 -> ~ BadStep any_rel c s -> ~ Stale c s -> SLinks (call_step c s).1.
Proof.
  intros I J L Hn Hb Hst. pose proof (step_present _ _ _ I Hn Hb) as Hkeep0.
  assert (forall r p, r ∈ rl_rels (wb_rels (x_book s.1)) -> sheet_rel r -> r_target r = "/" +:+ p -> Present (x_office s.1) p -> Present (x_office (call_step c s).1.1) p) as Hkeep.
  { intros r p Hr Hsr Ht. destruct (target_of _ _ _ (si_book _ _ J) L Hr Hsr) as (q & Q1 & Q2 & _). rewrite Ht in Q1. apply slash_inj in Q1. subst q. by apply (Hkeep0 (r_id r)). }
  clear Hkeep0.
  assert (forall name, c = CAdd name \/ (exists n, c = CGet n /\ name = Some n) -> SLinks (give (on_book (add_sheet name)) s).1) as Hgive.
  { intros name Hc. assert (call_step c s = give (on_book (add_sheet name)) s) as Heq. { destruct Hc as [-> | (n & -> & ->)]; done. }
    rewrite Heq in *. unfold give, on_book, x_state in *.
    pose proof (fun e => step_listed any_rel name c s e Hb Hc) as Hlist. pose proof (add_old name (x_book s.1) (x_office s.1)) as Hadd. rewrite Heq in Hlist. unfold give, Excel.on_book, x_state in Hlist.
    destruct (add_sheet name (x_book s.1, x_office s.1)) as [[b o] [w|e|e]] eqn:Ea; cbn [fst snd] in *; [| |done].
    2: { destruct (Hadd (Hlist _ eq_refl)) as (A1 & A2 & A3). apply (links_keep (x_book s.1) b (x_office s.1) o); [by rewrite A2|by rewrite A1|rewrite A3; by left|exact Hkeep|exact L]. }
    destruct (links_add _ _ _ _ _ _ (si_book _ _ J) (li_docs _ I) L Ea) as [L' _]. exact L'. }
  destruct c; cbn [call_step] in *.
  - apply Hgive. by left.
  - apply Hgive. right. eauto.
  - apply pure_links; [apply keeps_rename|done].
  - apply pure_links; [by apply keeps_map|done].
  - apply pure_links; [by apply keeps_map|done].
  - apply pure_links; [by apply keeps_view|done].
  - apply pure_links; [by apply keeps_view|done].
  - apply pure_links; [by apply keeps_view|done].
  - apply pure_links; [by apply keeps_view|done].
  - apply pure_links; [by apply keeps_view|done].
  - apply pure_links; [apply keeps_style|done].
  - by apply use_links.
  - by apply use_links.
  - by apply use_links.
  - by apply use_links.
  - by apply use_links.
  - apply spend_links; [done|]. intros w Hw. unfold spend in Hkeep. rewrite Hw in Hkeep. cbn in Hkeep |- *.
    eapply (links_keep (x_book s.1)); [done|done|by left|exact Hkeep|exact L].
  - apply spend_links; [done|]. intros w Hw. unfold spend in Hkeep. rewrite Hw in Hkeep. unfold on_book, on_wb_office, x_state in *. cbn [fst snd] in *.
    destruct (ws_flush w (x_office s.1)) as [o r]. cbn in *. eapply (links_keep (x_book s.1)); [done|done|by left|exact Hkeep|exact L].
  - apply spend_links; [done|]. intros w Hw. pose proof (handle_ok _ _ _ _ J Hw) as Hok. unfold spend in Hkeep. rewrite Hw in Hkeep. unfold on_book, x_state in Hkeep.
    pose proof (links_delete (x_book s.1) (x_office s.1) (wb_delete_sheet w (x_book s.1, x_office s.1)).1.2 w (si_book _ _ J) Hok L) as Hd.
    apply Hd.
    + intros x Hx Ht. destruct (decide (sh_name x = ws_name w)); [done|]. exfalso. apply Hst. exists h, w, x. done.
    + destruct (wb_delete_sheet w (x_book s.1, x_office s.1)) as [[b o] r]. exact Hkeep.
Qed.
Lemma calls_links o0 cs : forall s s', LInv s -> SessionInv o0 s -> SLinks s -> calls cs s = Some s' ->
  ~ BadOpen cs s any_rel -> ~ StaleDelete cs s -> SLinks s'.
Proof.
  induction cs as [|c cs IH]; intros s s' I J L; cbn [calls]; [by intros [= <-]|].
  pose proof (call_effect c s I) as HE. pose proof (call_inv o0 c s J) as J1. pose proof (step_links o0 c s I J L) as HL.
  assert (forall s1 r, call_step c s = (s1, r) -> NoPanic r -> forall cs1, calls (c :: cs1) s = calls cs1 s1) as Hgo.
  { intros s1 r Hr Hn cs1. cbn [calls]. rewrite Hr. by destruct r. }
  destruct (call_step c s) as [s1 r] eqn:Ec. cbn [fst snd] in *. specialize (Hgo s1 r eq_refl). intros Hcalls Hf Hst.
  assert (NoPanic r /\ calls cs s1 = Some s') as [Hn Hc]. { destruct r as [[]|m|m]; done. }
  destruct (HE Hn) as [I1 _]. apply (IH s1 s'); [done|done| |done| |].
  - apply HL; [done| |].
    + intros (name & e & B1 & B2 & B3). apply Hf. exists [], c, cs, s, name, e. done.
    + intros (h & w & x & -> & H1 & H2 & H3 & H4). apply Hst. exists [], h, cs, s, w, x. done.
  - intros (cs1 & c1 & cs2 & s2 & name & e & -> & H2 & H3). apply Hf. exists (c :: cs1), c1, cs2, s2, name, e. rewrite Hgo by done. done.
  - intros (cs1 & h & cs2 & s2 & w & x & -> & H2 & H3). apply Hst. exists (c :: cs1), h, cs2, s2, w, x. rewrite Hgo by done. done.
Qed.
(** A new workbook. *)
Lemma links_empty b o : BookShape b -> rl_rels (wb_rels b) = base_rels -> wb_sheets b = [] -> wb_view b = None -> Links b o.
Proof.
  intros Hb Hr Hsh Hv. constructor; rewrite ?Hr, ?Hsh, ?Hv.
  - apply (bool_decide_unpack _); by vm_compute.
  - apply (bool_decide_unpack _); by vm_compute.
  - intros r p Hin (_ & _ & Hnot & _) _. exfalso. apply Hnot. apply elem_of_list_In, in_map. by apply elem_of_list_In.
  - by intros x Hx%elem_of_nil.
  - constructor.
  - done.
Qed.
Lemma new_links fs x0 : excel_new None fs = Ok x0 -> SLinks (x0, []).
Proof.
  unfold excel_new. destruct (suite_new None fs) as [s|e|e] eqn:Es; cbn [rbind]; [|done..].
  destruct (workbook_new (su_root s, su_office s)) as [[root o1] [b|e|e]] eqn:Ew; [|done..].
  destruct (new_book _ _ _ _ _ Es Ew) as (_ & Sb & Hr & Hsh & Hv & _).
  destruct (opens_suite _ _ _ Es) as (o & Ho & He & O1).
  destruct (opens_workbook (su_root s, su_office s) _ _ (op_docs _ _ _ O1) Ew) as [O2 Hrt]. cbn [fst snd] in *.
  pose proof (op_docs _ _ _ O2) as D1. clear Ho He O1 O2 Hrt Es Ew.
  unfold on_book, x_state, x_office. cbn [x_book x_suite su_office].
  pose proof (links_empty b o1 Sb Hr Hsh Hv) as L0.
  destruct (add_sheet None (b, o1)) as [[b7 o7] [w|e|e]] eqn:Ea; [|done..]. destruct (links_add _ _ _ _ _ _ Sb D1 L0 Ea) as [L7 _].
  intros [= <-]. unfold SLinks, set_x_office, set_x, x_office. cbn [x_suite x_book su_office su_root su_core fst snd].
  eapply (links_keep b7); [done|done|by left| |exact L7]. intros y p _ _ _. apply safe_ws_drop.
  unfold add_sheet in Ea. cbn [fst snd] in Ea. set (s1 := (wb_sheets b, (wb_rels b, o1))) in Ea.
  pose proof (fun s' x => ws_new_kept None s1 s' x D1) as K. destruct (ws_new None s1) as [[l [r o2]] x]. injection Ea as <- <- ->.
  specialize (K _ _ eq_refl). apply (op_docs _ _ _ K).
Qed.

(** ** What saving writes *)
Lemma rels_text o r : RelsOpen o (rl_path r) -> rl_rels r <> [] ->
  exists e ns root, rels_close r o = (mkOffice (delete (rl_path r) (of_open o)) (<[rl_path r := e]> (of_archive o)), Ok tt)
  /\ part_bytes e = Ok (prolog +:+ render_root ns root) /\ relations_in root = map rel_tree (rl_rels r).
Proof.
  intros Hro Hne. apply PartOpen_Doc in Hro as (p & [g a v cs] & Hp & Hd & Hn & Hns & Hv & Hva & Hf). cbn in Hv, Hf, Hva. subst v.
  set (path := rl_path r) in *. set (l := rl_rels r) in *.
  destruct (Doc_save_relationships (op_doc p) _ _ _ _ l Hd) as (d1 & Hsv & Hd1 & Hns1).
  assert (Nat.ltb 0 (length cs) || Nat.ltb 0 (length l) = true) as Htrue. { destruct l; [done|]. apply Bool.orb_true_r. }
  rewrite Htrue in Hsv. pose proof Hn as (_ & Ha & _)%names_ok_node.
  destruct (part_save "Relationship" o path p g a cs a (map rel_tree l) d1 true _ Hp Hn Hns Hf Hsv Hd1 Hns1 Ha) as (o1 & e & Hw & Hcl & _ & _ & _ & Hb & Hn1).
  { apply Forall_map_all, rel_tree_ok. } { by apply Forall_map_all. }
  exists e. eexists _, _. unfold rels_close, bind. fold path l. rewrite Hw, Hcl. split; [done|]. split; [exact Hb|].
  unfold relations_in. cbn [t_children]. rewrite List.filter_app.
  assert (List.filter (fun t => String.eqb (t_tag t) "Relationship") cs = []) as ->.
  { clear - Hf. induction Hf as [|c cs Hc _ IH]; [done|]. cbn [List.filter]. apply String.eqb_neq in Hc. by rewrite Hc. }
  cbn [app]. clear. induction l as [|x l IH]; [done|]. cbn [map List.filter]. change (t_tag (rel_tree x)) with "Relationship". cbn. by rewrite IH.
Qed.
Definition book_stay (o o' : office) : Prop :=
  of_open o !! book_at = None -> of_open o' !! book_at = None /\ of_archive o' !! book_at = of_archive o !! book_at.
Lemma drop_book b0 b o : BookShape b0 -> same_paths b0 b -> book_stay o (wb_drop b o).
Proof.
  intros [B1 B2 B3 B4 B5 B6 _ _] Hb.
  apply (drop_steps b0 book_stay book_at); [| | | |by rewrite ?B1, ?B3, ?B5, ?B6..| |done].
  - intros x y z H1 H2 H. destruct (H1 H) as [H3 H4]. destruct (H2 H3) as [H5 H6]. split; [done|congruence].
  - intros o1 o2 [H1 H2] H. split; congruence.
  - intros s. intros H. destruct (keep_calc_close (wb_calc b0) s book_at) as [H1 H2]; [by rewrite B4|]. split; congruence.
  - intros r o1 Hr H. destruct (keep_rels_close r o1 book_at) as [H1 H2]; [by rewrite Hr, B2|]. unfold id in *. split; congruence.
  - intros v l o1 H. unfold book_part_close, bind, with_doc. rewrite B1, H. cbn [fst]. unfold close_xml_document. rewrite H. done.
Qed.
(** What closing the workbook leaves at its part and at its relationships part. *)
Record Written (b : workbook) (o : office) (er eb : entry) : Prop := {
  wr_rels_open : of_open o !! rels_at = None;
  wr_rels : of_archive o !! rels_at = Some er;
  wr_rels_text : exists ns root f, part_bytes er = Ok (prolog +:+ render_root ns root)
     /\ relations_in root = map rel_tree (List.filter f (rl_rels (wb_rels b))) /\ forall r, sheet_rel r -> f r = true;
  wr_book_open : of_open o !! book_at = None;
  wr_book : of_archive o !! book_at = Some eb;
  wr_book_text : exists ns g a cs rest, part_bytes eb = Ok (prolog +:+ render_root ns (Node g a None cs))
     /\ Permutation cs (book_trees (wb_view b) (wb_sheets b) ++ rest) /\ Forall (fun t => t_tag t ∉ BookSpec.book_tags) rest;
}.
Lemma sheet_not_at r q : sheet_rel r -> ~ in_area q -> seqb (r_target r) ("/" +:+ q) = false.
Proof.
  intros (_ & (k & Hk) & _) Hq. destruct (seqb (r_target r) ("/" +:+ q)) eqn:Ht; [|done]. apply seqb_true in Ht. rewrite Hk in Ht. apply slash_inj in Ht. subst q.
  exfalso. apply Hq, sheet_in_area.
Qed.
Lemma filter_filter {A} (f g : A -> bool) l : List.filter g (List.filter f l) = List.filter (fun x => f x && g x) l.
Proof. induction l as [|x l IH]; [done|]. cbn. destruct (f x); cbn; [destruct (g x); by rewrite IH|done]. Qed.
Lemma close_links b o b1 o1 : BookShape b -> (forall v, wb_view b = Some v -> BookSpec.ratio_typed v) -> RelsOpen o rels_at ->
  (exists rest, BookSpec.BookOpen o book_at rest) -> wb_close (b, o) = ((b1, o1), Ok tt) -> exists er eb, Written b o1 er eb.
Proof.
  intros [B1 B2 B3 B4 B5 B6 (ext & B7 & Hext) _] Hview Hro [rest Hbo]. unfold wb_close. unfold bind at 1. unfold get at 1. cbn [fst snd].
  rewrite B1, B3. unfold services_close. rewrite B4.
  unfold bind at 1. unfold on_wb_office at 1. cbn [fst snd].
  pose proof (fun q => keep_close theme_at o q) as K1. unfold id in K1. unfold theme_close.
  destruct (close_xml_document theme_at o) as [o2 [[]|e|e]]; [|done..]. cbn [fst snd] in *.
  unfold bind at 1. unfold bind at 1. unfold on_wb_rels at 1. cbn [fst snd].
  pose proof (fun q => keep_calc_close (mkCalc [] calc_at) (wb_rels b, o2) q) as K2.
  pose proof (calc_empty_rels (wb_rels b, o2)) as L2.
  destruct (calc_close (mkCalc [] calc_at) (wb_rels b, o2)) as [[r3 o3] [[]|e|e]]; [|done..]. cbn [fst snd] in *.
  unfold bind at 1. unfold on_wb_rels at 1. cbn [fst snd set_wb_rels wb_rels].
  pose proof (fun q => keep_sst_close (wb_sst b) (r3, o3) q) as K3. rewrite B5 in K3.
  pose proof (sst_close_rels (wb_sst b) (r3, o3)) as L3. rewrite B5 in L3. pose proof (sst_close_path (wb_sst b) (r3, o3)) as P3.
  destruct (sst_close (wb_sst b) (r3, o3)) as [[r4 o4] [[]|e|e]]; [|done..]. cbn [fst snd] in *.
  unfold on_wb_office at 1. cbn [fst snd].
  pose proof (fun q => keep_style_close (wb_style b) o4 q) as K4. unfold id in K4. rewrite B6 in K4.
  destruct (style_close (wb_style b) o4) as [o5 [[]|e|e]]; [|done..]. cbn [fst snd] in *.
  unfold bind at 1. unfold on_wb_office at 1. cbn [fst snd set_wb_rels wb_rels].
  assert (forall q, q <> theme_at -> q <> calc_at -> q <> sst_at -> q <> style_at -> SameAt o o5 q) as K.
  { intros q H1 H2 H3 H4. eapply same_trans; [by apply K1|]. eapply same_trans; [by apply K2|]. eapply same_trans; [by apply K3|by apply K4]. }
  assert (rl_path r4 = rels_at) as Hp4. { rewrite P3, L2. cbn. by rewrite B2. }
  assert (exists f, rl_rels r4 = List.filter f (rl_rels (wb_rels b)) /\ (forall r, sheet_rel r -> f r = true) /\ rl_rels r4 <> []) as (f & Hf1 & Hf2 & Hne).
  { assert (rl_rels r4 <> []) as Hne.
    { assert (mkRel "rId1" ("/" +:+ theme_at) (c_type c_theme) None ∈ rl_rels r4) as Hth; [|intros Hz; rewrite Hz in Hth; by apply elem_of_nil in Hth].
      destruct L3 as [-> | ->]; rewrite L2, ?delete_rels, B7; apply elem_of_list_In; [apply filter_In; split; [by left|done]|].
      rewrite !filter_In. split; [split; [by left|done]|done]. }
    destruct L3 as [H3|H3]; rewrite H3, L2, ?delete_rels in *.
    - eexists. split; [reflexivity|]. split; [|done]. intros r Hr. change (absolute calc_at) with ("/" +:+ calc_at). by rewrite sheet_not_at.
    - rewrite filter_filter in *. eexists. split; [reflexivity|]. split; [|done]. intros r Hr. change (absolute calc_at) with ("/" +:+ calc_at). change (absolute sst_at) with ("/" +:+ sst_at).
      by rewrite !sheet_not_at. }
  assert (RelsOpen o5 rels_at) as Ho5 by (eapply rels_open_same; [by apply K|done]).
  destruct (rels_text o5 r4) as (er & ns & root & Hc & Hb & Hin); [by rewrite Hp4|done|]. rewrite Hf1 in Hin.
  rewrite Hc. cbn [fst snd]. unfold on_wb_office at 1. cbn [fst snd]. rewrite Hp4 in *.
  set (o6 := mkOffice _ _).
  assert (BookSpec.BookOpen o6 book_at rest) as Hbo6.
  { eapply book_open_same; [|exact Hbo]. destruct (K book_at) as [H1 H2]; [done..|]. split; unfold o6; cbn; [by rewrite lookup_delete_ne|by rewrite lookup_insert_ne]. }
  destruct (book_roundtrip o6 book_at rest (wb_view b) (wb_sheets b) Hbo6 Hview) as (eb & p & g & a & cs & _ & Hcl & Hbb & _ & _ & _ & Hperm & _ & Hrest & _).
  rewrite Hcl. intros [= <- <-]. exists er, eb. constructor; cbn [of_open of_archive o6].
  - rewrite lookup_delete_ne by done. apply lookup_delete.
  - rewrite lookup_insert_ne by done. apply lookup_insert.
  - exists ns, root, f. done.
  - apply lookup_delete.
  - apply lookup_insert.
  - exists (d_ns (op_doc p)), g, a, cs, rest. done.
Qed.
Lemma flush_links b o o' : BookShape b -> (forall v, wb_view b = Some v -> BookSpec.ratio_typed v) -> RelsOpen o rels_at ->
  (exists rest, BookSpec.BookOpen o book_at rest) -> wb_flush b o = (o', Ok tt) -> exists er eb, Written b o' er eb.
Proof.
  intros Hb Hv Hr Hk. unfold wb_flush. pose proof (stays_close (b, o)) as Hst. destruct (wb_close (b, o)) as [[b1 o1] r] eqn:Hc. cbn [fst snd] in Hst. intros [= <- ->].
  destruct (close_links _ _ _ _ Hb Hv Hr Hk Hc) as (er & eb & [W1 W2 W3 W4 W5 W6]). destruct (drop_rels b b1 o1 Hb Hst W1) as [H5 H6]. destruct (drop_book b b1 o1 Hb Hst W4) as [H7 H8].
  exists er, eb. constructor; [done|by rewrite H6|done|done|by rewrite H8|done].
Qed.
Lemma sheet_trees_at l : forall n i, book_sheet_trees n l !! i = (fun x => Node "sheet" (Some (book_sheet_attrs (n + N.of_nat i) x)) None []) <$> (l !! i).
Proof.
  induction l as [|x l IH]; intros n i; [done|]. cbn [book_sheet_trees]. destruct i as [|i]; cbn [lookup list_lookup]; [cbn; by rewrite N.add_0_r|].
  rewrite IH. by assert (n + 1 + N.of_nat i = n + N.of_nat (S i)) as -> by lia.
Qed.
Lemma sheet_trees_length l : forall n, length (book_sheet_trees n l) = length l.
Proof. induction l as [|x l IH]; intros n; [done|]. cbn. by rewrite IH. Qed.
Lemma sheet_name_at n x : child_attr (Node "sheet" (Some (book_sheet_attrs n x)) None []) "name" = Some (sh_name x).
Proof. unfold child_attr, book_sheet_attrs. cbn [t_attrs]. by rewrite AttrFacts.opt_attrs_lookup. Qed.
Lemma sheet_id_at n x : child_attr (Node "sheet" (Some (book_sheet_attrs n x)) None []) "r:id" = Some (sh_rel x).
Proof. unfold child_attr, book_sheet_attrs. cbn [t_attrs]. by rewrite AttrFacts.opt_attrs_lookup. Qed.
Lemma rel_attrs r : child_attr (rel_tree r) "Id" = Some (r_id r) /\ child_attr (rel_tree r) "Target" = Some (r_target r) /\ child_attr (rel_tree r) "Type" = Some (r_type r).
Proof. unfold rel_tree, child_attr, leaf, attrs_of. cbn [t_attrs]. destruct (r_mode r); split_and!; reflexivity. Qed.
Lemma good_links b o0 o er eb dr db l : BookShape b -> Links b o0 -> Written b o er eb ->
  part_bytes er = Ok dr -> (rels_at, dr) ∈ l -> part_bytes eb = Ok db -> (book_at, db) ∈ l ->
  (forall q, in_area q -> Present o0 q -> q ∈ l.*1) -> GoodLinks l (list_sheet_names b).
Proof.
  intros Hb L [_ _ (ns & root & f & W1 & W2 & W3) _ _ (ns' & g & a & cs & rest & W4 & W5 & W6)] Hdr Hr Hdb Hbk Hp.
  assert (dr = prolog +:+ render_root ns root) as -> by congruence. assert (db = prolog +:+ render_root ns' (Node g a None cs)) as -> by congruence. clear Hdr Hdb.
  eexists _, _, _, (book_sheets_tree (wb_sheets b)), _, _, root. split; [exact Hbk|]. split; [apply render_renders_mut|]. split.
  { unfold only_child. cbn [t_children]. apply Permutation_singleton_r. rewrite (ReadAnyFacts.filter_perm _ _ _ W5). unfold book_trees. rewrite !List.filter_app.
    assert (List.filter (fun x => String.eqb (t_tag x) "sheets") rest = []) as ->.
    { clear - W6. induction W6 as [|c cs Hc _ IH]; [done|]. cbn [List.filter]. destruct (String.eqb_spec (t_tag c) "sheets") as [He|]; [|done]. rewrite He in Hc. exfalso. apply Hc. apply (bool_decide_unpack _). by vm_compute. }
    by destruct (wb_view b). }
  split; [exact Hr|]. split; [apply render_renders_mut|].
  set (lr := List.filter f (rl_rels (wb_rels b))) in *.
  assert (NoDup (map r_id lr)) as Hids by (apply filter_NoDup, L). assert (NoDup (map r_target lr)) as Htgt by (apply filter_NoDup, L).
  assert (forall j t, relations_in root !! j = Some t -> exists r, lr !! j = Some r /\ t = rel_tree r) as Hrel.
  { intros j t. rewrite W2. change (map rel_tree lr) with (rel_tree <$> lr). rewrite list_lookup_fmap. destruct (lr !! j) as [r|]; [|done]. cbn. intros [= <-]. eauto. }
  assert (forall j j' r r', lr !! j = Some r -> lr !! j' = Some r' -> r_id r = r_id r' -> j = j') as Hid.
  { intros j j' r r' H1 H2 H3. eapply NoDup_lookup; [exact Hids| |].
    - change (map r_id lr) with (r_id <$> lr). rewrite list_lookup_fmap, H1. done.
    - change (map r_id lr) with (r_id <$> lr). rewrite list_lookup_fmap, H2. cbn. by rewrite H3. }
  split; [|split].
  - cbn [t_children book_sheets_tree]. rewrite sheet_trees_length. unfold list_sheet_names. by rewrite map_length.
  - intros i name Hi. unfold list_sheet_names in Hi. change (map sh_name (wb_sheets b)) with (sh_name <$> wb_sheets b) in Hi. rewrite list_lookup_fmap in Hi.
    destruct (wb_sheets b !! i) as [x|] eqn:Ex; [|done]. injection Hi as <-.
    destruct (lk_sheets _ _ L x) as (r & R1 & R2 & R3); [by eapply elem_of_list_lookup_2|].
    destruct (target_of _ _ _ Hb L R1 R3) as (p & P1 & _ & P3).
    assert (r ∈ lr) as Hlr. { apply elem_of_list_In, filter_In. split; [by apply elem_of_list_In|by apply W3]. }
    apply elem_of_list_lookup in Hlr as [j Hj]. destruct (rel_attrs r) as (A1 & A2 & A3).
    exists p. split; [|apply Hp; [done|by eapply (lk_parts _ _ L)]].
    exists (Node "sheet" (Some (book_sheet_attrs (1 + N.of_nat i) x)) None []), (sh_rel x), j, (rel_tree r).
    split; [cbn [t_children book_sheets_tree]; by rewrite sheet_trees_at, Ex|]. split; [apply sheet_name_at|]. split; [apply sheet_id_at|].
    split; [rewrite W2; change (map rel_tree lr) with (rel_tree <$> lr); by rewrite list_lookup_fmap, Hj|]. split; [by rewrite A1, R2|]. split; [|split; [by rewrite A3, (proj1 R3)|by rewrite A2, P1]].
    intros j' t Ht Hc. apply Hrel in Ht as (r' & Hr' & ->). rewrite (proj1 (rel_attrs r')) in Hc. injection Hc as Hc. eapply Hid; [exact Hr'|exact Hj|congruence].
  - intros i j n m p (c1 & id1 & j1 & t1 & H1 & _ & H2 & H3 & H4 & _ & _ & H5) (c2 & id2 & j2 & t2 & G1 & _ & G2 & G3 & G4 & _ & _ & G5).
    apply Hrel in H3 as (r1 & H3 & ->). apply Hrel in G3 as (r2 & G3 & ->).
    rewrite (proj1 (rel_attrs r1)) in H4. rewrite (proj1 (rel_attrs r2)) in G4. rewrite (proj1 (proj2 (rel_attrs r1))) in H5. rewrite (proj1 (proj2 (rel_attrs r2))) in G5.
    assert (j1 = j2) as ->.
    { eapply NoDup_lookup; [exact Htgt| |].
      - change (map r_target lr) with (r_target <$> lr). rewrite list_lookup_fmap, H3. done.
      - change (map r_target lr) with (r_target <$> lr). rewrite list_lookup_fmap, G3. exact G5. }
    assert (r1 = r2) as -> by congruence. cbn [t_children book_sheets_tree] in H1, G1. rewrite sheet_trees_at in H1, G1.
    destruct (wb_sheets b !! i) as [x|] eqn:Ex; [|done]. injection H1 as <-. destruct (wb_sheets b !! j) as [y|] eqn:Ey; [|done]. injection G1 as <-.
    rewrite sheet_id_at in H2, G2. eapply NoDup_lookup; [exact (lk_once _ _ L)| |].
    + change (map sh_rel (wb_sheets b)) with (sh_rel <$> wb_sheets b). rewrite list_lookup_fmap, Ex. done.
    + change (map sh_rel (wb_sheets b)) with (sh_rel <$> wb_sheets b). rewrite list_lookup_fmap, Ey. cbn. congruence.
Qed.
Lemma stored_once fs path l l' : Stored fs path l -> Stored fs path l' -> l = l'.
Proof. intros (b & H1 & H2) (b' & H3 & H4). congruence. Qed.
Theorem saved_links fs x0 cs s t f path fs1 tr fs' : excel_new None fs = Ok x0 -> calls cs (x0, []) = Some s ->
  ~ BadOpen cs (x0, []) any_rel -> ~ StaleDelete cs (x0, []) ->
  excel_save t f path s.1 fs1 = (tr, Ok tt) -> last tr = Some fs' ->
  exists l, Stored fs' path l /\ GoodLinks l (list_sheet_names (x_book s.1)).
Proof.
  intros Hx Hc Hf Hst Hsave Hlast.
  destruct (new_session _ _ Hx) as [N J0]. destruct (new_linv _ _ _ Hx) as [I0 _].
  pose proof (calls_inv _ _ _ _ J0 Hc) as J. pose proof (calls_links _ _ _ _ I0 J0 (new_links _ _ Hx) Hc Hf Hst) as L.
  destruct (calls_effect _ _ _ I0 Hc) as [I _].
  assert (NewParts (x_office s.1)) as [_ N2 _ N4] by (eapply new_parts_same; [apply J|done]).
  assert (NoDup (own_parts (x_book s.1)) /\ forall q, q ∈ own_parts (x_book s.1) -> is_Some (of_open (x_office s.1) !! q)) as [Hnd Hop].
  { split; [pose proof (li_nodup _ I) as H; unfold held in H; by apply NoDup_app in H as [? _]|]. intros q Hq. apply (li_open _ I). unfold held. apply elem_of_app. by left. }
  destruct (excel_kept _ _ _ _ _ _ _ (li_docs _ I) Hnd Hop Hsave Hlast) as (l & Hl & Hk & _). exists l. split; [done|].
  unfold excel_save in Hsave. pose proof (safe_flush (x_book s.1) (x_office s.1) Hnd (li_docs _ I) Hop) as S1.
  destruct (wb_flush (x_book s.1) (x_office s.1)) as [o [[]|e|e]] eqn:Ef; [|done..].
  destruct (flush_links _ _ _ (si_book _ _ J) (lk_view _ _ L) N2 N4 Ef) as (er & eb & W).
  destruct (suite_kept _ _ _ _ _ _ _ (proj1 S1 : DocsOk (su_office (mkSuite o (su_root (x_suite s.1)) (su_core (x_suite s.1))))) Hsave Hlast) as (l' & Hl' & _ & Hin).
  pose proof (stored_once _ _ _ _ Hl Hl') as <-. cbn [su_office su_root su_core] in Hin.
  assert (DocsIn (mkSuite o (su_root (x_suite s.1)) (su_core (x_suite s.1))) = [root_at; core_at]) as Hd.
  { unfold DocsIn. cbn [su_root su_core]. by rewrite (si_root _ _ J), (si_core _ _ J). }
  pose proof W as [W1 W2 (ns & root & g & W3 & _) W4 W5 (ns' & g' & a' & cs' & rest & W6 & _)].
  eapply (good_links _ (x_office s.1) o er eb); [apply J|exact L|exact W|exact W3| |exact W6| |].
  - apply (Hin rels_at er); [done|rewrite Hd; apply (bool_decide_unpack _); by vm_compute|done|done|done].
  - apply (Hin book_at eb); [done|rewrite Hd; apply (bool_decide_unpack _); by vm_compute|done|done|done].
  - intros q Ha Hp. apply Hk; [|done]. intros ->. by vm_compute in Ha.
Qed.

(** ** Without renaming no handle is stale *)
Definition WsNamed {T} (m : M (worksheet * T) unit) : Prop := forall s, ws_name (m s).1.1 = ws_name s.1.
Lemma named_row r c cs : WsNamed (set_row_value r c cs).
Proof.
  intros [w t]. unfold set_row_value. destruct (u16_sub env_mode c 1); [|done..]. destruct (store_cells cs t) as [t1 cs1].
  destruct (place_cells _ _ _ _ _) as [[dim cells] x]. destruct x; [done|..]; cbn; by destruct (rd_cells _).
Qed.
Lemma named_row_ref ref cs : WsNamed (set_row_value_ref ref cs).
Proof. intros s. unfold set_row_value_ref, bind, lift. destruct (get_cell_index ref) as [[r c]|e|e]; [|done..]. apply named_row. Qed.
Lemma named_row_props {T} r p : WsNamed (T := T) (on_handle (set_row_props r p)).
Proof. intros [w t]. done. Qed.
Lemma named_col {T} c p : WsNamed (T := T) (on_handle (set_column_index c p)).
Proof. intros [w t]. done. Qed.
Lemma named_col_ref {T} ref p : WsNamed (T := T) (on_handle (set_column_ref ref p)).
Proof. intros [w t]. unfold on_handle, set_column_ref, bind, lift. cbn [fst snd]. by destruct (get_column_index ref). Qed.
(** Every handle has the name of the sheet whose part it has. *)
Definition Fresh (b : workbook) (hs : list (option worksheet)) : Prop := forall w x r, Some w ∈ hs -> x ∈ wb_sheets b -> r ∈ rl_rels (wb_rels b) ->
  r_id r = sh_rel x -> r_target r = "/" +:+ ws_path w -> sh_name x = ws_name w.
Lemma fresh_keep b b' hs hs' : Fresh b hs -> (forall w, Some w ∈ hs' -> exists w0, Some w0 ∈ hs /\ ws_name w0 = ws_name w /\ ws_path w0 = ws_path w) ->
  (forall x, x ∈ wb_sheets b' -> exists y, y ∈ wb_sheets b /\ sh_name y = sh_name x /\ sh_rel y = sh_rel x) ->
  (forall r, r ∈ rl_rels (wb_rels b') -> r ∈ rl_rels (wb_rels b)) -> Fresh b' hs'.
Proof.
  intros F H1 H2 H3 w x r Hw Hx Hr Hi Ht. destruct (H1 w Hw) as (w0 & W1 & <- & W3). destruct (H2 x Hx) as (y & Y1 & <- & Y3).
  apply (F w0 y r); [done|done|auto|congruence|congruence].
Qed.
Lemma fresh_same b b' hs hs' : Fresh b hs -> (forall w, Some w ∈ hs' -> Some w ∈ hs) ->
  map (fun x => (sh_name x, sh_rel x)) (wb_sheets b') = map (fun x => (sh_name x, sh_rel x)) (wb_sheets b) -> wb_rels b' = wb_rels b -> Fresh b' hs'.
Proof.
  intros F H1 H2 H3. eapply fresh_keep; [exact F| | |by rewrite H3].
  - intros w Hw. exists w. auto.
  - intros x Hx. assert ((sh_name x, sh_rel x) ∈ map (fun x => (sh_name x, sh_rel x)) (wb_sheets b)) as Hin.
    { rewrite <- H2. apply elem_of_list_In. apply (in_map (fun x => (sh_name x, sh_rel x))). by apply elem_of_list_In. }
    apply elem_of_list_In, in_map_iff in Hin as (y & [= Hy1 Hy2] & Hin). exists y. split; [by apply elem_of_list_In|]. split; congruence.
Qed.
Definition SFresh (s : session) : Prop := Fresh (x_book s.1) s.2.
Lemma in_released (h : nat) (l : list (option worksheet)) w : Some w ∈ <[h := None]> l -> Some w ∈ l.
Proof.
  intros Hin. apply elem_of_list_lookup in Hin as [i Hi]. apply list_lookup_insert_Some in Hi as [(_ & ? & _)|[_ Hi]]; [done|]. by eapply elem_of_list_lookup_2.
Qed.
Lemma fresh_use h m s : WsNamed m -> WsStays m -> SFresh s -> SFresh (use h m s).1.
Proof.
  intros Hn Hm F. unfold use. destruct (handle h s) as [w|] eqn:Eh; [|done]. apply handle_lookup in Eh.
  specialize (Hn (w, ss_strings (wb_sst (x_book s.1)))). destruct (Hm (w, ss_strings (wb_sst (x_book s.1)))) as [Hp _].
  destruct (m _) as [[w1 t1] r]. cbn [fst snd] in *. unfold SFresh. cbn [fst snd x_book]. eapply (fresh_keep (x_book s.1)); [exact F| | |done].
  - intros w2 Hin. apply elem_of_list_lookup in Hin as [i Hi]. apply list_lookup_insert_Some in Hi as [(-> & [= <-] & _)|[_ Hi]].
    + exists w. split; [by eapply elem_of_list_lookup_2|]. done.
    + exists w2. split; [by eapply elem_of_list_lookup_2|]. done.
  - intros x Hx. exists x. done.
Qed.
Lemma fresh_pure m s : (forall b, wb_rels (m b).1 = wb_rels b /\ map (fun x => (sh_name x, sh_rel x)) (wb_sheets (m b).1) = map (fun x => (sh_name x, sh_rel x)) (wb_sheets b)) ->
  SFresh s -> SFresh (on_excel (on_book (A := unit) (pure_book m)) s).1.
Proof.
  intros Hm F. unfold SFresh, on_excel, on_book, pure_book, x_state. cbn [fst snd]. destruct (Hm (x_book s.1)) as (H1 & H2). destruct (m (x_book s.1)) as [b r]. cbn [fst snd] in *.
  unfold set_x. cbn [x_book fst snd]. by eapply (fresh_same (x_book s.1)).
Qed.
Lemma step_fresh o0 c s : LInv s -> SessionInv o0 s -> SLinks s -> SFresh s -> NoPanic (call_step c s).2 -> ~ BadStep any_rel c s -> ~ renames c -> SFresh (call_step c s).1.
Proof.
  intros I J L F Hn Hb Hr.
  assert (forall name, c = CAdd name \/ (exists n, c = CGet n /\ name = Some n) -> SFresh (give (on_book (add_sheet name)) s).1) as Hgive.
  { intros name Hc. assert (call_step c s = give (on_book (add_sheet name)) s) as Heq. { destruct Hc as [-> | (n & -> & ->)]; done. }
    rewrite Heq in *. unfold give, on_book, x_state in *.
    pose proof (fun e => step_listed any_rel name c s e Hb Hc) as Hlist. pose proof (add_old name (x_book s.1) (x_office s.1)) as Hadd. rewrite Heq in Hlist. unfold give, Excel.on_book, x_state in Hlist.
    destruct (add_sheet name (x_book s.1, x_office s.1)) as [[b o] [w|e|e]] eqn:Ea; cbn [fst snd] in *; [| |done].
    2: { destruct (Hadd (Hlist _ eq_refl)) as (A1 & A2 & A3). apply (fresh_same (x_book s.1) b s.2 s.2); [exact F|done|by rewrite A1|done]. }
    unfold SFresh. unfold set_x. cbn [x_book fst snd].
    destruct (links_add _ _ _ _ _ _ (si_book _ _ J) (li_docs _ I) L Ea) as [L' [(H1 & H2 & x & H3 & H4 & H5)|(x & r & H1 & H2 & H3 & H4 & H5 & H6 & H7)]].
    - intros w1 x1 r1 Hw Hx Hr1 Hi Ht. rewrite H1 in Hx. rewrite H2 in Hr1. apply elem_of_app in Hw as [Hw|[= ->]%elem_of_list_singleton]; [by eapply F|].
      destruct (lk_sheets _ _ L x H3) as (r & R1 & R2 & R3). destruct (target_of _ _ _ (si_book _ _ J) L R1 R3) as (p & P1 & P2 & _). rewrite R2, H5 in P2. injection P2 as <-.
      assert (r = r1) as <-.
      { apply elem_of_list_lookup in R1 as [i Hri]. apply elem_of_list_lookup in Hr1 as [j Hrj]. assert (i = j) as ->; [|congruence]. eapply NoDup_lookup; [exact (lk_targets _ _ L)| |].
        - change (map r_target (rl_rels (wb_rels (x_book s.1)))) with (r_target <$> rl_rels (wb_rels (x_book s.1))). rewrite list_lookup_fmap, Hri. exact (f_equal Some P1).
        - change (map r_target (rl_rels (wb_rels (x_book s.1)))) with (r_target <$> rl_rels (wb_rels (x_book s.1))). rewrite list_lookup_fmap, Hrj. exact (f_equal Some Ht). }
      assert (x1 = x) as ->; [|done].
      apply elem_of_list_lookup in H3 as [i Hxi]. apply elem_of_list_lookup in Hx as [j Hxj]. assert (i = j) as ->; [|congruence]. eapply NoDup_lookup; [exact (lk_once _ _ L)| |].
      + change (map sh_rel (wb_sheets (x_book s.1))) with (sh_rel <$> wb_sheets (x_book s.1)). rewrite list_lookup_fmap, Hxi. exact (f_equal Some (eq_sym R2)).
      + change (map sh_rel (wb_sheets (x_book s.1))) with (sh_rel <$> wb_sheets (x_book s.1)). rewrite list_lookup_fmap, Hxj. exact (f_equal Some (eq_sym Hi)).
    - assert (forall y, y ∈ wb_sheets (x_book s.1) -> sh_rel y <> r_id r) as Hold.
      { intros y Hy He. destruct (lk_sheets _ _ L y Hy) as (ry & R1 & R2 & _). apply H7. rewrite <- He, <- R2. apply elem_of_list_In, in_map. by apply elem_of_list_In. }
      intros w1 x1 r1 Hw Hx Hr1 Hi Ht. rewrite H1 in Hx. rewrite H2 in Hr1.
      apply elem_of_app in Hx as [Hx| ->%elem_of_list_singleton]; apply elem_of_app in Hr1 as [Hr1| ->%elem_of_list_singleton].
      + apply elem_of_app in Hw as [Hw|[= ->]%elem_of_list_singleton]; [by eapply F|]. exfalso. apply H6.
        destruct (lk_sheets _ _ L x1 Hx) as (r2 & R1 & R2 & R3). pose proof (same_id _ _ _ (lk_ids _ _ L) R1 Hr1 ltac:(congruence)) as ->. by apply (lk_parts _ _ L r1).
      + exfalso. by apply (Hold x1).
      + exfalso. apply H7. rewrite <- H4, <- Hi. apply elem_of_list_In, in_map. by apply elem_of_list_In.
      + apply elem_of_app in Hw as [Hw|[= ->]%elem_of_list_singleton]; [|done]. exfalso. apply H6. left. rewrite H5 in Ht. apply slash_inj in Ht. rewrite Ht.
        apply (li_open _ I). unfold held. rewrite !elem_of_app. right. right. unfold live_parts.
        apply elem_of_list_In, in_concat. exists (handle_parts (Some w1)). split; [apply elem_of_list_In, elem_of_list_fmap; eauto|by left]. }
  destruct c; cbn [call_step] in *.
  - apply Hgive. by left.
  - apply Hgive. right. eauto.
  - done.
  - apply fresh_pure; [|done]. intros b. split; [done|]. cbn. by rewrite map_map.
  - apply fresh_pure; [|done]. intros b. split; [done|]. cbn. by rewrite map_map.
  - by apply fresh_pure.
  - by apply fresh_pure.
  - by apply fresh_pure.
  - by apply fresh_pure.
  - by apply fresh_pure.
  - apply fresh_pure; [|done]. intros b. unfold bind, wb_style_id. by destruct (get_style_id _ _) as [st' [r|e|e]].
  - apply fresh_use; [apply named_row|apply stays_row|done].
  - apply fresh_use; [apply named_row_ref|apply stays_row_ref|done].
  - apply fresh_use; [apply named_row_props|apply stays_row_props|done].
  - apply fresh_use; [apply named_col|apply stays_col|done].
  - apply fresh_use; [apply named_col_ref|apply stays_col_ref|done].
  - unfold spend. destruct (handle h s) as [w|]; [|done]. unfold on_book, x_state, SFresh, set_x. cbn [fst snd x_book].
    eapply fresh_same; [exact F|apply in_released|done|done].
  - unfold spend. destruct (handle h s) as [w|]; [|done]. unfold on_book, on_wb_office, x_state, SFresh, set_x. cbn [fst snd x_book].
    destruct (ws_flush w (x_office s.1)) as [o r]. cbn [fst snd x_book]. eapply fresh_same; [exact F|apply in_released|done|done].
  - unfold spend. destruct (handle h s) as [w|]; [|done]. unfold on_book, x_state, SFresh.
    destruct (delete_list w (x_book s.1) (x_office s.1)) as [D1 D2]. destruct (wb_delete_sheet w (x_book s.1, x_office s.1)) as [[b o] r]. unfold set_x. cbn [fst snd x_book] in *.
    eapply (fresh_keep (x_book s.1)); [exact F| | |].
    + intros w1 Hw. exists w1. split; [by eapply in_released|done].
    + intros x Hx. rewrite D1 in Hx. apply elem_of_list_filter in Hx as [_ Hx]. eauto.
    + intros r1 Hr1. rewrite D2, delete_rels in Hr1. apply elem_of_list_In, filter_In in Hr1 as [Hr1 _]. by apply elem_of_list_In.
Qed.
Lemma fresh_not_stale o0 c s : SessionInv o0 s -> SLinks s -> SFresh s -> ~ Stale c s.
Proof.
  intros J L F (h & w & x & _ & Hw & Hx & Ht & Hn). apply Hn.
  destruct (lk_sheets _ _ L x Hx) as (r & R1 & R2 & R3). destruct (target_of _ _ _ (si_book _ _ J) L R1 R3) as (p & P1 & P2 & _). rewrite R2, Ht in P2. injection P2 as <-.
  apply (F w x r); [|done..]. apply handle_lookup in Hw. by eapply elem_of_list_lookup_2.
Qed.
Lemma calls_fresh o0 cs : forall s, LInv s -> SessionInv o0 s -> SLinks s -> SFresh s -> ~ BadOpen cs s any_rel -> Forall (fun c => ~ renames c) cs -> ~ StaleDelete cs s.
Proof.
  induction cs as [|c cs IH]; intros s I J L F Hf Hr (cs1 & h & cs2 & s1 & w & x & Hcs & Hc & Hst); [by destruct cs1|].
  apply Forall_cons in Hr as [Hr1 Hr2].
  destruct cs1 as [|c1 cs1]; cbn in Hcs; injection Hcs as -> Hcs.
  - injection Hc as <-. apply (fresh_not_stale o0 (CDelete h) s J L F). by exists h, w, x.
  - pose proof (call_effect c1 s I) as HE. pose proof (call_inv o0 c1 s J) as J1. pose proof (step_links o0 c1 s I J L) as HL. pose proof (step_fresh o0 c1 s I J L F) as HF.
    assert (forall s1 r, call_step c1 s = (s1, r) -> NoPanic r -> forall cs1, calls (c1 :: cs1) s = calls cs1 s1) as Hgo.
    { intros s2 r Hr Hn cs3. cbn [calls]. rewrite Hr. by destruct r. }
    cbn [calls] in Hc. destruct (call_step c1 s) as [s2 r] eqn:Ec. cbn [fst snd] in *. specialize (Hgo s2 r eq_refl).
    assert (NoPanic r /\ calls cs1 s2 = Some s1) as [Hn Hc']. { destruct r as [[]|m|m]; done. }
    destruct (HE Hn) as [I1 _].
    assert (~ BadStep any_rel c1 s) as Hbad. { intros (name & e & B1 & B2 & B3). apply Hf. exists [], c1, cs, s, name, e. done. }
    apply (IH s2); [done|done| | | |done|].
    + apply HL; [done|done|]. by eapply fresh_not_stale.
    + by apply HF.
    + intros (cs3 & c3 & cs4 & s3 & name & e & -> & H2 & H3). apply Hf. exists (c1 :: cs3), c3, cs4, s3, name, e. rewrite Hgo by done. done.
    + exists cs1, h, cs2, s1, w, x. done.
Qed.
Theorem unrenamed_not_stale fs x0 cs : excel_new None fs = Ok x0 -> ~ BadOpen cs (x0, []) any_rel -> Forall (fun c => ~ renames c) cs -> ~ StaleDelete cs (x0, []).
Proof.
  intros Hx Hf Hr. destruct (new_session _ _ Hx) as [N J0]. destruct (new_linv _ _ _ Hx) as [I0 _].
  eapply calls_fresh; [exact I0|exact J0|by eapply new_links| |done|done]. intros w x r Hw. by apply elem_of_nil in Hw.
Qed.
End with_env.
