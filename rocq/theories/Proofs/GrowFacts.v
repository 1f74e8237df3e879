(** Which parts appear while a workbook is worked on. *)
From Verif.Model Require Import Excel.
From Verif.Spec Require Import XmlSpec PackageSpec SessionSpec FlowSpec ReopenSpec PanicSpec GrowSpec.
From Verif.Proofs Require Import BaseFacts PackageFacts SaveFacts BookFacts SheetDocFacts SheetCycleFacts SessionFacts FrameFacts KeepFacts OwnFacts FlowFacts AnswerFacts InventoryFacts PanicFacts.
Open Scope N_scope.

Lemma split_front p s : forall l b r, split_at_byte p s = Some (l, b, r) -> sforall (fun a => negb (p a)) l = true.
Proof.
  induction s as [|a s IH]; intros l b r; [done|]. cbn [split_at_byte]. destruct (p a) eqn:Ea; [by intros [= <- _ _]|].
  destruct (split_at_byte p s) as [[[x y] z]|]; [|done]. intros [= <- _ _]. cbn [sforall]. rewrite Ea. by eapply IH.
Qed.
Lemma no_slash f : sforall (fun a => negb (aeqb a "/")) f = true <-> no_folder f.
Proof.
  split.
  - intros H a b ->. rewrite sforall_app in H. apply andb_true_iff in H as [_ H]. by cbn in H.
  - induction f as [|x f IH]; [done|]. intros H. cbn [sforall]. apply andb_true_iff. split.
    + destruct (aeqb x "/") eqn:Ex; [|done]. unfold aeqb in Ex. apply Ascii.eqb_eq in Ex as ->. by destruct (H "" f).
    + apply IH. intros a b ->. by apply (H (String x a) b).
Qed.
Lemma beside_spec p q : rels_beside p = Ok q <-> Beside p q.
Proof.
  unfold rels_beside, Beside. split.
  - destruct (rsplit_at_byte _ p) as [[[dir b] file]|] eqn:Es; [|done]. intros [= <-]. exists dir, file.
    pose proof (rsplit_at_byte_hit _ _ _ _ _ Es) as Hb. unfold aeqb in Hb. apply Ascii.eqb_eq in Hb as ->. split; [by apply rsplit_at_byte_app in Es|]. split; [|done].
    apply no_slash. unfold rsplit_at_byte in Es. destruct (split_at_byte _ (srev p)) as [[[x y] z]|] eqn:E0; [|done]. injection Es as _ _ <-.
    rewrite sforall_srev. by eapply split_front.
  - intros (dir & file & -> & Hn & ->). change ("/" +:+ file) with (String "/" file). rewrite rsplit_intro; [done|done|]. by apply no_slash.
Qed.

Section with_env.
Context `{E : Env} `{HH : Hashes}.
(** The part [ws_new] looks for. *)
Lemma asked_path name c s path nm : asks c name ->
  (get_sheet_file_name name (wb_sheets (x_book s.1), (wb_rels (x_book s.1), x_office s.1))).2 = Ok (path, nm) -> AsksFor s c path.
Proof.
  intros Ha. unfold get_sheet_file_name, bind, get.
  destruct (name ≫= (fun n => List.find (fun x => seqb (sh_name x) n) (wb_sheets (x_book s.1)))) as [x|] eqn:Ef.
  - destruct name as [n|]; [|done]. cbn in Ef. apply find_some in Ef as [Hx Heq]. apply seqb_true in Heq. unfold lift.
    destruct (get_target_by_id (wb_rels (x_book s.1)) (sh_rel x)) as [[p|]|m|m] eqn:Et; [|done..]. cbn. intros [= -> _].
    left. exists n. split; [done|]. exists x. split; [by apply elem_of_list_In|]. done.
  - unfold lift. destruct (get_relative_path _) as [rp|m|m]; [|done..]. cbn zeta.
    destruct (free_number_total (x_office s.1) (rp +:+ c_path c_worksheet) (N.of_nat (length (wb_sheets (x_book s.1))) + 1)) as (k & H1 & _ & H3 & _).
    rewrite H1. destruct (set_new_relationship _ _ _ _) as [rels1 id]. unfold put, ret. cbn [fst snd]. intros Hok. right. exists name, rp, k. split; [done|]. split.
    + intros n ->. cbn in Ef. intros Hin. unfold list_sheet_names in Hin. apply elem_of_list_In, in_map_iff in Hin as (x & Hx & Hin). apply (List.find_none _ _ Ef) in Hin.
      unfold seqb in Hin. by rewrite Hx, String.eqb_refl in Hin.
    + assert (path = sheet_path (rp +:+ c_path c_worksheet) k) as Hk by (unfold sheet_path; congruence). split; [|by rewrite Hk].
      rewrite Hk. unfold sheet_path, sheet_file. rewrite <- !app_assoc_s. reflexivity.
Qed.

(** One call. *)
Record Grows (c : call) (s : session) (r : session * res unit) (ps : list string) : Prop := {
  gr_only : forall q, Present (x_office r.1.1) q -> Present (x_office s.1) q \/ q ∈ ps;
  gr_count : (length ps <= 2 * asking [c])%nat;
  gr_asked : forall q, q ∈ ps -> exists p, AsksFor s c p /\ (q = p \/ Beside p q);
  gr_ok : opens c -> r.2 = Ok tt -> exists w, handle (length s.2) r.1 = Some w /\ ps = [ws_path w; rl_path (ws_rels w)] /\ Beside (ws_path w) (rl_path (ws_rels w));
}.
Lemma grows_none c s r : ~ opens c -> (forall q, Present (x_office r.1.1) q -> Present (x_office s.1) q) -> Grows c s r [].
Proof. intros Hc Hp. constructor; [auto|cbn; lia| |done]. intros q Hq. by apply elem_of_nil in Hq. Qed.
Lemma grows_same c s r : ~ opens c -> x_office r.1.1 = x_office s.1 -> Grows c s r [].
Proof. intros Hc Hp. apply grows_none; [done|]. by rewrite Hp. Qed.
Lemma grows_give c name s : asks c name -> (forall e, (give (on_book (add_sheet name)) s).2 <> Panic e) -> LInv s -> exists ps, Grows c s (give (on_book (add_sheet name)) s) ps.
Proof.
  intros Ha Hp I. assert (asking [c] = 1%nat) as Hk by (destruct Ha as [->|(n & _ & ->)]; done).
  unfold give, on_book, x_state, add_sheet in *. cbn [fst snd] in *.
  pose proof (fun path nm => asked_path name c s path nm Ha) as Hasked. set (st := (wb_sheets (x_book s.1), (wb_rels (x_book s.1), x_office s.1))) in *.
  pose proof (ws_new_keeps name st) as K. cbn zeta in K. pose proof (ws_new_handle name st) as Hh.
  destruct (ws_new name st) as [[l [r o]] x] eqn:Ew. cbn [fst snd] in *. 
  assert (exists ps, (forall q, Present o q -> Present (x_office s.1) q \/ q ∈ ps) /\ (length ps <= 2)%nat /\ (forall q, q ∈ ps -> exists p, AsksFor s c p /\ (q = p \/ Beside p q))
    /\ (forall w, x = Ok w -> ps = [ws_path w; rl_path (ws_rels w)])) as (ps & P1 & P2 & P3 & P4).
  { destruct (get_sheet_file_name name st) as [st1 [[path nm]|e|e]] eqn:Ef; cbn [fst snd] in *.
    - exists (path :: match rels_beside path with Ok rp => [rp] | _ => [] end). split_and!.
      + intros q Hq. destruct (decide (q ∈ path :: match rels_beside path with Ok rp => [rp] | _ => [] end)) as [Hin|Hout]; [by right|left].
        rewrite not_elem_of_cons in Hout. destruct Hout as [H1 H2]. apply (same_present _ o); [|done]. apply K.
        * intros path' nm' rp [= <- <-] Hrp. rewrite Hrp in H2. split; [done|]. rewrite not_elem_of_cons in H2. by destruct H2.
        * by intros path' nm' [= <- <-].
      + destruct (rels_beside path); cbn; lia.
      + intros q Hq. exists path. split; [by eapply Hasked|]. apply elem_of_cons in Hq as [->|Hq]; [by left|right]. apply beside_spec.
        destruct (rels_beside path) as [rp|e|e]; [|by apply elem_of_nil in Hq..]. apply elem_of_list_singleton in Hq. by subst.
      + intros w ->. destruct (Hh w eq_refl) as [(nm' & [= H1 _]) H2]. rewrite H1, H2. done.
    - exists []. split_and!; [|cbn; lia|by intros q Hq%elem_of_nil|]. { intros q Hq. left. apply (same_present _ o); [|done]. by apply K. } intros w ->. by destruct (Hh w eq_refl) as [(nm' & [=]) _].
    - exists []. split_and!; [|cbn; lia|by intros q Hq%elem_of_nil|]. { intros q Hq. left. apply (same_present _ o); [|done]. by apply K. } intros w ->. by destruct (Hh w eq_refl) as [(nm' & [=]) _]. }
  exists ps. destruct x as [w|e|e]; cbn [fst snd] in *.
  - constructor; cbn [fst snd]; [done|lia|done|]. intros _ _. exists w. split.
    + unfold handle. cbn [snd]. by rewrite lookup_app_r, Nat.sub_diag by lia.
    + split; [by apply P4|]. apply beside_spec. by apply (Hh w).
  - constructor; cbn [fst snd]; [done|lia|done|done].
  - by destruct (Hp e).
Qed.
Lemma grows_spend c h s (m : worksheet -> M wb_state unit) : ~ opens c -> LInv s ->
  (forall w b o q, q <> ws_path w -> q <> rl_path (ws_rels w) -> SameAt o (m w (b, o)).1.2 q) -> Grows c s (spend h m s) [].
Proof.
  intros Hc I Hm. unfold spend. destruct (handle h s) as [w|] eqn:Eh; [|by apply grows_same]. apply grows_none; [done|]. intros q Hq.
  assert (q ∈ [ws_path w; rl_path (ws_rels w)] -> is_Some (of_open (x_office s.1) !! q)) as Hop.
  { intros Hin. apply (li_open _ I). unfold held. apply handle_lookup in Eh. destruct (live_split _ _ _ Eh) as (a & b & L1 & _). rewrite L1, !elem_of_app. cbn [handle_parts]. tauto. }
  destruct (decide (q ∈ [ws_path w; rl_path (ws_rels w)])) as [Hin|Hout]; [left; by apply Hop|]. rewrite !not_elem_of_cons in Hout. destruct Hout as (H1 & H2 & _).
  unfold on_book, x_state in Hq. specialize (Hm w (x_book s.1) (x_office s.1) q H1 H2). destruct (m w (x_book s.1, x_office s.1)) as [[b1 o1] r]. cbn [fst snd] in *.
  by apply (same_present _ o1).
Qed.
Theorem call_grows c s : LInv s -> NoPanic (call_step c s).2 -> exists ps, Grows c s (call_step c s) ps.
Proof.
  intros I Hn. assert (forall m, ~ opens c -> exists ps, Grows c s (on_excel (on_book (A := unit) (pure_book m)) s) ps) as Hpure.
  { intros m Hc. exists []. apply grows_same; [done|]. unfold on_excel, on_book, pure_book, x_state. cbn [fst snd]. by destruct (m (x_book s.1)). }
  assert (forall h m, ~ opens c -> exists ps, Grows c s (use h m s) ps) as Huse.
  { intros h m Hc. exists []. apply grows_same; [done|]. unfold use. destruct (handle h s) as [w|]; [|done]. by destruct (m _) as [[w1 t] r]. }
  destruct c; cbn [call_step] in *; try (by apply Hpure; intros []); try (by apply Huse; intros []).
  - apply grows_give; [by left| |done]. intros e He. by rewrite He in Hn.
  - change (get_worksheet name) with (add_sheet (Some name)) in *. apply grows_give; [right; by eexists| |done]. intros e He. by rewrite He in Hn.
  - exists []. apply grows_spend; [by intros []|done|]. intros w b o q H1 H2. cbn [fst snd]. by apply ws_drop_keeps.
  - exists []. apply grows_spend; [by intros []|done|]. intros w b o q H1 H2. unfold on_wb_office. cbn [fst snd]. pose proof (ws_flush_keeps w o q H1 H2) as K. by destruct (ws_flush w o).
  - exists []. apply grows_spend; [by intros []|done|]. intros w b o q H1 H2. by apply delete_keeps.
Qed.
(** All calls. *)
Lemma asking_cons c cs : asking (c :: cs) = (asking [c] + asking cs)%nat.
Proof. unfold asking. cbn [List.filter]. by destruct c. Qed.
Lemma asked_cons c cs s p : NoPanic (call_step c s).2 -> AskedFor cs (call_step c s).1 p -> AskedFor (c :: cs) s p.
Proof.
  intros Hn (cs1 & c1 & cs2 & s1 & -> & H2 & H3). exists (c :: cs1), c1, cs2, s1. split; [done|]. split; [|done]. cbn [calls]. by destruct (call_step c s) as [s2 [[]|m|m]].
Qed.
Lemma handed_cons c cs s w : NoPanic (call_step c s).2 -> HandedOut cs (call_step c s).1 w -> HandedOut (c :: cs) s w.
Proof.
  intros Hn (cs1 & c1 & cs2 & s1 & s2 & -> & H2 & H3). exists (c :: cs1), c1, cs2, s1, s2. split; [done|]. split; [|done]. cbn [calls]. by destruct (call_step c s) as [s3 [[]|m|m]].
Qed.
Lemma failed_cons c cs s P : NoPanic (call_step c s).2 -> FailedOpen cs (call_step c s).1 P -> FailedOpen (c :: cs) s P.
Proof.
  intros Hn (cs1 & c1 & cs2 & s1 & e & -> & H2 & H3). exists (c :: cs1), c1, cs2, s1, e. split; [done|]. split; [|done]. cbn [calls]. by destruct (call_step c s) as [s3 [[]|m|m]].
Qed.
Lemma asking_opens c : ~ opens c -> asking [c] = 0%nat. Proof. by destruct c. Qed.
Theorem calls_grow cs : forall s s', LInv s -> calls cs s = Some s' -> exists ps,
  (forall q, Present (x_office s'.1) q -> Present (x_office s.1) q \/ q ∈ ps) /\ (length ps <= 2 * asking cs)%nat
  /\ (forall q, q ∈ ps -> exists p, AskedFor cs s p /\ (q = p \/ Beside p q))
  /\ (forall q, q ∈ ps -> FailedOpen cs s (fun _ => True) \/ exists w, HandedOut cs s w /\ (q = ws_path w \/ Beside (ws_path w) q)).
Proof.
  induction cs as [|c cs IH]; intros s s' I Hc.
  { injection Hc as <-. exists []. split; [auto|]. split; [cbn; lia|]. split; intros q Hq; by apply elem_of_nil in Hq. }
  assert (NoPanic (call_step c s).2 /\ calls cs (call_step c s).1 = Some s') as [Hn Hg]. { cbn [calls] in Hc. by destruct (call_step c s) as [s1 [[]|m|m]]. }
  destruct (call_effect c s I Hn) as [I1 _]. destruct (call_grows c s I Hn) as (ps1 & G). destruct (IH _ _ I1 Hg) as (ps2 & P1 & P2 & P3 & P4). exists (ps1 ++ ps2). split_and!.
  - intros q Hq. rewrite elem_of_app. destruct (P1 q Hq) as [H|H]; [|tauto]. destruct (gr_only _ _ _ _ G q H); tauto.
  - rewrite app_length, asking_cons. pose proof (gr_count _ _ _ _ G). lia.
  - intros q [Hq|Hq]%elem_of_app.
    + destruct (gr_asked _ _ _ _ G q Hq) as (p & H1 & H2). exists p. split; [|done]. by exists [], c, cs, s.
    + destruct (P3 q Hq) as (p & H1 & H2). exists p. split; [|done]. by apply asked_cons.
  - intros q [Hq|Hq]%elem_of_app.
    + assert (opens c) as Ho. { pose proof (gr_count _ _ _ _ G) as Hk. destruct c; try exact Logic.I; cbn in Hk; destruct ps1; [by apply elem_of_nil in Hq|cbn in Hk; lia|by apply elem_of_nil in Hq|cbn in Hk; lia|..];
        try (by apply elem_of_nil in Hq); cbn in Hk; lia. }
      pose proof (gr_ok _ _ _ _ G Ho) as Hok. destruct (call_step c s) as [s1 [[]|e|e]] eqn:Es; cbn [fst snd] in *; [|left; exists [], c, cs, s, e; by rewrite Es|done].
      right. destruct (Hok eq_refl) as (w & H1 & -> & H3). exists w. split; [by exists [], c, cs, s, s1|]. rewrite !elem_of_cons, elem_of_nil in Hq. destruct Hq as [->|[->|[]]]; auto.
    + destruct (P4 q Hq) as [H|(w & H1 & H2)]; [left; by apply failed_cons|right]. exists w. split; [by apply handed_cons|done].
Qed.
(** What was handed out stays in the package. *)
Theorem handed_present cs : forall s s' w, LInv s -> calls cs s = Some s' -> HandedOut cs s w -> forall q, q = ws_path w \/ Beside (ws_path w) q ->
  Present (x_office s'.1) q \/ FailedOpen cs s (fun _ => True).
Proof.
  intros s s' w I Hc (cs1 & c & cs2 & s1 & s2 & -> & H1 & H2 & H3 & H4) q Hq.
  assert (calls (cs1 ++ c :: cs2) s = calls (c :: cs2) s1) as Hcs. { clear - H1. revert s H1. induction cs1 as [|a cs1 IH]; intros s; cbn [app calls]; [by intros [= ->]|]. destruct (call_step a s) as [s3 [[]|m|m]]; [apply IH..|done]. }
  rewrite Hcs in Hc. cbn [calls] in Hc. rewrite H3 in Hc. destruct (calls_effect _ _ _ I H1) as (I1 & _). pose proof (call_effect c s1 I1) as HE. rewrite H3 in HE. cbn [fst snd] in HE.
  destruct (HE Logic.I) as [I2 _]. assert (Present (x_office s2.1) q) as Hp.
  { destruct (call_grows c s1 I1) as (ps & G); [by rewrite H3|]. rewrite H3 in G. destruct (gr_ok _ _ _ _ G H2 eq_refl) as (w' & G1 & _ & G3). cbn [fst] in G1. rewrite H4 in G1. injection G1 as <-.
    left. apply (li_open _ I2). unfold held. apply handle_lookup in H4. destruct (live_split _ _ _ H4) as (a & b & L1 & _). rewrite L1, !elem_of_app. cbn [handle_parts].
    assert (q ∈ [ws_path w; rl_path (ws_rels w)]); [|tauto]. rewrite !elem_of_cons. destruct Hq as [->|Hq]; [by left|right; left]. apply beside_spec in Hq, G3. congruence. }
  destruct (calls_effect _ _ _ I2 Hc) as (_ & K & _). destruct (K q Hp) as [|(cs3 & c3 & cs4 & s3 & e & -> & F1 & F2 & _ & F4)]; [by left|right].
  exists (cs1 ++ c :: cs3), c3, cs4, s3, e. split; [by rewrite <- app_assoc|]. split; [|done]. clear - H1 H3 F1. revert s H1. induction cs1 as [|a cs1 IH]; intros s; cbn [app calls]; [intros [= ->]; by rewrite H3|].
  destruct (call_step a s) as [s4 [[]|m|m]]; [apply IH..|done].
Qed.
(** The package right after opening. *)
Lemma suite_root file fs s : suite_new file fs = Ok s -> rl_path (su_root s) = root_part.
Proof.
  unfold suite_new. destruct (office_new file fs) as [o|e|e] eqn:Eo; cbn [rbind]; [|done..].
  assert (DocsOk o) as Ho.
  { intros q p. assert (of_open o = ∅) as ->; [|by rewrite lookup_empty].
    unfold office_new in Eo. destruct file as [f|]; [|by injection Eo as <-]. destruct (fs !! f); [|done]. cbn in Eo. destruct (load_archive _); [|done..]. by injection Eo as <-. }
  destruct (rels_new "_rels/.rels" o) as [o1 [root|e|e]] eqn:Er; [|done..]. destruct (opens_rels _ _ _ _ Ho Er) as [_ Hr].
  assert (rl_path (core_new (root, o1)).1.1 = rl_path root) as Hc.
  { unfold core_new, bind, on_rels, on_office. cbn [fst snd]. pose proof (part_path_rels c_core None root). destruct (part_path c_core None root) as [r1 [p|e|e]]; [|done..].
    cbn [fst snd] in *. by destruct (get_xml_document core_init p o1) as [o3 [[]|e|e]]. }
  destruct (core_new (root, o1)) as [[root1 o2] [core|e|e]]; [|done..]. intros [= <-]. cbn [fst snd su_root] in *. by rewrite Hc, Hr.
Qed.
Lemma opens_present ps o o' q : Opens ps o o' -> of_open o = ∅ -> Present o' q <-> is_Some (of_archive o !! q) \/ q ∈ ps.
Proof.
  intros O He. assert (of_open o !! q = None) as Hn by (by rewrite He, lookup_empty). unfold Present. rewrite (op_open _ _ _ O q), Hn.
  destruct (decide (q ∈ ps)) as [Hin|Hout]; [tauto|]. rewrite (op_rest _ _ _ O q Hout Hn). split; [|tauto]. intros [[[? [=]]|?]|?]; tauto.
Qed.
Lemma opened_suite file fs s : suite_new file fs = Ok s -> exists o, office_new file fs = Ok o
  /\ forall q, Present (su_office s) q <-> is_Some (of_archive o !! q) \/ q = root_part \/ q = su_core s.
Proof.
  intros Hs. destruct (opens_suite _ _ _ Hs) as (o & Ho & He & O). exists o. split; [done|]. intros q. rewrite (opens_present _ _ _ q O He). unfold DocsIn.
  rewrite (suite_root _ _ _ Hs), !elem_of_cons, elem_of_nil. tauto.
Qed.
Lemma opened_present file fs x : excel_new (Some file) fs = Ok x -> exists o, office_new (Some file) fs = Ok o
  /\ forall q, Present (x_office x) q <-> is_Some (of_archive o !! q) \/ q ∈ basic_parts x ++ other_parts x.
Proof.
  unfold excel_new. destruct (suite_new (Some file) fs) as [s|e|e] eqn:Es; cbn [rbind]; [|done..]. pose proof (suite_root _ _ _ Es) as Hroot.
  destruct (opens_suite _ _ _ Es) as (o & Ho & He & O1).
  destruct (workbook_new (su_root s, su_office s)) as [[root o1] [b|e|e]] eqn:Ew; [|done..].
  destruct (opens_workbook (su_root s, su_office s) _ _ (op_docs _ _ _ O1) Ew) as [O2 Hr]. cbn [fst snd] in *.
  pose proof (opens_trans _ _ _ _ _ O1 O2) as O. intros [= <-]. exists o. split; [done|]. intros q. change (x_office _) with o1. rewrite (opens_present _ _ _ q O He).
  unfold DocsIn, own_parts, basic_parts, other_parts. cbn [x_suite x_book su_core app]. rewrite Hroot, !elem_of_cons, elem_of_nil. tauto.
Qed.
Lemma stored_names path fs l o q : Stored fs path l -> office_new (Some path) fs = Ok o -> q <> content_types_name -> is_Some (of_archive o !! q) <-> q ∈ l.*1.
Proof.
  intros Hst Hn Hq. destruct (reopened_file _ _ _ _ Hst Hn) as (_ & H2 & H3). split.
  - intros [e He]. destruct (decide (q ∈ l.*1)) as [|Ho]; [done|]. by rewrite (H3 q Ho) in He.
  - intros ([q' d] & -> & Hin)%elem_of_list_fmap. destruct (H2 _ _ Hq Hin) as (e & He & _). by exists e.
Qed.
(** What a workbook opened from a file has, after any calls, in the file it is saved to. *)
Lemma opened_calls file fs0 l0 x0 cs s : Stored fs0 file l0 -> excel_new (Some file) fs0 = Ok x0 -> calls cs (x0, []) = Some s -> exists ps,
  (forall q, q <> content_types_name -> Present (x_office s.1) q -> q ∈ l0.*1 \/ q ∈ basic_parts x0 ++ other_parts x0 \/ q ∈ ps) /\ (length ps <= 2 * asking cs)%nat
  /\ (forall q, q ∈ ps -> exists p, AskedFor cs (x0, []) p /\ (q = p \/ Beside p q))
  /\ (~ FailedOpen cs (x0, []) (fun _ => True) -> forall q, q ∈ ps -> exists w, HandedOut cs (x0, []) w /\ (q = ws_path w \/ Beside (ws_path w) q)).
Proof.
  intros Hst Hn Hc. destruct (new_linv _ _ _ Hn) as [I _]. destruct (calls_grow _ _ _ I Hc) as (ps & P1 & P2 & P3 & P4). destruct (opened_present _ _ _ Hn) as (o & Ho & Hp).
  exists ps. split_and!; [|done|done|].
  - intros q Hq H. apply P1 in H as [H|H]; [|tauto]. cbn [fst] in H. apply Hp in H as [H|H]; [|tauto]. left. by apply (stored_names _ _ _ _ _ Hst Ho Hq).
  - intros Hf q Hq. by destruct (P4 q Hq).
Qed.
Lemma opened_kept file fs0 l0 x0 cs s q : Stored fs0 file l0 -> excel_new (Some file) fs0 = Ok x0 -> calls cs (x0, []) = Some s -> ~ FailedOpen cs (x0, []) (fun _ => True) -> q <> content_types_name ->
  (q ∈ l0.*1 \/ q ∈ basic_parts x0 ++ other_parts x0 \/ exists w, HandedOut cs (x0, []) w /\ (q = ws_path w \/ Beside (ws_path w) q)) -> Present (x_office s.1) q.
Proof.
  intros Hst Hn Hc Hf Hq H. destruct (new_linv _ _ _ Hn) as [I _]. destruct (opened_present _ _ _ Hn) as (o & Ho & Hp).
  assert (Present (x_office x0) q \/ exists w, HandedOut cs (x0, []) w /\ (q = ws_path w \/ Beside (ws_path w) q)) as [H1|(w & H1 & H2)].
  { rewrite (Hp q), (stored_names _ _ _ _ _ Hst Ho Hq). tauto. }
  - destruct (calls_effect _ _ _ I Hc) as (_ & K & _). destruct (K q H1) as [|(cs3 & c3 & cs4 & s3 & e & -> & F1 & F2 & _ & F4)]; [done|]. destruct Hf. by exists cs3, c3, cs4, s3, e.
  - by destruct (handed_present _ _ _ _ I Hc H1 q H2).
Qed.
Lemma opened_file_saved file fs0 l0 x0 cs s t f path fs tr fs' : Stored fs0 file l0 -> excel_new (Some file) fs0 = Ok x0 -> calls cs (x0, []) = Some s -> excel_save t f path s.1 fs = (tr, Ok tt) -> last tr = Some fs' ->
  exists l, Stored fs' path l /\ NoDup l.*1 /\ content_types_name ∈ l.*1 /\ forall q, q <> content_types_name -> q ∈ l.*1 <-> Present (x_office s.1) q.
Proof.
  intros _ Hn Hc Hs Hl. destruct (new_linv _ _ _ Hn) as [I _]. destruct (calls_effect _ _ _ I Hc) as (I' & _). pose proof (li_docs _ I') as J1. pose proof (li_nodup _ I') as J2. pose proof (li_open _ I') as J3. destruct (excel_kept t f path s.1 fs tr fs') as (l & L1 & _); [done| | |done|done|].
  { unfold held in J2. by apply NoDup_app in J2 as [J2 _]. }
  { intros p Hp. apply J3. unfold held. rewrite elem_of_app. by left. }
  exists l. split; [done|]. eapply excel_names; [exact I'|done..].
Qed.
End with_env.
