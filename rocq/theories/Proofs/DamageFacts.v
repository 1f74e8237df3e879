(** Sheets that cannot be loaded. *)
From Verif.Model Require Import Excel.
From Verif.Spec Require Import XmlSpec XmlRepr PackageSpec SheetSpec SessionSpec FlowSpec OpenSpec GrowSpec.
From Verif.Proofs Require Import BaseFacts PackageFacts DocBuild XmlReadFacts XmlWriteFacts SaveFacts BookFacts SheetDocFacts SheetCycleFacts SessionFacts FrameFacts KeepFacts OwnFacts OpenMoreFacts FlowFacts FlowSaveFacts FlowOpenFacts PanicFacts OpenBookFacts OpenSheetFacts GrowFacts OnceFacts HeldFacts.
Open Scope N_scope.

Section with_env.
Context `{E : Env} `{HH : Hashes}.
(** ** What a failing load has taken out *)
Lemma untagged_others tag tags g a v cs : untagged tag (others tags (Node g a v cs)) = others (tags ++ [tag]) (Node g a v cs).
Proof.
  unfold others. cbn [t_children]. unfold untagged. induction cs as [|t cs IH]; [done|]. rewrite !filter_cons. destruct (decide (t_tag t ∉ tags)) as [Hn|Hn].
  - cbn [List.filter]. destruct (seqb (t_tag t) tag) eqn:Es; cbn [negb].
    + rewrite decide_False; [done|]. intros H. apply H. apply seqb_true in Es. rewrite Es, elem_of_app. right. left.
    + rewrite decide_True; [by rewrite IH|]. rewrite elem_of_app, elem_of_list_singleton. apply seqb_false in Es. tauto.
  - rewrite decide_False; [done|]. rewrite elem_of_app. tauto.
Qed.
Lemma others_none g a v cs : others [] (Node g a v cs) = cs.
Proof. unfold others. cbn [t_children]. induction cs as [|t cs IH]; [done|]. rewrite filter_cons, decide_True by apply not_elem_of_nil. by rewrite IH. Qed.
Definition lost_tags : list (list string) := [["dimension"; "cols"]; ["dimension"; "cols"; "sheetData"]; ["dimension"; "cols"; "sheetData"; "sheetViews"]].
Lemma load_fails d root d' e : Doc d root -> ws_load d = (d', Err e) -> exists lost, lost ∈ lost_tags
  /\ (lost = ["dimension"; "cols"] -> exists x, x ∈ t_children root /\ t_tag x = "cols")
  /\ Doc d' (Node (t_tag root) (t_attrs root) (t_value root) (others lost root)) /\ d_ns d' = d_ns d.
Proof.
  destruct root as [g a v cs]. intros Hd. cbn [t_tag t_attrs t_value t_children]. unfold ws_load, bind.
  destruct (Doc_take_tagged d g a v cs "dimension" Hd) as (d1 & -> & Hd1 & Hn1).
  destruct (Doc_take_tagged d1 g a v _ "cols" Hd1) as (d2 & -> & Hd2 & Hn2). cbn [lift]. rewrite tagged_untagged by done. unfold lift.
  assert (untagged "dimension" cs = others ["dimension"] (Node g a v cs)) as U1. { rewrite <- (others_none g a v cs) at 1. by rewrite untagged_others. }
  rewrite U1, untagged_others in Hd2. cbn [app] in Hd2.
  destruct (load_cols _) as [cols'|m|m] eqn:Ec; [| |done].
  2: { intros [= <- _]. eexists. split; [left|]. split; [|split; [exact Hd2|congruence]]. intros _. destruct (tagged "cols" cs) as [|x l] eqn:Et; [by cbn in Ec|].
       exists x. assert (In x (tagged "cols" cs)) as Hx by (rewrite Et; by left). unfold tagged in Hx. apply filter_In in Hx as [H1 H2]. split; [by apply elem_of_list_In|by apply seqb_true]. }
  destruct (Doc_take_tagged d2 g a v _ "sheetData" Hd2) as (d3 & -> & Hd3 & Hn3). rewrite untagged_others in Hd3. cbn [app] in Hd3.
  destruct (load_data _) as [[data' dim']|m|m]; [| |done].
  2: { intros [= <- _]. eexists. split; [right; left|]. split; [done|]. split; [exact Hd3|congruence]. }
  destruct (Doc_take_tagged d3 g a v _ "sheetViews" Hd3) as (d4 & -> & Hd4 & Hn4). rewrite untagged_others in Hd4. cbn [app] in Hd4.
  destruct (load_views _) as [views'|m|m]; [done| |done].
  intros [= <- _]. eexists. split; [right; right; left|]. split; [done|]. split; [exact Hd4|congruence].
Qed.
(** ** The call *)
Lemma asked_fails c name s s1 e : asks c name -> call_step c s = (s1, Err e) -> exists st,
  ws_new name (wb_sheets (x_book s.1), (wb_rels (x_book s.1), x_office s.1)) = (st, Err e) /\ s1.2 = s.2 /\ x_office s1.1 = st.2.2.
Proof.
  intros Ha Hc. assert (give (Excel.on_book (add_sheet name)) s = (s1, Err e)) as Hg by (by destruct Ha as [->|(n & -> & ->)]).
  clear Ha Hc. unfold give, Excel.on_book, add_sheet, x_state in Hg. cbn [fst snd] in Hg.
  destruct (ws_new name _) as [[sh [rl o2]] [w|m|m]]; [done| |done]. injection Hg as <- <-. exists (sh, (rl, o2)). done.
Qed.
Lemma name_found s n q : NoDup (list_sheet_names (x_book s.1)) -> LeadsTo s n q ->
  let st := (wb_sheets (x_book s.1), (wb_rels (x_book s.1), x_office s.1)) in get_sheet_file_name (Some n) st = (st, Ok (q, n)).
Proof.
  intros Hnd (x & Hx & Hn & Ht). cbn zeta. unfold get_sheet_file_name, bind, get. cbn [mbind option_bind].
  assert (List.find (fun x => seqb (sh_name x) n) (wb_sheets (x_book s.1)) = Some x) as ->.
  { unfold list_sheet_names in Hnd. revert Hnd Hx. generalize (wb_sheets (x_book s.1)). induction l as [|y l IH]; [by intros _ ?%elem_of_nil|]. cbn [map List.find]. rewrite NoDup_cons, elem_of_cons.
    intros [Hn1 Hn2] [<-|Hx].
    - by rewrite (proj2 (seqb_true _ _) Hn).
    - rewrite (proj2 (seqb_false _ _)); [by apply IH|]. intros Hy. apply Hn1. rewrite Hy, <- Hn. by apply elem_of_list_fmap_1. }
  unfold lift. by rewrite Ht.
Qed.
Lemma read_nothing d root : read_doc "" = Ok d -> ~ Doc d root.
Proof. intros H (e & Hg & _)%Doc_root. vm_compute in H. injection H as <-. by vm_compute in Hg. Qed.
Lemma get_closed_ok init path o e data d root : Doc d root -> of_open o !! path = None -> of_archive o !! path = Some e -> part_bytes e = Ok data -> read_doc data = Ok d ->
  (get_xml_document init path o).2 = Ok tt.
Proof.
  intros Hd H1 H2 H3 H4. unfold get_xml_document, get_xml_tree, bind. rewrite H1, H2. unfold part_bytes in H3. destruct (en_content e) as [c|]; [|injection H3 as <-; by destruct (read_nothing _ _ H4 Hd)]. cbn [of_option rbind]. rewrite H3. cbn [rbind]. by rewrite H4.
Qed.
(** The part stays open, and is the one stored or has lost some elements. *)
Lemma failed_opens n s s1 c e q en data root ns : asks c (Some n) -> call_step c s = (s1, Err e) -> NoDup (list_sheet_names (x_book s.1)) -> LeadsTo s n q ->
  StoredAt s q en -> part_bytes en = Ok data -> ReadsIn data root ns ->
  exists p lost, of_open (x_office s1.1) !! q = Some p /\ (lost = [] \/ lost ∈ lost_tags)
  /\ (lost = [] -> exists r, Beside q r /\ Present (x_office s.1) r)
  /\ (lost = ["dimension"; "cols"] -> exists x, x ∈ t_children root /\ t_tag x = "cols")
  /\ Doc (op_doc p) (Node (t_tag root) (t_attrs root) (t_value root) (others lost root)) /\ d_ns (op_doc p) = ns.
Proof.
  intros Ha Hc Hnd Hlead [Hcl Har] Hb Hrd. destruct (asked_fails _ _ _ _ _ Ha Hc) as (st & Hw & _ & ->). clear Ha Hc.
  rewrite ws_new_after, (name_found s n q Hnd Hlead) in Hw. destruct (reads_in _ _ _ Hrd) as (d & Hr & Hd & _ & _ & _ & Hdn).
  unfold after_name in Hw. unfold bind at 1, on_pkg at 1, on_office at 1 in Hw. cbn [fst snd] in Hw.
  pose proof (get_closed_ok ws_init q (x_office s.1) _ _ _ _ Hd Hcl Har Hb Hr) as Hok. destruct (get_xml_document ws_init q (x_office s.1)) as [o1 x] eqn:Eg. cbn [snd] in Hok. subst x.
  destruct (get_source _ _ _ _ Eg) as (p0 & Hp0 & Hsrc). assert (d = op_doc p0) as ->. { destruct Hsrc as [[H _]|(en' & data' & H1 & H2 & H3)]; congruence. }
  unfold bind at 1, lift at 1 in Hw. destruct (rels_beside q) as [rp|m|m] eqn:Erp; [| |done].
  2: { unfold rels_beside in Erp. by destruct (rsplit_at_byte _ q) as [[[? ?] ?]|]. }
  pose proof (rels_beside_ne _ _ Erp) as Hne. unfold bind at 1, on_pkg at 1, on_office at 1 in Hw. cbn [fst snd] in Hw.
  pose proof (keep_rels_new rp o1 q (not_eq_sym Hne)) as [K _]. unfold id in K. assert (forall o2 r, rels_new rp o1 = (o2, Ok r) -> rl_path r = rp) as Hat by (intros o2 r H; by apply rels_was_closed in H as [_ ?]). destruct (rels_new rp o1) as [o2 [rels|m|m]] eqn:Enew; cbn [fst snd] in *; [| |done].
  2: { injection Hw as <- _. cbn [fst snd]. exists p0, []. rewrite K. split; [done|]. split; [by left|]. split; [|split; [done|]].
       - intros _. exists rp. split; [by apply beside_spec|]. destruct (keep_get_xml ws_init q (x_office s.1) rp Hne) as [G1 G2]. rewrite Eg in G1, G2. unfold id in G1, G2. cbn [fst] in G1, G2.
         destruct (of_open (x_office s.1) !! rp) as [y|] eqn:E1; [left; by exists y|]. destruct (of_archive (x_office s.1) !! rp) as [y|] eqn:E2; [right; by exists y|].
         destruct (rels_new_bare o1 rp) as (y & Hy & _); [congruence|congruence|]. congruence.
       - destruct root as [g a v cs]. cbn [t_tag t_attrs t_value]. by rewrite others_none. }
  rewrite Hp0 in K. unfold on_pkg, on_office, with_doc in Hw. cbn [fst snd] in Hw. rewrite K in Hw.
  destruct (ws_load (op_doc p0)) as [d' [[[[cs dt] vs] dm]|m|m]] eqn:El; cbn [fst snd rmap default] in Hw; [done| |done].
  injection Hw as <- _. cbn [fst snd]. destruct (load_fails _ _ _ _ Hd El) as (lost & L1 & L2 & L3 & L4).
  set (o3 := set_open _ _) in *. pose proof (keep_rels_close rels o3 q) as [K2 _]. { rewrite (Hat _ _ eq_refl). congruence. } unfold id in K2.
  eexists _, lost. split; [rewrite K2; unfold o3; cbn [set_open of_open]; apply lookup_insert|]. cbn [op_doc]. split; [by right|]. split; [|split; [done|split; [done|congruence]]].
  intros ->. unfold lost_tags in L1. rewrite !elem_of_cons, elem_of_nil in L1. naive_solver.
Qed.
(** ** Afterwards *)
Lemma failed_handles c name s s1 e : asks c name -> call_step c s = (s1, Err e) -> forall h w, handle h s1 = Some w -> handle h s = Some w.
Proof. intros Ha Hc h w. destruct (asked_fails _ _ _ _ _ Ha Hc) as (_ & _ & H & _). unfold handle. by rewrite H. Qed.
Lemma stuck_stays cs : forall s s' q p, LInv s -> of_open (x_office s.1) !! q = Some p -> (forall h w, handle h s = Some w -> q ∉ handle_parts (Some w)) -> calls cs s = Some s' ->
  of_open (x_office s'.1) !! q = Some p.
Proof.
  induction cs as [|c cs IH]; intros s s' q p I Hp Hh Hc; [by injection Hc as <-|]. apply calls_cons in Hc as [Hn Hc].
  destruct (stuck_step c s q I) as [_ Hh1]; [by split; [exists p|]|]. destruct (call_effect c s I Hn) as [I1 _]. apply (IH (call_step c s).1); [done| |done|done].
  destruct (call_around c s I) as [_ _ _ A _]. apply A; [|done]. intros h w _ Hw. by eapply Hh.
Qed.
Lemma failed_saved file fs0 l0 q data0 root ns x0 pre c0 n e s s1 cs s2 t f path fs tr fs' :
  Stored fs0 file l0 -> (q, data0) ∈ l0 -> q <> content_types_name -> ~ rels_name q -> ReadsIn data0 root ns ->
  excel_new (Some file) fs0 = Ok x0 -> of_open (x_office x0) !! q = None -> calls pre (x0, []) = Some s -> ~ Reopens pre (x0, []) q ->
  NoDup (list_sheet_names (x_book s.1)) -> LeadsTo s n q -> asks c0 (Some n) -> call_step c0 s = (s1, Err e) -> calls cs s1 = Some s2 ->
  is_Some (of_open (x_office s2.1) !! q)
  /\ (excel_save t f path s2.1 fs = (tr, Ok tt) -> last tr = Some fs' ->
  exists l text nsl lost, Stored fs' path l /\ (forall b, (q, b) ∈ l <-> b = prolog +:+ text) /\ NsKept ns nsl
  /\ (lost = [] \/ lost ∈ lost_tags)
  /\ (lost = [] -> exists r, Beside q r /\ Present (x_office s.1) r)
  /\ (lost = ["dimension"; "cols"] -> exists x, x ∈ t_children root /\ t_tag x = "cols")
  /\ Renders (Some nsl) (Node (t_tag root) (t_attrs root) (t_value root) (others lost root)) text).
Proof.
  intros Hst Hin Hct Hnr Hrd Hx Hcl Hpre Hre Hnd Hlead Ha Hc0 Hcs.
  destruct (new_linv _ _ _ Hx) as (I0 & o & Ho & _ & Hopen). destruct (reopened_file _ _ _ _ Hst Ho) as (_ & Hparts & _).
  destruct (Hparts _ _ Hct Hin) as (en & He & Hb). destruct (Hopen _ _ He) as [[H1 H2]|[[p' H1]|H1]]; [|congruence|done].
  destruct (calls_effect _ _ _ I0 Hpre) as [I _]. pose proof (stored_stays _ _ _ _ _ I0 Hpre (conj H1 H2) Hnr Hre) as Hsa.
  destruct (failed_opens _ _ _ _ _ _ _ _ _ _ Ha Hc0 Hnd Hlead Hsa Hb Hrd) as (p & lost & P1 & P2 & P3 & P4 & P5 & P6).
  assert (calls (c0 :: cs) s = Some s2) as Hcs'. { cbn [calls]. by rewrite Hc0. }
  assert (LInv s1) as I1. { pose proof (call_effect c0 s I) as Hce. rewrite Hc0 in Hce. by apply Hce. }
  assert (of_open (x_office s2.1) !! q = Some p) as Hq.
  { apply (stuck_stays cs s1); [done|done| |done]. intros h w Hw Hqw. apply (failed_handles _ _ _ _ _ Ha Hc0) in Hw. destruct Hsa as [Hsa _]. destruct (li_open _ I q) as [y Hy]; [|congruence].
    apply handle_lookup in Hw. destruct (live_split _ _ _ Hw) as (a & b & L1 & _). unfold held. rewrite L1, !elem_of_app. tauto. }
  split; [by exists p|]. intros Hs Hl.
  assert (q ∉ held s) as Hnh. { intros H. destruct (li_open _ I q H) as [y Hy]. destruct Hsa as [Hsa _]. congruence. }
  destruct (own_stays _ _ _ I Hcs') as [Hown _]. destruct (docs_stay _ _ _ I Hcs') as (D1 & D2 & _).
  destruct (open_saved t f path s2.1 fs tr fs' q p) as (_ & l & data & S1 & S2 & S3); [| |done|done|done|].
  { rewrite Hown. intros H. apply Hnh. unfold held. rewrite !elem_of_app. tauto. }
  { unfold DocsIn. rewrite D1, D2. intros H. apply Hnh. unfold held. rewrite !elem_of_app. unfold DocsIn. tauto. }
  rewrite (Doc_write _ _ P5), P6 in S2. injection S2 as <-. exists l. eexists. exists (hash_entries (written_ns ns)), lost.
  split; [done|]. split; [exact S3|]. split; [apply ns_kept|]. do 3 (split; [done|]). exact (proj2 (render_renders_mut ns _)).
Qed.
(** The part is open: no call that asks for a sheet that leads there is answered. *)
Lemma open_refused s n q c : NoDup (list_sheet_names (x_book s.1)) -> LeadsTo s n q -> is_Some (of_open (x_office s.1) !! q) -> asks c (Some n) -> exists e, (call_step c s).2 = Err e.
Proof.
  intros Hnd Hl [p Hp] Ha. assert (call_step c s = give (Excel.on_book (add_sheet (Some n))) s) as -> by (by destruct Ha as [->|(m & [= <-] & ->)]).
  unfold give, Excel.on_book, add_sheet, x_state. cbn [fst snd]. rewrite ws_new_after, (name_found s n q Hnd Hl). unfold after_name, bind at 1, on_pkg at 1, on_office at 1. cbn [fst snd].
  unfold get_xml_document at 1, get_xml_tree at 1, bind at 1. rewrite Hp. cbn [fst snd]. by eexists.
Qed.
End with_env.
