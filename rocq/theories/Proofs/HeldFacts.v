(** Sheets that are still held when the workbook is saved. *)
From Verif.Model Require Import Excel.
From Verif.Spec Require Import XmlSpec XmlRepr PackageSpec SheetSpec SessionSpec FlowSpec OpenSpec GrowSpec.
From Verif.Proofs Require Import BaseFacts PackageFacts DocBuild XmlReadFacts XmlWriteFacts ReadAnyFacts SaveFacts BookFacts SheetDocFacts SheetCycleFacts SessionFacts FrameFacts KeepFacts OwnFacts FlowFacts FlowSaveFacts FlowOpenFacts OpenBookFacts OpenSheetFacts GrowFacts OnceFacts SwapFacts.
Open Scope N_scope.

Section with_env.
Context `{E : Env} `{HH : Hashes}.
(** ** What is open for a handle *)
(** Nothing that the library keeps in the handle. *)
Definition Emptied (d : doc) : Prop := d_elems d = ∅ \/ exists t, Doc d t /\ Forall (fun x => t_tag x ∉ sheet_tags) (t_children t).
Lemma take_none d tag : d_elems d = ∅ -> take_subtrees tag d = (d, Ok None).
Proof. intros Hd. unfold take_subtrees, bind, pop_elements_by_tag. cbn [default]. by rewrite Hd, lookup_empty. Qed.
Lemma load_emptied data d0 d x : read_doc data = Ok d0 -> ws_load d0 = (d, Ok x) -> Emptied d.
Proof.
  intros Hr Hl. destruct (read_doc_tree _ _ Hr) as [He|(t & Hd & _)].
  - left. revert Hl. unfold ws_load, bind. rewrite !take_none by done. unfold lift. destruct (load_cols None) as [c|m|m]; [|done..]. rewrite take_none by done.
    destruct (load_data None) as [[dd dim]|m|m]; [|done..]. rewrite take_none by done. destruct (load_views None) as [v|m|m]; [|done..]. intros [= <- _]. done.
  - right. destruct t as [g a v cs], x as [[[cols dat] views] dim]. destruct (load_back _ _ _ _ _ _ _ _ _ _ Hd Hl) as (_ & _ & _ & Hd' & _). eexists. split; [exact Hd'|]. cbn [t_children]. apply rest_tags.
Qed.
Lemma init_reads p : ws_init = Ok p -> exists data, read_doc data = Ok (op_doc p).
Proof. unfold ws_init. destruct (read_doc ws_template) as [d|e|e] eqn:Er; cbn [rmap]; [|done..]. intros [= <-]. by exists ws_template. Qed.
Lemma call_asks c : opens c -> exists name, asks c name.
Proof. destruct c; try done; intros _; [exists name; by left|exists (Some name); right; by eexists]. Qed.
Lemma new_emptied c s s1 w : opens c -> call_step c s = (s1, Ok tt) -> handle (length s.2) s1 = Some w -> exists p, of_open (x_office s1.1) !! ws_path w = Some p /\ Emptied (op_doc p).
Proof.
  intros Ho Hc Hh. destruct (call_asks c Ho) as [name Ha]. destruct (asked_handle _ _ _ _ _ Ha Hc Hh) as (st & Hw & ->). destruct (ws_new_opened _ _ _ _ Hw) as (s2 & nm & p0 & d' & _ & Hsrc & Hl & Hop).
  assert (exists data, read_doc data = Ok (op_doc p0)) as [data Hr]. { destruct Hsrc as [[_ H]|(e & data & _ & _ & H)]; [by apply init_reads|by eexists]. }
  eexists. split; [exact Hop|]. cbn [op_doc]. by eapply load_emptied.
Qed.
Lemma use_office h m s : x_office (use h m s).1.1 = x_office s.1.
Proof. unfold use. destruct (handle h s) as [w|]; [|done]. by destruct (m (w, ss_strings (wb_sst (x_book s.1)))) as [[w1 table] r]. Qed.
Lemma spend_gone h m s : handle h (spend h m s).1 = None.
Proof.
  unfold spend. destruct (handle h s) as [w|] eqn:Eh; [|done]. destruct (Excel.on_book (m w) s.1) as [x r]. unfold handle. cbn [fst snd]. apply handle_lookup in Eh.
  rewrite list_lookup_insert by (by eapply lookup_lt_Some). done.
Qed.
(** A handle that is there before and after a call: its part stays as it is. *)
Lemma held_still c s h w w' p : LInv s -> handle h s = Some w -> handle h (call_step c s).1 = Some w' -> of_open (x_office s.1) !! ws_path w = Some p ->
  ws_path w' = ws_path w /\ of_open (x_office (call_step c s).1.1) !! ws_path w = Some p.
Proof.
  intros I Hw Hw' Hp. split.
  - destruct (call_handles _ _ _ _ Hw') as [(w1 & H1 & H2 & _)|(_ & _ & ->)]; [congruence|]. apply handle_lookup in Hw. apply lookup_lt_Some in Hw. lia.
  - destruct (decide (through c = Some h)) as [Ht|Ht].
    + destruct c; try done; cbn [through] in Ht; injection Ht as ->; cbn [call_step] in *; rewrite ?use_office; try done; by rewrite spend_gone in Hw'.
    + destruct (call_around c s I) as [_ _ _ A _]. apply A; [|done]. intros k w1 Hk Hw1. apply (apart_handle s h k w); [done|congruence|done|done|]. cbn. left.
Qed.
Lemma handle_back c s h w' : handle h (call_step c s).1 = Some w' -> (exists w, handle h s = Some w) \/ opens c /\ (call_step c s).2 = Ok tt /\ h = length s.2.
Proof. intros Hh. destruct (call_handles _ _ _ _ Hh) as [(w & H & _)|H]; [left; by exists w|by right]. Qed.
Lemma held_emptied cs : forall s s', LInv s -> (forall h w, handle h s = Some w -> exists p, of_open (x_office s.1) !! ws_path w = Some p /\ Emptied (op_doc p)) ->
  calls cs s = Some s' -> forall h w, handle h s' = Some w -> exists p, of_open (x_office s'.1) !! ws_path w = Some p /\ Emptied (op_doc p).
Proof.
  induction cs as [|c cs IH]; intros s s' I H; [by intros [= <-]|]. cbn [calls]. pose proof (call_effect c s I) as HE.
  assert (forall h w, handle h (call_step c s).1 = Some w -> exists p, of_open (x_office (call_step c s).1.1) !! ws_path w = Some p /\ Emptied (op_doc p)) as H1.
  { intros h w' Hw'. destruct (handle_back _ _ _ _ Hw') as [[w Hw]|(Ho & Hc & ->)].
    - destruct (H _ _ Hw) as (p & Hp & He). destruct (held_still c s h w w' p I Hw Hw' Hp) as [-> ?]. by exists p.
    - apply (new_emptied c s); [done| |done]. rewrite <- Hc. by destruct (call_step c s). }
  destruct (call_step c s) as [s1 [[]|e|e]]; cbn [fst snd] in *; [destruct (HE Logic.I) as [I1 _]; by apply (IH s1)..|done].
Qed.
Lemma held_stays cs : forall s s' h w w' p, LInv s -> handle h s = Some w -> of_open (x_office s.1) !! ws_path w = Some p -> calls cs s = Some s' -> handle h s' = Some w' ->
  ws_path w' = ws_path w /\ of_open (x_office s'.1) !! ws_path w = Some p.
Proof.
  induction cs as [|c cs IH]; intros s s' h w w' p I Hw Hp; [intros [= <-]; rewrite Hw; by intros [= <-]|]. cbn [calls]. pose proof (call_effect c s I) as HE.
  intros Hc Hw'. assert (exists s1, s1 = (call_step c s).1 /\ LInv s1 /\ calls cs s1 = Some s') as (s1 & Hs1 & I1 & Hc1).
  { destruct (call_step c s) as [s1 [[]|e|e]]; cbn [fst snd] in *; [destruct (HE Logic.I) as [I1 _]; by exists s1..|done]. }
  clear Hc HE. assert (is_Some (handle h s1)) as [w1 Hw1].
  { assert (forall l z z', calls l z = Some z' -> handle h z = None -> (h < length z.2)%nat -> handle h z' = None) as Hgone.
    { clear. induction l as [|a l IH]; intros z z'; [by intros [= ->]|]. cbn [calls]. intros Hc Hn Hlt.
      assert (handle h (call_step a z).1 = None) as H1. { destruct (handle h (call_step a z).1) as [y|] eqn:Ey; [|done]. destruct (handle_back _ _ _ _ Ey) as [[y' Hy]|(_ & _ & ->)]; [congruence|lia]. }
      assert (h < length (call_step a z).1.2)%nat as H2 by (pose proof (handles_grow a z); lia).
      destruct (call_step a z) as [z1 [[]|e|e]]; cbn [fst snd] in *; [by apply (IH z1)..|done]. }
    destruct (handle h s1) as [w1|] eqn:E1; [by eexists|]. rewrite (Hgone cs s1 s') in Hw'; [done|done|done|]. rewrite Hs1. pose proof (handles_grow c s). apply handle_lookup, lookup_lt_Some in Hw. lia. }
  rewrite Hs1 in Hw1. destruct (held_still c s h w w1 p I Hw Hw1 Hp) as [P1 P2]. rewrite <- Hs1 in *. rewrite <- P1. apply (IH s1 s' h); try done. by rewrite P1.
Qed.

(** ** The saved part *)
Lemma open_saved t f path (x : excel) fs tr fs' q p : q ∉ own_parts (x_book x) -> q ∉ DocsIn (x_suite x) -> of_open (x_office x) !! q = Some p ->
  excel_save t f path x fs = (tr, Ok tt) -> last tr = Some fs' ->
  q <> content_types_name /\ exists l data, Stored fs' path l /\ write_doc (op_doc p) = Ok data /\ forall b, (q, b) ∈ l <-> b = data.
Proof.
  intros Ho Hd Hp Hs Hl.
  unfold excel_save in Hs. pose proof (flush_keeps (x_book x) (x_office x)) as K. destruct (wb_flush (x_book x) (x_office x)) as [o [[]|e|e]]; [|done..]. cbn [fst] in K.
  destruct (K q Ho) as [K1 _]. unfold DocsIn in Hd. rewrite !not_elem_of_cons in Hd. destruct Hd as (D1 & D2 & _). unfold suite_save, bind in Hs. cbn [su_core su_root su_office] in Hs.
  pose proof (keep_core_flush t (su_core (x_suite x)) o q D2) as [K2 _]. unfold id in K2. destruct (core_flush t (su_core (x_suite x)) o) as [o1 [[]|e|e]]; [|done..]. cbn [fst] in *.
  pose proof (keep_rels_close (su_root (x_suite x)) o1 q D1) as [K3 _]. unfold id in K3. destruct (rels_close (su_root (x_suite x)) o1) as [o3 [[]|e|e]]; [|done..]. cbn [fst] in *.
  destruct (office_save f path o3 fs) as [o4 [tr3 r3]] eqn:Hsave. cbn [snd] in Hs. injection Hs as -> ->.
  destruct (saved_file _ _ _ _ _ _ _ Hsave Hl) as (l & S1 & S2 & S3 & S4).
  assert (part_data o3 q = rmap Some (write_doc (op_doc p))) as Hpd. { unfold part_data. by rewrite K3, K2, K1, Hp. }
  assert (q <> content_types_name) as Hct. { intros Hq. rewrite <- Hq, Hpd in S4. by destruct (write_doc (op_doc p)). }
  split; [done|]. destruct (S3 q Hct) as [y Hy]. rewrite Hpd in Hy. destruct (write_doc (op_doc p)) as [data|e|e]; cbn [rmap] in *; [|done..].
  exists l, data. split; [done|]. split; [done|]. intros b. rewrite (S2 q b Hct), Hpd. naive_solver.
Qed.
Lemma held_saved t f path (s : session) fs tr fs' h w p : LInv s -> handle h s = Some w -> of_open (x_office s.1) !! ws_path w = Some p -> excel_save t f path s.1 fs = (tr, Ok tt) -> last tr = Some fs' ->
  ws_path w <> content_types_name /\ exists l data, Stored fs' path l /\ write_doc (op_doc p) = Ok data /\ forall b, (ws_path w, b) ∈ l <-> b = data.
Proof.
  intros I Hh Hp Hs Hl. set (q := ws_path w) in *.
  assert (q ∉ own_parts (x_book s.1) /\ q ∉ DocsIn (x_suite s.1)) as [Ho Hd].
  { pose proof (li_nodup _ I) as Hnd. unfold held in Hnd. apply handle_lookup in Hh. destruct (live_split _ _ _ Hh) as (a & b & L1 & _). rewrite L1 in Hnd.
    assert (q ∈ handle_parts (Some w)) as Hq by (cbn; left).
    apply NoDup_app in Hnd as (_ & D1 & Hnd). apply NoDup_app in Hnd as (_ & D2 & _). split; intros H; [apply (D1 _ H)|apply (D2 _ H)]; rewrite !elem_of_app; tauto. }
  by apply (open_saved t f path s.1 fs tr fs' q p).
Qed.
Lemma write_emptied d data : Emptied d -> write_doc d = Ok data ->
  exists text, data = prolog +:+ text /\ (text = "" \/ exists root nsl, Renders (Some nsl) root text /\ forall x, x ∈ t_children root -> t_tag x ∉ sheet_tags).
Proof.
  intros [He|(t & Hd & Ht)] Hw.
  - exists "". split; [|by left]. unfold write_doc, build_xml_tree in Hw. unfold get_root, get_element in Hw. replace (d_elems d !! 0) with (@None elem) in Hw by (by rewrite He). cbn in Hw. injection Hw as <-. by rewrite app_nil_r_s.
  - rewrite (Doc_write _ _ Hd) in Hw. injection Hw as <-. eexists. split; [done|]. right. exists t, (hash_entries (written_ns (d_ns d))). split; [apply render_renders_mut|]. by apply Forall_forall.
Qed.
(** ** A sheet of the file that was opened *)
Lemma got_exact file fs0 l0 q data0 root ns x0 pre c0 name s s1 w0 :
  Stored fs0 file l0 -> (q, data0) ∈ l0 -> q <> content_types_name -> ~ rels_name q -> ReadsIn data0 root ns ->
  excel_new (Some file) fs0 = Ok x0 -> of_open (x_office x0) !! q = None -> calls pre (x0, []) = Some s -> ~ Reopens pre (x0, []) q ->
  asks c0 name -> call_step c0 s = (s1, Ok tt) -> handle (length s.2) s1 = Some w0 -> ws_path w0 = q ->
  LInv s1 /\ names_ok (Node (t_tag root) (t_attrs root) (t_value root) (others sheet_tags root)) /\ ns_ok ns
  /\ exists p, of_open (x_office s1.1) !! q = Some p /\ Doc (op_doc p) (Node (t_tag root) (t_attrs root) (t_value root) (others sheet_tags root)) /\ d_ns (op_doc p) = ns.
Proof.
  intros Hst Hin Hct Hnr Hrd Hx Hcl Hpre Hre0 Ha Hc0 Hh Hq. subst q.
  destruct (new_linv _ _ _ Hx) as (I0 & o & Ho & _ & Hopen). destruct (reopened_file _ _ _ _ Hst Ho) as (_ & Hparts & _).
  destruct (Hparts _ _ Hct Hin) as (e & He & Hb). destruct (Hopen _ _ He) as [[H1 H2]|[[p' H1]|H1]]; [|congruence|done].
  destruct (calls_effect _ _ _ I0 Hpre) as [I _].
  destruct (stored_stays _ _ _ _ _ I0 Hpre (conj H1 H2) Hnr Hre0) as [St1 St2].
  assert (LInv s1) as I1. { pose proof (call_effect c0 s I) as Hce. rewrite Hc0 in Hce. by apply Hce. }
  destruct (asked_handle _ _ _ _ _ Ha Hc0 Hh) as (st & Hw & Hof). rewrite Hof.
  destruct (ws_new_opened _ _ _ _ Hw) as (s2 & nm & p0 & d' & _ & Hsrc & Hl & Hop). cbn [fst snd] in Hsrc.
  assert (read_doc data0 = Ok (op_doc p0)) as Hr. { destruct Hsrc as [[Hn _]|(e' & data' & He' & Hb' & Hr)]; congruence. }
  destruct (reads_in _ _ _ Hrd) as (d & Hr' & Hd & Hn & _ & Hns & Hdn). assert (d = op_doc p0) as -> by congruence.
  rewrite others_sheet. destruct root as [g a v cs]. destruct (load_back _ _ _ _ _ _ _ _ _ _ Hd Hl) as (_ & _ & _ & Hd' & Hns').
  split; [done|]. split; [by apply names_rest|]. split; [done|]. eexists. split; [exact Hop|]. cbn [op_doc t_tag t_attrs t_value t_children]. split; [done|]. by rewrite Hns'.
Qed.
(** A part that cannot be read is not handed out. *)
Lemma unread_refused path fs' l x1 q data n e :
  Stored fs' path l -> (q, data) ∈ l -> q <> content_types_name -> read_doc data = Err e -> excel_new (Some path) fs' = Ok x1 ->
  n ∈ list_sheet_names (x_book x1) -> (forall p, LeadsTo (x1, []) n p -> p = q) -> (call_step (CGet n) (x1, [])).2 <> Ok tt.
Proof.
  intros Hst Hin Hct Hu Hn Hl Hone Hok. destruct (new_linv _ _ _ Hn) as (I & o & Ho & _ & Hopen). destruct (reopened_file _ _ _ _ Hst Ho) as (_ & Hparts & _).
  destruct (Hparts _ _ Hct Hin) as (en & He & Hb). destruct (call_step (CGet n) (x1, [])) as [s r] eqn:Ec. cbn [snd] in Hok. subst r.
  destruct (get_asked _ _ _ Ec Hl) as (w & Hw & Hlead). apply Hone in Hlead. destruct (call_new _ _ _ _ I (Logic.I : opens (CGet n)) Ec Hw) as [Op _].
  assert (of_open (x_office x1) !! q = None) as Hcl. { apply (op_closed _ _ _ Op). rewrite Hlead. by left. }
  destruct (Hopen _ _ He) as [[_ H2]|[[p' H1]|H1]]; [|congruence|done].
  destruct (asked_handle (CGet n) (Some n) _ _ _ (or_intror (ex_intro _ n (conj eq_refl eq_refl))) Ec Hw) as (st & Hnew & _).
  destruct (ws_new_opened _ _ _ _ Hnew) as (s2 & nm & p0 & d' & _ & Hsrc & _). cbn [fst snd] in Hsrc. rewrite Hlead in Hsrc. destruct Hsrc as [[H _]|(e' & data' & He' & Hb' & Hr)]; congruence.
Qed.
End with_env.
