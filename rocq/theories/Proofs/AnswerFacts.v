(** Sessions on a new workbook follow the machine of names and numbers. *)
From Verif.Model Require Import Excel.
From Verif.Spec Require Import RelSpec XmlSpec XmlRepr PackageSpec PartSpec ColumnSpec SheetSpec SessionSpec BookSpec FlowSpec PanicSpec AnswerSpec.
From Verif.Proofs Require Import BaseFacts ConverterFacts RelFacts PackageFacts XmlWriteFacts XmlReadFacts DocBuild RelDocFacts SmallPartFacts SheetFacts SheetDocFacts SheetCycleFacts
  BookFacts FrameFacts SessionFacts ExcelFacts KeepFacts FlowFacts PanicFacts.
Open Scope N_scope.

Definition sheet_at (m : N) : string := sheet_path sheet_dir m.
Definition rels_of (m : N) : string := sheet_dir +:+ "/_rels/" +:+ (sheet_file m +:+ "." +:+ c_ext c_worksheet) +:+ ".rels".
Lemma beside_at m : rels_beside (sheet_at m) = Ok (rels_of m).
Proof. apply sheet_beside. Qed.
Lemma sheet_at_inj a b : sheet_at a = sheet_at b -> a = b.
Proof. apply sheet_path_inj. Qed.
Lemma rels_of_inj a b : rels_of a = rels_of b -> a = b.
Proof.
  unfold rels_of, sheet_file. intros H. do 2 apply app_inj_l in H. rewrite <- !app_assoc_s in H. apply app_inj_l in H. apply app_inj_r in H. by apply show_N_inj.
Qed.
Lemma at_ne_of a b : sheet_at a <> rels_of b.
Proof. done. Qed.

Section with_env.
Context `{E : Env} `{HH : Hashes}.
(** A relationships part that is open and holds nothing. *)
Definition EmptyRels (o : office) (q : string) : Prop := exists p g a v, of_open o !! q = Some p /\ Doc (op_doc p) (Node g a v []).
Lemma empty_same o o' q : of_open o' !! q = of_open o !! q -> EmptyRels o q -> EmptyRels o' q.
Proof. intros H (p & g & a & v & Hp & Hd). exists p, g, a, v. by rewrite H. Qed.
Lemma empty_keeps o o' q : (forall p, of_open o !! q = Some p -> of_open o' !! q = Some p) -> EmptyRels o q -> EmptyRels o' q.
Proof. intros H (p & g & a & v & Hp & Hd). exists p, g, a, v. split; [by apply H|done]. Qed.
Lemma rels_new_empty o q : of_open o !! q = None -> of_archive o !! q = None ->
  exists p, rels_new q o = (set_open o (<[q := p]> (of_open o)), Ok (mkRelations [] q)) /\ exists g a v, Doc (op_doc p) (Node g a v []).
Proof.
  intros Ho Ha. destruct rels_init_spec as (d & Hi & Hd & Hns).
  destruct (Doc_load_relations d _ _ _ _ Hd) as (d' & Hl & Hd' & _). cbn [List.filter] in Hl, Hd'.
  unfold rels_new, bind at 1. unfold get_xml_document at 1, get_xml_tree at 1, bind at 1. rewrite Ho, Ha.
  unfold bind at 1, lift. rewrite Hi. unfold get_xml_document_ref, modify. unfold bind.
  set (o1 := set_open _ _). rewrite (with_doc_spec q load_relations o1 _ d' (Ok []) (lookup_insert _ _ _) Hl). cbn [rmap rbind].
  eexists. split.
  - unfold o1, set_open. cbn [of_open of_archive op_ct op_ext op_ext_type]. rewrite insert_insert. reflexivity.
  - eexists _, _, _. cbn [op_doc]. exact Hd'.
Qed.
Lemma rels_close_empty o r : rl_rels r = [] -> EmptyRels o (rl_path r) -> rels_close r o = (set_archive o (delete (rl_path r) (of_archive o)), Ok tt).
Proof.
  intros Hr (p & g & a & v & Hp & Hd). destruct (Doc_save_relationships (op_doc p) _ _ _ _ [] Hd) as (d2 & Hs & _). cbn [length] in Hs.
  assert (d2 = op_doc p) as ->.
  { unfold save_relationships, bind, get in Hs. destruct (get_root (op_doc p)) as [root|]; [|done]. unfold ret in Hs. cbn in Hs. unfold ret in Hs. congruence. }
  unfold rels_close, bind. rewrite Hr. rewrite (with_doc_spec (rl_path r) _ o p (op_doc p) _ Hp Hs). cbn. unfold delete_document, modify, set_archive. cbn.
  f_equal. f_equal. rewrite insert_id; [done|]. rewrite Hp. by destruct p.
Qed.
(** A new sheet whose part and whose relationships part are not there. *)
Lemma after_fresh path nm rp sheets rels o : rels_beside path = Ok rp -> of_open o !! path = None -> of_archive o !! path = None ->
  of_open o !! rp = None -> of_archive o !! rp = None ->
  exists o3, after_name path nm (sheets, (rels, o)) = ((sheets, (rels, o3)), Ok (fresh_sheet path nm (mkRelations [] rp)))
    /\ SheetOpen o3 path /\ EmptyRels o3 rp /\ of_archive o3 = of_archive o
    /\ (forall q, q <> path -> q <> rp -> of_open o3 !! q = of_open o !! q).
Proof.
  intros Hrp Ho Ha Hro Hra. pose proof (rels_beside_ne _ _ Hrp) as Hne.
  destruct ws_init_spec as (d & d' & t' & Hi & Hl & Hd' & Hn' & Hns' & Hv' & Ha' & Hc').
  set (p0 := mkOpen d _ _ _) in Hi. set (o1 := set_open o (<[path := p0]> (of_open o))).
  assert (get_xml_document ws_init path o = (o1, Ok tt)) as Hx.
  { unfold get_xml_document, get_xml_tree, bind. rewrite Ho, Ha. unfold lift. by rewrite Hi. }
  destruct (rels_new_empty o1 rp) as (pr & Hr & Hdr). { cbn. by rewrite lookup_insert_ne. } { done. }
  set (o2 := set_open _ _) in Hr.
  assert (of_open o2 !! path = Some p0) as Hop. { cbn. rewrite lookup_insert_ne by done. apply lookup_insert. }
  unfold after_name, bind, on_pkg, on_office, lift. cbn [fst snd]. rewrite Hx. cbn [fst snd]. rewrite Hrp. cbn [fst snd]. rewrite Hr. cbn [fst snd].
  rewrite (with_doc_spec path ws_load o2 p0 d' _ Hop Hl). cbn [fst snd rmap rbind default]. eexists. split; [reflexivity|]. split; [|split; [|split]].
  - apply (SheetDocFacts.with_doc_open o2 path p0 d' t'); try done. rewrite Hc'. constructor.
  - destruct Hdr as (g & a & v & Hdr). exists pr, g, a, v. cbn. rewrite lookup_insert_ne by done. by rewrite lookup_insert.
  - done.
  - intros q Hq1 Hq2. cbn. by rewrite !lookup_insert_ne by done.
Qed.
(** A sheet whose relationships part is open. *)
Lemma after_taken path nm rp sheets rels o : rels_beside path = Ok rp -> is_Some (of_open o !! rp) ->
  exists o' e, after_name path nm (sheets, (rels, o)) = ((sheets, (rels, o')), Err e)
    /\ (forall q, q <> path -> SameAt o o' q) /\ (forall p, of_open o !! path = Some p -> of_open o' !! path = Some p)
    /\ (of_open o !! path = None -> of_archive o' !! path = None) /\ (is_Some (of_open o !! path) -> of_archive o' !! path = of_archive o !! path)
    /\ (~ Unreadable o path -> is_Some (of_open o' !! path)).
Proof.
  intros Hrp [pr Hpr]. pose proof (rels_beside_ne _ _ Hrp) as Hne.
  unfold after_name. unfold bind at 1, on_pkg at 1, on_office at 1. cbn [fst snd].
  assert (NoPanic (get_xml_document ws_init path o).2) as Hq. { apply q_get_doc. destruct template_sound as (p & -> & _). done. }
  pose proof (keep_get_xml ws_init path o) as K. unfold id in K. pose proof (get_keeps_open ws_init path o path) as K1. unfold id in K1.
  assert ((of_open o !! path = None -> of_archive (get_xml_document ws_init path o).1 !! path = None)
    /\ (is_Some (of_open o !! path) -> of_archive (get_xml_document ws_init path o).1 !! path = of_archive o !! path)) as [K2 K3].
  { unfold get_xml_document, get_xml_tree, bind. destruct (of_open o !! path) eqn:Eo; [split; [done|]; by intros _|]. split; [intros _|by intros [? ?]].
    destruct (of_archive o !! path) as [en|] eqn:Ea.
    - destruct (rbind _ _) as [[p|]|x|x]; cbn; [apply lookup_delete| |apply lookup_delete..]. unfold lift. destruct ws_init; cbn; apply lookup_delete.
    - unfold lift. destruct ws_init; done. }
  assert (~ Unreadable o path -> is_Some (of_open (get_xml_document ws_init path o).1 !! path)) as K4.
  { intros Hu. destruct (get_xml_document ws_init path o) as [o1 [[]|e|e]] eqn:Eg; [|cbn [fst] in *|done].
    - unfold get_xml_document, bind in Eg. destruct (get_xml_tree path o) as [o2 [p|e|e]]; [|done..].
      destruct (match p with Some p0 => ret p0 | None => lift ws_init end o2) as [o3 [p0|e|e]]; [|done..]. unfold get_xml_document_ref, modify in Eg. injection Eg as <-. cbn. rewrite lookup_insert. eauto.
    - apply get_fails in Eg as [[p Hp]|?]; [rewrite (K1 _ Hp); eauto|done|]. destruct template_sound as (p & -> & _). eauto. }
  destruct (get_xml_document ws_init path o) as [o1 [[]|e|e]] eqn:Eg; [| |done]; cbn [fst snd] in *.
  2: { exists o1, e. split; [reflexivity|]. split; [by intros q Hq'; apply K|]. done. }
  unfold bind at 1, lift at 1. rewrite Hrp. cbn [fst snd]. unfold bind at 1, on_pkg at 1, on_office at 1. cbn [fst snd].
  assert (exists e, rels_new rp o1 = (o1, Err e)) as [e ->].
  { unfold rels_new, bind, get_xml_document, get_xml_tree, bind. destruct (K rp) as [-> _]; [done|]. rewrite Hpr. eauto. }
  exists o1, e. split; [reflexivity|]. split; [by intros q Hq'; apply K|]. done.
Qed.
(** Closing a sheet that holds a cell in column 0. *)
Definition Spoiled (w : worksheet) : Prop := dm_start (ws_dim w) = 0 /\ exists m r x, ws_data w = Some m /\ m !! r = Some x.
Lemma spoiled_close o w : Spoiled w -> is_Some (of_open o !! ws_path w) -> exists e, ws_close (w, o) = ((w, o), Err e).
Proof.
  intros [H0 (m & r & x & Hm & Hx)] [p Hp]. assert (exists e, dim_ref (ws_dim w) (ws_data w) = Err e) as [e He].
  { unfold dim_ref. rewrite Hm. destruct (btree_entries m) as [|y l] eqn:Eb.
    - exfalso. apply btree_entries_lookup in Hx. rewrite Eb in Hx. by apply elem_of_nil in Hx.
    - rewrite H0. cbn. eauto. }
  exists e. unfold ws_close. rewrite Hp. unfold ws_save, bind, get. cbn [fst snd]. unfold lift. rewrite He. f_equal. f_equal.
  destruct o as [op ar]. unfold set_open. cbn in *. rewrite insert_id; [done|]. rewrite Hp. by destruct p.
Qed.
(** ** Putting cells *)
Lemma place_low m cs : forall col dim cells, dm_start dim = 0 -> dm_start (place_cells m col cs dim cells).1.1 = 0.
Proof.
  induction cs as [|c cs IH]; intros col dim cells Hd; [done|]. cbn [place_cells]. destruct (u16_add m col 1) as [i|e|e]; [|done..].
  apply IH. unfold dim_add. cbn [dm_start]. lia.
Qed.
Lemma place_zero cs : forall col dim cells, col <= 65535 -> 65535 < col + N.of_nat (length cs) -> dm_start (place_cells Wrapping col cs dim cells).1.1 = 0.
Proof.
  induction cs as [|c cs IH]; intros col dim cells Hc Hl; cbn [length] in Hl; [lia|]. cbn [place_cells]. unfold u16_add, u16_wrap.
  destruct (N.ltb_spec (col + 1) 65536) as [H|H]; [apply IH; lia|]. replace (col + 1) with 65536 by lia. apply place_low. unfold dim_add. cbn [dm_start]. change (65536 mod 65536) with 0. lia.
Qed.
Lemma put_empty r w t : env_mode = Wrapping -> set_row_value r 0 [] (w, t) = set_row_value r 1 [] (w, t).
Proof. intros Hm. unfold set_row_value. rewrite Hm. done. Qed.
Lemma put_result r c cs w t : c <= u16_max -> NoPanic (set_row_value r c cs (w, t)).2 -> exists w' t', set_row_value r c cs (w, t) = ((w', t'), Ok tt)
  /\ ws_path w' = ws_path w /\ ws_name w' = ws_name w /\ ws_rels w' = ws_rels w
  /\ (exists m x, ws_data w' = Some m /\ m !! r = Some x)
  /\ (dm_start (ws_dim w) = 0 \/ reaches_0 c cs = true -> dm_start (ws_dim w') = 0)
  /\ (sheet_typed w -> r <= u32_max -> Forall cell_typed cs -> reaches_0 c cs = false -> sheet_typed w').
Proof.
  intros Hc Hn. unfold u16_max in Hc.
  assert (forall w' t', sheet_typed w -> r <= u32_max -> Forall cell_typed cs -> reaches_0 c cs = false -> set_row_value r c cs (w, t) = ((w', t'), Ok tt) -> sheet_typed w') as Htyped.
  { intros w' t' Hw Hr Hcs H0 Hrun. assert (exists c', in_range (SWrite r c' cs) /\ set_row_value r c' cs (w, t) = ((w', t'), Ok tt)) as (c' & Hin & Hrun').
    { unfold reaches_0 in H0. destruct (N.eq_dec c 0) as [->|Hne].
      - destruct cs; [|done]. exists 1. split; [done|]. rewrite <- put_empty; [done|]. destruct env_mode eqn:Em; [|done]. exfalso. unfold set_row_value in Hrun. by rewrite Em in Hrun.
      - exists c. split; [|done]. cbn. split; [lia|]. destruct cs as [|x cs]; [cbn; lia|]. apply orb_false_iff in H0 as [_ H0]. apply N.ltb_ge in H0. lia. }
    apply (typed_op (SWrite r c' cs) w t w' t'); try done. }
  pose proof (fun w' t' => Htyped w' t') as Ht. clear Htyped.
  assert (length cs = length (store_cells cs t).2) as Hl.
  { destruct (store_cells cs t) as [t1 cs1] eqn:Es. apply store_cells_spec in Es as [Hf _]. by apply Forall2_length in Hf. }
  assert (exists col0, u16_sub env_mode c 1 = Ok col0 /\ col0 <= 65535 /\ (reaches_0 c cs = true -> env_mode = Wrapping /\ 65535 < col0 + N.of_nat (length cs))) as (col0 & H1 & H2 & H3).
  { pose proof (proj1 (np_row _ _ _ _) Hn) as Hn'. unfold u16_sub, RunsOver in *. destruct (N.leb_spec 1 c) as [Hge|Hlt].
    - exists (c - 1). split; [done|]. split; [lia|]. intros H0. unfold reaches_0 in H0. destruct cs as [|x cs]; [done|].
      apply orb_true_iff in H0 as [H0%N.eqb_eq|H0%N.ltb_lt]; [lia|]. split; [|done]. destruct env_mode; [|done]. exfalso. apply (Hn' eq_refl). by right.
    - assert (c = 0) as -> by lia. destruct env_mode eqn:Em; [exfalso; apply (Hn' eq_refl); by left|]. exists 65535. split; [done|]. split; [lia|].
      intros H0. split; [done|]. destruct cs; [done|]. cbn [length]. lia. }
  unfold set_row_value in Hn, Ht |- *. rewrite H1 in Hn, Ht |- *. destruct (store_cells cs t) as [t1 cs1] eqn:Es. cbn [snd] in Hl.
  set (old := match default ∅ (ws_data w) !! r with Some x => x | None => mkRowData row_default None end) in *.
  pose proof (place_low env_mode cs1 col0 (ws_dim w) (default ∅ (rd_cells old))) as L1. pose proof (place_zero cs1 col0 (ws_dim w) (default ∅ (rd_cells old)) H2) as L2.
  pose proof (proj1 (np_place env_mode col0 cs1 (ws_dim w) (default ∅ (rd_cells old)))) as L3.
  assert (forall i m dim cells, match (place_cells m i cs1 dim cells).2 with Err _ => False | _ => True end) as L4.
  { clear. induction cs1 as [|x cs IH]; intros i m dim cells; [done|]. cbn [place_cells]. unfold u16_add, u16_wrap. destruct (i + 1 <? 65536); [apply IH|]. destruct m; [done|apply IH]. }
  specialize (L4 col0 env_mode (ws_dim w) (default ∅ (rd_cells old))).
  assert (reaches_0 c cs = true -> dm_start (place_cells env_mode col0 cs1 (ws_dim w) (default ∅ (rd_cells old))).1.1 = 0) as L5.
  { intros H0. destruct (H3 H0) as [Hm Hlt]. rewrite Hm. apply L2. by rewrite <- Hl. }
  destruct (place_cells env_mode col0 cs1 (ws_dim w) (default ∅ (rd_cells old))) as [[dim cells] x]. cbn [fst snd] in *.
  destruct x as [[]|e|e]; [|done|]; [|by destruct (rd_cells old)]. eexists _, _. split; [reflexivity|]. split; [done|]. split; [done|]. split; [done|]. split; [|split].
  - eexists _, _. split; [reflexivity|]. apply lookup_insert.
  - cbn. intros [H0|H0]; [by apply L1|by apply L5].
  - intros Hw Hr Hcs H0. by apply (Ht _ _ Hw Hr Hcs H0 eq_refl).
Qed.

(** ** The machine and the package *)
Record Parts (stored used : gset N) (o : office) : Prop := {
  pt_stored : forall m, is_Some (of_archive o !! sheet_at m) <-> m ∈ stored;
  pt_apart : forall m, m ∈ stored -> of_open o !! sheet_at m = None;
  pt_known : forall m, m ∈ stored -> m ∈ used;
  pt_used : forall m, m ∈ used -> EmptyRels o (rels_of m);
  pt_unused : forall m, m ∉ used -> of_open o !! sheet_at m = None /\ of_open o !! rels_of m = None;
  pt_rels : forall m, of_archive o !! rels_of m = None;
  pt_kept : forall m, m ∈ used -> Present o (sheet_at m);
  pt_only : forall q, in_area q -> Present o q -> exists m, m ∈ used /\ (q = sheet_at m \/ q = rels_of m);
  pt_reads : forall m, ~ Unreadable o (sheet_at m);
}.
Lemma same_present o o' q : SameAt o o' q -> Present o' q <-> Present o q.
Proof. unfold Present. by intros [-> ->]. Qed.
Lemma same_unreadable o o' q : SameAt o o' q -> Unreadable o' q <-> Unreadable o q.
Proof. unfold Unreadable. by intros [-> ->]. Qed.
Definition HandSim (o : office) (x : option held_sheet) (y : option worksheet) : Prop :=
  match x, y with
  | None, None => True
  | Some x, Some w => ws_name w = hs_name x /\ ws_path w = sheet_at (hs_number x) /\ rl_path (ws_rels w) = rels_of (hs_number x) /\ rl_rels (ws_rels w) = []
      /\ SheetOpen o (ws_path w) /\ (if hs_spoiled x then Spoiled w else sheet_typed w)
  | _, _ => False
  end.
Definition link (l : N * N) : rel := mkRel (rid l.1) ("/" +:+ sheet_at l.2) (c_type c_worksheet) None.
Definition SheetSim (x : sheet) (y : string * N) : Prop := sh_name x = y.1 /\ sh_rel x = rid y.2.
Record Core (k : desk) (s : session) : Prop := {
  co_sheets : Forall2 SheetSim (wb_sheets (x_book s.1)) (k_sheets k);
  co_links : rl_rels (wb_rels (x_book s.1)) = base_rels ++ map link (k_links k);
  co_ids : NoDup (map fst (k_links k));
  co_used : forall l, l ∈ k_links k -> l.2 ∈ k_used k;
  co_parts : Parts (k_stored k) (k_used k) (x_office s.1);
  co_hands : Forall2 (HandSim (x_office s.1)) (k_handles k) s.2;
}.
Lemma hand_keeps o o' x y : (forall w p, y = Some w -> of_open o !! ws_path w = Some p -> of_open o' !! ws_path w = Some p) -> HandSim o x y -> HandSim o' x y.
Proof.
  intros Hk. destruct x as [x|], y as [w|]; [|done..]. intros (H1 & H2 & H3 & H4 & (p & it & Hp & H5) & H6). do 4 (split; [done|]). split; [|done].
  exists p, it. split; [|done]. by apply Hk.
Qed.
Lemma hands_keep o o' xs ys : (forall q p, of_open o !! q = Some p -> of_open o' !! q = Some p) -> Forall2 (HandSim o) xs ys -> Forall2 (HandSim o') xs ys.
Proof. intros Hk Hf. eapply Forall2_impl; [exact Hf|]. intros x y. apply hand_keeps. eauto. Qed.
Lemma hand_of k s h : Forall2 (HandSim (x_office s.1)) (k_handles k) s.2 -> HandSim (x_office s.1) (hand k h) (handle h s).
Proof.
  intros H. unfold hand, handle. destruct (k_handles k !! h) as [x|] eqn:Ex.
  - destruct (Forall2_lookup_l _ _ _ _ _ H Ex) as (y & Hy & Hxy). rewrite Hy. cbn. by destruct x, y.
  - apply lookup_ge_None in Ex. rewrite (Forall2_length _ _ _ H) in Ex. apply lookup_ge_None in Ex. by rewrite Ex.
Qed.
Lemma listed_names k s : Core k s -> names (wb_sheets (x_book s.1)) = listed k.
Proof.
  intros [C1 _ _ _ _ _]. unfold names, listed. clear -C1. induction C1 as [|x y l l' [Hn _] _ IH]; [done|]. cbn. by rewrite Hn, IH.
Qed.
Lemma parts_taken st us o o' m : Parts st us o -> m ∈ us -> (forall q, q <> sheet_at m -> SameAt o o' q) ->
  (of_open o !! sheet_at m = None -> of_archive o' !! sheet_at m = None) -> (is_Some (of_open o !! sheet_at m) -> of_archive o' !! sheet_at m = of_archive o !! sheet_at m) ->
  (~ Unreadable o (sheet_at m) -> is_Some (of_open o' !! sheet_at m)) ->
  Parts (st ∖ {[m]}) us o'.
Proof.
  intros [P1 P2 P3 P4 P5 P6 P7 P8 P9] Hm Hs Hn Ho Hr. specialize (Hr (P9 m)).
  assert (forall i, i <> m -> SameAt o o' (sheet_at i)) as Hs1. { intros i Hi. apply Hs. intros H. by apply Hi, sheet_at_inj. }
  assert (forall i, SameAt o o' (rels_of i)) as Hs2. { intros i. apply Hs. intros H. by apply (at_ne_of m i). }
  assert (of_archive o' !! sheet_at m = None) as Hz.
  { destruct (of_open o !! sheet_at m) eqn:Eo; [|by apply Hn]. rewrite Ho by eauto. apply eq_None_not_Some. intros Hy. apply P1, P2 in Hy. congruence. }
  constructor.
  - intros i. destruct (decide (i = m)) as [->|Hne]; [rewrite Hz; split; [by intros [? ?]|set_solver]|]. rewrite (proj2 (Hs1 i Hne)), P1. set_solver.
  - intros i [Hi Hne]%elem_of_difference. rewrite (proj1 (Hs1 i ltac:(set_solver))). by apply P2.
  - intros i [Hi _]%elem_of_difference. by apply P3.
  - intros i Hi. apply (empty_same o); [apply Hs2|by apply P4].
  - intros i Hi. rewrite (proj1 (Hs1 i ltac:(congruence))), (proj1 (Hs2 i)). by apply P5.
  - intros i. rewrite (proj2 (Hs2 i)). apply P6.
  - intros i Hi. destruct (decide (i = m)) as [->|Hne]; [by left|]. apply (same_present _ _ _ (Hs1 i Hne)). by apply P7.
  - intros q Hq Hp. destruct (decide (q = sheet_at m)) as [->|Hne]; [eauto|]. apply P8; [done|]. by apply (same_present _ _ _ (Hs q Hne)).
  - intros i. destruct (decide (i = m)) as [->|Hne]; [intros [Hu _]; rewrite Hu in Hr; by destruct Hr|]. by rewrite (same_unreadable _ _ _ (Hs1 i Hne)).
Qed.
Lemma parts_fresh st us o o' m : Parts st us o -> m ∉ us -> is_Some (of_open o' !! sheet_at m) -> EmptyRels o' (rels_of m) -> of_archive o' = of_archive o ->
  (forall q, q <> sheet_at m -> q <> rels_of m -> of_open o' !! q = of_open o !! q) -> Parts st ({[m]} ∪ us) o'.
Proof.
  intros [P1 P2 P3 P4 P5 P6 P7 P8 P9] Hm Ho He Ha Hs.
  assert (forall i, i <> m -> of_open o' !! sheet_at i = of_open o !! sheet_at i) as Hs1. { intros i Hi. apply Hs; [|done]. intros H. by apply Hi, sheet_at_inj. }
  assert (forall i, i <> m -> of_open o' !! rels_of i = of_open o !! rels_of i) as Hs2. { intros i Hi. apply Hs; [done|]. intros H. by apply Hi, rels_of_inj. }
  constructor.
  - intros i. rewrite Ha. apply P1.
  - intros i Hi. rewrite Hs1; [by apply P2|]. intros ->. by apply Hm, P3.
  - intros i Hi. apply elem_of_union_r. by apply P3.
  - intros i Hi. destruct (decide (i = m)) as [->|Hne]; [done|]. apply (empty_same o); [by apply Hs2|]. apply P4. set_solver.
  - intros i Hi. assert (i <> m) by set_solver. rewrite Hs1, Hs2 by done. apply P5. set_solver.
  - intros i. rewrite Ha. apply P6.
  - intros i Hi. destruct (decide (i = m)) as [->|Hne]; [by left|]. unfold Present. rewrite Hs1, Ha by done. apply P7. set_solver.
  - intros q Hq Hp. destruct (decide (q = sheet_at m)) as [->|H1]; [exists m; set_solver|]. destruct (decide (q = rels_of m)) as [->|H2]; [exists m; set_solver|].
    unfold Present in Hp. rewrite Hs, Ha in Hp by done. destruct (P8 q Hq Hp) as (i & Hi & ?). exists i. set_solver.
  - intros i [H1 H2]. rewrite Ha in H2. destruct (decide (i = m)) as [->|Hne]; [rewrite H1 in Ho; by destruct Ho|]. rewrite Hs1 in H1 by done. by apply (P9 i).
Qed.
(** Releasing a handle. *)
Lemma release st us o x w : Parts st us o -> HandSim o (Some x) (Some w) ->
  exists o' r, ws_drop w o = o' /\ ws_flush w o = (o', r) /\ succeeds r = negb (hs_spoiled x)
  /\ Parts (if hs_spoiled x then st else {[hs_number x]} ∪ st) us o' /\ (forall q, q <> ws_path w -> of_open o' !! q = of_open o !! q).
Proof.
  intros P (H1 & H2 & H3 & H4 & H5 & H6). set (m := hs_number x) in *.
  assert (is_Some (of_open o !! sheet_at m)) as Hop. { destruct H5 as (p & it & Hp & _). rewrite <- H2. eauto. }
  assert (m ∈ us) as Hus. { destruct (decide (m ∈ us)) as [?|Hn]; [done|]. apply (pt_unused _ _ _ P) in Hn as [Hn _]. rewrite Hn in Hop. by destruct Hop. }
  pose proof (pt_used _ _ _ P m Hus) as He.
  assert (forall o1, EmptyRels o1 (rels_of m) -> rels_close (ws_rels w) o1 = (set_archive o1 (delete (rels_of m) (of_archive o1)), Ok tt)) as Hc.
  { intros o1 Ho1. rewrite <- H3. apply rels_close_empty; [done|]. by rewrite H3. }
  destruct (hs_spoiled x).
  - destruct (spoiled_close o w H6) as [e Hcl]; [by rewrite H2|]. exists (set_archive o (delete (rels_of m) (of_archive o))), (Err e).
    unfold ws_flush, ws_drop. rewrite Hcl. rewrite !Hcl. rewrite (Hc o He). split; [done|]. split; [done|]. split; [done|].
    rewrite delete_notin by apply (pt_rels _ _ _ P). destruct o. by split.
  - destruct (sheet_close o w H5 H6) as (e & p & ref & g & a & cs & cs' & Hp & Hcl & _ & Hb & _ & _ & _ & Hpm & _ & _ & Hnm & Hns & _). rewrite H2 in Hcl, Hp.
    set (o1 := mkOffice _ _) in Hcl. assert (EmptyRels o1 (rels_of m)) as He1. { apply (empty_same o); [|done]. cbn. by rewrite lookup_delete_ne. }
    assert (ws_close (handed w, o1) = ((handed w, o1), Ok tt)) as Hcl2. { unfold ws_close. cbn [handed ws_path]. rewrite H2. cbn [o1 of_open]. by rewrite lookup_delete. }
    exists (set_archive o1 (delete (rels_of m) (of_archive o1))), (Ok tt). unfold ws_flush, ws_drop. rewrite Hcl, Hcl2. cbn [handed ws_rels]. rewrite (Hc o1 He1). split; [done|]. split; [done|]. split; [done|].
    assert (forall i, i <> m -> SameAt o (set_archive o1 (delete (rels_of m) (of_archive o1))) (sheet_at i)) as Hs1.
    { intros i Hi. assert (sheet_at m <> sheet_at i). { intros H. by apply Hi, sheet_at_inj. } split; cbn; [by rewrite lookup_delete_ne|]. rewrite lookup_delete_ne by done. by rewrite lookup_insert_ne. }
    destruct P as [P1 P2 P3 P4 P5 P6 P7 P8 P9]. split; [constructor|].
    + intros i. destruct (decide (i = m)) as [->|Hne]; [|rewrite (proj2 (Hs1 i Hne)), P1; set_solver]. cbn. rewrite lookup_delete_ne by done. rewrite lookup_insert. split; [set_solver|eauto].
    + intros i Hi. destruct (decide (i = m)) as [->|Hne]; [cbn; apply lookup_delete|]. rewrite (proj1 (Hs1 i Hne)). apply P2. set_solver.
    + intros i [Hi|Hi]%elem_of_union; [apply elem_of_singleton in Hi as ->; done|by apply P3].
    + intros i Hi. apply (empty_same o); [|by apply P4]. cbn. by rewrite lookup_delete_ne.
    + intros i Hi. assert (i <> m) by congruence. rewrite (proj1 (Hs1 i ltac:(done))). cbn. rewrite lookup_delete_ne by done. by apply P5.
    + intros i. cbn. destruct (decide (i = m)) as [->|Hne]; [apply lookup_delete|]. rewrite lookup_delete_ne; [|intros H; by apply Hne, rels_of_inj]. rewrite lookup_insert_ne by done. apply P6.
    + intros i Hi. destruct (decide (i = m)) as [->|Hne]; [right; cbn; rewrite lookup_delete_ne by done; rewrite lookup_insert; eauto|]. apply (same_present _ _ _ (Hs1 i Hne)). by apply P7.
    + intros q Hq Hpq. destruct (decide (q = sheet_at m)) as [->|Hne]; [eauto|]. apply P8; [done|]. unfold Present in *. cbn in Hpq. rewrite lookup_delete_ne in Hpq by done.
      destruct Hpq as [?|Hpq]; [by left|right]. apply lookup_delete_is_Some in Hpq as [_ Hpq]. by rewrite lookup_insert_ne in Hpq.
    + intros i. destruct (decide (i = m)) as [->|Hne]; [|by rewrite (same_unreadable _ _ _ (Hs1 i Hne))]. intros [_ (e' & He' & Hu)]. cbn in He'. rewrite lookup_delete_ne, lookup_insert in He' by done. injection He' as <-.
      destruct (read_render_root (d_ns (op_doc p)) (Node g a None cs') Hnm Hns) as (d' & it & Hrd & _).
      { right. cbn. intros ->. apply Permutation_nil in Hpm. unfold sheet_trees in Hpm. apply app_eq_nil in Hpm as [Hpm _]. by apply app_eq_nil in Hpm as [_ ?]. }
      unfold part_bytes in Hb. destruct (en_content e) as [c|] eqn:Ec; [|unfold prolog in Hb; by destruct env_mode]. unfold decompress_content in Hb. destruct (env_gunzip c) as [data|] eqn:Eg; [|discriminate Hb].
      apply (Hu c data d'); [done|done|]. cbn in Hb. injection Hb as ->. exact Hrd.
    + intros q Hq. cbn. rewrite lookup_delete_ne; [done|]. intros <-. by apply Hq.
Qed.
(** ** Asking for a sheet *)
Lemma fst_unique {A B} (l : list (A * B)) a b c : NoDup (map fst l) -> (a, b) ∈ l -> (a, c) ∈ l -> b = c.
Proof.
  induction l as [|[x y] l IH]; cbn [map fst]; [intros _ H; by apply elem_of_nil in H|]. intros [Hx Hn]%NoDup_cons Hb Hc.
  assert (forall z, (x, z) ∉ l) as Hz. { intros z Hz. apply Hx. apply elem_of_list_fmap. by exists (x, z). }
  apply elem_of_cons in Hb as [Hb|Hb], Hc as [Hc|Hc].
  - congruence.
  - injection Hb as -> ->. by apply Hz in Hc.
  - injection Hc as -> ->. by apply Hz in Hb.
  - by apply IH.
Qed.
Lemma elem_linked k j m : m ∈ linked k j <-> (j, m) ∈ k_links k.
Proof.
  unfold linked. rewrite elem_of_list_to_set. rewrite elem_of_list_fmap. split.
  - intros ([a b] & -> & Hx). apply elem_of_list_In, filter_In in Hx as [Hx Hj]. cbn in *. apply N.eqb_eq in Hj as ->. by apply elem_of_list_In.
  - intros Hm. exists (j, m). split; [done|]. apply elem_of_list_In, filter_In. split; [by apply elem_of_list_In|]. cbn. apply N.eqb_refl.
Qed.
Lemma target_of b ls j : BookShape b -> rl_rels (wb_rels b) = base_rels ++ map link ls -> rid j ∉ map r_id base_rels ->
  (exists m, (j, m) ∈ ls /\ get_target_by_id (wb_rels b) (rid j) = Ok (Some (sheet_at m))) \/ ((forall m, (j, m) ∉ ls) /\ get_target_by_id (wb_rels b) (rid j) = Ok None).
Proof.
  intros Hb Hl Hj. unfold get_target_by_id. destruct (List.find _ _) as [x|] eqn:Ef.
  - left. apply find_some in Ef as [Hx Hi]. apply seqb_true in Hi. rewrite Hl in Hx.
    apply in_app_or in Hx as [Hx|Hx]. { destruct Hj. rewrite <- Hi. apply elem_of_list_In. by apply in_map. }
    apply in_map_iff in Hx as ([i m] & <- & Hx). cbn in Hi. apply rid_inj in Hi as ->. exists m. split; [by apply elem_of_list_In|].
    unfold resolve_target. rewrite (shape_relative _ Hb). reflexivity.
  - right. split; [|done]. intros m Hm. eapply find_none in Ef; [|rewrite Hl; apply in_or_app; right; apply in_map; by apply elem_of_list_In]. cbn in Ef. apply seqb_false in Ef. done.
Qed.
Lemma least_number k s name path nm s1 : Core k s -> BookShape (x_book s.1) -> (forall x, name = Some x -> x ∉ listed k) -> 
  get_sheet_file_name name (wb_sheets (x_book s.1), (wb_rels (x_book s.1), x_office s.1)) = (s1, Ok (path, nm)) ->
  exists n j, LeastFree (fun i => i ∈ k_stored k) (N.of_nat (length (k_sheets k)) + 1) n
    /\ LeastFree (fun i => i ∈ map fst (k_links k)) (N.of_nat (length (k_links k)) + 5) j
    /\ path = sheet_at n /\ nm = default ("sheet" +:+ show_N n) name
    /\ s1 = (wb_sheets (x_book s.1) ++ [mkSheet nm (rid j) false false], (set_rels (wb_rels (x_book s.1)) (rl_rels (wb_rels (x_book s.1)) ++ [link (j, n)]), x_office s.1)).
Proof.
  intros C Hb Hnew Hg. destruct (file_name_new name (wb_sheets (x_book s.1)) (wb_rels (x_book s.1)) (x_office s.1) "xl/") as (n & Hn); [|by apply shape_relative|].
  { intros x y Hx Hy Heq. apply (Hnew x Hx). rewrite <- (listed_names k s C). apply in_names. eauto. }
  cbn zeta in Hn. change ("xl/" +:+ c_path c_worksheet) with sheet_dir in Hn. destruct Hn as (Hn & H1 & H2 & H3). rewrite Hg in Hn.
  destruct (get_next_spec (wb_rels (x_book s.1))) as (j & Hj & J1 & J2 & J3). rewrite Hj in Hn. injection Hn as -> -> ->.
  pose proof (Forall2_length _ _ _ (co_sheets _ _ C)) as Hlen. pose proof (co_parts _ _ C) as P. fold (sheet_at n) in H2.
  exists n, j. split; [|split; [|done]].
  - split; [lia|]. split; [intros Hs; apply (pt_stored _ _ _ P) in Hs; rewrite H2 in Hs; by destruct Hs|]. intros i Hi. apply (pt_stored _ _ _ P). apply H3. lia.
  - unfold rel_ids in *. rewrite (co_links _ _ C) in J1, J2, J3. rewrite app_length, map_length in J1, J3. rewrite map_app, map_map in J2, J3. cbn [length base_rels] in J1, J3.
    assert (forall i, rid i ∈ map (fun x => r_id (link x)) (k_links k) <-> i ∈ map fst (k_links k)) as Hi.
    { intros i. rewrite !elem_of_list_fmap. split.
      - intros ([a m] & Ha & Hm). cbn in Ha. apply rid_inj in Ha as ->. by exists (a, m).
      - intros ([a m] & -> & Hm). by exists (a, m). }
    split; [lia|]. rewrite <- Hi. split; [intros H; apply J2; apply elem_of_app; by right|]. intros i Hij. specialize (J3 i ltac:(lia)). apply elem_of_app in J3 as [J3|J3]; [|by apply Hi].
    exfalso. assert (i ∈ [1; 2; 3; 4]) as Hs.
    { change (map r_id base_rels) with (map rid [1; 2; 3; 4]) in J3. apply elem_of_list_fmap in J3 as (y & Hy & Hin). by apply rid_inj in Hy as ->. }
    rewrite !elem_of_cons, elem_of_nil in Hs. lia.
Qed.
Lemma ask_step c name k s o0 : asks c name -> SessionInv o0 s -> Core k s ->
  exists k', Does k c (succeeds (give (Excel.on_book (add_sheet name)) s).2) k' /\ Core k' (give (Excel.on_book (add_sheet name)) s).1.
Proof.
  intros Ha I C. pose proof (si_book _ _ I) as Hb. pose proof (listed_names _ _ C) as Hnames. pose proof (co_parts _ _ C) as P.
  unfold give, Excel.on_book, x_state, add_sheet. cbn [fst snd]. rewrite ws_new_after.
  assert (forall n, name = Some n -> n ∈ names (wb_sheets (x_book s.1)) \/ n ∉ names (wb_sheets (x_book s.1))) as Hdec. { intros n _. destruct (decide (n ∈ names (wb_sheets (x_book s.1)))); tauto. }
  assert ((exists n, name = Some n /\ n ∈ names (wb_sheets (x_book s.1))) \/ (forall n, name = Some n -> n ∉ listed k)) as [(n & -> & Hn)|Hnew].
  { destruct name as [n|]; [|by right]. rewrite <- Hnames. destruct (Hdec n eq_refl) as [H|H]; [left; eauto|right; by intros ? [= <-]]. }
  - (* known *)
    pose proof (find_named n (wb_sheets (x_book s.1))) as Hf. destruct (List.find _ (wb_sheets (x_book s.1))) as [x|] eqn:Ef; [|done]. clear Hf.
    rewrite (file_name_old n x _ _ _ Ef). apply first_sheet in Ef as (l1 & l2 & Hl & Hx & Hl1).
    destruct C as [C1 C2 C3 C4 C5 C6]. pose proof C1 as C1'. rewrite Hl in C1'. apply Forall2_app_inv_l in C1' as (k1 & k2' & Hk1 & Hk2 & Hk).
    apply Forall2_cons_inv_l in Hk2 as ([n' j] & k2 & [Hx1 Hx2] & Hk2 & ->). cbn [fst snd] in Hx1, Hx2. rewrite Hx in Hx1. subst n'.
    assert (First (fun x => fst x = n) (k_sheets k) (n, j)) as Hfirst.
    { exists k1, k2. split; [done|]. split; [done|]. clear -Hk1 Hl1. induction Hk1 as [|a b l l' [Hab _] _ IH]; [constructor|]. apply Forall_cons in Hl1 as [H1 H2]. constructor; [congruence|by apply IH]. }
    assert (rid j ∉ map r_id base_rels) as Hj. { rewrite <- Hx2. pose proof (bs_sheets _ Hb) as Hsh. rewrite Forall_forall in Hsh. apply Hsh. rewrite Hl. apply elem_of_app. right. left. }
    rewrite Hx2. eexists. destruct (target_of (x_book s.1) (k_links k) j Hb C2 Hj) as [(m & Hm & ->)|(Hm & ->)]; cbn [rbind fst snd].
    + pose proof (C4 _ Hm) as Hmu. cbn in Hmu. destruct (pt_used _ _ _ C5 m Hmu) as (pr & g & a & v & Hpr & _).
      destruct (after_taken (sheet_at m) n (rels_of m) (wb_sheets (x_book s.1)) (wb_rels (x_book s.1)) (x_office s.1) (beside_at m)) as (o' & e & Heq & K1 & K2 & K3 & K4 & K5); [eauto|].
      rewrite Heq. cbn [fst snd succeeds]. split; [by eapply Does_known|].
      assert (linked k j = {[m]}) as ->. { apply leibniz_equiv. intros y. rewrite elem_linked, elem_of_singleton. split; [intros Hy; by eapply fst_unique|by intros ->]. }
      constructor; cbn [k_sheets k_links k_stored k_used k_handles fst snd set_x x_book x_office x_suite]; try done.
      * unfold x_office. cbn. by apply (parts_taken _ _ (x_office s.1)).
      * unfold x_office at 1. cbn. apply (hands_keep (x_office s.1)); [|done]. intros q p Hq. destruct (decide (q = sheet_at m)) as [->|Hne]; [by apply K2|]. by rewrite (proj1 (K1 q Hne)).
    + split; [by eapply Does_known|]. assert (linked k j = ∅) as ->. { apply leibniz_equiv. intros y. rewrite elem_linked. split; [intros Hy; by apply Hm in Hy|set_solver]. }
      replace (k_stored k ∖ ∅) with (k_stored k) by (apply leibniz_equiv; set_solver). by constructor.
  - (* new *)
    destruct (get_sheet_file_name name _) as [s1 [[path nm]|e|e]] eqn:Eg.
    2,3: exfalso; destruct (file_name_new name (wb_sheets (x_book s.1)) (wb_rels (x_book s.1)) (x_office s.1) "xl/") as (n & Hn & _); [|by apply shape_relative|rewrite Eg in Hn; done]; intros x y Hx Hy Heq; apply (Hnew x Hx); rewrite <- Hnames; apply in_names; eauto.
    destruct (least_number k s name path nm s1 C Hb Hnew Eg) as (n & j & L1 & L2 & -> & -> & ->). set (nm := default ("sheet" +:+ show_N n) name).
    assert (n ∉ k_stored k) as Hns by apply L1. destruct C as [C1 C2 C3 C4 C5 C6].
    assert (Forall2 SheetSim (wb_sheets (x_book s.1) ++ [mkSheet nm (rid j) false false]) (k_sheets k ++ [(nm, j)])) as D1 by (apply Forall2_app; [done|]; by constructor).
    assert (rl_rels (wb_rels (x_book s.1)) ++ [link (j, n)] = base_rels ++ map link (k_links k ++ [(j, n)])) as D2 by (by rewrite C2, map_app, <- app_assoc).
    assert (NoDup (map fst (k_links k ++ [(j, n)]))) as D3.
    { rewrite map_app. apply NoDup_app. split; [done|]. split; [|apply NoDup_singleton]. intros y Hy Hy2. apply elem_of_list_singleton in Hy2 as ->. by apply L2. }
    destruct (decide (n ∈ k_used k)) as [Hu|Hu].
    + destruct (pt_used _ _ _ P n Hu) as (pr & g & a & v & Hpr & _).
      match goal with |- context [after_name (sheet_at n) nm (?l, (?r, ?o))] => destruct (after_taken (sheet_at n) nm (rels_of n) l r o (beside_at n)) as (o' & e & Heq & K1 & K2 & K3 & K4 & K5); [eauto|] end.
      rewrite Heq. cbn [fst snd succeeds]. eexists. split; [by eapply Does_taken|]. constructor; cbn [k_sheets k_links k_stored k_used k_handles fst snd set_x x_book x_suite set_wb_rels set_wb_sheets wb_sheets wb_rels set_rels rl_rels]; try done.
      * intros l [Hl|Hl]%elem_of_app; [by apply C4|]. apply elem_of_list_singleton in Hl as ->. done.
      * unfold x_office. cbn. replace (k_stored k) with (k_stored k ∖ {[n]}) by (apply leibniz_equiv; set_solver). by apply (parts_taken _ _ (x_office s.1)).
      * unfold x_office at 1. cbn. apply (hands_keep (x_office s.1)); [|done]. intros q p Hq. destruct (decide (q = sheet_at n)) as [->|Hne]; [by apply K2|]. by rewrite (proj1 (K1 q Hne)).
    + destruct (pt_unused _ _ _ P n Hu) as [U1 U2].
      match goal with |- context [after_name (sheet_at n) nm (?l, (?r, ?o))] => destruct (after_fresh (sheet_at n) nm (rels_of n) l r o (beside_at n) U1) as (o3 & Heq & S1 & S2 & S3 & S4) end; [|done|apply (pt_rels _ _ _ P)|].
      { apply eq_None_not_Some. intros Hy. by apply Hns, (pt_stored _ _ _ P). }
      rewrite Heq. cbn [fst snd succeeds]. eexists. split; [by eapply Does_new|]. fold nm. constructor; cbn [k_sheets k_links k_stored k_used k_handles fst snd set_x x_book x_suite set_wb_rels set_wb_sheets wb_sheets wb_rels set_rels rl_rels]; try done.
      * intros l [Hl|Hl]%elem_of_app; [apply elem_of_union_r; by apply C4|]. apply elem_of_list_singleton in Hl as ->. cbn. set_solver.
      * unfold x_office. cbn. apply (parts_fresh _ _ (x_office s.1)); try done. destruct S1 as (p & it & Hp & _). eauto.
      * unfold x_office at 1. cbn. apply Forall2_app.
        -- apply (hands_keep (x_office s.1)); [|done]. intros q p Hq. rewrite S4; [done|congruence|congruence].
        -- constructor; [|constructor]. split; [done|]. split; [done|]. split; [done|]. split; [done|]. split; [done|]. apply fresh_typed.
Qed.
(** ** Calls on the workbook *)
Lemma pure_core k s (m : M workbook unit) sh : Core k s -> wb_rels (m (x_book s.1)).1 = wb_rels (x_book s.1) -> Forall2 SheetSim (wb_sheets (m (x_book s.1)).1) sh ->
  (on_excel (Excel.on_book (pure_book m)) s).2 = (m (x_book s.1)).2
  /\ Core (mkDesk sh (k_links k) (k_stored k) (k_used k) (k_handles k)) (on_excel (Excel.on_book (pure_book m)) s).1.
Proof.
  intros [C1 C2 C3 C4 C5 C6] Hr Hs. unfold on_excel, Excel.on_book, pure_book, x_state. cbn [fst snd]. destruct (m (x_book s.1)) as [b r]. cbn [fst snd] in *.
  split; [done|]. constructor; cbn [k_sheets k_links k_stored k_used k_handles fst snd set_x x_book x_suite]; try done. by rewrite Hr.
Qed.
Lemma sheets_map k s f : Core k s -> (forall x, sh_name (f x) = sh_name x /\ sh_rel (f x) = sh_rel x) -> Forall2 SheetSim (map f (wb_sheets (x_book s.1))) (k_sheets k).
Proof.
  intros C Hf. pose proof (co_sheets _ _ C) as C1. clear C. induction C1 as [|x y l l' [H1 H2] _ IH]; [constructor|]. cbn [map]. constructor; [|done].
  destruct (Hf x) as [F1 F2]. split; congruence.
Qed.
Lemma plain_step c k s : plain c -> Core k s -> (call_step c s).2 = Ok tt /\ Core k (call_step c s).1.
Proof.
  intros Hp C. assert (forall m sh, wb_rels (m (x_book s.1)).1 = wb_rels (x_book s.1) -> (m (x_book s.1)).2 = Ok tt -> wb_sheets (m (x_book s.1)).1 = sh -> Forall2 SheetSim sh (k_sheets k) ->
    (on_excel (Excel.on_book (pure_book m)) s).2 = Ok tt /\ Core k (on_excel (Excel.on_book (pure_book m)) s).1) as H.
  { intros m sh H1 H2 <- H3. destruct (pure_core k s m _ C H1 H3) as [-> H]. split; [done|]. by destruct k. }
  destruct c; try done; cbn [call_step]; (eapply H; [reflexivity|reflexivity|reflexivity|]); first [exact (co_sheets _ _ C)|apply (sheets_map _ _ _ C); intros y; done].
Qed.
Lemma rename_step old new k s : Core k s -> exists k', Does k (CRename old new) (succeeds (call_step (CRename old new) s).2) k' /\ Core k' (call_step (CRename old new) s).1.
Proof.
  intros C. pose proof (listed_names _ _ C) as Hl. pose proof (co_sheets _ _ C) as C1. cbn [call_step].
  destruct (rename_sheet_spec old new (x_book s.1)) as [(Hn & e & He)|(l1 & x & l2 & H1 & H2 & H3 & H4 & He)].
  - destruct (pure_core k s (rename_sheet old new) (k_sheets k) C) as [Hr HC]; [by rewrite He..|]. rewrite He in Hr. rewrite Hr. exists k. split; [apply Does_no_rename; by rewrite <- Hl|]. by destruct k.
  - pose proof C1 as D. rewrite H1 in D. apply Forall2_app_inv_l in D as (k1 & k2' & Hk1 & Hk2 & Hk). apply Forall2_cons_inv_l in Hk2 as ([n j] & k2 & [Hx1 Hx2] & Hk2 & ->). cbn [fst snd] in Hx1, Hx2.
    rewrite H2 in Hx1. subst n.
    destruct (pure_core k s (rename_sheet old new) (k1 ++ (new, j) :: k2) C) as [Hr HC]; [by rewrite He|rewrite He; cbn [fst set_wb_sheets wb_sheets]; apply Forall2_app; [done|constructor; [by split|done]]|].
    rewrite He in Hr. rewrite Hr. eexists. split; [|exact HC]. eapply Does_rename; [done| |by rewrite <- Hl].
    clear -Hk1 H3. intros Hin. apply H3. unfold names. induction Hk1 as [|a b l l' [Ha _] _ IH]; [by apply elem_of_nil in Hin|]. cbn [map] in *. apply elem_of_cons in Hin as [->|Hin]; [rewrite Ha; left|].
    right. apply IH; [|done]. intros H. apply H3. by right.
Qed.
Lemma style_step st k s : Core k s -> NoPanic (call_step (CStyle st) s).2 ->
  exists k', Does k (CStyle st) (succeeds (call_step (CStyle st) s).2) k' /\ Core k' (call_step (CStyle st) s).1.
Proof.
  intros C. cbn [call_step]. set (m := wb_style_id st;;; ret tt).
  destruct (pure_core k s m (k_sheets k) C) as [-> HC].
  { unfold m, wb_style_id, bind. destruct (get_style_id st _) as [st1 [x|e|e]]; done. }
  { unfold m, wb_style_id, bind. destruct (get_style_id st _) as [st1 [x|e|e]]; apply (co_sheets _ _ C). }
  intros Hn. exists k. split; [|by destruct k]. clear HC.
  assert (forall r, (m (x_book s.1)).2 = r -> NoPanic r -> Does k (CStyle st) (succeeds r) k) as H; [|by eapply H]. clear Hn.
  intros r Hr Hn. unfold m, wb_style_id, bind, get_style_id, num_for in Hr. destruct (se_num st) as [nf|] eqn:E1.
  - repeat (destruct (intern _ _ _) as [[? ?] ?]). cbn in Hr. subst r. apply Does_style. intros [? _]. congruence.
  - destruct (se_code st) as [code|] eqn:E2; [|cbn in Hr; subst r; by apply Does_no_style].
    destruct r as [[]|e|e]; [|exfalso|done].
    { apply Does_style. intros [_ ?]. congruence. }
    destruct (intern hash_num _ _) as [[l1 i] new]. destruct new; [|unfold u16_add, u16_wrap in Hr; destruct (_ <? 65536); [|destruct env_mode]]; cbn [rmap rbind] in Hr;
      repeat (destruct (intern _ _ _) as [[? ?] ?]); done.
Qed.
(** ** Calls on a handle *)
Lemma use_core k s h x w m w' t' : Core k s -> handle h s = Some w -> m (w, ss_strings (wb_sst (x_book s.1))) = ((w', t'), Ok tt) ->
  HandSim (x_office s.1) (Some x) (Some w') -> (use h m s).2 = Ok tt /\ Core (set_hand k h (Some x)) (use h m s).1.
Proof.
  intros [C1 C2 C3 C4 C5 C6] Hh Hm Hx. unfold use. rewrite Hh, Hm. cbn [fst snd]. split; [done|].
  constructor; cbn [set_hand k_sheets k_links k_stored k_used k_handles fst snd x_book x_suite]; try done. unfold x_office. cbn [x_suite]. by apply Forall2_insert.
Qed.
Lemma hand_use h m s : handle h s = None -> use h m s = (s, Ok tt).
Proof. intros Hh. unfold use. by rewrite Hh. Qed.
Lemma hand_spend h m s : handle h s = None -> spend h m s = (s, Ok tt).
Proof. intros Hh. unfold spend. by rewrite Hh. Qed.
Lemma gone_step c h k s : through c = Some h -> hand k h = None -> Core k s -> exists k', Does k c (succeeds (call_step c s).2) k' /\ Core k' (call_step c s).1.
Proof.
  intros Ht Hk C. pose proof (hand_of k s h (co_hands _ _ C)) as Hh. rewrite Hk in Hh. assert (handle h s = None) as Hs by (destruct (handle h s); done). exists k.
  assert (call_step c s = (s, Ok tt)) as ->. { destruct c; try done; cbn in Ht; injection Ht as ->; cbn [call_step]; first [by apply hand_use|by apply hand_spend]. }
  cbn. split; [by eapply Does_gone|done].
Qed.
Lemma same_hand k h x : hand k h = Some x -> set_hand k h (Some x) = k.
Proof.
  unfold hand, set_hand. intros Hh. destruct k as [a b c d l]. cbn in *. f_equal. apply list_insert_id. destruct (l !! h) as [[y|]|]; cbn in Hh; congruence.
Qed.
Lemma put_step c h x col cs r k s : Puts h c col cs -> hand k h = Some x -> call_step c s = use h (set_row_value r col cs) s -> r <= u32_max -> col <= u16_max -> Forall cell_typed cs ->
  Core k s -> NoPanic (call_step c s).2 -> exists k', Does k c (succeeds (call_step c s).2) k' /\ Core k' (call_step c s).1.
Proof.
  intros Hp Hh -> Hr Hc Hcs C Hn. pose proof (hand_of k s h (co_hands _ _ C)) as Hs. rewrite Hh in Hs. destruct (handle h s) as [w|] eqn:Ew; [|done].
  destruct Hs as (H1 & H2 & H3 & H4 & H5 & H6).
  destruct (put_result r col cs w (ss_strings (wb_sst (x_book s.1))) Hc) as (w' & t' & He & P1 & P2 & P3 & P4 & P5 & P6).
  { unfold use in Hn. rewrite Ew in Hn. destruct (set_row_value r col cs _) as [[? ?] ?]. done. }
  destruct (use_core k s h (mkHeld (hs_name x) (hs_number x) (hs_spoiled x || reaches_0 col cs)) w _ w' t' C Ew He) as [Hu HC].
  { cbn [HandSim hs_name hs_number hs_spoiled]. rewrite P1, P2, P3. do 5 (split; [done|]). destruct (hs_spoiled x) eqn:Ex; cbn [orb].
    - destruct H6 as [H6 _]. split; [by apply P5; left|]. destruct P4 as (m & y & ? & ?). eauto.
    - destruct (reaches_0 col cs) eqn:E0; [|by apply P6]. split; [by apply P5; right|]. destruct P4 as (m & y & ? & ?). eauto. }
  rewrite Hu. eexists. split; [by eapply Does_put|done].
Qed.
Lemma shape_step c h x k s : shapes h c -> hand k h = Some x -> Given c -> Core k s -> exists k', Does k c (succeeds (call_step c s).2) k' /\ Core k' (call_step c s).1.
Proof.
  intros Hp Hh Hg C. pose proof (hand_of k s h (co_hands _ _ C)) as Hs. rewrite Hh in Hs. destruct (handle h s) as [w|] eqn:Ew; [|done].
  destruct Hs as (H1 & H2 & H3 & H4 & H5 & H6). exists k.
  assert (forall m w', m w = (w', Ok tt) -> ws_name w' = ws_name w -> ws_path w' = ws_path w -> ws_rels w' = ws_rels w -> (Spoiled w -> Spoiled w') -> (sheet_typed w -> sheet_typed w') ->
    call_step c s = use h (on_handle m) s -> Does k c (succeeds (call_step c s).2) k /\ Core k (call_step c s).1) as H.
  { intros m w' Hm K1 K2 K3 K4 K5 ->. destruct (use_core k s h x w (on_handle m) w' (ss_strings (wb_sst (x_book s.1))) C Ew) as [-> HC].
    - unfold on_handle. cbn [fst snd]. by rewrite Hm.
    - cbn [HandSim]. rewrite K1, K2, K3. do 5 (split; [done|]). destruct (hs_spoiled x); auto.
    - rewrite same_hand in HC by done. split; [by eapply Does_shape|done]. }
  assert (forall i p, i <= u16_max -> col_arg p -> (Spoiled w -> Spoiled (set_ws_cols w (set_column i p (ws_cols w)))) /\ (sheet_typed w -> sheet_typed (set_ws_cols w (set_column i p (ws_cols w))))) as Hcol.
  { intros i p Hi Ha. split; [done|]. intros [T1 T2 T3 T4]. split; cbn [set_ws_cols ws_cols ws_views ws_data ws_dim]; try done. by apply set_column_typed. }
  destruct c; try done; cbn in Hp; subst.
  - destruct Hg as [Hg1 Hg2]. eapply (H (set_row_props r p)); try reflexivity.
    + intros [S1 (m & i & y & S2 & S3)]. split; [done|]. cbn. rewrite S2. cbn. eexists _, r, _. split; [reflexivity|]. apply lookup_insert.
    + intros Ht. eapply (typed_op (SProps r p) w []); [done|by split|done|reflexivity].
  - destruct Hg as [Hg1 Hg2]. destruct (Hcol c p Hg1 Hg2) as [? ?]. by eapply (H (set_column_index c p)).
  - destruct Hg as [Hg1 (wd & rest & -> & W1 & W2 & W3)]. destruct (Hcol _ p W3 Hg1) as [? ?]. eapply (H (set_column_ref (wd +:+ rest) p) (set_ws_cols w (set_column (word_value wd) p (ws_cols w)))); try done.
    unfold set_column_ref, bind, lift. by rewrite get_column_index_exact.
Qed.
(** ** Giving a handle back *)
Lemma hands_release k s h w o : LInv s -> handle h s = Some w -> Forall2 (HandSim (x_office s.1)) (k_handles k) s.2 -> (forall q, q <> ws_path w -> of_open o !! q = of_open (x_office s.1) !! q) ->
  Forall2 (HandSim o) (<[h := None]> (k_handles k)) (<[h := None]> s.2).
Proof.
  intros I Hh HF Ho. pose proof (Forall2_length _ _ _ HF) as Hl. apply Forall2_same_length_lookup. split; [by rewrite !insert_length|]. intros i x y Hx Hy.
  apply list_lookup_insert_Some in Hx as [(<- & <- & Hlt)|[Hne Hx]].
  - rewrite list_lookup_insert in Hy by lia. by injection Hy as <-.
  - rewrite list_lookup_insert_ne in Hy by done. pose proof (Forall2_lookup_lr _ _ _ _ _ _ HF Hx Hy) as Hxy. revert Hxy. apply hand_keeps. intros w' p -> Hp.
    rewrite Ho; [done|]. intros Heq. apply (apart_handle s i h w' w (ws_path w') I); [done| |done|left|rewrite Heq; left].
    unfold handle. by rewrite Hy.
Qed.
Lemma back_step c h x k s o0 : c = CDrop h \/ c = CFlush h \/ c = CDelete h -> hand k h = Some x -> LInv s -> SessionInv o0 s -> Core k s ->
  exists k', Does k c (succeeds (call_step c s).2) k' /\ Core k' (call_step c s).1.
Proof.
  intros Hc Hh I SI C. pose proof (hand_of k s h (co_hands _ _ C)) as Hs. rewrite Hh in Hs. destruct (handle h s) as [w|] eqn:Ew; [|done].
  destruct C as [C1 C2 C3 C4 C5 C6]. destruct (release _ _ _ x w C5 Hs) as (o' & r & R1 & R2 & R3 & R4 & R5).
  pose proof (hands_release k s h w o' I Ew C6 R5) as Hf. destruct Hs as (S1 & S2 & _ & _ & (p & it & Hp & _) & _).
  destruct Hc as [->|[->| ->]]; cbn [call_step]; unfold spend; rewrite Ew; unfold Excel.on_book, x_state, on_wb_office; cbn [fst snd].
  - rewrite R1. cbn [fst snd succeeds]. eexists. split; [by eapply Does_drop|]. by constructor.
  - rewrite R2. cbn [fst snd]. rewrite R3. eexists. split; [by eapply Does_flush|]. by constructor.
  - unfold wb_delete_sheet, delete_sheet, bind, on_sheets, on_pkg, on_rels, on_office, modify, delete_document. cbn [fst snd]. unfold modify. cbn [fst snd].
    assert (of_archive (x_office s.1) !! ws_path w = None) as Ha.
    { rewrite S2. apply eq_None_not_Some. intros Hy. apply (pt_stored _ _ _ C5), (pt_apart _ _ _ C5) in Hy. rewrite <- S2 in Hy. congruence. }
    rewrite delete_notin by done. replace (set_archive (x_office s.1) (of_archive (x_office s.1))) with (x_office s.1) by (by destruct (x_office s.1)).
    rewrite R2. cbn [fst snd]. rewrite R3. eexists. split; [by eapply Does_delete|].
    constructor; cbn [k_sheets k_links k_stored k_used k_handles fst snd set_x x_book x_suite set_wb_rels set_wb_sheets wb_sheets wb_rels]; try done.
    + rewrite S1. clear -C1. induction C1 as [|a b l l' [H1 H2] _ IH]; [constructor|]. cbn [List.filter]. rewrite H1. unfold seqb in *. destruct (String.eqb b.1 (hs_name x)); cbn [negb]; [done|]. by constructor.
    + rewrite delete_rels, C2. rewrite List.filter_app. f_equal.
      * rewrite S2. cbn. done.
      * rewrite S2. clear. induction (k_links k) as [|[a b] l IH]; [done|]. cbn [map List.filter]. unfold link at 1. cbn [r_target snd fst].
        assert (seqb ("/" +:+ sheet_at b) (absolute (sheet_at (hs_number x))) = N.eqb b (hs_number x)) as ->.
        { apply eq_true_iff_eq. rewrite N.eqb_eq. unfold seqb. rewrite String.eqb_eq. change (absolute (sheet_at (hs_number x))) with ("/" +:+ sheet_at (hs_number x)). split; [|by intros ->].
          intros H. apply sheet_at_inj. exact (f_equal (fun y => match y with String _ t => t | _ => y end) H). }
        destruct (N.eqb b (hs_number x)); cbn [negb]; [done|]. cbn [map]. by rewrite IH.
    + clear -C3. induction (k_links k) as [|[a b] l IH]; [done|]. cbn [map fst] in C3. apply NoDup_cons in C3 as [H1 H2]. cbn [List.filter]. destruct (negb _); [|by apply IH]. cbn [map fst]. apply NoDup_cons. split; [|by apply IH].
      intros Hin. apply H1. apply elem_of_list_fmap in Hin as (y & -> & Hy). apply elem_of_list_In, filter_In in Hy as [Hy _]. apply elem_of_list_fmap. exists y. split; [done|]. by apply elem_of_list_In.
    + intros l Hl. apply C4. apply elem_of_list_In, filter_In in Hl as [Hl _]. by apply elem_of_list_In.
Qed.
(** ** All calls *)
Theorem step_core c k s o0 : LInv s -> SessionInv o0 s -> Core k s -> Given c -> NoPanic (call_step c s).2 ->
  exists k', Does k c (succeeds (call_step c s).2) k' /\ Core k' (call_step c s).1.
Proof.
  intros I SI C Hg Hn.
  assert (forall h, through c = Some h -> hand k h = None -> exists k', Does k c (succeeds (call_step c s).2) k' /\ Core k' (call_step c s).1) as Hgone by (intros h H1 H2; by eapply gone_step).
  destruct c as [name|name|old new|n|n|b|b|b|b|b|st|h r c cs|h ref cs|h r p|h c p|h ref p|h|h|h].
  - apply (ask_step _ name _ _ o0); [by left|done..].
  - apply (ask_step _ (Some name) _ _ o0); [right; eauto|done..].
  - by apply rename_step.
  - destruct (plain_step (CActive n) k s Logic.I C) as [-> ?]. exists k. split; [by apply Does_plain|done].
  - destruct (plain_step (CHide n) k s Logic.I C) as [-> ?]. exists k. split; [by apply Does_plain|done].
  - destruct (plain_step (CVisible b) k s Logic.I C) as [-> ?]. exists k. split; [by apply Does_plain|done].
  - destruct (plain_step (CMinimize b) k s Logic.I C) as [-> ?]. exists k. split; [by apply Does_plain|done].
  - destruct (plain_step (CTabs b) k s Logic.I C) as [-> ?]. exists k. split; [by apply Does_plain|done].
  - destruct (plain_step (CVScroll b) k s Logic.I C) as [-> ?]. exists k. split; [by apply Does_plain|done].
  - destruct (plain_step (CHScroll b) k s Logic.I C) as [-> ?]. exists k. split; [by apply Does_plain|done].
  - by apply style_step.
  - destruct (hand k h) as [x|] eqn:Eh; [|by apply (Hgone h)]. destruct Hg as (G1 & G2 & G3). by apply (put_step _ h x c cs r); [constructor|..].
  - destruct (hand k h) as [x|] eqn:Eh; [|by apply (Hgone h)]. destruct Hg as (G1 & w & r & -> & G2 & G3 & G4). apply (put_step _ h x (word_value w) cs r); [by constructor|done| |done..].
    cbn [call_step]. unfold use. destruct (handle h s) as [y|]; [|done]. unfold set_row_value_ref, bind, lift. by rewrite get_cell_index_word.
  - destruct (hand k h) as [x|] eqn:Eh; [|by apply (Hgone h)]. by apply (shape_step _ h x).
  - destruct (hand k h) as [x|] eqn:Eh; [|by apply (Hgone h)]. by apply (shape_step _ h x).
  - destruct (hand k h) as [x|] eqn:Eh; [|by apply (Hgone h)]. by apply (shape_step _ h x).
  - destruct (hand k h) as [x|] eqn:Eh; [|by apply (Hgone h)]. apply (back_step _ h x _ _ o0); tauto.
  - destruct (hand k h) as [x|] eqn:Eh; [|by apply (Hgone h)]. apply (back_step _ h x _ _ o0); tauto.
  - destruct (hand k h) as [x|] eqn:Eh; [|by apply (Hgone h)]. apply (back_step _ h x _ _ o0); tauto.
Qed.
Lemma least_first P m n : ~ P m -> LeastFree P m n -> n = m.
Proof. intros Hm (H1 & H2 & H3). destruct (decide (n = m)) as [|Hne]; [done|]. exfalso. apply Hm, H3. lia. Qed.
Lemma least_same P m a b : LeastFree P m a -> LeastFree P m b -> a = b.
Proof.
  intros (A1 & A2 & A3) (B1 & B2 & B3). destruct (N.lt_trichotomy a b) as [H|[H|H]]; [|done|]; exfalso; [apply A2, B3; lia|apply B2, A3; lia].
Qed.
Lemma first_same {A} (P : A -> Prop) l x y : First P l x -> First P l y -> x = y.
Proof.
  intros (l1 & l2 & -> & Hx & H1) (k1 & k2 & He & Hy & H2). revert l2 k1 k2 He H1 H2. induction l1 as [|a l1 IH]; intros l2 k1 k2 He H1 H2.
  - destruct k1 as [|b k1]; cbn in He; [congruence|]. injection He as -> _. apply Forall_cons in H2 as [H2 _]. done.
  - destruct k1 as [|b k1]; cbn in He; injection He as -> He; apply Forall_cons in H1 as [H1a H1]; [done|]. apply Forall_cons in H2 as [_ H2]. by apply (IH l2 k1 k2).
Qed.
Lemma word_same w w' r r' : is_word w -> is_word w' -> w +:+ show_N r = w' +:+ show_N r' -> w = w'.
Proof.
  intros [_ Hw] [_ Hw'] He. assert (forall n, exists d t, show_N n = String d t /\ is_letter d = false) as Hd.
  { intros n. pose proof (show_N_digits n) as H. pose proof (show_N_nonempty n) as Hne. destruct (show_N n) as [|d t]; [done|]. exists d, t. split; [done|].
    cbn in H. apply andb_true_iff in H as [H _]. clear -H. destruct d as [[] [] [] [] [] [] [] []]; done. }
  destruct (Hd r) as (d & t & Er & Ed). destruct (Hd r') as (d' & t' & Er' & Ed'). rewrite Er, Er' in He. clear -He Hw Hw' Ed Ed'.
  revert w' He Hw'. induction w as [|a w IH]; intros [|b w'] He Hw'; cbn in *.
  - done.
  - injection He as -> _. apply andb_true_iff in Hw' as [H _]. congruence.
  - injection He as <- _. apply andb_true_iff in Hw as [H _]. congruence.
  - injection He as -> He. apply andb_true_iff in Hw as [_ Hw]. apply andb_true_iff in Hw' as [_ Hw']. f_equal. by apply IH.
Qed.
Lemma puts_same h c col cs h' col' cs' : Puts h c col cs -> Puts h' c col' cs' -> h' = h /\ col' = col /\ cs' = cs.
Proof.
  intros H1 H2. destruct H1; inversion H2; subst; [done|]. split; [done|]. split; [|done]. f_equal. by eapply word_same.
Qed.
Lemma asks_same c n n' : asks c n -> asks c n' -> n = n'.
Proof. intros [->|(x & -> & ->)] [H|(y & -> & H)]; congruence. Qed.
Lemma first_listed k n j : First (fun x => fst x = n) (k_sheets k) (n, j) -> n ∈ listed k.
Proof. intros (l1 & l2 & H & _). unfold listed. rewrite H, map_app. apply elem_of_app. right. left. Qed.
(** The desk before a call decides what the call does. *)
Definition kind (c : call) : N :=
  match c with
  | CAdd _ | CGet _ => 0 | CRename _ _ => 1 | CActive _ | CHide _ | CVisible _ | CMinimize _ | CTabs _ | CVScroll _ | CHScroll _ => 2 | CStyle _ => 3
  | CRow _ _ _ _ | CRowRef _ _ _ => 4 | CRowProps _ _ _ | CCol _ _ _ | CColRef _ _ _ => 5 | CDrop _ => 6 | CFlush _ => 7 | CDelete _ => 8
  end.
Lemma kind_asks c n : asks c n -> kind c = 0. Proof. by intros [->|(x & -> & ->)]. Qed.
Lemma kind_plain c : plain c -> kind c = 2. Proof. by destruct c. Qed.
Lemma kind_puts h c col cs : Puts h c col cs -> kind c = 4 /\ through c = Some h. Proof. by destruct 1. Qed.
Lemma kind_shapes h c : shapes h c -> kind c = 5 /\ through c = Some h. Proof. destruct c; try done; cbn; by intros ->. Qed.
Lemma kind_through h c : through c = Some h -> 4 <= kind c. Proof. destruct c; try done; cbn; lia. Qed.
Lemma split_same (o : string) (l1 : list (string * N)) : forall i l2 m1 j m2, l1 ++ (o, i) :: l2 = m1 ++ (o, j) :: m2 -> o ∉ map fst l1 -> o ∉ map fst m1 -> l1 = m1 /\ i = j /\ l2 = m2.
Proof.
  induction l1 as [|a l1 IH]; intros i l2 [|b m1] j m2 He H1 H2; cbn [app map] in *.
  - by injection He as -> ->.
  - injection He as <- _. destruct H2. left.
  - injection He as -> _. destruct H1. left.
  - injection He as <- He. apply not_elem_of_cons in H1 as [_ H1]. apply not_elem_of_cons in H2 as [_ H2]. destruct (IH _ _ _ _ _ He H1 H2) as (-> & -> & ->). done.
Qed.
Theorem does_det k c b1 k1 b2 k2 : Does k c b1 k1 -> Does k c b2 k2 -> b1 = b2 /\ k1 = k2.
Proof.
  intros H1 H2. destruct H1; inversion H2; subst; clear H2;
    repeat match goal with
    | H : asks _ _ |- _ => lazymatch goal with K : kind _ = 0 |- _ => fail | _ => pose proof (kind_asks _ _ H) end
    | H : plain _ |- _ => apply kind_plain in H
    end;
    repeat match goal with
    | H : shapes _ _ |- _ => apply kind_shapes in H as [? ?]
    end;
    try match goal with H : Puts _ _ _ _ |- _ => destruct (kind_puts _ _ _ _ H) as [? ?] end;
    try match goal with H : through _ = Some _ |- _ => pose proof (kind_through _ _ H) end;
    cbn [kind through] in *; try (exfalso; lia); try (split; congruence); try (exfalso; congruence).
  all: try match goal with H : asks ?c _, H' : asks ?c _ |- _ => pose proof (asks_same _ _ _ H H'); clear H'; simplify_eq end.
  all: try match goal with H : First _ _ _, H' : First _ _ _ |- _ => pose proof (first_same _ _ _ _ H H'); simplify_eq; done end.
  all: try match goal with H : First _ _ _, H' : forall x, _ |- _ => destruct (H' _ eq_refl); by eapply first_listed end.
  all: try match goal with H1 : LeastFree _ ?m ?a, H2 : LeastFree _ ?m ?b |- _ => pose proof (least_same _ _ _ _ H1 H2); clear H2; simplify_eq end.
  all: try match goal with H1 : LeastFree _ ?m ?a, H2 : LeastFree _ ?m ?b |- _ => pose proof (least_same _ _ _ _ H1 H2); clear H2; simplify_eq end.
  all: try done.
  all: try match goal with H : Puts _ ?c _ _, H' : Puts _ ?c _ _ |- _ => destruct (puts_same _ _ _ _ _ _ _ H H') as (-> & -> & ->); split; congruence end.
  all: try (exfalso; match goal with K : k_sheets _ = _ ++ (?o, _) :: _, D : ?o ∉ listed _ \/ _ ∈ listed _ |- _ => destruct D as [D|D]; [apply D; unfold listed; rewrite K, map_app; apply elem_of_app; right; left|done] end).
  - rewrite H in H5. destruct (split_same _ _ _ _ _ _ _ H5 H0 H6) as (-> & -> & ->). done.
  - exfalso. tauto.
  - exfalso. tauto.
  - assert (x = x0) as -> by congruence. done.
Qed.
Definition empty_desk : desk := mkDesk [] [] ∅ ∅ [].
Theorem start_core fs x0 : excel_new None fs = Ok x0 -> Core new_desk (x0, []).
Proof.
  unfold excel_new. destruct (suite_new None fs) as [s|e|e] eqn:Es; cbn [rbind]; [|done..].
  destruct (opens_suite _ _ _ Es) as (o' & Ho' & He & O1). injection Ho' as <-. destruct (workbook_new (su_root s, su_office s)) as [[root o1] [b|e|e]] eqn:Ew; [|done..].
  destruct (opens_workbook (su_root s, su_office s) _ _ (op_docs _ _ _ O1) Ew) as [O2 Hr]. cbn [fst snd] in *. pose proof (opens_trans _ _ _ _ _ O1 O2) as O.
  destruct (new_book _ _ _ _ _ Es Ew) as (_ & Sb & Hbr & Hsh & _ & -> & Hc). pose proof Sb as [B1 B2 B3 B4 B5 B6 _ _].
  cbv zeta. set (x1 := mkExcel (mkSuite o1 SessionFacts.root_rels (su_core s)) b).
  assert (forall q, in_area q -> of_open o1 !! q = None /\ of_archive o1 !! q = None) as Hz.
  { intros q Hq. assert (q ∉ DocsIn s ++ own_parts b) as Hn.
    { unfold DocsIn, own_parts. rewrite <- Hr, Hc, B1, B2, B3, B4, B5, B6. cbn [app cc_path rl_path SessionFacts.root_rels]. rewrite !not_elem_of_cons. unfold in_area in Hq.
      repeat split; try (intros ->; by vm_compute in Hq). apply not_elem_of_nil. }
    split; [|by rewrite (op_rest _ _ _ O)]. apply eq_None_not_Some. intros Hy. apply (op_open _ _ _ O) in Hy as [[y Hy]|Hy]; [|done]. cbn in Hy. by rewrite lookup_empty in Hy. }
  assert (LInv (x1, [])) as I0.
  { assert (held (x1, []) ≡ₚ DocsIn s ++ own_parts b) as Hp.
    { unfold held, x1, live_parts. cbn [fst snd x_book x_suite]. cbn [fmap list_fmap concat]. rewrite app_nil_r, Permutation_app_comm. unfold DocsIn. cbn [su_root su_core rl_path SessionFacts.root_rels]. by rewrite <- Hr. }
    constructor; [apply O|rewrite Hp; apply O|]. intros q Hq. rewrite Hp in Hq. apply (op_open _ _ _ O). by right. }
  assert (SessionInv o1 (x1, [])) as S0. { constructor; cbn; [done|done|done|constructor|]. intros q _. apply same_refl. }
  assert (Core empty_desk (x1, [])) as C0.
  { constructor; cbn [empty_desk k_sheets k_links k_stored k_used k_handles fst snd x_book x1]; [rewrite Hsh; constructor|by rewrite Hbr|constructor|by intros l ?%elem_of_nil| |constructor].
    change (Parts ∅ ∅ o1). constructor.
    - intros m. unfold sheet_at. rewrite (proj2 (Hz _ (sheet_in_area m))). split; [by intros [? ?]|set_solver].
    - set_solver.
    - set_solver.
    - set_solver.
    - intros m _. split; [apply (Hz _ (sheet_in_area m))|]. apply (Hz (rels_of m)). reflexivity.
    - intros m. apply (Hz (rels_of m)). reflexivity.
    - set_solver.
    - intros q Hq [Hp|Hp]; [rewrite (proj1 (Hz q Hq)) in Hp|rewrite (proj2 (Hz q Hq)) in Hp]; by destruct Hp.
    - intros m [_ (e & He' & _)]. unfold sheet_at in He'. rewrite (proj2 (Hz _ (sheet_in_area m))) in He'. done. }
  destruct (Excel.on_book (add_sheet None) x1) as [x2 [w|e|e]] eqn:Ea; [|done..]. intros [= <-].
  destruct (step_core (CAdd None) empty_desk (x1, []) o1 I0 S0 C0 Logic.I) as (k1 & D1 & C1). { cbn [call_step]. unfold give. cbn [fst]. by rewrite Ea. }
  pose proof (call_effect (CAdd None) (x1, []) I0) as I1. pose proof (SessionFacts.call_inv o1 (CAdd None) (x1, []) S0) as S1.
  cbn [call_step] in D1, C1, I1, S1. unfold give in D1, C1, I1, S1. cbn [fst snd] in D1, C1, I1, S1.
  rewrite Ea in D1, C1, I1, S1. cbn [fst snd succeeds NoPanic app] in D1, C1, I1, S1. destruct (I1 Logic.I) as [I2 _]. clear I1.
  assert (LeastFree (fun i => i ∈ k_stored empty_desk) (N.of_nat (length (k_sheets empty_desk)) + 1) 1) as L1 by (split; [cbn; lia|]; split; [cbn; set_solver|cbn; lia]).
  assert (LeastFree (fun i => i ∈ map fst (k_links empty_desk)) (N.of_nat (length (k_links empty_desk)) + 5) 5) as L2 by (split; [cbn; lia|]; split; [cbn; by intros ?%elem_of_nil|cbn; lia]).
  destruct (does_det _ _ _ _ _ _ D1 (Does_new empty_desk (CAdd None) None 1 5 (or_introl eq_refl) ltac:(done) L1 L2 ltac:(cbn; set_solver))) as [_ ->].
  match type of C1 with Core ?k _ => set (kk := k) in * end.
  destruct (step_core (CDrop 0) kk (x2, [Some w]) o1 I2 S1 C1 Logic.I) as (k2 & D2 & C2); [done|]. cbn [call_step] in C2. unfold spend in C2. cbn in C2.
  destruct (does_det _ _ _ _ _ _ D2 (Does_drop kk 0 (mkHeld "sheet1" 1 false) eq_refl)) as [_ ->].
  destruct C2 as [E1 E2 E3 E4 E5 E6]. unfold kk, stored_after in E1, E2, E3, E4, E5. cbn [k_sheets k_links k_stored k_used k_handles hs_spoiled hs_number empty_desk app default] in E1, E2, E3, E4, E5.
  replace ({[1]} ∪ ∅) with ({[1]} : gset N) in E4, E5 by (apply leibniz_equiv; set_solver).
  constructor; [exact E1|exact E2|exact E3|exact E4|exact E5|constructor].
Qed.
Theorem answers_core cs : forall k s o0 s', LInv s -> SessionInv o0 s -> Core k s -> Forall Given cs -> calls cs s = Some s' ->
  exists k', Goes k cs (answers cs s) k' /\ Core k' s'.
Proof.
  induction cs as [|c cs IH]; intros k s o0 s' I SI C Hg Hc; [injection Hc as <-; exists k; split; [constructor|done]|].
  apply FlowSaveFacts.calls_cons in Hc as [Hn Hc]. apply Forall_cons in Hg as [Hg1 Hg]. destruct (step_core c k s o0 I SI C Hg1 Hn) as (k1 & D & C1).
  destruct (call_effect c s I Hn) as [I1 _]. destruct (IH k1 _ o0 _ I1 (SessionFacts.call_inv o0 c s SI) C1 Hg Hc) as (k' & G & C'). exists k'. split; [|done]. cbn [answers]. by econstructor.
Qed.
Theorem answers_new fs x0 cs s : excel_new None fs = Ok x0 -> Forall Given cs -> calls cs (x0, []) = Some s ->
  exists k, Goes new_desk cs (answers cs (x0, [])) k /\ Core k s.
Proof.
  intros Hx Hg Hc. destruct (new_linv _ _ _ Hx) as [I _]. destruct (SessionFacts.new_session _ _ Hx) as [_ SI]. by apply (answers_core cs _ _ (x_office x0)); [..|apply start_core in Hx|done|done].
Qed.
Theorem goes_det cs : forall k bs k' bs' k'', Goes k cs bs k' -> Goes k cs bs' k'' -> bs = bs' /\ k' = k''.
Proof.
  induction cs as [|c cs IH]; intros k bs k' bs' k'' G1 G2; inversion G1; inversion G2; subst; [done|].
  match goal with D1 : Does k c _ _, D2 : Does k c _ _ |- _ => destruct (does_det _ _ _ _ _ _ D1 D2) as [-> ->] end.
  match goal with H1 : Goes _ cs _ _, H2 : Goes _ cs _ _ |- _ => destruct (IH _ _ _ _ _ H1 H2) as [-> ->] end. done.
Qed.
(** Without deletions the parts given out are those numbered up to the number of sheets. *)
Record Plainly (k : desk) : Prop := {
  pl_used : forall n, n ∈ k_used k <-> 1 <= n <= N.of_nat (length (k_sheets k));
  pl_stored : forall n, n ∈ k_stored k -> n ∈ k_used k;
  pl_hands : forall h x, hand k h = Some x -> hs_number x ∈ k_used k;
}.
Lemma hand_set k h x i : hand (set_hand k h x) i = if decide (h = i /\ (h < length (k_handles k))%nat) then x else hand k i.
Proof.
  unfold hand, set_hand. cbn. case_decide as Hd.
  - destruct Hd as [-> Hl]. by rewrite list_lookup_insert.
  - destruct (decide (h = i)) as [->|Hne]; [|by rewrite list_lookup_insert_ne]. rewrite list_insert_ge; [done|lia].
Qed.
Definition no_delete (c : call) : Prop := match c with CDelete _ => False | _ => True end.
Lemma plainly_step k c b k' : Plainly k -> no_delete c -> Does k c b k' -> Plainly k' /\ (forall name, asks c name -> (forall x, name = Some x -> x ∉ listed k) -> b = true).
Proof.
  intros [P1 P2 P3] Hd D.
  assert (LeastFree (fun i => i ∈ k_stored k) (N.of_nat (length (k_sheets k)) + 1) (N.of_nat (length (k_sheets k)) + 1)) as L. { split; [lia|]. split; [|lia]. intros H. apply P2, P1 in H. lia. }
  assert (forall h x, hand k h = Some x -> forall n, n ∈ stored_after k x -> n ∈ k_used k) as Hst.
  { intros h x Hx n. unfold stored_after. destruct (hs_spoiled x); [apply P2|]. intros [Hn|Hn]%elem_of_union; [|by apply P2]. apply elem_of_singleton in Hn as ->. by eapply P3. }
  assert (forall h x i y st, hand (mkDesk (k_sheets k) (k_links k) st (k_used k) (<[h:=None]> (k_handles k))) i = Some y -> hand k h = Some x -> hs_number y ∈ k_used k) as Hh.
  { intros h x i y st Hy _. change (hand (set_hand k h None) i = Some y) in Hy. rewrite hand_set in Hy. case_decide; [done|]. by eapply P3. }
  destruct D as [c n j Ha Hf|c name n j Ha Hn Hl Hj Hu nm|c name n j Ha Hn Hl Hj Hu|old new l1 j l2 Hk Ho Hn|old new Hn|c Hc|st Hs|st Hs1 Hs2|c h Ht Hh0|c h x col cs Hp Hx|c h x Hs Hx|h x Hx|h x Hx|h x Hx].
  - split; [constructor; cbn; [done| |done]; set_solver|]. intros name Ha' Hno. pose proof (asks_same _ _ _ Ha Ha') as <-. destruct (Hno n eq_refl). by eapply first_listed.
  - pose proof (least_same _ _ _ _ Hl L) as ->. split; [|done]. constructor; cbn [k_used k_sheets k_stored].
    + intros i. rewrite elem_of_union, elem_of_singleton, P1, app_length. cbn [length]. lia.
    + set_solver.
    + intros h x. unfold hand. cbn [k_handles]. destruct (decide (h < length (k_handles k))%nat) as [Hlt|Hge].
      * rewrite lookup_app_l by done. intros Hx. apply elem_of_union_r. by apply (P3 h).
      * rewrite lookup_app_r by lia. destruct (h - length (k_handles k))%nat; cbn; [intros [= <-]; cbn; set_solver|]. done.
  - pose proof (least_same _ _ _ _ Hl L) as ->. exfalso. apply P1 in Hu. lia.
  - split; [|by intros name [?|(? & _ & ?)]]. constructor; cbn; [|done|done]. rewrite Hk in P1. rewrite app_length in *. done.
  - split; [done|by intros name [?|(? & _ & ?)]].
  - split; [done|by intros name ?].
  - split; [done|by intros name [?|(? & _ & ?)]].
  - split; [done|by intros name [?|(? & _ & ?)]].
  - split; [done|by intros name ?].
  - split; [|by intros name ?]. constructor; cbn; [done|done|]. intros i y. change (hand (set_hand k h (Some (mkHeld (hs_name x) (hs_number x) (hs_spoiled x || reaches_0 col cs)))) i = Some y -> hs_number y ∈ k_used k). rewrite hand_set. case_decide; [intros [= <-]; cbn|]; eauto.
  - split; [done|by intros name ?].
  - split; [|by intros name ?]. constructor; cbn; eauto.
  - split; [|by intros name [?|(? & _ & ?)]]. constructor; cbn; eauto.
  - done.
Qed.
Lemma plainly_new : Plainly new_desk.
Proof. constructor; cbn; [intros n; rewrite elem_of_singleton; lia|done|]. intros h x. unfold hand. cbn. by rewrite lookup_nil. Qed.
Lemma plainly_goes cs : forall k bs k', Forall no_delete cs -> Plainly k -> Goes k cs bs k' -> Plainly k'.
Proof.
  induction cs as [|c cs IH]; intros k bs k' Hn P G; inversion G; subst; [done|]. apply Forall_cons in Hn as [Hn1 Hn].
  match goal with D : Does _ _ _ _ |- _ => destruct (plainly_step _ _ _ _ P Hn1 D) as [P1 _] end. eauto.
Qed.
End with_env.
