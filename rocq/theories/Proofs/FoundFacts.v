(** Where a workbook that is opened finds its parts. *)
From Verif.Model Require Import Excel.
From Verif.Spec Require Import RelSpec XmlSpec XmlRepr PackageSpec PartSpec SheetSpec SessionSpec FlowSpec.
From Verif.Proofs Require Import BaseFacts PackageFacts XmlTreeFacts XmlWriteFacts DocBuild XmlReadFacts RelDocFacts SmallPartFacts AttrFacts StyleDocFacts SheetDocFacts
  BookFacts FrameFacts SaveFacts SessionFacts RelFacts ExcelFacts XmlHistFacts SoundFacts KeepFacts ReadAnyFacts FlowFacts FlowSaveFacts FlowOpenFacts OwnFacts OpenBookFacts OpenRelFacts.
From Verif.Spec Require Import BookSpec OpenSpec.
Open Scope N_scope.

Lemma kept_sublist (P : rel -> Prop) `{forall x, Decision (P x)} l : filter P l `sublist_of` l.
Proof. induction l as [|x l IH]; [constructor|]. rewrite filter_cons. destruct (decide (P x)); by constructor. Qed.
Lemma rels_no_types dir : dir +:+ "/_rels/workbook.xml.rels" <> content_types_name.
Proof. intros H. apply (f_equal srev) in H. rewrite srev_app_dist in H. discriminate H. Qed.
Lemma path_found c dir r r' p folder : OwnerFolder (rl_path r) folder -> part_path c dir r = (r', Ok p) ->
  FoundBy (rl_rels r) folder (c_type c) (target_path c dir None) p /\ rl_path r' = rl_path r
  /\ exists new, rl_rels r' = rl_rels r ++ new /\ Forall (fun x => r_type x = c_type c) new.
Proof.
  intros Ho. unfold part_path, get_target_by_type. pose proof (find_first_of (c_type c) r) as Hf. destruct (List.find _ _) as [x|].
  - destruct (resolve_spec r folder (r_target x) Ho) as (q & -> & Hq). intros [= <- <-]. destruct Hf as (l1 & l2 & H1 & H2 & H3). split; [left; by exists l1, x, l2|].
    split; [done|]. exists []. by rewrite app_nil_r.
  - intros [= <- <-]. split; [by right|]. split; [done|]. eexists. split; [done|]. by apply Forall_singleton.
Qed.
Lemma found_before l new folder ty ty' usual path : ty' <> ty -> Forall (fun x => r_type x = ty') new -> FoundBy (l ++ new) folder ty usual path -> FoundBy l folder ty usual path.
Proof.
  intros Hne Hn [(l1 & x & l2 & H1 & H2 & H3 & H4)|[H1 H2]]; [|right; apply Forall_app in H1; tauto].
  assert (x ∈ l) as Hx.
  { assert (x ∈ l ++ new) as Hi. { rewrite H1. rewrite elem_of_app, elem_of_cons. tauto. }
    apply elem_of_app in Hi as [Hi|Hi]; [done|]. rewrite Forall_forall in Hn. specialize (Hn _ Hi). congruence. }
  left. apply app_eq_inv in H1 as [(k & H5 & H6)|(k & H5 & H6)].
  - destruct k as [|y k].
    + cbn in H6. assert (x ∈ new) as Hi by (rewrite <- H6; left). rewrite Forall_forall in Hn. specialize (Hn _ Hi). congruence.
    + cbn in H6. injection H6 as <- ->. exists l1, x, k. done.
  - assert (x ∈ new) as Hi by (rewrite H6, elem_of_app, elem_of_cons; tauto). rewrite Forall_forall in Hn. specialize (Hn _ Hi). congruence.
Qed.
Section with_env.
Context `{E : Env} `{Hs : Hashes}.
Lemma theme_path s s' p : theme_new s = (s', Ok p) -> part_path c_theme (Some "xl/theme") s.1 = (s'.1, Ok p).
Proof.
  unfold theme_new. unfold bind at 1. unfold on_rels. cbn [fst snd]. change ("xl/" +:+ c_path c_theme) with "xl/theme".
  destruct (part_path _ _ s.1) as [r1 [path|e|e]]; [|done..]. unfold bind, on_office. cbn [fst snd].
  destruct (get_xml_document theme_init path s.2) as [o1 [[]|e|e]]; [|done..]. by intros [= <- <-].
Qed.
Lemma service_path {A B} (c : content) (dir : option string) init (load : M doc A) (k : string -> option A -> B) s s' x :
  bind (on_rels (part_path c dir)) (fun path => bind (on_office (get_xml_document init path)) (fun _ =>
    bind (on_office (with_doc path load)) (fun l => ret (k path l)))) s = (s', Ok x) ->
  exists path l, part_path c dir s.1 = (s'.1, Ok path) /\ x = k path l.
Proof.
  unfold bind at 1. unfold on_rels. cbn [fst snd]. destruct (part_path c dir s.1) as [r1 [path|e|e]]; [|done..].
  unfold bind, on_office. cbn [fst snd]. destruct (get_xml_document init path s.2) as [o1 [[]|e|e]]; [|done..]. cbn [fst snd].
  destruct (with_doc path load o1) as [o2 [l|e|e]]; [|done..]. intros [= <- <-]. by exists path, l.
Qed.
Lemma found_workbook s s' b : DocsOk s.2 -> rl_path s.1 = "_rels/.rels" -> workbook_new s = (s', Ok b) ->
  FoundBy (rl_rels s.1) "" (rel_type "officeDocument") "xl/workbook.xml" (wb_path b)
  /\ exists p0 d' r, Source s.2 rels_init (rl_path (wb_rels b)) p0 /\ load_relations (op_doc p0) = (d', Ok (rl_rels r))
    /\ forall folder, OwnerFolder (rl_path (wb_rels b)) folder -> BookFound (rl_rels r) folder b.
Proof.
  intros Ho Hroot. unfold workbook_new. unfold bind at 1. unfold on_rels at 1.
  destruct (part_path c_workbook None s.1) as [r1 [path|e|e]] eqn:E0; [|done..].
  unfold bind at 1. unfold on_office at 1. cbn [fst snd]. destruct (get_xml_document workbook_init path s.2) as [o1 [[]|e|e]] eqn:Eg; [|done..].
  pose proof (opens_get _ _ _ _ (init_text _ _) Ho Eg) as O1. unfold bind at 1, lift at 1. destruct (book_rels_path path) as [rp|e|e]; [|done..].
  unfold bind at 1. unfold on_office at 1. cbn [fst snd]. destruct (rels_new rp o1) as [o2 [rels|e|e]] eqn:Er; [|done..]. unfold bind at 1, get at 1. cbn [fst snd].
  destruct (rels_opened _ _ _ _ Er) as (_ & Hrc & Hrp & pr & dr & Hsr & Hlr & _).
  pose proof (services_grown (rels, o2)) as Hg.
  destruct (bind theme_new _ (rels, o2)) as [[rels1 o3] [[[[theme x] c] y]|e|e]] eqn:Ev; [|done..]. cbn [fst snd] in *.
  unfold bind at 1, put at 1. unfold bind at 1. unfold on_office at 1. cbn [fst snd]. destruct (with_doc path load_book o3) as [o4 [v|e|e]]; [|done..].
  destruct (default ([], None) v) as [sh vw]. intros [= <- <-]. cbn [wb_path wb_rels wb_theme wb_sst wb_calc wb_style]. split.
  { assert (OwnerFolder (rl_path s.1) "") as Hf. { rewrite Hroot. apply (Own_root "/.rels"). } by destruct (path_found c_workbook None _ _ _ _ Hf E0) as [? _]. }
  destruct Hg as (Hgp & _). rewrite Hgp, Hrp. exists pr, dr, rels. split; [eapply source_back; [exact O1|done|done]|]. split; [done|].
  intros folder Hf. rewrite <- Hrp in Hf.
  unfold bind at 1 in Ev. destruct (theme_new (rels, o2)) as [s1 [a|e|e]] eqn:E1; [|done..].
  unfold bind at 1 in Ev. destruct (sst_new s1) as [s2 [x'|e|e]] eqn:E2; [|done..].
  unfold bind at 1 in Ev. destruct (calc_new s2) as [s3 [c'|e|e]] eqn:E3; [|done..].
  unfold bind at 1 in Ev. destruct (style_new s3) as [s4 [y'|e|e]] eqn:E4; [|done..]. injection Ev as -> -> -> -> ->.
  apply theme_path in E1. cbn [fst] in E1. destruct (path_found _ _ _ _ _ _ Hf E1) as (F1 & P1 & n1 & N1 & A1).
  destruct (service_path c_share_string None sst_init load_strings (fun p l => mkSst (default [] l) p) s1 s2 x E2) as (p2 & l2 & Q2 & ->). rewrite <- P1 in Hf.
  destruct (path_found _ _ _ _ _ _ Hf Q2) as (F2 & P2 & n2 & N2 & A2). rewrite <- P2 in Hf.
  destruct (service_path c_calc_chain None calc_init load_calc (fun p l => mkCalc (default [] l) p) s2 s3 c E3) as (p3 & l3 & Q3 & ->).
  destruct (path_found _ _ _ _ _ _ Hf Q3) as (F3 & P3 & n3 & N3 & A3). rewrite <- P3 in Hf.
  destruct (service_path c_style None style_init load_styles (fun p l => mkStylePart (default no_styles l) p) s3 _ y E4) as (p4 & l4 & Q4 & ->).
  destruct (path_found _ _ _ _ _ _ Hf Q4) as (F4 & _). rewrite N3, N2, N1 in F4. rewrite N2, N1 in F3. rewrite N1 in F2. cbn [ss_path cc_path sp_path].
  split; [done|]. split; [|split].
  - eapply found_before; [|exact A1|exact F2]. by vm_compute.
  - eapply found_before; [|exact A1|]; [by vm_compute|]. eapply found_before; [|exact A2|exact F3]. by vm_compute.
  - eapply found_before; [|exact A1|]; [by vm_compute|]. eapply found_before; [|exact A2|]; [by vm_compute|]. eapply found_before; [|exact A3|exact F4]. by vm_compute.
Qed.
(** What a list of relationships in a file is read as. *)
Lemma lists_read o l0 path rels p0 d' l : (forall data, (path, data) ∈ l0 -> exists e, of_archive o !! path = Some e /\ part_bytes e = Ok data) ->
  Lists l0 path rels -> Source o rels_init path p0 -> load_relations (op_doc p0) = (d', Ok l) -> l = rels.
Proof.
  intros Hp (data & root & ns & Hin & Hr & Hl) Hsrc Hload. destruct (Hp _ Hin) as (e & He & Hb). destruct (reads_in _ _ _ Hr) as (d & Hrd & Hd & _).
  pose proof (source_read _ _ _ _ _ _ _ Hsrc He Hb Hrd) as Hp0. destruct root as [g a v cs].
  destruct (Doc_load_relations d g a v cs Hd) as (d1 & Hl1 & _). unfold RelsSaid in Hl. cbn [t_children] in Hl. unfold seqb in Hl1. rewrite (rels_said _ _ Hl) in Hl1.
  rewrite Hp0, Hl1 in Hload. by injection Hload.
Qed.
Theorem found_opened file fs0 l0 x0 rels : Stored fs0 file l0 -> excel_new (Some file) fs0 = Ok x0 -> Lists l0 "_rels/.rels" rels ->
  FoundBy rels "" (rel_type "officeDocument") "xl/workbook.xml" (wb_path (x_book x0)).
Proof.
  intros Hst Hx Hl. unfold excel_new in Hx. destruct (suite_new (Some file) fs0) as [s|e|e] eqn:Es; cbn [rbind] in Hx; [|done..].
  destruct (opens_suite _ _ _ Es) as (o & Ho & He & O1).
  destruct (workbook_new (su_root s, su_office s)) as [[root o1] [b|e|e]] eqn:Ew; [|done..]. injection Hx as <-. cbn [x_book].
  destruct (reopened_file _ _ _ _ Hst Ho) as (_ & Hparts & _). unfold suite_new in Es. rewrite Ho in Es. cbn [rbind] in Es.
  destruct (rels_new "_rels/.rels" o) as [o2 [r0|e|e]] eqn:Er; [|done..]. destruct (rels_opened _ _ _ _ Er) as (_ & _ & Hrp & pr & dr & Hsr & Hlr & _).
  destruct (core_new (r0, o2)) as [[r1 o3] [core|e|e]] eqn:Ec; [|done..]. injection Es as <-. cbn [su_root su_office] in *.
  assert (part_path c_core None r0 = (r1, Ok core)) as Hc.
  { unfold core_new in Ec. unfold bind at 1 in Ec. unfold on_rels in Ec. cbn [fst snd] in Ec. destruct (part_path _ _ r0) as [r2 [path|e|e]]; [|done..].
    unfold bind, on_office in Ec. cbn [fst snd] in Ec. destruct (get_xml_document core_init path o2) as [o4 [[]|e|e]]; [|done..]. by injection Ec as -> _ ->. }
  destruct (path_found c_core None r0 r1 core "") as (_ & Hp1 & new & Hn & Ha); [rewrite Hrp; apply (Own_root "/.rels")|done|]. rewrite Hrp in Hp1.
  destruct (found_workbook (r1, o3) _ _ (op_docs _ _ _ O1) Hp1 Ew) as [Hf _]. cbn [fst] in Hf. rewrite Hn in Hf.
  assert (rl_rels r0 = rels) as <-. { eapply lists_read; [|done|done|done]. intros data Hin. by apply Hparts. }
  eapply found_before; [|exact Ha|exact Hf]. by vm_compute.
Qed.
Theorem found_services file fs0 l0 x0 rels : Stored fs0 file l0 -> excel_new (Some file) fs0 = Ok x0 -> rl_path (wb_rels (x_book x0)) <> content_types_name ->
  Lists l0 (rl_path (wb_rels (x_book x0))) rels -> forall folder, OwnerFolder (rl_path (wb_rels (x_book x0))) folder -> BookFound rels folder (x_book x0).
Proof.
  intros Hst Hx Hct Hl. unfold excel_new in Hx. destruct (suite_new (Some file) fs0) as [s|e|e] eqn:Es; cbn [rbind] in Hx; [|done..].
  destruct (opens_suite _ _ _ Es) as (o & Ho & He & O1).
  destruct (workbook_new (su_root s, su_office s)) as [[root o1] [b|e|e]] eqn:Ew; [|done..]. injection Hx as <-. cbn [x_book] in *.
  destruct (reopened_file _ _ _ _ Hst Ho) as (_ & Hparts & _). destruct (opens_workbook (su_root s, su_office s) _ _ (op_docs _ _ _ O1) Ew) as [O2 _]. cbn [fst snd] in *.
  assert (rl_path (su_root s) = "_rels/.rels") as Hrp.
  { unfold suite_new in Es. rewrite Ho in Es. cbn [rbind] in Es. destruct (rels_new "_rels/.rels" o) as [o2 [r0|e|e]] eqn:Er; [|done..]. destruct (rels_opened _ _ _ _ Er) as (_ & _ & Hrp & _).
    destruct (core_new (r0, o2)) as [[r1 o3] [core|e|e]] eqn:Ec; [|done..]. injection Es as <-. cbn [su_root].
    unfold core_new in Ec. unfold bind at 1 in Ec. unfold on_rels in Ec. cbn [fst snd] in Ec. pose proof (part_path_rels c_core None r0) as Hpr. destruct (part_path _ _ r0) as [r2 [path|e|e]]; [|done..].
    unfold bind, on_office in Ec. cbn [fst snd] in *. destruct (get_xml_document core_init path o2) as [o4 [[]|e|e]]; [|done..]. injection Ec as -> _ _. by rewrite Hpr. }
  destruct (found_workbook (su_root s, su_office s) _ _ (op_docs _ _ _ O1) Hrp Ew) as (_ & p0 & d' & r & Hsr & Hlr & Hf). cbn [snd] in Hsr.
  assert (rl_rels r = rels) as <-; [|done]. eapply lists_read; [|exact Hl| |done]; [intros data Hin; by apply Hparts|].
  eapply source_back; [exact O1| |done]. apply (op_closed _ _ _ O2). apply own_rels.
Qed.
(** A sheet of the file leads, as long as it is not deleted, to the part it led to. *)
Theorem found_sheet file fs0 l0 x0 rels cs s x r s1 name w folder : Stored fs0 file l0 -> excel_new (Some file) fs0 = Ok x0 -> rl_path (wb_rels (x_book x0)) <> content_types_name ->
  Lists l0 (rl_path (wb_rels (x_book x0))) rels -> OwnerFolder (rl_path (wb_rels (x_book x0))) folder -> NoDup (map r_id rels) ->
  calls cs (x0, []) = Some s -> List.find (fun x => String.eqb (sh_name x) name) (wb_sheets (x_book s.1)) = Some x -> r ∈ rels -> r_id r = sh_rel x -> r_target r ∉ deleted cs (x0, []) ->
  forall c0, asks c0 (Some name) -> call_step c0 s = (s1, Ok tt) -> handle (length s.2) s1 = Some w -> Resolves folder (r_target r) (ws_path w).
Proof.
  intros Hst Hx Hct Hl Hf Hnd Hcs Hfind Hr Hid Hdel c0 Hask Hstep Hh. destruct (sources_opened _ _ _ Hx) as (o & Ho & S). destruct (reopened_file _ _ _ _ Hst Ho) as (_ & Hparts & _).
  destruct (so_rels _ _ _ S) as (p0 & d' & r0 & Hsrc & Hload & _ & Hg).
  assert (rl_rels r0 = rels) as Hr0. { eapply lists_read; [|done|exact Hsrc|exact Hload]. intros data Hin. by apply Hparts. }
  assert (Evolved rels [] (wb_rels (x_book x0))) as Hev.
  { destruct Hg as (_ & (new & G1 & G2) & G3). exists new. rewrite G1, Hr0. split; [|split; [done|]].
    - f_equal. clear. induction rels as [|y l IH]; [done|]. rewrite filter_cons_True; [by f_equal|]. by apply not_elem_of_nil.
    - intros Hn. apply G3. unfold rel_ids. by rewrite Hr0. }
  apply (calls_rels cs (x0, []) s _ _ Hcs) in Hev. cbn [app] in Hev. destruct Hev as (new & V1 & _ & V3). specialize (V3 Hnd).
  destruct (new_linv _ _ _ Hx) as [I0 _]. destruct (own_stays _ _ _ I0 Hcs) as [Hown _].
  assert (rl_path (wb_rels (x_book s.1)) = rl_path (wb_rels (x_book x0))) as Hpath. { pose proof Hown as Hq. unfold own_parts in Hq. by injection Hq. }
  assert (r ∈ rl_rels (wb_rels (x_book s.1))) as Hin. { rewrite V1, elem_of_app. left. by apply elem_of_list_filter. }
  assert (List.find (fun y => seqb (r_id y) (sh_rel x)) (rl_rels (wb_rels (x_book s.1))) = Some r) as Hfr.
  { unfold rel_ids in V3. revert Hin V3. clear -Hid. induction (rl_rels (wb_rels (x_book s.1))) as [|y l IH]; [by intros ?%elem_of_nil|]. cbn [map List.find]. rewrite NoDup_cons, elem_of_cons.
    intros [<-|Hin] [Hn Hnd].
    - by rewrite (proj2 (seqb_true _ _) Hid).
    - rewrite (proj2 (seqb_false _ _)); [by apply IH|]. intros Hy. apply Hn. rewrite Hy, <- Hid. by apply elem_of_list_fmap_1. }
  rewrite <- Hpath in Hf. destruct (resolve_spec _ _ (r_target r) Hf) as (q & Hq & Hres).
  destruct (asked_handle _ _ _ _ _ Hask Hstep Hh) as (st & Hnew & _).
  destruct (ws_new_list (Some name) (wb_sheets (x_book s.1), (wb_rels (x_book s.1), x_office s.1))) as (_ & _ & L3). rewrite Hnew in L3. destruct (L3 w eq_refl) as (p & nm & Hp & <- & _).
  unfold get_sheet_file_name, bind, get, lift, ret in Hp. cbn [fst snd mbind option_bind] in Hp. unfold seqb in Hp. rewrite Hfind in Hp.
  unfold get_target_by_id in Hp. rewrite Hfr, Hq in Hp. cbn in Hp. by injection Hp as -> _.
Qed.
End with_env.
