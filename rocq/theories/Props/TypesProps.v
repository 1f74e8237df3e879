(** C29, C41: content types and relationships across save and reopen. *)
From Verif.Model Require Import Relations.
From Verif.Spec Require Import PackageSpec RelSpec XmlSpec XmlRepr DemoEnv.
From Verif.Proofs Require Import BaseFacts XmlWriteFacts XmlReadFacts XmlNsFacts PackageFacts DocBuild PartFacts
  TypesFacts RelDocFacts.

(** C29: in every saved package the content types part is well-formed, has exactly one override
    for a part with a content type, none for a part without, and a default entry for the extension
    recorded for the part. *)
Theorem C29_every_part_declared : forall (E : Env) (a : gmap string entry) (b : string),
  save_archive a = Ok b ->
  exists files nsl text root, env_unzip b = Some files
  /\ ("[Content_Types].xml", prolog +:+ text) ∈ files
  /\ Renders (Some nsl) root text /\ t_tag root = "Types"
  /\ (forall name data, (name, data) ∈ files -> name = "[Content_Types].xml" \/ is_Some (a !! name))
  /\ (forall name e, a !! name = Some e ->
        (exists data, part_bytes e = Ok data /\ (name, data) ∈ files)
        /\ match en_ct e with
           | Some ct => exists t, List.filter (speaks_of name) (t_children root) = [t] /\ OverrideFor name ct t
           | None => List.filter (speaks_of name) (t_children root) = []
           end
        /\ exists t, t ∈ t_children root /\ DefaultFor (en_ext e) (en_ext_type e) t).
Proof.
  intros E a b Hs. destruct (save_archive_text a b Hs) as (l & Hu & Hct & Hl).
  eexists _, (hash_entries (written_ns types_ns)), (render_root types_ns (types_tree (arch_exts a) (arch_ovs a))), _.
  split; [exact Hu|]. split; [apply elem_of_app; right; left|]. split; [apply render_renders_mut|]. split; [done|]. split.
  { intros name data Hin. apply elem_of_app in Hin as [Hin|Hin].
    - right. apply Hl in Hin as (e & He & _). by exists e.
    - left. apply elem_of_list_singleton in Hin. by injection Hin as -> _. }
  intros name e He. split; [|split].
  - unfold save_archive in Hs. destruct (rmapM _ (hash_entries a)) as [l0| |] eqn:E0; [|done|done].
    assert ((name, e) ∈ hash_entries a) as Hin by (by apply hash_entries_lookup).
    destruct (rmapM_in _ _ _ _ E0 Hin) as (y & Hy & _). cbn in Hy.
    destruct (part_bytes e) as [bs| |] eqn:Eb; [|done|done]. exists bs. split; [done|]. apply elem_of_app. left. apply Hl. eauto.
  - cbn [types_tree t_children]. rewrite List.filter_app.
    rewrite (filter_none _ (map default_tree _)).
    2:{ intros x Hx. apply elem_of_list_fmap in Hx as (y & -> & _). done. }
    cbn [app]. rewrite filter_map_comm.
    assert (forall x, speaks_of name (override_tree x) = seqb x.1 ("/" +:+ name)) as Hsp by done.
    destruct (en_ct e) as [ct|] eqn:Ec.
    + rewrite (filter_speaks _ _ ("/" +:+ name) ct); [|apply arch_ovs_nodup|apply arch_ovs_elem; eauto|done].
      eexists. split; [done|]. done.
    + rewrite (filter_speaks_none _ _ ("/" +:+ name)); [done| |done]. intros t Hin.
      apply arch_ovs_elem in Hin as (n & e' & He' & Ht & Hx).
      change (String "/" name = String "/" n) in Hx. injection Hx as <-. congruence.
  - exists (default_tree (en_ext e, en_ext_type e)). split; [|done]. cbn [types_tree t_children]. apply elem_of_app. left.
    apply elem_of_list_fmap. eexists. split; [done|]. apply arch_exts_elem. eauto.
Qed.
(** Reopening what was saved gives the same parts with the same bytes and types, when no text
    involved has a character special in XML, every part is filed under the extension of its name,
    and an extension always means the same type. *)
Theorem C29_reload : forall (E : Env) (a : gmap string entry) (b : string),
  a <> ∅ -> save_archive a = Ok b ->
  (forall n e, a !! n = Some e ->
     plain_text n /\ plain_text (en_ext e) /\ plain_text (en_ext_type e) /\ from_option plain_text True (en_ct e)
     /\ en_ext e = file_extension n) ->
  (forall n1 e1 n2 e2, a !! n1 = Some e1 -> a !! n2 = Some e2 -> en_ext e1 = en_ext e2 -> en_ext_type e1 = en_ext_type e2) ->
  exists a', load_archive b = Ok a' /\
    forall n, match a !! n, a' !! n with
              | Some e, Some e' => same_part e e'
              | None, None => True
              | _, _ => False
              end.
Proof.
  intros E a b Hne Hs Hpl Hfun. destruct (save_load a b Hne) as (a' & Hload & Hparts); [|done|].
  { intros n e He. by apply Hpl in He as (? & _). }
  exists a'. split; [done|]. intros n. specialize (Hparts n). destruct (a !! n) as [e|] eqn:Ea; [|by rewrite Hparts].
  destruct Hparts as (data & Hb & ->). destruct (Hpl n e Ea) as (H1 & H2 & H3 & H4 & H5).
  assert (extension_of (map (fun xt => (spec_escape xt.1, spec_escape xt.2)) (arch_exts a)) n = (en_ext e, en_ext_type e)) as ->.
  { assert (map (fun xt => (spec_escape xt.1, spec_escape xt.2)) (arch_exts a) = arch_exts a) as ->.
    { rewrite <- (map_id (arch_exts a)) at 2. apply map_ext_in. intros [x t] Hin. apply elem_of_list_In, arch_exts_elem in Hin as (n0 & e0 & He0 & Hx).
      injection Hx as -> ->. destruct (Hpl _ _ He0) as (_ & Hx1 & Hx2 & _). cbn [fst snd]. by rewrite !spec_escape_fixed. }
    unfold extension_of. rewrite <- H5. rewrite (find_ext _ (en_ext e) (en_ext_type e)); [done|apply arch_exts_elem; eauto|].
    intros t' Hin. apply arch_exts_elem in Hin as (n0 & e0 & He0 & Hx). injection Hx as Hx ->. by eapply Hfun. }
  cbn [fst snd]. unfold same_part. rewrite part_bytes_pack, Hb. cbn [pack en_ct en_ext en_ext_type]. split; [done|]. split; [|done].
  destruct (en_ct e); [|done]. cbn in H4 |- *. f_equal. by apply spec_escape_fixed.
Qed.
(** Without the side conditions the declaration does not survive: a part whose extension has no
    default entry (legal when it has an override) is saved with a default entry for the empty
    extension; the override of a part with an ampersand in its name is lost on reopening. *)
Definition demo_types (l : list (string * string)) : string :=
  "<Types>" +:+ String.concat "" (map (fun nt : string * string =>
     "<Override PartName=""" +:+ nt.1 +:+ """ ContentType=""" +:+ nt.2 +:+ """/>") l) +:+ "</Types>".
Definition tail_of (n : nat) (s : string) : string := sdrop (String.length s - n) s.
Theorem C29_empty_default_refuted : let E := demo_env Checked in
  exists a b files types, load_archive (env_zip [("[Content_Types].xml", demo_types [("/a.foo", "t")]); ("a.foo", "x")]) = Ok a
  /\ save_archive a = Ok b /\ env_unzip b = Some files /\ ("[Content_Types].xml", types) ∈ files
  /\ tail_of 93 types = "<Default ContentType="""" Extension="""" /><Override ContentType=""t"" PartName=""/a.foo"" /></Types>".
Proof.
  cbn zeta. set (E := demo_env Checked).
  destruct (load_archive (env_zip [("[Content_Types].xml", demo_types [("/a.foo", "t")]); ("a.foo", "x")])) as [a| |] eqn:Ea.
  2,3: (exfalso; assert (is_ok (load_archive (env_zip [("[Content_Types].xml", demo_types [("/a.foo", "t")]); ("a.foo", "x")])) = true)
    by (by vm_compute); by rewrite Ea in *).
  assert (match rbind (load_archive (env_zip [("[Content_Types].xml", demo_types [("/a.foo", "t")]); ("a.foo", "x")])) save_archive with
    | Ok b => match env_unzip b with Some [_; (n, types)] => n = "[Content_Types].xml" /\
        tail_of 93 types = "<Default ContentType="""" Extension="""" /><Override ContentType=""t"" PartName=""/a.foo"" /></Types>" | _ => False end
    | _ => False end) as Hc by (by vm_compute).
  rewrite Ea in Hc. cbn [rbind] in Hc. destruct (save_archive a) as [b| |] eqn:Eb; try done.
  destruct (env_unzip b) as [[|f1 [|[n types] [|]]]|] eqn:Eu; try done. destruct Hc as [-> Hc].
  exists a, b, [f1; ("[Content_Types].xml", types)], types. split; [done|]. split; [done|]. split; [done|]. split; [right; left|done].
Qed.
Theorem C29_special_name_refuted : let E := demo_env Checked in
  exists a b a' e e', save_archive a = Ok b /\ load_archive b = Ok a'
  /\ a !! "a&b.xml" = Some e /\ a' !! "a&b.xml" = Some e' /\ en_ct e = Some "t" /\ en_ct e' = None.
Proof.
  cbn zeta. set (E := demo_env Checked). set (a := {["a&b.xml" := pack "xml" "x" (Some "t") "<a/>"]} : gmap string entry).
  assert (match rbind (save_archive a) load_archive with Ok a' => match a' !! "a&b.xml" with Some e' => en_ct e' = None | _ => False end | _ => False end) as Hc
    by (by vm_compute).
  destruct (save_archive a) as [b| |] eqn:Eb; try done. cbn [rbind] in Hc. destruct (load_archive b) as [a'| |] eqn:El; try done.
  destruct (a' !! "a&b.xml") as [e'|] eqn:Ee; [|done].
  exists a, b, a', (pack "xml" "x" (Some "t") "<a/>"), e'. done.
Qed.
Definition demo_archive `{Env} : gmap string entry :=
  <["xl/workbook.xml" := pack "xml" "application/xml" (Some "w") "<a><b/></a>"]>
  {["_rels/.rels" := pack "rels" "r" None "<a><b/></a>"]}.
Example C29_example : let E := demo_env Wrapping in
  (exists b, save_archive demo_archive = Ok b) /\ demo_archive <> ∅
  /\ forall n e, demo_archive !! n = Some e ->
     plain_text n /\ plain_text (en_ext e) /\ plain_text (en_ext_type e) /\ from_option plain_text True (en_ct e)
     /\ en_ext e = file_extension n.
Proof.
  cbn zeta. set (E := demo_env Wrapping). split; [|split].
  - destruct (save_archive demo_archive) as [b| |] eqn:Eb; [by exists b| |];
      (exfalso; assert (is_ok (save_archive demo_archive) = true) by (by vm_compute); by rewrite Eb in *).
  - unfold demo_archive. apply insert_non_empty.
  - intros n e. unfold demo_archive. rewrite lookup_insert_Some, lookup_singleton_Some. intros [[<- <-]|[_ [<- <-]]]; by vm_compute.
Qed.

(** C41: close a relationships part and open it again: the same relationships in the same order,
    and the handle is again in the state required. *)
Theorem C41_reopen : forall (E : Env) (o : office) (r : relations),
  RelsOpen o (rl_path r) -> rl_rels r <> [] ->
  exists o1 o2, rels_close r o = (o1, Ok tt) /\ of_open o1 !! rl_path r = None
  /\ rels_new (rl_path r) o1 = (o2, Ok (mkRelations (map escaped_rel (rl_rels r)) (rl_path r)))
  /\ RelsOpen o2 (rl_path r)
  /\ (Forall (fun x => plain_text (r_id x) /\ plain_text (r_target x) /\ plain_text (r_type x)
                       /\ from_option plain_text True (r_mode x)) (rl_rels r) ->
      map escaped_rel (rl_rels r) = rl_rels r).
Proof.
  intros E o r Ho Hne. destruct (rels_roundtrip o r Ho Hne) as (e & Hc & Hre).
  set (o1 := mkOffice _ _) in Hc. destruct (Hre o1 e) as (o2 & Hn & Hopen & _); [apply lookup_delete|apply lookup_insert|done|].
  exists o1, o2. split; [done|]. split; [apply lookup_delete|]. split; [done|]. split; [done|].
  intros Hp. rewrite <- (map_id (rl_rels r)) at 2. apply map_ext_in. intros [i t y m] Hin.
  rewrite Forall_forall in Hp. apply elem_of_list_In in Hin. destruct (Hp _ Hin) as (H1 & H2 & H3 & H4). cbn in H1, H2, H3, H4.
  unfold escaped_rel. cbn. rewrite !spec_escape_fixed by done. destruct m; [|done]. cbn in H4 |- *. by rewrite spec_escape_fixed.
Qed.
(** It also survives saving the package to a file and opening that. *)
Theorem C41_save_reopen : forall (E : Env) (o o1 : office) (r : relations) (b : string),
  RelsOpen o (rl_path r) -> rl_rels r <> [] -> rels_close r o = (o1, Ok tt) ->
  (forall n e, of_archive o1 !! n = Some e -> plain_text n) ->
  save_archive (of_archive o1) = Ok b ->
  exists a2 o3, load_archive b = Ok a2
  /\ rels_new (rl_path r) (mkOffice ∅ a2) = (o3, Ok (mkRelations (map escaped_rel (rl_rels r)) (rl_path r))).
Proof.
  intros E o o1 r b Ho Hne Hcl Hpl Hs. set (path := rl_path r) in *.
  destruct (rels_roundtrip o r Ho Hne) as (e & Hc & Hre). rewrite Hc in Hcl. injection Hcl as <-. fold path in Hc, Hre.
  cbn [of_archive] in *. destruct (save_load _ b (insert_non_empty _ _ _) Hpl Hs) as (a2 & Hl & Hp).
  specialize (Hp path). fold path in Hp. rewrite lookup_insert in Hp. destruct Hp as (data & Hb & Hp). cbv zeta in Hp.
  destruct (Hre (mkOffice ∅ a2) _ (lookup_empty _) Hp) as (o3 & Hn & _); [by rewrite part_bytes_pack, Hb|].
  by exists a2, o3.
Qed.
(** The requirement holds for a relationships part just created. *)
Theorem C41_fresh : forall (E : Env) (o : office) (path : string),
  of_open o !! path = None -> of_archive o !! path = None ->
  exists o1, rels_new path o = (o1, Ok (mkRelations [] path)) /\ RelsOpen o1 path.
Proof. intros E o path Ho Ha. destruct (rels_new_fresh o path Ho Ha) as (o1 & H1 & H2 & _). eauto. Qed.
(** But a handle closed without any relationship blocks the part for the rest of the session. *)
Theorem C41_empty_reopen_refuted : forall (E : Env) (o : office) (path : string),
  of_open o !! path = None -> of_archive o !! path = None ->
  exists o1 o2 e, rels_new path o = (o1, Ok (mkRelations [] path))
  /\ rels_close (mkRelations [] path) o1 = (o2, Ok tt)
  /\ rels_new path o2 = (o2, Err e).
Proof.
  intros E o path Ho Ha. destruct rels_init_spec as (d & Hi & Hd & Hns).
  destruct (Doc_load_relations d _ _ _ _ Hd) as (d' & Hl & Hd' & _). cbn [List.filter] in Hl, Hd'.
  destruct (Doc_save_relationships d' _ _ _ _ [] Hd') as (d2 & Hsv & _). cbn [length] in Hsv.
  unfold rels_new, bind at 1. unfold get_xml_document at 1, get_xml_tree at 1, bind at 1. rewrite Ho, Ha.
  unfold bind at 1, lift. rewrite Hi. unfold get_xml_document_ref, modify. unfold bind.
  set (o1 := set_open _ _). rewrite (with_doc_spec path load_relations o1 _ d' (Ok []) (lookup_insert _ _ _) Hl). cbn [rmap].
  eexists _, _, _. split; [done|]. split.
  - unfold rels_close, bind. cbn [rl_path rl_rels].
    erewrite with_doc_spec; [|cbn; apply lookup_insert|cbn; exact Hsv]. cbn. done.
  - unfold get_xml_document, get_xml_tree, bind. cbn [of_open set_archive]. rewrite lookup_insert. done.
Qed.
Example C41_example : let E := demo_env Checked in
  exists o1 r, rels_new "_rels/.rels" (mkOffice ∅ ∅) = (o1, Ok (mkRelations [] "_rels/.rels"))
  /\ r = run_rels [RAdd c_workbook None None; RAdd c_core None None] (mkRelations [] "_rels/.rels")
  /\ rl_rels r <> [] /\ RelsOpen o1 (rl_path r)
  /\ Forall (fun x => plain_text (r_id x) /\ plain_text (r_target x) /\ plain_text (r_type x)
                       /\ from_option plain_text True (r_mode x)) (rl_rels r).
Proof.
  cbn zeta. set (E := demo_env Checked). destruct (C41_fresh E (mkOffice ∅ ∅) "_rels/.rels") as (o1 & H1 & H2); [done|done|].
  eexists o1, _. split; [done|]. split; [reflexivity|]. split; [by vm_compute|]. split; [done|].
  repeat constructor; by vm_compute.
Qed.

Print Assumptions C29_every_part_declared.
Print Assumptions C29_reload.
Print Assumptions C29_empty_default_refuted.
Print Assumptions C29_special_name_refuted.
Print Assumptions C41_reopen.
Print Assumptions C41_save_reopen.
Print Assumptions C41_fresh.
Print Assumptions C41_empty_reopen_refuted.
