(** C27, C28, C33: untouched parts, the save sequence, handles. *)
From Verif.Model Require Import Package.
From Verif.Spec Require Import PackageSpec XmlSpec XmlRepr DemoEnv.
From Verif.Proofs Require Import BaseFacts PackageFacts XmlWriteFacts XmlReadFacts.

(** C27: load a package, run any history of operations (including failing ones and intermediate
    saves) none of which concerns the part [name], save: the new file holds the part with the
    bytes of the old one. *)
Theorem C27_untouched_part : forall (E : Env) (fs fs1 : filesys) (p q name data : string)
    (l : list (string * string)) (o o' : office) (os : list pkg_op) (f : faults) (tr : list filesys),
  Stored fs p l -> office_new (Some p) fs = Ok o ->
  (name, data) ∈ l -> name <> "[Content_Types].xml" ->
  Forall (fun op => ~ touches name op) os ->
  office_save f q (run_pkgs os o) fs1 = (o', (tr, Ok tt)) ->
  exists l' fs', last tr = Some fs' /\ Stored fs' q l' /\ (name, data) ∈ l'.
Proof.
  intros E fs fs1 p q name data l o o' os f tr (b & Hb & Hu) Hnew Hin Hne Hos Hsave.
  unfold office_new in Hnew. rewrite Hb in Hnew. cbn [of_option rbind] in Hnew.
  destruct (load_archive b) as [m| |] eqn:Em; try done. cbn in Hnew. injection Hnew as <-.
  destruct (load_archive_spec b m Em) as (l0 & Hu0 & _ & Hparts & _).
  rewrite Hu in Hu0. injection Hu0 as <-.
  destruct (Hparts name data Hin Hne) as (x & t & ct & Hm).
  destruct (run_pkgs_frame os name (mkOffice ∅ m) (Some (pack x t ct data)) Hos) as [Ho Ha]; [done|done|].
  unfold office_save in Hsave. set (o1 := run_pkgs os (mkOffice ∅ m)) in *.
  pose proof (close_list_frame (env_order (map_keys (of_open o1))) name o1 _ Ho Ha) as [Ho2 Ha2].
  unfold close_all in Hsave. destruct (iterM _ _ o1) as [o2 [[]| |]]; try done. cbn in Ho2, Ha2.
  destruct (save_archive (of_archive o2)) as [nb| |] eqn:Es; try done.
  injection Hsave as <- Hw.
  destruct (save_archive_files _ _ Es) as (lf & types & Hun & _ & _ & Hfiles).
  assert (exists fs', last tr = Some fs' /\ fs' !! q = Some nb) as (fs' & Hl & Hq).
  { unfold write_file in Hw. destruct (_ && _); [done|]. destruct (f_create f); [done|].
    destruct (write_pieces _ _ _ _) as [ps ok] eqn:Ep. destruct ok; [|done]. injection Hw as <-.
    apply write_pieces_spec in Ep as [_ Hlast]. specialize (Hlast eq_refl). cbn [String.append] in Hlast.
    eexists. split; [by apply last_written|apply lookup_insert]. }
  exists (lf ++ [(content_types_name, types)]), fs'. split; [done|]. split; [by exists nb|].
  apply elem_of_app. left. apply Hfiles. exists (pack x t ct data). split; [done|]. apply part_bytes_pack.
Qed.

Definition demo_pkg : list (string * string) :=
  [("[Content_Types].xml", "<Types><Default Extension=""bin"" ContentType=""b""/><Override PartName=""/x.xml"" ContentType=""t""/></Types>");
   ("a.bin", "DATA"); ("x.xml", "<x><y/></x>")].
Example C27_example : let E := demo_env Checked in
  let fs : filesys := {["in" := env_zip demo_pkg]} in
  Stored fs "in" demo_pkg
  /\ match office_new (Some "in") fs with
     | Ok o => (office_save (mkFaults false false None []) "out"
          (run_pkgs [POpen (Err "") "x.xml"; PEdit "x.xml" (fun d => d); PSave (mkFaults true true None []) "q" ∅;
                     PDelete "x.xml"; POpen (Err "no") "x.xml"] o) fs).2.2 = Ok tt
     | _ => False
     end.
Proof. cbn zeta. split; [eexists; split; by vm_compute|by vm_compute]. Qed.

(** C28: the states the file system goes through. Any crash leaves one of them. *)
Theorem C28_save_states : forall (E : Env) (f : faults) (path : string) (o o' : office) (fs : filesys)
    (tr : list filesys) (r : res unit),
  office_save f path o fs = (o', (tr, r)) ->
  (** failed before the output was complete in memory, or the old file could not be removed:
      the file system is never touched *)
  (tr = [] /\ r <> Ok tt)
  \/ exists new, save_archive (of_archive o') = Ok new
     /\ Forall (fun s => OnlyAt path fs s /\ match s !! path with None => True | Some b => Prefix b new end) tr
     /\ (r = Ok tt -> exists s, last tr = Some s /\ OnlyAt path fs s /\ s !! path = Some new).
Proof.
  intros E f path o o' fs tr r. unfold office_save.
  destruct (close_all o) as [o1 [[]| |]]; [|intros [= <- <- <-]; by left|intros [= <- <- <-]; by left].
  destruct (save_archive (of_archive o1)) as [new| |] eqn:Es; intros Hs;
    [|injection Hs as <- <- <-; by left|injection Hs as <- <- <-; by left].
  injection Hs as <- Hw. unfold write_file in Hw.
  destruct (_ && _); [injection Hw as <- <-; by left|]. right. exists new. split; [done|].
  set (t1 := match fs !! path with Some _ => true | None => false end) in Hw.
  assert (Forall (fun s => OnlyAt path fs s /\ match s !! path with None => True | Some b => Prefix b new end)
    (if t1 then [delete path fs] else [])) as H1.
  { destruct t1; [|constructor]. apply List.Forall_cons; [|constructor]. split.
    - intros q Hq. by rewrite lookup_delete_ne.
    - by rewrite lookup_delete. }
  destruct (f_create f); [injection Hw as <- <-; split; [exact H1|done]|].
  destruct (write_pieces _ _ _ _) as [ps ok] eqn:Ep. injection Hw as <- <-.
  apply write_pieces_spec in Ep as [Hps Hlast]. cbn [String.append] in Hps, Hlast.
  assert (forall b, OnlyAt path fs (<[path:=b]> (delete path fs))) as Hat.
  { intros b q Hq. by rewrite lookup_insert_ne, lookup_delete_ne. }
  split.
  - apply Forall_app. split; [exact H1|]. apply List.Forall_cons.
    + split; [apply Hat|]. rewrite lookup_insert. by exists new.
    + apply Forall_forall. intros s Hin. apply elem_of_list_fmap in Hin as (b & -> & Hin).
      split; [apply Hat|]. rewrite lookup_insert. eapply Forall_forall in Hps; [exact Hps|done].
  - destruct ok; [|done]. intros _. specialize (Hlast eq_refl).
    exists (<[path:=new]> (delete path fs)). split; [|split; [apply Hat|apply lookup_insert]].
    by apply (last_written _ _ (fun b => <[path:=b]> (delete path fs))).
Qed.
(** Failing because a part cannot be written, or because the old file cannot be removed, keeps
    the file system as it was. *)
Theorem C28_early_failure_harmless : forall (E : Env) (f : faults) (path : string) (o o' : office)
    (fs : filesys) (tr : list filesys) (r : res unit),
  office_save f path o fs = (o', (tr, r)) ->
  is_ok (close_all o).2 = false \/ is_ok (save_archive (of_archive o')) = false
  \/ (f_remove f = true /\ is_Some (fs !! path)) ->
  tr = [] /\ is_ok r = false.
Proof.
  intros E f path o o' fs tr r. unfold office_save.
  destruct (close_all o) as [o1 [[]| |]]; cbn [snd is_ok].
  - destruct (save_archive (of_archive o1)) as [new| |] eqn:Es; intros Hs Hc;
      [|injection Hs as <- <- <-; done|injection Hs as <- <- <-; done].
    injection Hs as <- Hw. rewrite Es in Hc. destruct Hc as [Hc|[Hc|[Hc1 [x Hc2]]]]; [done|done|].
    unfold write_file in Hw. rewrite Hc1, Hc2 in Hw. cbn in Hw. injection Hw as <- <-. done.
  - intros [= <- <- <-]. done.
  - intros [= <- <- <-]. done.
Qed.
(** The save is not atomic: whatever the package and whatever file is replaced, every save that
    gets as far as removing the old file passes through a state without the file, and one where
    it is empty unless creation fails. *)
Theorem C28_window : forall (E : Env) (f : faults) (path old : string) (o o' : office) (fs : filesys)
    (tr : list filesys),
  fs !! path = Some old -> office_save f path o fs = (o', (tr, Ok tt)) ->
  (exists s, s ∈ tr /\ s !! path = None) /\ (exists s, s ∈ tr /\ s !! path = Some "").
Proof.
  intros E f path old o o' fs tr Hold. unfold office_save.
  destruct (close_all o) as [o1 [[]| |]]; try done.
  destruct (save_archive (of_archive o1)) as [new| |]; try done. intros [= <- Hw].
  unfold write_file in Hw. rewrite Hold in Hw. cbn [andb] in Hw. destruct (f_remove f); [done|].
  destruct (f_create f); [done|]. destruct (write_pieces _ _ _ _) as [ps ok]. injection Hw as <- _. split.
  - exists (delete path fs). split; [left|apply lookup_delete].
  - exists (<[path:=""]> (delete path fs)). split; [|apply lookup_insert].
    right. left.
Qed.
Theorem C28_atomic_refuted : exists (E : Env) (f : faults) (path old new : string) (o o' : office)
    (fs s : filesys) (tr : list filesys) (r : res unit),
  fs !! path = Some old /\ office_save f path o fs = (o', (tr, r)) /\ r <> Ok tt
  /\ save_archive (of_archive o') = Ok new
  /\ last tr = Some s /\ s !! path <> Some old /\ s !! path <> Some new.
Proof.
  exists (demo_env Checked), (mkFaults false false (Some 1%nat) [3%nat]), "a.xlsx", "old".
  eexists _, (mkOffice ∅ {["xl/a.xml" := @pack (demo_env Checked) "xml" "application/xml" None "<a/>"]}),
    _, {["a.xlsx" := "old"]}, _, _, _.
  split; [by vm_compute|]. split; [by vm_compute|]. split; [done|].
  split; [by vm_compute|]. split; [by vm_compute|]. split; by vm_compute.
Qed.

(** C33: a second open of an open part fails without any effect. *)
Theorem C33_exclusive : forall (E : Env) (init : res open_part) (path : string) (o : office) (p : open_part),
  of_open o !! path = Some p ->
  exists e, get_xml_document init path o = (o, Err e).
Proof. intros E init path o p Hp. unfold get_xml_document, get_xml_tree, bind. rewrite Hp. eauto. Qed.
(** Opening a stored part takes it out of the store and gives its parsed content under its type;
    if the bytes do not parse the part is in neither place. *)
Theorem C33_open : forall (E : Env) (init : res open_part) (path : string) (o o' : office) (e : entry)
    (data : string) (r : res unit),
  of_open o !! path = None -> of_archive o !! path = Some e -> en_content e <> None ->
  part_bytes e = Ok data ->
  get_xml_document init path o = (o', r) ->
  of_archive o' = delete path (of_archive o)
  /\ match read_doc data with
     | Ok d => r = Ok tt /\ of_open o' = <[path := mkOpen d (en_ct e) (en_ext e) (en_ext_type e)]> (of_open o)
     | Err m => r = Err m /\ of_open o' = of_open o
     | Panic m => r = Panic m /\ of_open o' = of_open o
     end.
Proof.
  intros E init path o o' e data r Ho Ha Hc Hd.
  unfold get_xml_document, get_xml_tree, bind, ret, lift, get_xml_document_ref, modify. rewrite Ho, Ha.
  unfold part_bytes in Hd. destruct (en_content e) as [c|]; [|done]. cbn [of_option rbind]. rewrite Hd.
  cbn [rbind]. destruct (read_doc data) as [d| |]; cbn; intros [= <- <-]; done.
Qed.
(** Opening a part that is nowhere creates it from the template of its kind. *)
Theorem C33_create : forall (E : Env) (p : open_part) (path : string) (o : office),
  of_open o !! path = None -> of_archive o !! path = None ->
  get_xml_document (Ok p) path o = (mkOffice (<[path := p]> (of_open o)) (of_archive o), Ok tt).
Proof.
  intros E p path o Ho Ha. unfold get_xml_document, get_xml_tree, bind. rewrite Ho, Ha. done.
Qed.
(** Closing returns exactly the written form of the current content, under the path and type. *)
Theorem C33_close : forall (E : Env) (path : string) (o : office) (p : open_part) (data : string),
  of_open o !! path = Some p -> write_doc (op_doc p) = Ok data ->
  exists e, close_xml_document path o
            = (mkOffice (delete path (of_open o)) (<[path := e]> (of_archive o)), Ok tt)
  /\ part_bytes e = Ok data /\ en_ct e = op_ct p /\ en_ext e = op_ext p /\ en_ext_type e = op_ext_type p.
Proof.
  intros E path o p data Hp Hw. exists (pack (op_ext p) (op_ext_type p) (op_ct p) data).
  split; [|split; [apply part_bytes_pack|done]].
  unfold close_xml_document. rewrite Hp, Hw. done.
Qed.
(** Close and reopen: the tree comes back (texts trimmed, attributes escaped), same type. *)
Theorem C33_close_reopen : forall (E : Env) (path : string) (o : office) (p : open_part) (it : itree)
    (init : res open_part),
  of_open o !! path = Some p -> Represents (op_doc p) it -> names_ok (erase it) -> ns_ok (d_ns (op_doc p)) ->
  t_value (erase it) <> None \/ t_children (erase it) <> [] ->
  exists o1 d' it', close_xml_document path o = (o1, Ok tt)
  /\ get_xml_document init path o1
     = (mkOffice (<[path := mkOpen d' (op_ct p) (op_ext p) (op_ext_type p)]> (of_open o))
                 (delete path (of_archive o)), Ok tt)
  /\ Represents d' it' /\ erase it' = reread (erase it).
Proof.
  intros E path o p it init Hp Hr Hn Hns Hroot.
  pose proof (write_doc_render _ _ Hr) as Hw.
  destruct (C33_close E path o p _ Hp Hw) as (e & Hcl & Hb & Hct & Hx & Ht).
  destruct (read_render_root (d_ns (op_doc p)) (erase it) Hn Hns Hroot)
    as (d' & it' & Hread & Hr' & _ & He & _).
  remember (prolog +:+ render_root (d_ns (op_doc p)) (erase it)) as data eqn:Hdata.
  assert (data <> "") as Hne by (subst data; unfold prolog; by destruct env_mode). clear Hdata.
  eexists _, d', it'. split; [exact Hcl|]. split; [|done].
  unfold get_xml_document, get_xml_tree, bind, ret, lift, get_xml_document_ref, modify.
  cbn [of_open of_archive]. rewrite lookup_delete, lookup_insert. unfold part_bytes in Hb.
  destruct (en_content e) as [c|] eqn:Ec; cbn [of_option rbind].
  - rewrite Hb. cbn [rbind]. rewrite Hread. cbn [rbind set_open set_archive of_open of_archive]. rewrite Hct, Hx, Ht.
    rewrite insert_delete_insert, delete_insert_delete. done.
  - injection Hb as Hb. congruence.
Qed.
(** No part is ever both open and stored, whatever the history. *)
Theorem C33_one_place : forall (E : Env) (os : list pkg_op) (o : office),
  (forall p, of_open o !! p = None \/ of_archive o !! p = None) ->
  forall p, of_open (run_pkgs os o) !! p = None \/ of_archive (run_pkgs os o) !! p = None.
Proof. intros E os o Ho. by apply run_pkgs_apart. Qed.

Example C33_example : let E := demo_env Wrapping in
  match office_new (Some "in") {["in" := env_zip demo_pkg]} with
  | Ok o =>
      let '(o1, r1) := get_xml_document (Err "") "x.xml" o in
      let '(o2, r2) := get_xml_document (Err "") "a.bin" o1 in
      r1 = Ok tt /\ is_ok r2 = false
      /\ (map_keys (of_open o1), map_keys (of_archive o1)) = (["x.xml"], ["a.bin"])
      /\ (map_keys (of_open o2), map_keys (of_archive o2)) = (["x.xml"], [])
  | _ => False
  end.
Proof. cbn zeta. by vm_compute. Qed.

Print Assumptions C27_untouched_part.
Print Assumptions C28_save_states.
Print Assumptions C28_early_failure_harmless.
Print Assumptions C28_window.
Print Assumptions C28_atomic_refuted.
Print Assumptions C33_exclusive.
Print Assumptions C33_open.
Print Assumptions C33_create.
Print Assumptions C33_close.
Print Assumptions C33_close_reopen.
Print Assumptions C33_one_place.
