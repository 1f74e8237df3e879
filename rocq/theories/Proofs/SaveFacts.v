(** From an open package to the file on disk, and from that file to a package again. *)
From Verif.Model Require Import Package.
From Verif.Spec Require Import PackageSpec.
From Verif.Proofs Require Import BaseFacts XmlReadFacts PackageFacts.
Open Scope N_scope.

Section with_env.
Context `{E : Env}.
Lemma close_list_open l : forall o o1 q p, iterM close_xml_document l o = (o1, Ok tt) -> q ∈ l -> of_open o !! q = Some p ->
  exists data, write_doc (op_doc p) = Ok data /\ of_open o1 !! q = None
  /\ of_archive o1 !! q = Some (pack (op_ext p) (op_ext_type p) (op_ct p) data).
Proof.
  induction l as [|x l IH]; intros o o1 q p; [by intros _ ?%elem_of_nil|]. cbn [iterM]. unfold bind.
  destruct (close_xml_document x o) as [o2 [[]|e|e]] eqn:Ec; [|done|done]. intros Hi Hq Hp.
  destruct (decide (x = q)) as [->|Hne].
  - unfold close_xml_document in Ec. rewrite Hp in Ec. destruct (write_doc (op_doc p)) as [data|e|e] eqn:Ew; [|done|done].
    injection Ec as <-. exists data. split; [done|].
    match type of Hi with iterM _ _ ?o2 = _ => destruct (close_list_frame l q o2 (Some (pack (op_ext p) (op_ext_type p) (op_ct p) data))) as [H1 H2] end.
    { cbn. apply lookup_delete. } { cbn. apply lookup_insert. }
    rewrite Hi in H1, H2. done.
  - destruct (close_other x q o Hne) as [H1 _]. rewrite Ec in H1. cbn [fst] in H1.
    apply (IH o2 o1 q p Hi); [|by rewrite H1]. by apply elem_of_cons in Hq as [->|Hq].
Qed.
(** Closing everything stores every open part and leaves the others. *)
Lemma close_all_spec o o1 q : close_all o = (o1, Ok tt) ->
  of_open o1 !! q = None /\
  match of_open o !! q with
  | Some p => exists data, write_doc (op_doc p) = Ok data /\ of_archive o1 !! q = Some (pack (op_ext p) (op_ext_type p) (op_ct p) data)
  | None => of_archive o1 !! q = of_archive o !! q
  end.
Proof.
  unfold close_all. intros Hc. destruct (of_open o !! q) as [p|] eqn:Eq.
  - destruct (close_list_open _ _ _ q p Hc) as (data & H1 & H2 & H3); [|done|].
    + apply (elem_of_Permutation_proper q _ _ (env_order_perm _)). unfold map_keys. apply elem_of_list_fmap. exists (q, p). split; [done|]. by apply elem_of_map_to_list.
    + split; [done|]. eauto.
  - destruct (close_list_frame (env_order (map_keys (of_open o))) q o _ Eq eq_refl) as [H1 H2]. rewrite Hc in H1, H2. done.
Qed.
Lemma write_file_last f path b fs tr : write_file f path b fs = (tr, Ok tt) -> exists fs', last tr = Some fs' /\ fs' !! path = Some b.
Proof.
  unfold write_file. destruct (_ && _); [done|]. destruct (f_create f); [done|].
  destruct (write_pieces _ _ _ _) as [ps ok] eqn:Ep. destruct ok; [|done]. intros [= <-].
  apply write_pieces_spec in Ep as [_ Hlast]. specialize (Hlast eq_refl). cbn [String.append] in Hlast.
  eexists. split; [by apply last_written|apply lookup_insert].
Qed.
(** A part of the saved package: its open document written out, else its stored bytes. *)
Definition part_data (o : office) (q : string) : res (option string) :=
  match of_open o !! q with
  | Some p => rmap Some (write_doc (op_doc p))
  | None => match of_archive o !! q with Some e => rmap Some (part_bytes e) | None => Ok None end
  end.
Lemma saved_file f path o fs o1 tr fs' : office_save f path o fs = (o1, (tr, Ok tt)) -> last tr = Some fs' ->
  exists l, Stored fs' path l /\ (forall q data, q <> content_types_name -> (q, data) ∈ l <-> part_data o q = Ok (Some data))
  /\ (forall q, q <> content_types_name -> exists x, part_data o q = Ok x)
  /\ part_data o content_types_name = Ok None.
Proof.
  unfold office_save. destruct (close_all o) as [o2 [[]|e|e]] eqn:Ec; [|done|done].
  destruct (save_archive (of_archive o2)) as [b|e|e] eqn:Es; [|done|done]. intros [= <- Hw] Hl.
  destruct (write_file_last _ _ _ _ _ Hw) as (fs2 & Hl2 & Hb). rewrite Hl in Hl2. injection Hl2 as <-.
  destruct (save_archive_files _ _ Es) as (l & types & Hu & _ & Hct & Hfiles).
  assert (forall q, part_data o q = match of_archive o2 !! q with Some e => rmap Some (part_bytes e) | None => Ok None end) as Hpd.
  { intros q. unfold part_data. destruct (close_all_spec o o2 q Ec) as [_ Hq]. destruct (of_open o !! q) as [p|]; [|by rewrite Hq].
    destruct Hq as (data & -> & ->). by rewrite part_bytes_pack. }
  assert (forall q e, of_archive o2 !! q = Some e -> exists data, part_bytes e = Ok data) as Hok.
  { intros q e He. unfold save_archive in Es.
    destruct (rmapM _ (hash_entries (of_archive o2))) as [files|m|m] eqn:Er; [|done|done].
    assert ((q, e) ∈ hash_entries (of_archive o2)) as Hin.
    { by apply hash_entries_lookup. }
    destruct (rmapM_in _ _ _ _ Er Hin) as (y & Hy & _). cbn in Hy. destruct (part_bytes e) as [d|m|m]; [eauto|done|done]. }
  exists (l ++ [(content_types_name, types)]). split; [by exists b|]. split; [|split].
  - intros q data Hq. rewrite Hpd, elem_of_app, elem_of_list_singleton. split.
    + intros [Hin|[= Hin _]]; [|done]. apply Hfiles in Hin as (e & -> & ->). done.
    + destruct (of_archive o2 !! q) as [e|] eqn:Eq; [|done]. intros He. left. apply Hfiles. exists e. split; [done|].
      destruct (part_bytes e); [|done|done]. by injection He as ->.
  - intros q _. rewrite Hpd. destruct (of_archive o2 !! q) as [e|] eqn:Eq; [|eauto]. destruct (Hok q e Eq) as (d & ->). cbn. eauto.
  - rewrite Hpd, Hct. done.
Qed.
Lemma reopened_file path fs l o : Stored fs path l -> office_new (Some path) fs = Ok o ->
  of_open o = ∅ /\ (forall q data, q <> content_types_name -> (q, data) ∈ l -> exists e, of_archive o !! q = Some e /\ part_bytes e = Ok data)
  /\ (forall q, q ∉ l.*1 -> of_archive o !! q = None).
Proof.
  intros (b & Hb & Hu). unfold office_new. rewrite Hb. cbn [of_option rbind]. destruct (load_archive b) as [m| |] eqn:Em; [|done|done].
  intros [= <-]. destruct (load_archive_spec b m Em) as (l0 & Hu0 & _ & Hparts & Hno). rewrite Hu in Hu0. injection Hu0 as <-.
  split; [done|]. split; [|done]. intros q data Hq Hin. destruct (Hparts q data Hin Hq) as (x & t & ct & Hm). eexists. split; [exact Hm|apply part_bytes_pack].
Qed.
(** Save, then open: every part has the bytes it was saved with. *)
Lemma save_reopen f path o fs o1 tr fs' o2 : office_save f path o fs = (o1, (tr, Ok tt)) -> last tr = Some fs' ->
  office_new (Some path) fs' = Ok o2 ->
  of_open o2 = ∅ /\ forall q, q <> content_types_name ->
    match part_data o q with Ok (Some data) => exists e, of_archive o2 !! q = Some e /\ part_bytes e = Ok data | _ => of_archive o2 !! q = None end.
Proof.
  intros Hs Hl Hn. destruct (saved_file _ _ _ _ _ _ _ Hs Hl) as (l & Hst & Hin & Hok & _).
  destruct (reopened_file _ _ _ _ Hst Hn) as (H1 & H2 & H3). split; [done|]. intros q Hq.
  destruct (Hok q Hq) as [[data|] Hd]; rewrite Hd.
  - apply H2; [done|]. by apply Hin.
  - apply H3. intros ([q' data] & -> & Hin')%elem_of_list_fmap. cbn in *. apply Hin in Hin'; [|done]. congruence.
Qed.
Lemma save_reopen_closed f path o fs o1 tr fs' o2 q e : office_save f path o fs = (o1, (tr, Ok tt)) -> last tr = Some fs' ->
  office_new (Some path) fs' = Ok o2 -> q <> content_types_name -> of_open o !! q = None -> of_archive o !! q = Some e ->
  exists e2, of_archive o2 !! q = Some e2 /\ part_bytes e2 = part_bytes e.
Proof.
  intros Hs Hl Hn Hq Ho Ha. destruct (save_reopen _ _ _ _ _ _ _ _ Hs Hl Hn) as [_ Hr]. specialize (Hr q Hq).
  destruct (saved_file _ _ _ _ _ _ _ Hs Hl) as (l & _ & _ & Hok & _). destruct (Hok q Hq) as [x Hx]. rewrite Hx in Hr.
  unfold part_data in Hx. rewrite Ho, Ha in Hx. destruct (part_bytes e) as [data|m|m]; [|done..]. injection Hx as <-. done.
Qed.
Lemma save_reopen_open f path o fs o1 tr fs' o2 q p : office_save f path o fs = (o1, (tr, Ok tt)) -> last tr = Some fs' ->
  office_new (Some path) fs' = Ok o2 -> q <> content_types_name -> of_open o !! q = Some p ->
  exists e2 data, of_archive o2 !! q = Some e2 /\ part_bytes e2 = Ok data /\ write_doc (op_doc p) = Ok data.
Proof.
  intros Hs Hl Hn Hq Ho. destruct (save_reopen _ _ _ _ _ _ _ _ Hs Hl Hn) as [_ Hr]. specialize (Hr q Hq).
  destruct (saved_file _ _ _ _ _ _ _ Hs Hl) as (l & _ & _ & Hok & _). destruct (Hok q Hq) as [x Hx]. rewrite Hx in Hr.
  unfold part_data in Hx. rewrite Ho in Hx. destruct (write_doc (op_doc p)) as [data|m|m]; [|done..]. injection Hx as <-.
  destruct Hr as (e & H1 & H2). eauto.
Qed.
End with_env.
