(** Facts about the package: open, close, save. *)
From Verif.Model Require Import Package.
From Verif.Spec Require Import PackageSpec.
From Verif.Proofs Require Import BaseFacts XmlReadFacts.

Lemma rmapM_in {A B} (f : A -> res B) l l' x : rmapM f l = Ok l' -> x ∈ l ->
  exists y, f x = Ok y /\ y ∈ l'.
Proof.
  revert l'. induction l as [|a l IH]; intros l' H Hx; [by apply elem_of_nil in Hx|].
  cbn in H. destruct (f a) as [b| |] eqn:Ea; try done. cbn in H.
  destruct (rmapM f l) as [bs| |]; try done. cbn in H. injection H as <-.
  apply elem_of_cons in Hx as [->|Hx]; [exists b; split; [done|left]|].
  destruct (IH bs eq_refl Hx) as (y & Hy & Hin). exists y. split; [done|by right].
Qed.
Lemma rmapM_out {A B} (f : A -> res B) l l' y : rmapM f l = Ok l' -> y ∈ l' ->
  exists x, f x = Ok y /\ x ∈ l.
Proof.
  revert l'. induction l as [|a l IH]; intros l' H Hy; cbn in H.
  - injection H as <-. by apply elem_of_nil in Hy.
  - destruct (f a) as [b| |] eqn:Ea; try done. cbn in H.
    destruct (rmapM f l) as [bs| |]; try done. cbn in H. injection H as <-.
    apply elem_of_cons in Hy as [->|Hy]; [exists a; split; [done|left]|].
    destruct (IH bs eq_refl Hy) as (x & Hx & Hin). exists x. split; [done|by right].
Qed.
Lemma rmapM_map {A B C} (f : A -> res B) (g : A -> C) (h : B -> C) l l' : rmapM f l = Ok l' ->
  (forall x y, f x = Ok y -> h y = g x) -> map h l' = map g l.
Proof.
  intros H Hf. revert l' H. induction l as [|a l IH]; intros l' H; cbn in H; [by injection H as <-|].
  destruct (f a) as [b| |] eqn:Ea; try done. cbn in H.
  destruct (rmapM f l) as [bs| |]; try done. cbn in H. injection H as <-. cbn.
  by rewrite (Hf _ _ Ea), (IH bs).
Qed.
Lemma rmapM_ok {A B} (f : A -> res B) (g : A -> B) l : (forall x, x ∈ l -> f x = Ok (g x)) ->
  rmapM f l = Ok (map g l).
Proof.
  induction l as [|a l IH]; intros H; [done|]. cbn. rewrite (H a) by left. cbn.
  rewrite IH by (intros x Hx; apply H; by right). done.
Qed.

Section with_env.
Context `{Env}.

(** ** Closing documents only concerns open ones *)
Lemma close_other q name o : q <> name ->
  of_open (close_xml_document q o).1 !! name = of_open o !! name
  /\ of_archive (close_xml_document q o).1 !! name = of_archive o !! name.
Proof.
  intros Hne. unfold close_xml_document. destruct (of_open o !! q) as [p|] eqn:E; [|done].
  destruct (write_doc (op_doc p)); cbn; rewrite ?lookup_delete_ne, ?lookup_insert_ne by done; done.
Qed.
Lemma close_not_open q o : of_open o !! q = None -> close_xml_document q o = (o, Ok tt).
Proof. unfold close_xml_document. by intros ->. Qed.
Lemma close_frame q name o e : of_open o !! name = None -> of_archive o !! name = e ->
  of_open (close_xml_document q o).1 !! name = None /\ of_archive (close_xml_document q o).1 !! name = e.
Proof.
  intros Ho Ha. destruct (decide (q = name)) as [->|Hne].
  - by rewrite close_not_open.
  - destruct (close_other q name o Hne) as [-> ->]. done.
Qed.
Lemma close_list_frame l name o e : of_open o !! name = None -> of_archive o !! name = e ->
  of_open (iterM close_xml_document l o).1 !! name = None
  /\ of_archive (iterM close_xml_document l o).1 !! name = e.
Proof.
  revert o. induction l as [|q l IH]; intros o Ho Ha; [done|]. cbn [iterM]. unfold bind.
  destruct (close_frame q name o e Ho Ha) as [Ho1 Ha1].
  destruct (close_xml_document q o) as [o1 [[]| |]]; cbn in *; try done. by apply IH.
Qed.
Lemma save_state f path o fs : (office_save f path o fs).1 = (close_all o).1.
Proof. unfold office_save. by destruct (close_all o) as [o1 [[]| |]]. Qed.

Lemma run_pkg_frame op name o e : ~ touches name op -> of_open o !! name = None ->
  of_archive o !! name = e ->
  of_open (run_pkg op o) !! name = None /\ of_archive (run_pkg op o) !! name = e.
Proof.
  destruct op as [init p|p f|p|p|f p fs]; cbn [touches run_pkg]; intros Ht Ho Ha.
  - unfold get_xml_document, get_xml_tree, get_xml_document_ref, modify, bind, lift, ret.
    destruct (of_open o !! p) eqn:Ep; [done|].
    destruct (of_archive o !! p) as [en|] eqn:Eap.
    + destruct (rbind _ _) as [[pt|]| |]; cbn; rewrite ?lookup_delete_ne, ?lookup_insert_ne by done; try done.
      destruct init; cbn; rewrite ?lookup_delete_ne, ?lookup_insert_ne by done; done.
    + cbn. destruct init; cbn; rewrite ?lookup_delete_ne, ?lookup_insert_ne by done; done.
  - unfold edit_open. destruct (of_open o !! p) eqn:Ep; [|done]. cbn. by rewrite lookup_insert_ne.
  - by apply close_frame.
  - cbn. by rewrite lookup_delete_ne.
  - rewrite save_state. by apply close_list_frame.
Qed.
Lemma run_pkgs_frame os name o e : Forall (fun op => ~ touches name op) os ->
  of_open o !! name = None -> of_archive o !! name = e ->
  of_open (run_pkgs os o) !! name = None /\ of_archive (run_pkgs os o) !! name = e.
Proof.
  intros Hos. revert o. induction Hos as [|op os Hop Hos IH]; intros o Ho Ha; [done|]. cbn.
  destruct (run_pkg_frame op name o e Hop Ho Ha). by apply IH.
Qed.

(** ** No part is both open and stored *)
Definition Apart (o : office) : Prop := forall p, of_open o !! p = None \/ of_archive o !! p = None.
Lemma close_apart q o : Apart o -> Apart (close_xml_document q o).1.
Proof.
  intros Ha. unfold close_xml_document. destruct (of_open o !! q) as [p|] eqn:E; [|done].
  intros r. specialize (Ha r). destruct (decide (q = r)) as [->|Hne].
  - left. destruct (write_doc (op_doc p)); cbn; apply lookup_delete.
  - destruct (write_doc (op_doc p)); cbn; rewrite ?lookup_delete_ne, ?lookup_insert_ne by done; done.
Qed.
Lemma close_list_apart l o : Apart o -> Apart (iterM close_xml_document l o).1.
Proof.
  revert o. induction l as [|q l IH]; intros o Ha; [done|]. cbn [iterM]. unfold bind.
  pose proof (close_apart q o Ha) as H1.
  destruct (close_xml_document q o) as [o1 [[]| |]]; cbn in *; try done. by apply IH.
Qed.
Lemma run_pkg_apart op o : Apart o -> Apart (run_pkg op o).
Proof.
  destruct op as [init p|p f|p|p|f p fs]; cbn [run_pkg]; intros Ha.
  - unfold get_xml_document, get_xml_tree, get_xml_document_ref, modify, bind, lift, ret.
    destruct (of_open o !! p) eqn:Ep; [done|].
    assert (forall pt, Apart (set_open (set_archive o (delete p (of_archive o)))
              (<[p := pt]> (of_open (set_archive o (delete p (of_archive o))))))) as H1.
    { intros pt r. cbn. destruct (decide (p = r)) as [->|Hne]; [right; apply lookup_delete|].
      rewrite lookup_delete_ne, lookup_insert_ne by done. apply Ha. }
    assert (Apart (set_archive o (delete p (of_archive o)))) as H2.
    { intros r. cbn. destruct (decide (p = r)) as [->|Hne]; [right; apply lookup_delete|].
      rewrite lookup_delete_ne by done. apply Ha. }
    destruct (of_archive o !! p) as [en|] eqn:Eap.
    + destruct (rbind _ _) as [[pt|]| |]; cbn [fst]; try done; try apply H1.
      destruct init; cbn [fst]; try done; apply H1.
    + cbn. destruct init as [pt| |]; cbn; try done. intros r. cbn.
      destruct (decide (p = r)) as [->|Hne]; [by right|]. rewrite lookup_insert_ne by done. apply Ha.
  - unfold edit_open. destruct (of_open o !! p) eqn:Ep; [|done]. intros r. cbn. specialize (Ha r).
    destruct (decide (p = r)) as [->|Hne]; [|by rewrite lookup_insert_ne]. rewrite Ep in Ha. destruct Ha; [done|by right].
  - by apply close_apart.
  - intros r. cbn. specialize (Ha r). destruct (decide (p = r)) as [->|Hne]; [right; apply lookup_delete|].
    by rewrite lookup_delete_ne.
  - rewrite save_state. by apply close_list_apart.
Qed.
Lemma run_pkgs_apart os o : Apart o -> Apart (run_pkgs os o).
Proof. revert o. induction os as [|op os IH]; intros o Ha; [done|]. by apply IH, run_pkg_apart. Qed.

(** ** The saved container *)
Lemma save_archive_files archive b : save_archive archive = Ok b ->
  exists l types, env_unzip b = Some (l ++ [(content_types_name, types)])
  /\ create_content_types
       (env_order2 (remove_dups (map (fun ne : string * entry => (en_ext ne.2, en_ext_type ne.2)) (hash_entries archive))))
       (omap (fun ne : string * entry => match en_ct ne.2 with Some t => Some ("/" +:+ ne.1, t) | None => None end)
          (hash_entries archive)) = Ok types
  /\ archive !! content_types_name = None
  /\ (forall name data, (name, data) ∈ l <-> exists e, archive !! name = Some e /\ part_bytes e = Ok data).
Proof.
  unfold save_archive. set (parts := hash_entries archive).
  destruct (rmapM _ parts) as [l| |] eqn:El; try done. cbn [rbind].
  destruct (archive !! content_types_name) eqn:Ec; [done|].
  destruct (create_content_types _ _) as [types| |] eqn:Et; try done. cbn [rbind]. intros [= <-].
  exists l, types.
  assert (map fst l = parts.*1) as Hn.
  { eapply (rmapM_map _ fst fst); [exact El|]. intros [n e] [n' b]. cbn. destruct (part_bytes e); cbn; try done.
    by intros [= -> _]. }
  split; [|split; [done|split; [done|]]].
  - apply env_unzip_zip. rewrite fmap_app. change (l.*1) with (map fst l). rewrite Hn. apply NoDup_app.
    split; [apply hash_entries_NoDup|]. split; [|apply NoDup_singleton].
    intros x Hx Hx'. cbn in Hx'. apply elem_of_list_singleton in Hx'. subst x.
    apply elem_of_list_fmap in Hx as ([n e] & E & Hin). cbn in E. subst n.
    apply hash_entries_lookup in Hin. congruence.
  - intros name data. split.
    + intros Hin. destruct (rmapM_out _ _ _ _ El Hin) as ([n e] & E & Hp). cbn in E.
      destruct (part_bytes e) as [b| |] eqn:Eb; try done. cbn in E. injection E as <- <-.
      exists e. split; [by apply hash_entries_lookup in Hp|done].
    + intros (e & He & Hb). apply hash_entries_lookup in He.
      destruct (rmapM_in _ _ _ _ El He) as (y & Hy & Hin). cbn in Hy. rewrite Hb in Hy. cbn in Hy.
      by injection Hy as <-.
Qed.
Lemma part_bytes_pack x t ct data : part_bytes (pack x t ct data) = Ok data.
Proof. unfold part_bytes, pack, decompress_content, compress_content. cbn. by rewrite env_gunzip_gzip. Qed.

(** ** Loading *)
Lemma load_files_spec exts l acc d d' m : load_files exts l acc d = (d', Ok m) -> NoDup l.*1 ->
  (forall name data, (name, data) ∈ l -> exists ct, m !! name = Some
      (pack (extension_of exts name).1 (extension_of exts name).2 ct data))
  /\ (forall name, name ∉ l.*1 -> m !! name = acc !! name).
Proof.
  revert acc d. induction l as [|[n b] l IH]; intros acc d Hl Hnd; cbn [load_files] in Hl.
  - injection Hl as <- <-. split; [|done]. intros name data Hin. by apply elem_of_nil in Hin.
  - unfold bind in Hl. destruct (get_override_content_type n d) as [d1 [ct| |]] eqn:E; try done.
    cbn in Hnd. apply NoDup_cons in Hnd as [Hn Hnd].
    destruct (IH _ _ Hl Hnd) as [H1 H2]. split.
    + intros name data Hin. apply elem_of_cons in Hin as [[= -> ->]|Hin]; [|by apply H1].
      exists ct. rewrite (H2 n Hn). by rewrite lookup_insert.
    + intros name Hname. cbn in Hname. apply not_elem_of_cons in Hname as [Hne Hname].
      rewrite (H2 name Hname). by rewrite lookup_insert_ne.
Qed.
Lemma NoDup_filter_fst {A B} (f : A * B -> bool) l : NoDup l.*1 -> NoDup (List.filter f l).*1.
Proof.
  induction l as [|x l IH]; intros Hnd; [constructor|]. cbn in Hnd. apply NoDup_cons in Hnd as [Hx Hnd].
  cbn [List.filter]. destruct (f x); [|by apply IH]. cbn. apply NoDup_cons. split; [|by apply IH].
  intros Hin. apply Hx. apply elem_of_list_fmap in Hin as (y & -> & Hy). apply elem_of_list_fmap.
  exists y. split; [done|]. apply elem_of_list_In, filter_In in Hy as [Hy _]. by apply elem_of_list_In.
Qed.
Lemma load_archive_spec b m : load_archive b = Ok m -> exists l,
  env_unzip b = Some l /\ m !! content_types_name = None
  /\ (forall name data, (name, data) ∈ l -> name <> content_types_name ->
        exists x t ct, m !! name = Some (pack x t ct data))
  /\ (forall name, name ∉ l.*1 -> m !! name = None).
Proof.
  unfold load_archive. destruct (env_unzip b) as [l|] eqn:E; [|done]. cbn [of_option rbind].
  destruct (List.find _ l) as [[n types]|]; [|done].
  destruct (read_doc types) as [d| |]; try done. cbn [rbind]. unfold bind.
  destruct (get_extensions d) as [d1 [exts| |]]; try done.
  set (names := List.filter _ l). destruct (load_files exts names ∅ d1) as [d2 [m'| |]] eqn:El; try done.
  cbn. intros [= <-]. exists l. split; [done|].
  assert (NoDup names.*1) as Hnd by (apply NoDup_filter_fst; by eapply env_unzip_nodup).
  destruct (load_files_spec _ _ _ _ _ _ El Hnd) as [H1 H2].
  split; [|split].
  - rewrite H2; [apply lookup_empty|]. intros Hin. apply elem_of_list_fmap in Hin as ([n' b'] & E' & Hin).
    cbn in E'. subst n'. apply elem_of_list_In, filter_In in Hin as [_ Hin]. done.
  - intros name data Hin Hne. destruct (H1 name data) as (ct & Hct).
    + apply elem_of_list_In, filter_In. split; [by apply elem_of_list_In|].
      apply Bool.negb_true_iff, String.eqb_neq. done.
    + by eexists _, _, ct.
  - intros name Hname. rewrite H2; [apply lookup_empty|]. intros Hin. apply Hname.
    apply elem_of_list_fmap in Hin as ([n' b'] & -> & Hin). apply elem_of_list_fmap. exists (n', b').
    split; [done|]. apply elem_of_list_In, filter_In in Hin as [Hin _]. by apply elem_of_list_In.
Qed.

End with_env.

(** ** Writing the file *)
Lemma stake_sdrop n s : stake n s +:+ sdrop n s = s.
Proof. revert s. induction n as [|n IH]; intros [|a s]; cbn; try done. by rewrite IH. Qed.
Lemma write_pieces_spec sizes limit dn todo l ok : write_pieces sizes limit dn todo = (l, ok) ->
  Forall (fun b => exists r, dn +:+ todo = b +:+ r) l /\ (ok = true -> last l = Some (dn +:+ todo)).
Proof.
  revert limit dn todo l ok. induction sizes as [|n sizes IH]; intros limit dn todo l ok.
  - destruct limit as [[|k]|]; cbn; intros [= <- <-]; split; try done; try constructor; try constructor;
      exists ""; by rewrite app_nil_r_s.
  - assert (forall lim, (let '(l0, ok0) := write_pieces sizes lim (dn +:+ stake n todo) (sdrop n todo) in
              ((dn +:+ stake n todo) :: l0, ok0)) = (l, ok) ->
      Forall (fun b => exists r, dn +:+ todo = b +:+ r) l /\ (ok = true -> last l = Some (dn +:+ todo))) as Hgo.
    { intros lim. destruct (write_pieces _ _ _ _) as [l0 ok0] eqn:E. intros [= <- <-].
      destruct (IH _ _ _ _ _ E) as [H1 H2].
      rewrite <- app_assoc_s, stake_sdrop in H1, H2. split.
      - apply List.Forall_cons; [|done]. exists (sdrop n todo). by rewrite <- app_assoc_s, stake_sdrop.
      - intros Hok. specialize (H2 Hok). destruct l0 as [|x l0]; [done|]. done. }
    destruct limit as [[|k]|]; cbn [write_pieces]; [intros [= <- <-]; split; [constructor|done]|apply Hgo|apply Hgo].
Qed.
Lemma last_written {A B} (l1 : list B) (x : B) (f : A -> B) ps b : last ps = Some b ->
  last (l1 ++ x :: map f ps) = Some (f b).
Proof.
  intros Hl. rewrite last_app. rewrite last_cons.
  change (map f ps) with (f <$> ps). by rewrite fmap_last, Hl.
Qed.
