(** C79: the content types of the parts nobody asks for stay declared in the file saved. *)
From Verif.Model Require Import Excel.
From Verif.Spec Require Import XmlSpec PackageSpec SheetSpec StyleSpec SessionSpec FlowSpec ReopenSpec OpenSpec GrowSpec CarrySpec KindSpec DemoEnv.
From Verif.Proofs Require Import BaseFacts ReadAnyFacts SheetCycleFacts KeepFacts FlowSaveFacts ReopenFacts GrowFacts CarryFacts KindFacts.
From Verif.Props Require Import KeepProps FlowProps OpenProps ReopenProps CarryProps.
Open Scope N_scope.

(** C79. A file is opened whose content types declare a type for one part by its name. The part is none of those the workbook is made of, and no call asks for it.
    Whatever is called, and whether it succeeds: the file saved declares the same type for it, by its name and once. *)
Theorem C79_by_name : forall (E : Env) (HH : Hashes) (file path q data types ty : string) (fs0 fs fs' : filesys) (l0 : list (string * string)) (root : tree) (ns : gmap string string)
    (x0 : excel) (cs : list call) (s : session) (t : clock) (f : faults) (tr : list filesys),
  Stored fs0 file l0 -> (content_types_name, types) ∈ l0 -> ReadsIn types root ns -> excel_new (Some file) fs0 = Ok x0 ->
  (q, data) ∈ l0 -> Foreign x0 q -> LeftOut cs (x0, []) q -> plain_text q -> plain_text ty -> TypedByName root q ty ->
  calls cs (x0, []) = Some s -> excel_save t f path s.1 fs = (tr, Ok tt) -> last tr = Some fs' ->
  exists root', TypesAt fs' path root' /\ TypedByName root' q ty.
Proof. intros. by eapply (named_kept file fs0 l0 types root ns x0 cs s t f path fs tr fs' q data ty). Qed.
(** C79. The same for a part whose type is declared by its extension: the file saved does not speak of it either, declares the type for the extension, and declares
    no other type for the extension. Where the extension is [xml] or [rels] this takes that the type is the one the library knows. *)
Theorem C79_by_extension : forall (E : Env) (HH : Hashes) (file path q data types ext ty : string) (fs0 fs fs' : filesys) (l0 : list (string * string)) (root : tree) (ns : gmap string string)
    (x0 : excel) (cs : list call) (s : session) (t : clock) (f : faults) (tr : list filesys),
  Stored fs0 file l0 -> (content_types_name, types) ∈ l0 -> ReadsIn types root ns -> excel_new (Some file) fs0 = Ok x0 ->
  (q, data) ∈ l0 -> Foreign x0 q -> LeftOut cs (x0, []) q -> plain_text q -> plain_text ty -> ext <> "" -> OwnExtension ext ty -> TypedByExtension root q ext ty ->
  calls cs (x0, []) = Some s -> excel_save t f path s.1 fs = (tr, Ok tt) -> last tr = Some fs' ->
  exists root', TypesAt fs' path root' /\ TypedByExtension root' q ext ty.
Proof. intros. by eapply (extension_kept file fs0 l0 types root ns x0 cs s t f path fs tr fs' q data ext ty). Qed.
(** C79. Both go through any number of files, each opened, worked on and saved as the next. *)
Theorem C79_files : forall (E : Env) (HH : Hashes) (file file' q data ext ty : string) (fs0 fs' : filesys) (l0 : list (string * string)) (root : tree) (rs : list round),
  Stored fs0 file l0 -> (q, data) ∈ l0 -> TypesAt fs0 file root -> Journey q rs (file, fs0) (file', fs') -> plain_text q -> plain_text ty ->
  (TypedByName root q ty -> exists root', TypesAt fs' file' root' /\ TypedByName root' q ty)
  /\ (ext <> "" -> OwnExtension ext ty -> TypedByExtension root q ext ty -> exists root', TypesAt fs' file' root' /\ TypedByExtension root' q ext ty).
Proof.
  intros E HH file file' q data ext ty fs0 fs' l0 root rs Hst Hin Hty Hj Pq Pt. split.
  - intros Hn. eapply (journey_named q ty rs (file, fs0) (file', fs')); [done..|by exists data, l0|by exists root].
  - intros Hne Hown He. eapply (journey_extension q ext ty rs (file, fs0) (file', fs')); [done..|by exists data, l0|by exists root].
Qed.
(** C79. The library compares extensions letter by letter, capitals and small letters apart. If no part has exactly this extension, the type the file declares for it is
    not in the file saved: a picture [image1.PNG] under a declaration for [png] has no type any more. *)
Theorem C79_unused : forall (E : Env) (HH : Hashes) (file path types ext : string) (fs0 fs fs' : filesys) (l0 : list (string * string)) (root : tree) (ns : gmap string string)
    (x0 : excel) (cs : list call) (s : session) (t : clock) (f : faults) (tr : list filesys),
  Stored fs0 file l0 -> (content_types_name, types) ∈ l0 -> ReadsIn types root ns -> excel_new (Some file) fs0 = Ok x0 ->
  plain_text ext -> ext ∉ [""; "xml"; "rels"] -> (forall q, q ∈ l0.*1 -> q <> ext /\ ~ Extension q ext) ->
  calls cs (x0, []) = Some s -> excel_save t f path s.1 fs = (tr, Ok tt) -> last tr = Some fs' -> (exists q data, (q, data) ∈ l0 /\ Foreign x0 q /\ LeftOut cs (x0, []) q) ->
  exists root', TypesAt fs' path root' /\ forall c ty, c ∈ t_children root' -> ~ DefaultFor ext ty c.
Proof. intros. by eapply (extension_lost file fs0 l0 types root ns x0 cs s t f path fs tr fs' ext). Qed.

(** ** Examples *)
(** The file of C78, with content types as other programs write them; the type for [xml] is to be chosen. *)
Definition chart_type : string := "application/vnd.openxmlformats-officedocument.drawingml.chart+xml".
Definition kind_data (xml : string) : string :=
  "<Types xmlns=""http://t""><Default Extension=""bin"" ContentType=""application/vnd.ms-office.vbaProject""/><Default Extension=""png"" ContentType=""image/png""/><Default Extension=""jpeg"" ContentType=""image/jpeg""/>" +:+
  "<Default Extension=""rels"" ContentType=""application/vnd.openxmlformats-package.relationships+xml""/><Default Extension=""xml"" ContentType=""" +:+ xml +:+ """/>" +:+
  "<Override PartName=""/xl/charts/chart1.xml"" ContentType=""" +:+ chart_type +:+ """/></Types>".
Definition kind_tree (xml : string) : tree :=
  Node "Types" (attr []) None
    [Node "Default" (attr [("Extension", "bin"); ("ContentType", "application/vnd.ms-office.vbaProject")]) None [];
     Node "Default" (attr [("Extension", "png"); ("ContentType", "image/png")]) None [];
     Node "Default" (attr [("Extension", "jpeg"); ("ContentType", "image/jpeg")]) None [];
     Node "Default" (attr [("Extension", "rels"); ("ContentType", "application/vnd.openxmlformats-package.relationships+xml")]) None [];
     Node "Default" (attr [("Extension", "xml"); ("ContentType", xml)]) None [];
     Node "Override" (attr [("PartName", "/xl/charts/chart1.xml"); ("ContentType", chart_type)]) None []].
Definition kind_parts `{Env} `{Hashes} (xml : string) : list (string * string) :=
  with_parts [(content_types_name, kind_data xml)] carry_parts ++ [("customXml/item1.xml", "<mine/>"); ("xl/media/image2.JPEG", "JPEG")].
Definition kind_names : list string := carry_names ++ ["customXml/item1.xml"; "xl/media/image2.JPEG"].
Definition other_ext (ext q : string) : bool := negb (seqb (file_extension q) ext).
Lemma other_ext_ok ext q : file_extension ext = ext -> other_ext ext q = true -> q <> ext /\ ~ Extension q ext.
Proof.
  intros He Ho. unfold other_ext in Ho. apply negb_true_iff in Ho. split; [intros ->; by rewrite He, seqb_refl in Ho|]. intros Hx. apply extension_name in Hx. by rewrite Hx, seqb_refl in Ho.
Qed.
(** All hypotheses of the theorems, except those about the types of one part. *)
Definition Typing `{Env} `{Hashes} (root : tree) (cs : list call) (names : list string) (ext : string) (P : filesys -> string -> Prop) : Prop :=
  exists (fs0 fs fs' : filesys) (file path types : string) (l0 : list (string * string)) (ns : gmap string string) (x0 : excel) (s : session) (t : clock) (f : faults) (tr : list filesys),
  Stored fs0 file l0 /\ (content_types_name, types) ∈ l0 /\ ReadsIn types root ns /\ excel_new (Some file) fs0 = Ok x0
  /\ (forall q, q ∈ names -> (exists data, (q, data) ∈ l0) /\ Foreign x0 q /\ LeftOut cs (x0, []) q) /\ (forall q, q ∈ l0.*1 -> q <> ext /\ ~ Extension q ext)
  /\ calls cs (x0, []) = Some s /\ excel_save t f path s.1 fs = (tr, Ok tt) /\ last tr = Some fs' /\ P fs' path.
Definition types_of `{Env} (P : tree -> bool) (fs : filesys) (path : string) : bool :=
  match fs !! path with
  | Some b => match env_unzip b with
    | Some l => match List.find (fun nd : string * string => seqb nd.1 content_types_name) l with
      | Some nd => match read_doc nd.2 with
        | Ok d => match doc_tree d with Some t => P t && ns_okb (d_ns d) | None => false end
        | _ => false end
      | None => false end
    | None => false end
  | None => false end.
Lemma types_of_at `{Env} P fs path : types_of P fs path = true -> exists root, TypesAt fs path root /\ P root = true.
Proof.
  unfold types_of. destruct (fs !! path) as [b|] eqn:Eb; [|done]. destruct (env_unzip b) as [l|] eqn:Eu; [|done]. destruct (List.find _ l) as [[n data]|] eqn:Ef; [|done].
  apply find_some in Ef as [F1 F2]. cbn [fst snd] in *. apply String.eqb_eq in F2 as ->. destruct (read_doc data) as [d| |] eqn:Er; [|done..]. destruct (doc_tree d) as [t|] eqn:Et; [|done].
  rewrite andb_true_iff. intros [Hp Hn]. exists t. split; [|done]. destruct (read_doc_computed _ _ _ Er Et) as ((it & [Hr _] & He) & _).
  exists l, data, (d_ns d). split; [by exists b|]. split; [by apply elem_of_list_In|]. exists d, it. split; [done|]. split; [done|]. split; [done|]. split; [done|]. by apply ns_okb_ok.
Qed.
Definition kind_check `{Env} `{Hashes} (root : tree) (types : string) (cs : list call) (ext : string) (P : tree -> bool) (l0 : list (string * string)) : bool :=
  match env_unzip (env_zip l0) with
  | Some l1 =>
    existsb (fun nd : string * string => seqb nd.1 content_types_name && seqb nd.2 types) l1 && reads_ns types root {["<Default>" := "http://t"]}
    && forallb (fun nd : string * string => other_ext ext nd.1) l1 && seqb (file_extension ext) ext
    && match excel_new (Some "in") {["in" := env_zip l0]} with
       | Ok x0 =>
         forallb (fun q => no_w q && negb (seqb q content_types_name) && negb (existsb (seqb q) (basic_parts x0 ++ other_parts x0)) && existsb (seqb q) (map fst l1)) kind_names && left_out cs (x0, [])
         && match calls cs (x0, []) with
            | Some s => match excel_save demo_clock demo_faults "a.xlsx" s.1 ∅ with
              | (tr, Ok tt) => match last tr with Some fs' => types_of P fs' "a.xlsx" | None => false end
              | _ => false end
            | None => false end
       | _ => false end
  | None => false end.
Lemma kind_found `{Env} `{Hashes} root types cs ext P l0 : kind_check root types cs ext P l0 = true ->
  Typing root cs kind_names ext (fun fs path => exists root', TypesAt fs path root' /\ P root' = true).
Proof.
  unfold kind_check. destruct (env_unzip (env_zip l0)) as [l1|] eqn:Eu; [|done]. rewrite !andb_true_iff. intros [[[[H1 H2] H3] H4] H5].
  destruct (excel_new _ _) as [x0| |] eqn:En; [|done..]. rewrite !andb_true_iff in H5. destruct H5 as [[H5 H6] H7]. destruct (calls cs (x0, [])) as [s|] eqn:Ec; [|done].
  destruct (excel_save _ _ _ s.1 _) as [tr [[]|e|e]] eqn:Es; [|done..]. destruct (last tr) as [fs'|] eqn:El; [|done].
  exists {["in" := env_zip l0]}, ∅, fs', "in", "a.xlsx", types, l1, {["<Default>" := "http://t"]}, x0, s, demo_clock, demo_faults, tr. split. { exists (env_zip l0). by rewrite lookup_singleton. }
  split. { apply existsb_exists in H1 as ([n d] & Hin & [N1%String.eqb_eq N2%String.eqb_eq]%andb_true_iff). cbn [fst snd] in *. subst. by apply elem_of_list_In. }
  split; [by apply reads_ns_in|]. split; [done|]. split.
  { intros q Hq. rewrite forallb_forall in H5. apply elem_of_list_In in Hq. specialize (H5 q Hq). rewrite !andb_true_iff, !negb_true_iff in H5. destruct H5 as [[[N1 N2] N3] N4].
    split. { apply existsb_elem in N4. change (map fst l1) with (l1.*1) in N4. apply elem_of_list_fmap in N4 as ([q' d] & -> & Hin). by exists d. }
    split; [split|]. { intros ->. by vm_compute in N2. } { intros Hin. apply existsb_elem in Hin. by rewrite Hin in N3. } by apply left_out_ok. }
  split. { intros q Hq. apply elem_of_list_fmap in Hq as ([q' d] & -> & Hin). rewrite forallb_forall in H3. apply elem_of_list_In in Hin. apply String.eqb_eq in H4. by apply (other_ext_ok ext q' H4), (H3 (q', d)). }
  split; [done|]. split; [done|]. split; [done|]. by apply types_of_at.
Qed.
Definition kind_calls : list call := [CAdd (Some "New"); CDrop 0; CGet "Two"; CDrop 1].
Definition is_default (ext ty : string) (c : tree) : bool := seqb (t_tag c) "Default" && bool_decide (child_attr c "Extension" = Some ext) && bool_decide (child_attr c "ContentType" = Some ty).
Lemma is_default_for ext ty c : is_default ext ty c = true -> DefaultFor ext ty c.
Proof. unfold is_default. rewrite !andb_true_iff. intros [[H1%String.eqb_eq H2%bool_decide_eq_true] H3%bool_decide_eq_true]. done. Qed.
(** The hypotheses are met: a chart declared by its name, a picture and a part of another program by their extensions; and no part has the extension [jpeg] exactly, though
    there is [image2.JPEG]. *)
Example C79_meets : @Typing (demo_env Checked) value_hashes (kind_tree "application/xml") kind_calls kind_names "jpeg" (fun _ _ => True)
  /\ TypedByName (kind_tree "application/xml") "xl/charts/chart1.xml" chart_type
  /\ TypedByExtension (kind_tree "application/xml") "xl/media/image1.png" "png" "image/png" /\ OwnExtension "png" "image/png"
  /\ TypedByExtension (kind_tree "application/xml") "customXml/item1.xml" "xml" "application/xml" /\ OwnExtension "xml" "application/xml"
  /\ (exists c, c ∈ t_children (kind_tree "application/xml") /\ DefaultFor "jpeg" "image/jpeg" c) /\ "xl/media/image2.JPEG" ∈ kind_names.
Proof.
  assert (@kind_check (demo_env Checked) value_hashes (kind_tree "application/xml") (kind_data "application/xml") kind_calls "jpeg" (fun _ => true) (@kind_parts (demo_env Checked) value_hashes "application/xml") = true) as Hc by (vm_compute; reflexivity).
  assert (forall q ext ty, List.filter (speaks_of q) (t_children (kind_tree "application/xml")) = [] -> Extension q ext ->
    existsb (is_default ext ty) (t_children (kind_tree "application/xml")) = true ->
    forallb (fun c => negb (bool_decide (child_attr c "Extension" = Some ext)) || bool_decide (child_attr c "ContentType" = Some ty)) (t_children (kind_tree "application/xml")) = true ->
    TypedByExtension (kind_tree "application/xml") q ext ty) as Hext.
  { intros q ext ty H1 H2 H3 H4. split; [done|]. split; [done|]. split.
    - apply existsb_exists in H3 as (c & Hin & Hd). exists c. split; [by apply elem_of_list_In|by apply is_default_for].
    - intros c ty' Hin (_ & D1 & D2). rewrite forallb_forall in H4. apply elem_of_list_In in Hin. specialize (H4 c Hin). rewrite bool_decide_true in H4 by done. cbn [negb orb] in H4.
      apply bool_decide_eq_true in H4. congruence. }
  assert (forall base ext, file_extension ext = ext -> rsplit_at_byte (fun a => aeqb a ".") ext = None -> Extension (base +:+ "." +:+ ext) ext) as Hx.
  { intros base ext _ Hn. split; [by eexists|]. intros a b ->. change ("." +:+ b) with (String "." b) in Hn.
    assert (forall z, exists l r, split_at_byte (fun a => aeqb a ".") (srev b +:+ String "." z) = Some (l, "."%char, r)) as Hsp.
    { intros z. generalize (srev b). clear. intros w. induction w as [|c w IH]; [by eexists _, _|]. cbn [append split_at_byte]. destruct (aeqb c ".") eqn:Ec.
      - unfold aeqb in Ec. apply Ascii.eqb_eq in Ec as ->. by eexists _, _.
      - destruct IH as (l & r & ->). by eexists _, _. }
    unfold rsplit_at_byte in Hn. rewrite srev_app_dist, srev_cons, <- app_assoc_s in Hn. cbn [String.append] in Hn. destruct (Hsp (srev a)) as (l & r & Heq). by rewrite Heq in Hn. }
  split. { destruct (@kind_found (demo_env Checked) value_hashes _ _ _ _ _ _ Hc) as (fs0 & fs & fs' & file & path & types & l0 & ns & x0 & s & t & f & tr & K1 & K2 & K3 & K4 & K5 & K6 & K7 & K8 & K9 & _).
    exists fs0, fs, fs', file, path, types, l0, ns, x0, s, t, f, tr.
    exact (conj K1 (conj K2 (conj K3 (conj K4 (conj K5 (conj K6 (conj K7 (conj K8 (conj K9 I))))))))). }
  split. { exists (Node "Override" (attr [("PartName", "/xl/charts/chart1.xml"); ("ContentType", chart_type)]) None []). split; [vm_compute; reflexivity|]. split; [|split]; vm_compute; reflexivity. }
  split. { apply Hext; [vm_compute; reflexivity|apply (Hx "xl/media/image1" "png"); vm_compute; reflexivity|vm_compute; reflexivity|vm_compute; reflexivity]. } split; [by split|].
  split. { apply Hext; [vm_compute; reflexivity|apply (Hx "customXml/item1" "xml"); vm_compute; reflexivity|vm_compute; reflexivity|vm_compute; reflexivity]. } split; [by split|].
  split. { exists (Node "Default" (attr [("Extension", "jpeg"); ("ContentType", "image/jpeg")]) None []). split; [|apply is_default_for; vm_compute; reflexivity]. cbn [kind_tree t_children]. do 2 right. by left. }
  unfold kind_names. apply elem_of_app. right. right. by left.
Qed.
(** C79, not kept: where the file declares another type for [xml] than the library knows, a part of another program that has its type from there has two in the file saved, once a
    sheet was added. *)
Theorem C79_own_refuted : ~ (forall (E : Env) (HH : Hashes) (file path q data types ext ty : string) (fs0 fs fs' : filesys) (l0 : list (string * string)) (root : tree) (ns : gmap string string)
    (x0 : excel) (cs : list call) (s : session) (t : clock) (f : faults) (tr : list filesys),
  Stored fs0 file l0 -> (content_types_name, types) ∈ l0 -> ReadsIn types root ns -> excel_new (Some file) fs0 = Ok x0 ->
  (q, data) ∈ l0 -> Foreign x0 q -> LeftOut cs (x0, []) q -> plain_text q -> plain_text ty -> ext <> "" -> TypedByExtension root q ext ty ->
  calls cs (x0, []) = Some s -> excel_save t f path s.1 fs = (tr, Ok tt) -> last tr = Some fs' ->
  exists root', TypesAt fs' path root' /\ TypedByExtension root' q ext ty).
Proof.
  intros Hall.
  assert (@kind_check (demo_env Checked) value_hashes (kind_tree "text/xml") (kind_data "text/xml") kind_calls "jpeg"
    (fun r => existsb (is_default "xml" "text/xml") (t_children r) && existsb (is_default "xml" "application/xml") (t_children r)) (@kind_parts (demo_env Checked) value_hashes "text/xml") = true) as Hc by (vm_compute; reflexivity).
  destruct (@kind_found (demo_env Checked) value_hashes _ _ _ _ _ _ Hc) as (fs0 & fs & fs' & file & path & types & l0 & ns & x0 & s & t & f & tr & K1 & K2 & K3 & K4 & K5 & K6 & K7 & K8 & K9 & root' & R1 & R2).
  destruct (K5 "customXml/item1.xml") as ((data & D1) & D2 & D3). { unfold kind_names. apply elem_of_app. right. by left. }
  apply andb_true_iff in R2 as [_ (c2 & C2 & C3)%existsb_exists].
  assert (TypedByExtension (kind_tree "text/xml") "customXml/item1.xml" "xml" "text/xml") as Hty.
  { split; [vm_compute; reflexivity|]. split; [split; [exists "customXml/item1"; reflexivity|]|].
    { intros a b Heq. apply (f_equal (sforall (fun a => negb (aeqb a ".")))) in Heq. rewrite sforall_app in Heq. cbn in Heq. by destruct (sforall _ a). }
    split. { exists (Node "Default" (attr [("Extension", "xml"); ("ContentType", "text/xml")]) None []). split; [|apply is_default_for; vm_compute; reflexivity]. cbn [kind_tree t_children]. do 4 right. by left. }
    intros c ty' Hin (Dt & D4 & D5). cbn [kind_tree t_children] in Hin. rewrite !elem_of_cons, elem_of_nil in Hin.
    destruct Hin as [->|[->|[->|[->|[->|[->|[]]]]]]]; vm_compute in D4; try discriminate D4; vm_compute in D5; injection D5 as <-; reflexivity. }
  destruct (Hall (demo_env Checked) value_hashes file path "customXml/item1.xml" data types "xml" "text/xml" fs0 fs fs' l0 (kind_tree "text/xml") ns x0 kind_calls s t f tr
    K1 K2 K3 K4 D1 D2 D3 eq_refl eq_refl ltac:(discriminate) Hty K7 K8 K9) as (root1 & T1 & T2).
  pose proof (types_unique _ _ _ _ R1 T1) as Hr. subst root1. destruct T2 as (_ & _ & _ & T2). apply elem_of_list_In in C2. pose proof (T2 c2 "application/xml" C2 (is_default_for _ _ _ C3)) as Heq. discriminate Heq.
Qed.

Print Assumptions C79_by_name.
Print Assumptions C79_by_extension.
Print Assumptions C79_files.
Print Assumptions C79_unused.
Print Assumptions C79_meets.
Print Assumptions C79_own_refuted.
