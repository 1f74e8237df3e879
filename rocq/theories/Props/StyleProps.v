(** C30: ids of styles. C31: the same style again. C32: the style part written and read back. *)
From Verif.Model Require Import Style.
From Verif.Spec Require Import RelSpec XmlSpec XmlRepr PackageSpec PartSpec StyleSpec DemoEnv.
From Verif.Proofs Require Import BaseFacts XmlWriteFacts RelDocFacts StyleFacts StyleDocFacts.
Open Scope N_scope.

(** C30: take any history of style requests, none of whose entries collide and whose tables stay
    within 16 bits. No entry ever moves. A request is answered unless it asks for a custom number
    format without giving one. The id answered names, right then and at the end of the history, one
    and the same cell format, with the font, fill, border and alignment asked for. *)
Theorem C30_ids_denote : forall (E : Env) (H : Hashes) (reqs1 reqs2 : list setting) (s : setting) (st : styles),
  Collisionless H (reqs1 ++ s :: reqs2) st -> Small (style_run (reqs1 ++ s :: reqs2) st).1 ->
  let before := (style_run reqs1 st).1 in
  let now := (style_run (reqs1 ++ [s]) st).1 in
  let final := (style_run (reqs1 ++ s :: reqs2) st).1 in
  Extends st now /\ Extends now final
  /\ (~ number_given s -> exists e, (style_run (reqs1 ++ s :: reqs2) st).2 !! length reqs1 = Some (Err e) /\ now = before)
  /\ (number_given s -> exists id x, (style_run (reqs1 ++ s :: reqs2) st).2 !! length reqs1 = Some (Ok id)
      /\ st_cell_xfs now !! N.to_nat id = Some x /\ st_cell_xfs final !! N.to_nat id = Some x
      /\ Shows now s id /\ Shows final s id).
Proof.
  intros E H reqs1 reqs2 s st Hc Hs before now final.
  assert (reqs1 ++ s :: reqs2 = (reqs1 ++ [s]) ++ reqs2) as Happ by (by rewrite <- app_assoc).
  split; [apply style_run_extends|].
  assert (Extends now final) as Hnf.
  { unfold now, final. rewrite Happ, (style_run_app (reqs1 ++ [s])). apply style_run_extends. }
  split; [done|].
  assert (Small now) as Hsn by (by eapply Small_mono).
  assert (Collisionless H (reqs1 ++ [s]) st) as Hc1 by (apply (Collisionless_prefix H _ reqs2); by rewrite <- Happ).
  pose proof (Collisionless_prefix H _ _ _ Hc1) as Hc0.
  assert (exists b rs, style_run (H0 := value_hashes) reqs1 st = (b, rs) /\ length rs = length reqs1) as (b & rs & Hb & Hl).
  { exists (style_run (H0 := value_hashes) reqs1 st).1, (style_run (H0 := value_hashes) reqs1 st).2. split; [apply surjective_pairing|apply style_run_length]. }
  assert (before = b) as Eb by (unfold before; rewrite (style_run_ideal H _ _ Hc0); by rewrite Hb).
  assert (now = (get_style_id (H0 := value_hashes) s b).1) as En.
  { unfold now. rewrite (style_run_ideal H _ _ Hc1), style_run_app, Hb. cbn [fst]. by rewrite style_run_cons. }
  assert ((style_run (reqs1 ++ s :: reqs2) st).2 !! length reqs1 = Some (get_style_id (H0 := value_hashes) s b).2) as Er.
  { rewrite (style_run_ideal H _ _ Hc), style_run_app, Hb. cbn [fst snd]. rewrite lookup_app_r by lia. rewrite Hl, Nat.sub_diag. by rewrite style_run_cons. }
  rewrite Er, Eb. clearbody now final before. clear Er Eb Hb Hl Happ Hc Hc1 Hc0 Hs rs before.
  assert (below_len (st_nums b) 65000) as Hb.
  { eapply below_mono; [|apply Hsn]. subst now. apply (get_style_extends (H := value_hashes) s b). }
  destruct (get_style_total s b Hb) as [T1 T2]. split.
  - intros Hng. destruct (T2 Hng) as [e He]. rewrite He in *. eauto.
  - intros Hng. destruct (T1 Hng) as (st' & id & He). rewrite He in *. cbn [fst snd] in *. subst now. pose proof (get_style_shows _ _ _ _ He Hsn) as Hsh.
    pose proof Hsh as (x & y & X1 & _). exists id, x. split_and!; [done|done| |done|].
    + eapply prefix_at; [|done]. by apply Hnf.
    + by eapply Shows_mono.
Qed.
(** The number format part. A built-in number format is ignored: the cell format has number format 0
    and does not apply it. *)
Theorem C30_builtin_format_refuted : forall (E : Env) (H : Hashes) (s : setting) (n : N) (st st' : styles) (id : N),
  se_num s = NFBuiltin n -> Collisionless H [s] st -> get_style_id s st = (st', Ok id) -> Small st' ->
  exists x, st_cell_xfs st' !! N.to_nat id = Some x /\ xf_num x = 0 /\ xf_app_num x = false /\ st_nums st' = st_nums st.
Proof.
  intros E H s n st st' id Hn Hc Hg Hs. rewrite (one_ideal H s st Hc) in Hg.
  destruct (get_style_format _ _ _ _ Hg Hs) as (x & Hx & Hf). rewrite Hn in Hf. exists x. split; [done|]. by destruct Hf as (-> & -> & ->).
Qed.
(** A custom number format is put into the table under id 0, while the cell format refers to another
    id, which no entry carries, as soon as the table is not empty. *)
Theorem C30_custom_format_refuted : forall (E : Env) (H : Hashes) (s : setting) (code : string) (st st' : styles) (id : N),
  se_num s = NFCustom -> se_code s = Some code -> Collisionless H [s] st -> get_style_id s st = (st', Ok id) -> Small st' ->
  Forall (fun n => nf_id n = 0) (st_nums st) -> st_nums st <> [] ->
  NumberFormat st' 0 code
  /\ exists x, st_cell_xfs st' !! N.to_nat id = Some x /\ xf_app_num x = true /\ forall c, ~ NumberFormat st' (xf_num x) c.
Proof.
  intros E H s code st st' id Hn Hco Hc Hg Hs Hz Hne. rewrite (one_ideal H s st Hc) in Hg.
  destruct (get_style_format _ _ _ _ Hg Hs) as (x & Hx & Hf). rewrite Hn, Hco in Hf. destruct Hf as (Hin & Happ & Hor).
  split; [by exists (custom code)|]. exists x. split; [done|]. split; [done|]. intros c (n & Hn1 & Hn2 & _).
  assert (nf_id n = 0) as Hz'.
  { rewrite Forall_forall in Hz. destruct Hor as [(_ & Heq & _)|(Heq & _)]; rewrite Heq in Hn1; [|by apply Hz].
    apply elem_of_app in Hn1 as [Hn1|Hn1%elem_of_list_singleton]; [by apply Hz|by subst n]. }
  rewrite Hz' in Hn2. destruct Hor as [(_ & _ & Hl)|(_ & i & Hl & _)]; rewrite Hl in Hn2; [|lia]. by destruct (st_nums st).
Qed.

(** C31: ask for a style, do any other requests, ask for it again: the same id comes back and
    nothing is added. This needs a table with some font, fill and border, and, for a custom number
    format, that the format was in the table when the style was first asked for. *)
Theorem C31_same_id : forall (E : Env) (H : Hashes) (s : setting) (reqs : list setting) (st : styles),
  Collisionless H (s :: reqs ++ [s]) st -> settled s st -> st_fonts st <> [] -> st_fills st <> [] -> st_borders st <> [] ->
  forall id, (style_run (s :: reqs ++ [s]) st).2 !! 0%nat = Some (Ok id) ->
  (style_run (s :: reqs ++ [s]) st).2 !! S (length reqs) = Some (Ok id)
  /\ (style_run (s :: reqs ++ [s]) st).1 = (style_run (s :: reqs) st).1.
Proof.
  intros E H s reqs st Hc Hse N1 N2 N3 id.
  pose proof (Collisionless_prefix H (s :: reqs) [s] st Hc) as Hc1.
  rewrite (style_run_ideal H _ _ Hc), (style_run_ideal H _ _ Hc1). by apply run_same_id.
Qed.
(** With a custom number format that is not in the table yet, asking twice in a row gives two
    different ids. *)
Theorem C31_custom_refuted : forall (E : Env) (H : Hashes) (s : setting) (code : string) (st : styles) (id1 id2 : N),
  se_num s = NFCustom -> se_code s = Some code -> custom code ∉ st_nums st ->
  Collisionless H [s; s] st -> Small (style_run [s; s] st).1 ->
  (style_run [s; s] st).2 = [Ok id1; Ok id2] -> id1 <> id2.
Proof.
  intros E H s code st id1 id2 Hn Hco Hnot Hc. rewrite (style_run_ideal H _ _ Hc). by eapply run_custom_twice.
Qed.
(** From the second request on a custom number format is settled too. *)
Theorem C31_custom_settles : forall (E : Env) (H : Hashes) (s : setting) (reqs1 reqs2 : list setting) (st : styles) (id : N),
  Collisionless H (s :: reqs1 ++ s :: reqs2 ++ [s]) st -> number_given s ->
  st_fonts st <> [] -> st_fills st <> [] -> st_borders st <> [] -> Small (style_run (s :: reqs1 ++ s :: reqs2 ++ [s]) st).1 ->
  (style_run (s :: reqs1 ++ s :: reqs2 ++ [s]) st).2 !! S (length reqs1) = Some (Ok id) ->
  (style_run (s :: reqs1 ++ s :: reqs2 ++ [s]) st).2 !! S (length reqs1 + S (length reqs2)) = Some (Ok id)
  /\ (style_run (s :: reqs1 ++ s :: reqs2 ++ [s]) st).1 = (style_run (s :: reqs1 ++ s :: reqs2) st).1.
Proof.
  intros E H s reqs1 reqs2 st id Hc.
  assert (s :: reqs1 ++ s :: reqs2 ++ [s] = (s :: reqs1 ++ s :: reqs2) ++ [s]) as Happ by (cbn; by rewrite <- app_assoc).
  assert (Collisionless H (s :: reqs1 ++ s :: reqs2) st) as Hc1 by (apply (Collisionless_prefix H _ [s]); by rewrite <- Happ).
  rewrite (style_run_ideal H _ _ Hc), (style_run_ideal H _ _ Hc1). apply run_settles.
Qed.
(** On empty tables, as a file may have them, the first two answers differ as well: the first format
    applies its font, fill and border, the second one does not. *)
Theorem C31_empty_tables_refuted : forall (E : Env) (H : Hashes),
  Collisionless H [setting_default; setting_default] no_styles ->
  (style_run [setting_default; setting_default] no_styles).2 = [Ok 0; Ok 1].
Proof. intros E H Hc. rewrite (style_run_ideal H _ _ Hc). by vm_compute. Qed.
Example C30_C31_example : let E := demo_env Checked in let H := value_hashes in
  let bold := mkSetting (NFBuiltin 0) None side_default side_default side_default side_default side_default
    "Arial" 12 (mkColor CRgb "FF0000") true true false false true (Some "00FF00") None PSolid HCenter VNone in
  let money := mkSetting NFCustom (Some "0.00") side_default side_default side_default side_default side_default
    "Arial" 12 (mkColor CRgb "FF0000") true false false false false None None PNone HNone VNone in
  let bad := mkSetting NFCustom None side_default side_default side_default side_default side_default
    "Arial" 12 (mkColor CRgb "FF0000") true false false false false None None PNone HNone VNone in
  let reqs := [bold; money; bad; bold; money; money] in
  Collisionless H reqs initial_styles /\ Small (style_run reqs initial_styles).1
  /\ (style_run reqs initial_styles).2 = [Ok 1; Ok 2; Err "Custom Format Type is used without providing custom number format."; Ok 1; Ok 3; Ok 3]
  /\ Shows (style_run reqs initial_styles).1 bold 1
  /\ number_given money /\ ~ number_given bad /\ ~ settled money initial_styles.
Proof.
  cbn zeta. split; [apply NoCollision_value|]. split; [by vm_compute|].
  match goal with |- ?rs = ?l /\ _ => assert (rs = l) as Hrs by (by vm_compute) end.
  split; [exact Hrs|]. split; [|split; [done|split; [by intros []|]]].
  - match goal with |- Shows (style_run (?s :: ?reqs) ?st).1 _ _ =>
      destruct (C30_ids_denote (demo_env Checked) value_hashes [] reqs s st (NoCollision_value _)) as (_ & _ & _ & Hg) end; [by vm_compute|].
    destruct (Hg I) as (id & x & Hid & _ & _ & _ & Hsh). cbn [app length] in Hid, Hsh. rewrite Hrs in Hid. injection Hid as <-. exact Hsh.
  - intros Hse. by apply not_elem_of_nil in Hse.
Qed.

(** C32: a new workbook starts with the tables of the template: one font, two fills, one border, one format. *)
Theorem C32_new_workbook : forall (E : Env) (r r' : relations) (o : office) (path : string),
  part_path c_style None r = (r', Ok path) -> of_open o !! path = None -> of_archive o !! path = None ->
  exists o1 rest, style_new (r, o) = ((r', o1), Ok (mkStylePart initial_styles path)) /\ StyleOpen o1 path rest
    /\ map t_tag rest = ["cellStyles"; "dxfs"; "tableStyles"]
    /\ of_archive o1 = of_archive o /\ (forall q, q <> path -> of_open o1 !! q = of_open o !! q).
Proof. intros E r r' o path. apply style_fresh. Qed.
(** Serve any requests from an open style part, save it, and open what was saved: the tables come
    back in the same order with the same entries, except that italic and single underline are
    cleared, texts are escaped and number formats have no kind ([back_styles]). Elements the library
    does not manage are kept. Every id answered for a setting free of these exceptions still names
    what was asked for. *)
Theorem C32_round_trip : forall (E : Env) (H : Hashes) (o : office) (st : styles) (path : string) (rest : list tree) (reqs : list setting),
  StyleOpen o path rest -> styles_typed st -> Forall (fun s => se_size s <= u8_max) reqs ->
  Collisionless H reqs st -> Small (style_run reqs st).1 ->
  let final := (style_run reqs st).1 in
  exists e, style_close (mkStylePart final path) o = (mkOffice (delete path (of_open o)) (<[path := e]> (of_archive o)), Ok tt)
  /\ (forall r2 r3 o2 e2, part_path c_style None r2 = (r3, Ok path) ->
     of_open o2 !! path = None -> of_archive o2 !! path = Some e2 -> part_bytes e2 = part_bytes e ->
     exists o3, style_new (r2, o2) = ((r3, o3), Ok (mkStylePart (back_styles final) path))
     /\ StyleOpen o3 path (map reread rest) /\ of_archive o3 = delete path (of_archive o2)
     /\ (forall q, q <> path -> of_open o3 !! q = of_open o2 !! q))
  /\ (forall i s id, reqs !! i = Some s -> (style_run reqs st).2 !! i = Some (Ok id) -> PlainSetting s ->
     Shows final s id /\ Shows (back_styles final) s id).
Proof.
  intros E H o st path rest reqs Ho Hty Hsz Hc Hs final.
  assert (styles_typed final) as Htf by (unfold final; rewrite (style_run_ideal H _ _ Hc); by apply style_run_typed).
  destruct (style_roundtrip o (mkStylePart final path) rest Ho Htf) as (e & H1 & _ & H2). exists e. split; [done|]. split; [done|].
  intros i s id Hi Hid Hp. assert (Shows final s id) as Hsh; [|split; [done|by apply Shows_back]].
  apply elem_of_list_split_length in Hi as (reqs1 & reqs2 & Heq & Hlen). unfold final in *. rewrite Heq in Hc, Hs, Hid |- *.
  destruct (C30_ids_denote E H reqs1 reqs2 s st Hc Hs) as (_ & _ & Hbad & Hgood). rewrite <- Hlen in *.
  destruct (decide_number s) as [Hn|Hn].
  - destruct (Hgood Hn) as (id' & x & Hid' & _ & _ & _ & Hsh). congruence.
  - destruct (Hbad Hn) as (e' & Hid' & _). congruence.
Qed.
(** The exceptions. No id of reopened tables ever shows italic or single underline. *)
Theorem C32_italic_refuted : forall (st : styles) (s : setting) (id : N),
  se_italic s = true \/ se_underline s = true -> ~ Shows (back_styles st) s id.
Proof.
  intros st s id Hor (x & y & _ & ((f & Hf & (_ & _ & _ & _ & F5 & F6 & _) & _) & _) & _).
  cbn [back_styles st_fonts] in Hf. apply elem_of_list_lookup_2, elem_of_list_fmap in Hf as (f0 & -> & _). cbn in F5, F6. destruct Hor; congruence.
Qed.
(** A number format whose code has a character XML escapes comes back as another code. *)
Theorem C32_code_refuted : forall (n : num_format) (st : styles),
  st_nums st = [n] -> spec_escape (nf_code n) <> nf_code n ->
  ~ NumberFormat (back_styles st) (nf_id n) (nf_code n) /\ NumberFormat (back_styles st) (nf_id n) (spec_escape (nf_code n)).
Proof.
  intros n st Hst Hne. unfold NumberFormat. cbn [back_styles st_nums]. rewrite Hst. cbn [map]. split.
  - intros (m & Hm%elem_of_list_singleton & _ & Hcode). subst m. by cbn in Hcode.
  - exists (back_num n). split; [by apply elem_of_list_singleton|done].
Qed.
Example C32_code_example : spec_escape ("""$""#,##0") <> """$""#,##0".
Proof. by vm_compute. Qed.
(** A custom number format of a reopened file is never recognised: asking for it adds it again. *)
Theorem C32_custom_refuted : forall (E : Env) (H : Hashes) (st st' : styles) (s : setting) (code : string) (id : N),
  se_num s = NFCustom -> se_code s = Some code -> Collisionless H [s] (back_styles st) ->
  get_style_id s (back_styles st) = (st', Ok id) -> Small st' ->
  st_nums st' = st_nums (back_styles st) ++ [custom code].
Proof.
  intros E H st st' s code id Hn Hco Hc Hg Hs. rewrite (one_ideal H s _ Hc) in Hg.
  destruct (get_style_format _ _ _ _ Hg Hs) as (x & _ & Hf). rewrite Hn, Hco in Hf.
  destruct Hf as (Hin & _ & [(_ & Heq & _)|(Heq & _)]); [done|]. rewrite Heq in Hin. cbn [back_styles st_nums] in Hin.
  apply elem_of_list_fmap in Hin as (n & Hcn & _). done.
Qed.
(** The hypotheses are met by a new workbook, here with a format asked for, saved and reopened. *)
Example C32_example : let E := demo_env Checked in
  let bold := mkSetting (NFBuiltin 0) None (mkSide (Some (mkColor CRgb "0000FF")) LThin) side_default side_default side_default side_default
    "Arial" 12 (mkColor CRgb "FF0000") true false false true true (Some "00FF00") None PSolid HCenter VNone in
  exists r' o1 rest path, style_new (mkRelations [] "xl/_rels/workbook.xml.rels", mkOffice ∅ ∅) = ((r', o1), Ok (mkStylePart initial_styles path))
    /\ StyleOpen o1 path rest /\ styles_typed initial_styles /\ PlainSetting bold
    /\ (style_run (H0 := value_hashes) [bold] initial_styles).2 = [Ok 1].
Proof.
  cbn zeta. set (E := demo_env Checked).
  destruct (part_path c_style None (mkRelations [] "xl/_rels/workbook.xml.rels")) as [r' [path| |]] eqn:Hp; [|by vm_compute in Hp..].
  destruct (C32_new_workbook E _ _ (mkOffice ∅ ∅) _ Hp) as (o1 & rest & H1 & H2 & _); [done|done|].
  exists r', o1, rest, path. split; [done|]. split; [done|]. split.
  { split_and!; repeat constructor; done. }
  split; [|by vm_compute]. clear. unfold PlainSetting, PlainSide. cbn [se_font se_italic se_underline se_color cl_value se_bg se_fg se_left se_right se_top se_bottom se_diagonal bd_line bd_color side_default].
  do 4 (split; [by vm_compute|]). split; [intros v [= <-]; by vm_compute|]. split; [intros v [=]|].
  split; [split; [intros [=]|by vm_compute]|]. do 3 (split; [by split|]). by split.
Qed.
Print Assumptions C30_ids_denote.
Print Assumptions C30_builtin_format_refuted.
Print Assumptions C30_custom_format_refuted.
Print Assumptions C31_same_id.
Print Assumptions C31_custom_refuted.
Print Assumptions C31_custom_settles.
Print Assumptions C31_empty_tables_refuted.
Print Assumptions C32_new_workbook.
Print Assumptions C32_round_trip.
Print Assumptions C32_italic_refuted.
Print Assumptions C32_code_refuted.
Print Assumptions C32_custom_refuted.
