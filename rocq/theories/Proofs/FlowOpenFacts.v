(** Opening a sheet: what the handle holds, and that it is ready to be written. *)
From Verif.Model Require Import Excel.
From Verif.Spec Require Import RelSpec XmlSpec XmlRepr PackageSpec PartSpec ColumnSpec SheetSpec SessionSpec FlowSpec.
From Verif.Proofs Require Import BaseFacts ConverterFacts PackageFacts XmlTreeFacts XmlWriteFacts DocBuild XmlReadFacts RelDocFacts SmallPartFacts SheetFacts SheetDocFacts SheetCycleFacts
  BookFacts FrameFacts SaveFacts SessionFacts ExcelFacts XmlHistFacts SoundFacts KeepFacts ReadAnyFacts FlowFacts FlowSaveFacts.
Open Scope N_scope.

(** ** Numbers *)
Lemma parse_digits_max max s n : parse_digits max s = Some n -> n <= max.
Proof.
  unfold parse_digits. destruct s; [done|]. destruct (sforall _ _); [|done]. cbv zeta. destruct (N.leb_spec (digits_val 0 (String a s)) max); [|done]. by intros [= <-].
Qed.
Lemma parse_uint_max max s n : parse_uint max s = Some n -> n <= max.
Proof. unfold parse_uint. destruct s as [|a s]; [done|]. destruct (aeqb a "+"); apply parse_digits_max. Qed.
Lemma parse_i16_range s z : parse_i16 s = Some z -> (-32768 <= z <= 32767)%Z.
Proof.
  unfold parse_i16. destruct s as [|a s]; [done|]. destruct (aeqb a "-").
  - destruct (parse_digits 32768 s) as [n|] eqn:Hn; [|done]. apply parse_digits_max in Hn. intros [= <-]. lia.
  - destruct (parse_uint 32767 (String a s)) as [n|] eqn:Hn; [|done]. apply parse_uint_max in Hn. intros [= <-]. lia.
Qed.
Lemma digits_val_mono a b s : a <= b -> digits_val a s <= digits_val b s.
Proof. revert a b. induction s as [|c s IH]; intros a b Hab; [done|]. cbn. apply IH. lia. Qed.
(** A decimal number is read as itself or refused. *)
Lemma parse_show max n m : parse_uint max (show_N n) = Some m -> m = n.
Proof.
  intros Hm. destruct (N.le_gt_cases n max) as [Hle|Hgt]; [rewrite parse_uint_show in Hm by done; congruence|].
  pose proof (parse_uint_max _ _ _ Hm) as Hmax. pose proof (parse_uint_show n n (N.le_refl n)) as Hn.
  unfold parse_uint, parse_digits in *. destruct (show_N n) as [|a s]; [done|].
  destruct (aeqb a "+").
  - destruct s as [|b s]; [done|]. destruct (sforall _ _); [|done]. cbv zeta in *. destruct (_ <=? n); [|done]. destruct (_ <=? max); [|done]. congruence.
  - destruct (sforall _ _); [|done]. cbv zeta in *. destruct (_ <=? n); [|done]. destruct (_ <=? max); [|done]. congruence.
Qed.
Lemma word_from_ge acc s : acc <= word_value_from acc s.
Proof. revert acc. induction s as [|a s IH]; intros acc; [done|]. cbn. specialize (IH (acc * 26 + letter_value a)). lia. Qed.
Lemma letter_pos a : is_letter a = true -> 1 <= letter_value a.
Proof. destruct a as [[] [] [] [] [] [] [] []]; vm_compute; done. Qed.
Lemma word_pos s : is_word s -> 1 <= word_value s.
Proof.
  intros [Hn Hs]. destruct s as [|a s]; [done|]. unfold word_value. cbn [word_value_from sforall] in *. apply andb_true_iff in Hs as [Ha _].
  pose proof (word_from_ge (0 * 26 + letter_value a) s). pose proof (letter_pos a Ha). lia.
Qed.

Section with_env.
Context `{E : Env}.
(** ** What is read has the right types *)
Lemma num_attr_max max a k o : num_attr max a k = Ok o -> below max o.
Proof.
  unfold num_attr, parse_attr. destruct (a !! k) as [s|]; [|by intros [= <-]]. destruct (parse_uint max s) as [n|] eqn:Hn; [|done].
  intros [= <-]. cbn. by eapply parse_uint_max.
Qed.
Lemma i16_attr_range a k o : parse_attr parse_i16 a k = Ok o -> is_i16 o.
Proof.
  unfold parse_attr. destruct (a !! k) as [s|]; [|by intros [= <-]]. destruct (parse_i16 s) as [n|] eqn:Hn; [|done].
  intros [= <-]. cbn. by eapply parse_i16_range.
Qed.
Lemma rbind_ok {A B} (m : res A) (f : A -> res B) y : rbind m f = Ok y -> exists x, m = Ok x /\ f x = Ok y.
Proof. destruct m; [|done..]. cbn. eauto. Qed.
Lemma rmap_ok {A B} (f : A -> B) (m : res A) y : rmap f m = Ok y -> exists x, m = Ok x /\ y = f x.
Proof. destruct m; [|done..]. cbn. intros [= <-]. eauto. Qed.
Lemma rmapM_forall2 {A B} (f : A -> res B) l l' : rmapM f l = Ok l' -> Forall2 (fun x y => f x = Ok y) l l'.
Proof.
  revert l'. induction l as [|x l IH]; intros l'; cbn [rmapM].
  - intros [= <-]. constructor.
  - intros (y & Hy & Hr)%rbind_ok. destruct (rmapM f l) as [ys|e|e] eqn:Hl; [|done..]. cbn in Hr. injection Hr as <-. constructor; [done|]. by apply IH.
Qed.
Lemma f32_read e w o : rmap Some (of_option e (env_f32 w)) = Ok o -> is_f32 o.
Proof. intros (x & Hx & ->)%rmap_ok. destruct (env_f32 w) as [y|] eqn:Hy; [|done]. injection Hx as <-. cbn. by eapply env_f32_idem. Qed.
Lemma col_read t c : col_of_tree t = Ok c -> col_typed c.
Proof.
  unfold col_of_tree. intros (a & _ & (mn & H1%num_attr_max & (mx & H2%num_attr_max & (st & H3%num_attr_max & (lv & _ & (w & H4 & Hc)%rbind_ok)%rbind_ok)%rbind_ok)%rbind_ok)%rbind_ok)%rbind_ok.
  assert (is_f32 w) as Hw.
  { destruct (a !! "customWidth") as [s|]; [|by injection H4 as <-]. destruct (seqb s "1"); [|by injection H4 as <-].
    apply rbind_ok in H4 as (x & _ & H4). by eapply f32_read. }
  injection Hc as <-. unfold col_typed. cbn. unfold u16_max in *. destruct mn, mx; cbn in *; repeat split; try done; lia.
Qed.
Lemma cols_read ts l : load_cols ts = Ok (Some l) -> Forall col_typed l.
Proof.
  unfold load_cols. destruct (last_of ts) as [t|]; [|done]. intros (x & Hx & [= ->])%rmap_ok. apply rmapM_forall2 in Hx.
  apply Forall_forall. intros c Hc. destruct (forall2_from _ _ _ _ Hx Hc) as (t' & _ & Ht). by eapply col_read.
Qed.
Lemma view_read t v : view_of_tree t = Ok v -> view_typed v.
Proof.
  unfold view_of_tree. destruct (seqb _ _); [|done]. intros (a & _ & Hv)%rbind_ok. unfold view_of_attrs in Hv.
  apply rbind_ok in Hv as (i & _ & (z1 & H1%i16_attr_range & (z2 & H2%i16_attr_range & (z3 & H3%i16_attr_range & (z4 & H4%i16_attr_range & Hv)%rbind_ok)%rbind_ok)%rbind_ok)%rbind_ok).
  injection Hv as <-. done.
Qed.
Lemma views_read ts l : load_views ts = Ok l -> Forall view_typed l.
Proof.
  unfold load_views. destruct (last_of ts) as [t|].
  - intros (x & Hx & ->)%rmap_ok. apply Forall_cons. split; [done|]. apply rmapM_forall2 in Hx.
    apply Forall_forall. intros c Hc. destruct (forall2_from _ _ _ _ Hx Hc) as (t' & _ & Ht). by eapply view_read.
  - intros [= <-]. apply Forall_singleton. done.
Qed.

(** ** What is read is what the elements say *)
Lemma attrs_there t a : attrs_req t = Ok a -> forall k, child_attr t k = a !! k.
Proof. unfold attrs_req, child_attr. destruct (t_attrs t); [|done]. by intros [= ->]. Qed.
Lemma num_said max a k o o' : num_attr max a k = Ok o -> a !! k = show_N <$> o' -> o = o'.
Proof.
  unfold num_attr, parse_attr. intros Hn Hk. rewrite Hk in Hn. destruct o' as [n|]; cbn [fmap option_fmap option_map] in Hn; [|congruence].
  destruct (parse_uint max (show_N n)) as [m|] eqn:Hm; [|done]. apply parse_show in Hm. injection Hn as <-. congruence.
Qed.
Lemma flag_said a k o : Flag o (a !! k) -> one_attr a k = o.
Proof. unfold one_attr. intros [[-> ->]|[-> [-> |[-> | ->]]]]; done. Qed.
Lemma type_said (a : gmap string string) y : (a !! "t" = type_code (ce_type y) \/ (a !! "t" = Some "n" /\ ce_type y = TNumber)) -> ce_type y <> TAuto ->
  match a !! "t" with Some t => type_enum t | None => TNumber end = ce_type y.
Proof. intros [-> | [-> ->]] Ha; [|done]. by destruct (ce_type y). Qed.
Lemma column_said c r name : ColumnName c name -> c <= u16_max -> get_column_index (name +:+ show_N r) = Ok c.
Proof.
  intros (Hw & _ & Hv) Hc. rewrite get_column_index_exact; [by rewrite Hv|done|apply ends_word_digits, show_N_digits|]. rewrite Hv. exact Hc.
Qed.
Lemma content_said t y c : CellSays t y -> ce_formula c = None -> ce_value c = None ->
  cell_children c (t_children t) = Ok (mkCell (ce_formula y) (ce_value y) (ce_type c) (ce_style c) (ce_meta c) (ce_comment c) (ce_ph c)).
Proof.
  intros Hy Hf Hv. destruct (cy_content _ _ Hy) as (fs & vs & -> & Hfs & Hvs).
  assert (exists c1, cell_children c (fs ++ vs) = cell_children c1 vs /\ c1 = mkCell (ce_formula y) None (ce_type c) (ce_style c) (ce_meta c) (ce_comment c) (ce_ph c)) as (c1 & -> & ->).
  { destruct Hfs as [[-> Hn]|(f & -> & Ht & _ & Hn)].
    - exists c. split; [done|]. destruct c; cbn in *. congruence.
    - eexists. split; [|reflexivity]. cbn [app cell_children]. unfold cell_child at 1. rewrite Ht. change (seqb "f" "v") with false. change (seqb "f" "f") with true. cbv iota. cbn [rbind]. by rewrite Hv, Hn. }
  destruct Hvs as [[-> Hn]|[(v & -> & Ht & Hn)|(v & x & -> & Ht & Hc & _ & Hn)]].
  - cbn [cell_children]. by rewrite Hn.
  - cbn [cell_children]. unfold cell_child. rewrite Ht. change (seqb "v" "v") with true. cbv iota. cbn [rbind ce_formula ce_type ce_style ce_meta ce_comment ce_ph]. by rewrite Hn.
  - cbn [cell_children]. unfold cell_child. rewrite Ht. change (seqb "is" "v") with false. change (seqb "is" "f") with false. change (seqb "is" "is") with true. cbv iota. rewrite Hc. cbn [rbind ce_formula ce_type ce_style ce_meta ce_comment ce_ph]. by rewrite Hn.
Qed.
Lemma cell_said r x t z : CellSaid r x t -> cell_of_tree t = Ok z -> z = x /\ 1 <= x.1 <= u16_max /\ cell_typed x.2.
Proof.
  destruct x as [c y]. intros ((name & Hn & Hr) & Hc & Hy) Hz. cbn [fst snd] in *. unfold cell_of_tree in Hz.
  apply rbind_ok in Hz as (a & Ha & Hz). pose proof (attrs_there _ _ Ha) as Hat.
  apply rbind_ok in Hz as ([i c0] & Hi & Hz). unfold cell_of_attrs in Hi. rewrite <- Hat, Hr in Hi. cbn [of_option rbind] in Hi. rewrite (column_said c r name Hn Hc) in Hi. cbn [rbind] in Hi.
  apply rbind_ok in Hi as (st & H1 & Hi). apply rbind_ok in Hi as (cm & H2 & Hi).
  pose proof (num_attr_max _ _ _ _ H1) as B1. pose proof (num_attr_max _ _ _ _ H2) as B2.
  pose proof Hy as Hy'. destruct Hy as [T1 T2 T3 T4 T5 T6 T7]. rewrite !Hat in *.
  apply (num_said _ _ _ _ (ce_style y)) in H1; [|done]. apply (num_said _ _ _ _ (ce_comment y)) in H2; [|done].
  rewrite (type_said a y T1 T2), (flag_said _ _ _ T6), T5, H1, H2 in Hi. injection Hi as <- <-.
  rewrite (content_said t y) in Hz by done. cbn [rmap ce_type ce_style ce_meta ce_comment ce_ph] in Hz. injection Hz as <-. subst st cm.
  split; [by destruct y|]. split; [|done]. split; [|done]. destruct Hn as (Hw & _ & <-). by apply word_pos.
Qed.
Definition said_row (x : N * row_props * list (N * cell)) : row_data :=
  mkRowData x.1.2 (match x.2 with [] => None | _ => Some (map_inserts x.2 ∅) end).
Lemma cells_said r xs ts zs : Forall2 (CellSaid r) xs ts -> Forall2 (fun t z => cell_of_tree t = Ok z) ts zs ->
  zs = xs /\ Forall (fun x : N * cell => 1 <= x.1 <= u16_max /\ cell_typed x.2) xs.
Proof.
  intros Hx. revert zs. induction Hx as [|x t xs ts Hx _ IH]; intros zs Hz; inversion Hz as [|? z ? zs' H1 H2]; subst; [done|].
  destruct (cell_said _ _ _ _ Hx H1) as (-> & H3 & H4). destruct (IH _ H2) as [-> H5]. split; [done|]. by constructor.
Qed.
Lemma row_said x t z : RowSaid x t -> row_of_tree t = Ok z ->
  z = (x.1.1, said_row x, x.2.*1) /\ x.1.1 <= u32_max /\ row_typed x.1.2 /\ Forall (fun x : N * cell => 1 <= x.1 <= u16_max /\ cell_typed x.2) x.2.
Proof.
  destruct x as [[r p] cs]. intros (Hr & Hp & Hcs & Hnd) Hz. cbn [fst snd] in *. unfold row_of_tree in Hz.
  apply rbind_ok in Hz as (a & Ha & Hz). pose proof (attrs_there _ _ Ha) as Hat.
  apply rbind_ok in Hz as ([i p'] & Hi & Hz). apply rbind_ok in Hz as (zs & Hzs%rmapM_forall2 & Hz).
  destruct (cells_said _ _ _ _ Hcs Hzs) as [-> Hty].
  unfold row_of_attrs in Hi. rewrite <- Hat, Hr in Hi. cbn [of_option rbind] in Hi.
  apply rbind_ok in Hi as (i' & Hi' & Hi). destruct (parse_uint u32_max (show_N r)) as [n|] eqn:En; [|done]. injection Hi' as <-.
  pose proof (parse_uint_max _ _ _ En) as Hmax. apply parse_show in En. subst n.
  apply rbind_ok in Hi as (st & H1 & Hi). apply rbind_ok in Hi as (ht & H2 & Hi). apply rbind_ok in Hi as (lv & H3 & Hi).
  destruct Hp as [P1 P2 P3 P4 P5 P6 P7 P8 P9]. rewrite !Hat in *.
  assert (st = ro_style p /\ below u32_max st) as [-> B1].
  { destruct P2 as [[-> P2]|(n & -> & P2 & P2')].
    - assert (st = None) as ->; [|done]. destruct (a !! "s"); [|congruence]. destruct (a !! "customFormat") as [c|]; [|congruence].
      destruct (seqb c "1") eqn:Ec; [|congruence]. apply seqb_true in Ec. congruence.
    - rewrite P2, P2' in H1. change (seqb "1" "1") with true in H1. cbv iota in H1. apply rmap_ok in H1 as (m & H1 & ->).
      destruct (parse_uint u32_max (show_N n)) as [m'|] eqn:Em; [|done]. injection H1 as ->. pose proof (parse_uint_max _ _ _ Em). apply parse_show in Em. by subst. }
  assert (ht = ro_height p /\ is_f32 ht) as [-> B2].
  { destruct P1 as [[-> P1]|(h & -> & P1 & P1' & P1'')].
    - assert (ht = None) as ->; [|done]. destruct (a !! "ht"); [|congruence]. destruct (a !! "customHeight") as [c|]; [|congruence].
      destruct (seqb c "1") eqn:Ec; [|congruence]. apply seqb_true in Ec. congruence.
    - rewrite P1', P1'' in H2. change (seqb "1" "1") with true in H2. cbv iota in H2. cbn in P1. rewrite P1 in H2. cbn in H2. by injection H2 as <-. }
  assert ((match lv with Some n => if 0 <? n then Some n else None | None => None end) = ro_level p /\ below u8_max (ro_level p)) as [Hlv B3].
  { pose proof (num_attr_max _ _ _ _ H3) as B. destruct P3 as [[-> [P3|P3]]|(n & -> & P3 & P3')].
    - unfold num_attr, parse_attr in H3. rewrite P3 in H3. injection H3 as <-. done.
    - apply (num_said _ _ _ _ (Some 0)) in H3; [|done]. by subst lv.
    - apply (num_said _ _ _ _ (Some n)) in H3; [|done]. subst lv. destruct (N.ltb_spec 0 n); [done|lia]. }
  rewrite Hlv, (flag_said _ _ _ P5), (flag_said _ _ _ P6), (flag_said _ _ _ P7), (flag_said _ _ _ P8), (flag_said _ _ _ P9), P4 in Hi. injection Hi as <- <-.
  split; [|done]. injection Hz as <-. unfold said_row. cbn [fst snd]. by destruct p.
Qed.
Lemma rows_said xs ts zs : Forall2 RowSaid xs ts -> Forall2 (fun t z => row_of_tree t = Ok z) ts zs ->
  zs = map (fun x => (x.1.1, said_row x, x.2.*1)) xs
  /\ Forall (fun x : N * row_props * list (N * cell) => x.1.1 <= u32_max /\ row_typed x.1.2
        /\ Forall (fun x : N * cell => 1 <= x.1 <= u16_max /\ cell_typed x.2) x.2 /\ NoDup x.2.*1) xs.
Proof.
  intros Hx. revert zs. induction Hx as [|x t xs ts Hx _ IH]; intros zs Hz; inversion Hz as [|? z ? zs' H1 H2]; subst; [done|].
  destruct (row_said _ _ _ Hx H1) as (-> & H3 & H4 & H5). destruct (IH _ H2) as [-> H6]. split; [done|]. constructor; [|done]. destruct Hx as (_ & _ & _ & ?). done.
Qed.
Lemma dims_ok l d : Forall (fun c => 1 <= c <= u16_max) l -> dim_ok d -> dim_ok (foldl dim_add d l).
Proof.
  revert d. induction l as [|c l IH]; intros d Hl Hd; [done|]. apply Forall_cons in Hl as [Hc Hl]. cbn [foldl]. apply IH; [done|].
  destruct Hd as [H1 H2]. unfold dim_ok, dim_add. cbn [dm_start dm_end]. unfold u16_max in *. lia.
Qed.
Lemma find_key {V} (l : list (N * V)) k v : NoDup l.*1 -> (map_inserts l ∅ !! k = Some v <-> (k, v) ∈ l).
Proof.
  intros Hnd. rewrite map_inserts_lookup by done. rewrite lookup_empty. split.
  - destruct (List.find _ l) as [[k' v']|] eqn:Hf; [|done]. intros [= ->]. apply find_some in Hf as [Hin He]. apply N.eqb_eq in He. cbn in He. subst k'. by apply elem_of_list_In.
  - intros Hin. destruct (List.find _ l) as [[k' v']|] eqn:Hf.
    + apply find_some in Hf as [Hin' He]. apply N.eqb_eq in He. cbn in He. subst k'. f_equal. cbn. apply elem_of_list_In in Hin'.
      apply elem_of_list_lookup in Hin as [i Hi]. apply elem_of_list_lookup in Hin' as [j Hj].
      assert (i = j) as ->; [|congruence]. eapply NoDup_lookup; [exact Hnd| |]; change l.*1 with (fst <$> l); rewrite list_lookup_fmap; [by rewrite Hi|by rewrite Hj].
    + exfalso. pose proof (find_none _ _ Hf (k, v)) as Hx. cbn [fst] in Hx. rewrite N.eqb_refl in Hx. apply elem_of_list_In in Hin. by specialize (Hx Hin).
Qed.
Lemma data_said data rows o dim : load_data (Some [data]) = Ok (o, dim) -> SheetSays data rows ->
  exists m, o = Some m /\ data_typed m /\ dim_ok dim
  /\ (forall r x, m !! r = Some x <-> exists p cs, (r, p, cs) ∈ rows /\ x = said_row (r, p, cs)).
Proof.
  unfold load_data. cbn [last_of last]. intros (zs & Hz%rmapM_forall2 & [= -> ->])%rmap_ok [Hs Hnd].
  destruct (rows_said _ _ _ Hs Hz) as [-> Hty]. rewrite Forall_forall in Hty. eexists. split; [done|].
  assert ((map (fun x : N * row_props * list (N * cell) => (x.1.1, said_row x, x.2.*1)) rows).*1 = map (fun x => (x.1.1, said_row x)) rows) as Hfst.
  { change ((map (fun x : N * row_props * list (N * cell) => (x.1.1, said_row x, x.2.*1)) rows).*1) with (map fst (map (fun x : N * row_props * list (N * cell) => (x.1.1, said_row x, x.2.*1)) rows)). by rewrite map_map. }
  rewrite Hfst.
  assert (forall r x, (map_inserts (map (fun x => (x.1.1, said_row x)) rows) ∅ : gmap N row_data) !! r = Some x <-> exists p cs, (r, p, cs) ∈ rows /\ x = said_row (r, p, cs)) as Hm.
  { intros r x. rewrite find_key.
    - rewrite elem_of_list_fmap. split.
      + intros ([[r' p] cs] & [= -> ->] & Hin). eauto.
      + intros (p & cs & Hin & ->). by exists (r, p, cs).
    - change ((map (fun x => (x.1.1, said_row x)) rows).*1) with (map fst (map (fun x => (x.1.1, said_row x)) rows)). rewrite map_map. cbn [fst].
      change (NoDup (map fst (map fst rows))) in Hnd. by rewrite map_map in Hnd. }
  split; [|split; [|exact Hm]].
  - intros r x (p & cs & Hin & ->)%Hm. destruct (Hty _ Hin) as (H1 & H2 & H3 & H4). cbn [fst snd] in *. split; [done|]. split; [done|].
    intros m Hc c y Hy. unfold said_row in Hc. cbn [rd_cells fst snd] in Hc. destruct cs as [|z cs]; [done|]. assert (m = map_inserts (z :: cs) ∅) as -> by congruence. apply find_key in Hy; [|done].
    rewrite Forall_forall in H3. exact (H3 _ Hy).
  - apply dims_ok; [|by vm_compute]. apply Forall_forall. intros c Hc. apply elem_of_list_In, in_concat in Hc as (l & Hl & Hc).
    apply in_map_iff in Hl as (z & <- & Hl). apply in_map_iff in Hl as (x & <- & Hl). cbn [snd] in Hc. apply in_map_iff in Hc as (y & <- & Hc).
    destruct (Hty x) as (_ & _ & H3 & _); [by apply elem_of_list_In|]. rewrite Forall_forall in H3. apply (H3 y). by apply elem_of_list_In.
Qed.

(** ** Opening *)
(** A sheet that opens: its part was created empty or read from the package, then loaded. *)
Lemma ws_new_opened name s s' w : ws_new name s = (s', Ok w) -> exists s1 nm p0 d',
  get_sheet_file_name name s = (s1, Ok (ws_path w, nm))
  /\ ((of_archive s.2.2 !! ws_path w = None /\ ws_init = Ok p0)
      \/ exists e data, of_archive s.2.2 !! ws_path w = Some e /\ part_bytes e = Ok data /\ read_doc data = Ok (op_doc p0))
  /\ ws_load (op_doc p0) = (d', Ok (ws_cols w, ws_data w, ws_views w, ws_dim w))
  /\ of_open s'.2.2 !! ws_path w = Some (mkOpen d' (op_ct p0) (op_ext p0) (op_ext_type p0)).
Proof.
  unfold ws_new. unfold bind at 1. pose proof (file_name_office name s) as Hs.
  destruct (get_sheet_file_name name s) as [s1 [[path nm]|e|e]] eqn:Eg; cbn [fst snd] in *; [|done..]. rewrite <- Hs. clear Hs.
  destruct s1 as [l [r o]]. cbn [fst snd] in *. unfold bind at 1. unfold on_pkg at 1, on_office at 1. cbn [fst snd].
  destruct (get_xml_document ws_init path o) as [o1 [[]|e|e]] eqn:Ex; cbn [fst snd] in *; [|done..].
  unfold bind at 1, lift at 1. destruct (rels_beside path) as [rp|e|e] eqn:Erp; cbn [fst snd]; [|done..]. pose proof (rels_beside_ne _ _ Erp) as Hne.
  unfold bind at 1. unfold on_pkg at 1, on_office at 1. cbn [fst snd].
  pose proof (keep_rels_new rp o1 path (not_eq_sym Hne)) as [K _]. unfold id in K. destruct (rels_new rp o1) as [o2 [rels|e|e]]; cbn [fst snd] in *; [|done..].
  assert (exists p0, of_open o1 !! path = Some p0 /\ ((of_archive o !! path = None /\ ws_init = Ok p0)
    \/ exists e data, of_archive o !! path = Some e /\ part_bytes e = Ok data /\ read_doc data = Ok (op_doc p0))) as (p0 & Hp & Hor).
  { unfold get_xml_document, get_xml_tree, bind in Ex. destruct (of_open o !! path); [done|]. destruct (of_archive o !! path) as [e|] eqn:Ea.
    - destruct (rbind (of_option _ (en_content e)) _) as [[p|]|x|x] eqn:Er; [| |done..].
      + injection Ex as <-. exists p. split; [cbn; apply lookup_insert|]. right. apply rbind_ok in Er as (c & Hc & Er). apply rbind_ok in Er as (data & Hd & Er).
        apply rbind_ok in Er as (d & Hr & Er). injection Er as <-. exists e, data. split; [done|]. split; [|done]. unfold part_bytes. destruct (en_content e); [|done]. by injection Hc as ->.
      + exfalso. apply rbind_ok in Er as (c & Hc & Er). apply rbind_ok in Er as (data & Hd & Er). apply rbind_ok in Er as (d & Hr & Er). done.
    - unfold lift in Ex. destruct ws_init as [p|x|x]; [|done..]. injection Ex as <-. exists p. split; [cbn; apply lookup_insert|]. by left. }
  unfold on_pkg at 1, on_office at 1. cbn [fst snd]. rewrite Hp in K. unfold with_doc at 1. rewrite K.
  destruct (ws_load (op_doc p0)) as [d' [[[[cols data] views] dim]|x|x]] eqn:El; cbn [fst snd rmap default] in *; [|done..].
  intros [= <- <-]. exists (l, (r, o)), nm, p0, d'. cbn [ws_path ws_cols ws_data ws_views ws_dim fst snd of_open]. split; [done|]. split; [done|]. split; [done|]. apply lookup_insert.
Qed.

(** What the part was before it was loaded: made by the library, or read from the package. *)
Definition Source (o : office) (init : res open_part) (path : string) (p0 : open_part) : Prop :=
  (of_archive o !! path = None /\ init = Ok p0)
  \/ exists e data, of_archive o !! path = Some e /\ part_bytes e = Ok data /\ read_doc data = Ok (op_doc p0).
Lemma get_source init path o o1 : get_xml_document init path o = (o1, Ok tt) -> exists p0, of_open o1 !! path = Some p0 /\ Source o init path p0.
Proof.
  intros Ex. unfold get_xml_document, get_xml_tree, bind in Ex. destruct (of_open o !! path); [done|]. destruct (of_archive o !! path) as [e|] eqn:Ea.
  - destruct (rbind (of_option _ (en_content e)) _) as [[p|]|x|x] eqn:Er; [| |done..].
    + injection Ex as <-. exists p. split; [cbn; apply lookup_insert|]. right. apply rbind_ok in Er as (c & Hc & Er). apply rbind_ok in Er as (data & Hd & Er).
      apply rbind_ok in Er as (d & Hr & Er). injection Er as <-. exists e, data. split; [done|]. split; [|done]. unfold part_bytes. destruct (en_content e); [|done]. by injection Hc as ->.
    + exfalso. apply rbind_ok in Er as (c & Hc & Er). apply rbind_ok in Er as (data & Hd & Er). apply rbind_ok in Er as (d & Hr & Er). done.
  - unfold lift in Ex. destruct init as [p|x|x]; [|done..]. injection Ex as <-. exists p. split; [cbn; apply lookup_insert|]. by left.
Qed.
Lemma source_same o o' init path p0 : of_archive o' !! path = of_archive o !! path -> Source o' init path p0 -> Source o init path p0.
Proof. unfold Source. by intros ->. Qed.
(** Parts that are loaded into memory when the workbook opens. *)
Lemma part_opened {A B} (c : content) (dir : option string) init (load : M doc A) (k : string -> option A -> B) s s' x :
  bind (on_rels (part_path c dir)) (fun path => bind (on_office (get_xml_document init path)) (fun _ =>
    bind (on_office (with_doc path load)) (fun l => ret (k path l)))) s = (s', Ok x) ->
  (exists path p0 d' l, x = k path (Some l) /\ of_open s.2 !! path = None /\ Source s.2 init path p0 /\ load (op_doc p0) = (d', Ok l)
     /\ of_open s'.2 !! path = Some (mkOpen d' (op_ct p0) (op_ext p0) (op_ext_type p0)))
  /\ (forall q p, of_open s.2 !! q = Some p -> of_open s'.2 !! q = Some p).
Proof.
  unfold bind at 1. unfold on_rels. cbn [fst snd]. destruct (part_path c dir s.1) as [r1 [path|e|e]]; [|done..].
  unfold bind at 1. unfold on_office at 1. cbn [fst snd]. pose proof (get_keeps_open init path s.2) as K. unfold id in K.
  destruct (get_xml_document init path s.2) as [o1 [[]|e|e]] eqn:Eg; [|done..]. cbn [fst] in K.
  destruct (get_source _ _ _ _ Eg) as (p0 & Hp & Hs). apply get_was_closed in Eg.
  unfold bind, on_office. cbn [fst snd]. unfold with_doc. rewrite Hp. destruct (load (op_doc p0)) as [d' [l|e|e]] eqn:El; cbn [rmap]; [|done..].
  intros [= <- <-]. cbn [snd fst of_open]. split.
  - exists path, p0, d', l. split; [done|]. split; [done|]. split; [done|]. split; [done|]. apply lookup_insert.
  - intros q p Hq. unfold set_open. cbn [of_open]. rewrite lookup_insert_ne by congruence. by apply K.
Qed.
Lemma sst_in_workbook s s' b : DocsOk s.2 -> workbook_new s = (s', Ok b) -> exists p0 d',
  Source s.2 sst_init (ss_path (wb_sst b)) p0 /\ load_strings (op_doc p0) = (d', Ok (ss_strings (wb_sst b)))
  /\ of_open s'.2 !! ss_path (wb_sst b) = Some (mkOpen d' (op_ct p0) (op_ext p0) (op_ext_type p0)).
Proof.
  intros Ho. unfold workbook_new. unfold bind at 1. unfold on_rels at 1.
  destruct (part_path c_workbook None s.1) as [r1 [path|e|e]]; [|done..].
  unfold bind at 1. unfold on_office at 1. cbn [fst snd]. destruct (get_xml_document workbook_init path s.2) as [o1 [[]|e|e]] eqn:Eg; [|done..].
  pose proof (opens_get _ _ _ _ (init_text _ _) Ho Eg) as O1. unfold bind at 1, lift at 1. destruct (book_rels_path path) as [rp|e|e]; [|done..].
  unfold bind at 1. unfold on_office at 1. cbn [fst snd]. destruct (rels_new rp o1) as [o2 [rels|e|e]] eqn:Er; [|done..].
  destruct (opens_rels _ _ _ _ (op_docs _ _ _ O1) Er) as [O2 Hrp]. pose proof (opens_trans _ _ _ _ _ O1 O2) as O12. unfold bind at 1, get at 1. cbn [fst snd].
  destruct (bind theme_new _ (rels, o2)) as [[rels1 o3] [[[[theme x] c] y]|e|e]] eqn:Ev; [|done..]. cbn [fst snd] in *.
  unfold bind at 1 in Ev. destruct (theme_new (rels, o2)) as [s1 [a|e|e]] eqn:E1; [|done..].
  pose proof (opens_theme (rels, o2) _ _ (op_docs _ _ _ O2) E1) as O3. pose proof (opens_trans _ _ _ _ _ O12 O3) as O123.
  unfold bind at 1 in Ev. destruct (sst_new s1) as [s2 [x'|e|e]] eqn:E2; [|done..].
  unfold bind at 1 in Ev. destruct (calc_new s2) as [s3 [c'|e|e]] eqn:E3; [|done..].
  unfold bind at 1 in Ev. destruct (style_new s3) as [s4 [y'|e|e]] eqn:E4; [|done..]. injection Ev as -> -> -> -> ->.
  destruct (part_opened c_share_string None sst_init load_strings (fun p l => mkSst (default [] l) p) s1 s2 x E2) as ((q & p0 & d' & l & -> & Hc & Hs & Hl & Hq) & _).
  destruct (part_opened c_calc_chain None calc_init load_calc (fun p l => mkCalc (default [] l) p) s2 s3 c E3) as (_ & K3).
  destruct (part_opened c_style None style_init load_styles (fun p l => mkStylePart (default no_styles l) p) s3 _ y E4) as (_ & K4). cbn [fst snd] in K4.
  apply K3, K4 in Hq.
  assert (q ∉ ([path] ++ [rp]) ++ [theme] /\ of_open s.2 !! q = None) as [Hq1 Hq2].
  { split.
    - intros Hin. assert (is_Some (of_open s1.2 !! q)) as Hx by (apply (op_open _ _ _ O123); by right). rewrite Hc in Hx. by destruct Hx.
    - apply eq_None_not_Some. intros Hy. assert (is_Some (of_open s1.2 !! q)) as Hx by (apply (op_open _ _ _ O123); by left). rewrite Hc in Hx. by destruct Hx. }
  unfold bind at 1, put at 1. unfold bind at 1. unfold on_office at 1. cbn [fst snd].
  assert (q <> path) as Hne. { intros ->. apply Hq1. apply elem_of_app. left. apply elem_of_app. left. left. }
  destruct (keep_with_doc path load_book o3 q Hne) as [K5 _]. unfold id in K5.
  destruct (with_doc path load_book o3) as [o4 [v|e|e]]; [|done..]. cbn [fst] in K5. destruct (default _ v) as [l' w]. intros [= <- <-]. cbn [fst snd wb_sst ss_path ss_strings default].
  exists p0, d'. split; [|split; [exact Hl|by rewrite K5]]. eapply source_same; [|exact Hs]. symmetry. symmetry. by apply (op_rest _ _ _ O123).
Qed.

(** ** Parts that read as a tree *)
Lemma reads_doc data t : ReadsAs data t -> exists d, read_doc data = Ok d /\ Doc d t /\ names_ok t /\ attrs_present t /\ ns_ok (d_ns d).
Proof.
  intros (d & it & Hr & Hrep & <- & Hns). exists d. split; [done|]. destruct (read_doc_tree _ _ Hr) as [He|(t & (it' & Hit & <-) & Hn & Ha)].
  - destruct Hrep as (_ & _ & Hh). destruct it as [i g a v cs]. apply Holds_children in Hh as [Hi _]. by rewrite He, lookup_empty in Hi.
  - assert (it' = it) as -> by (by apply (Represents_inj d); [apply Hit|]). split; [by exists it|]. done.
Qed.
Lemma load_back d g a v cs d' cols data views dim : Doc d (Node g a v cs) -> ws_load d = (d', Ok (cols, data, views, dim)) ->
  load_cols (some_list (tagged "cols" cs)) = Ok cols /\ load_data (some_list (tagged "sheetData" cs)) = Ok (data, dim)
  /\ load_views (some_list (tagged "sheetViews" cs)) = Ok views /\ Doc d' (Node g a v (rest_of cs)) /\ d_ns d' = d_ns d.
Proof.
  intros Hd. unfold ws_load, bind.
  destruct (Doc_take_tagged d g a v cs "dimension" Hd) as (d1 & -> & Hd1 & Hn1).
  destruct (Doc_take_tagged d1 g a v _ "cols" Hd1) as (d2 & -> & Hd2 & Hn2). cbn [lift]. rewrite tagged_untagged by done. unfold lift.
  destruct (load_cols _) as [cols'|e|e]; [|done..].
  destruct (Doc_take_tagged d2 g a v _ "sheetData" Hd2) as (d3 & -> & Hd3 & Hn3). rewrite !tagged_untagged by done.
  destruct (load_data _) as [[data' dim']|e|e]; [|done..].
  destruct (Doc_take_tagged d3 g a v _ "sheetViews" Hd3) as (d4 & -> & Hd4 & Hn4). rewrite !tagged_untagged by done.
  destruct (load_views _) as [views'|e|e]; [|done..].
  intros [= <- <- <- <- <-]. do 3 (split; [done|]). split; [exact Hd4|]. congruence.
Qed.
Lemma names_rest g a v cs : names_ok (Node g a v cs) -> names_ok (Node g a v (rest_of cs)).
Proof.
  intros (H1 & H2 & H3)%names_ok_node. apply names_ok_node. split; [done|]. split; [done|]. rewrite Forall_forall in H3. apply Forall_forall.
  intros t Ht. apply H3. by apply rest_of_elem in Ht as [? _].
Qed.
Lemma rest_tags cs : Forall (fun t => t_tag t ∉ sheet_tags) (rest_of cs).
Proof. apply Forall_forall. by intros t [_ ?]%rest_of_elem. Qed.
Lemma said_cell data rows o dim w : load_data (Some [data]) = Ok (o, dim) -> ws_data w = o -> SheetSays data rows ->
  (forall r c y, cell_at w r c = Some y <-> exists p cs, (r, p, cs) ∈ rows /\ (c, y) ∈ cs)
  /\ (forall r p, props_at w r = Some p <-> exists cs, (r, p, cs) ∈ rows).
Proof.
  intros Hl Hw Hs. destruct (data_said _ _ _ _ Hl Hs) as (m & -> & _ & _ & Hm). destruct Hs as [Hrows Hnd]. split.
  - intros r c y. unfold cell_at. rewrite Hw. split.
    + destruct (m !! r) as [x|] eqn:Hx; [|done]. apply Hm in Hx as (p & cs & Hin & ->). destruct (forall2_to _ _ _ _ Hrows Hin) as (t & _ & _ & _ & _ & Hn). cbn [snd] in Hn.
      unfold said_row. cbn [rd_cells fst snd]. intros Hy. exists p, cs. split; [done|]. destruct cs as [|z cs]; [done|]. by apply find_key in Hy.
    + intros (p & cs & Hin & Hc). destruct (forall2_to _ _ _ _ Hrows Hin) as (t & _ & _ & _ & _ & Hn). cbn [snd] in Hn.
      rewrite (proj2 (Hm r (said_row (r, p, cs)))) by eauto. unfold said_row. cbn [rd_cells fst snd]. destruct cs as [|z cs]; [by apply elem_of_nil in Hc|]. by apply find_key.
  - intros r p. unfold props_at. rewrite Hw. split.
    + destruct (m !! r) as [x|] eqn:Hx; [|done]. apply Hm in Hx as (p' & cs & Hin & ->). intros [= <-]. eauto.
    + intros (cs & Hin). by rewrite (proj2 (Hm r (said_row (r, p, cs)))) by eauto.
Qed.
Lemma opened_sheet name s s' w e data root sd rows : ws_new name s = (s', Ok w) -> of_archive s.2.2 !! ws_path w = Some e -> part_bytes e = Ok data ->
  ReadsAs data root -> t_value root = None -> only_child "sheetData" root sd -> SheetSays sd rows ->
  SheetOpen s'.2.2 (ws_path w) /\ sheet_typed w /\ is_Some (ws_data w)
  /\ (forall r c y, cell_at w r c = Some y <-> exists p cs, (r, p, cs) ∈ rows /\ (c, y) ∈ cs)
  /\ (forall r p, props_at w r = Some p <-> exists cs, (r, p, cs) ∈ rows).
Proof.
  intros Hnew He Hb Hrd Hv Hsd Hrows. destruct (ws_new_opened _ _ _ _ Hnew) as (s1 & nm & p0 & d' & _ & Hsrc & Hl & Hop).
  assert (read_doc data = Ok (op_doc p0)) as Hr. { destruct Hsrc as [[Hn _]|(e' & data' & He' & Hb' & Hr)]; congruence. }
  destruct (reads_doc _ _ Hrd) as (d & Hr' & Hd & Hn & Ha & Hns). assert (d = op_doc p0) as -> by congruence.
  destruct root as [g a v cs]. cbn in Hv. subst v. destruct (load_back _ _ _ _ _ _ _ _ _ _ Hd Hl) as (L1 & L2 & L3 & Hd' & Hns').
  unfold only_child in Hsd. cbn [t_children] in Hsd. fold (tagged "sheetData" cs) in Hsd. change (List.filter _ cs) with (tagged "sheetData" cs) in Hsd. rewrite Hsd in L2. cbn [some_list] in L2.
  destruct (data_said _ _ _ _ L2 Hrows) as (m & Hm & Hty & Hdim & _). split.
  - apply SheetOpen_Doc. eexists _, _. split; [exact Hop|]. cbn [op_doc]. split; [exact Hd'|]. split; [by apply names_rest|]. split; [by rewrite Hns'|]. split; [done|].
    apply attrs_present_node in Ha as [Ha _]. split; [done|]. apply rest_tags.
  - split; [|split; [rewrite Hm; by eexists|by eapply said_cell]]. constructor.
    + intros l Hlc. rewrite Hlc in L1. by eapply cols_read.
    + by eapply views_read.
    + intros m' Hm'. assert (m' = m) as -> by congruence. done.
    + exact Hdim.
Qed.

(** ** New sheets *)
Lemma last_char (a b : string) c d : a +:+ String c "" = b +:+ String d "" -> c = d.
Proof.
  revert b. induction a as [|x a IH]; intros [|y b]; cbn.
  - by intros [= ->].
  - intros [= _ Hb]. by destruct b.
  - intros [= _ Hb]. by destruct a.
  - intros [= _ Hb]. by apply (IH b).
Qed.
Lemma sheet_no_rels dir k : ~ rels_name (sheet_path dir k).
Proof.
  intros (x & y & Hxy). unfold sheet_path in Hxy. 
  assert (forall z, z +:+ ".rels" = (z +:+ ".rel") +:+ String "s" "") as H1 by (intros z; by rewrite <- app_assoc_s).
  assert (forall z, z +:+ "." +:+ c_ext c_worksheet = (z +:+ ".xm") +:+ String "l" "") as H2 by (intros z; by rewrite <- app_assoc_s).
  rewrite H2, H1 in Hxy. rewrite !app_assoc_s in Hxy. by apply last_char in Hxy.
Qed.
Lemma new_sheet_any name s s' w : (forall n x, name = Some n -> x ∈ s.1 -> sh_name x <> n) -> ws_new name s = (s', Ok w) ->
  SheetOpen s'.2.2 (ws_path w) /\ sheet_typed w /\ ws_data w = Some ∅ /\ ~ rels_name (ws_path w) /\ of_archive s.2.2 !! ws_path w = None.
Proof.
  intros Hn Hnew. destruct (ws_new_opened _ _ _ _ Hnew) as (s1 & nm & p0 & d' & Hg & Hsrc & Hl & Hop).
  destruct s as [sheets [r o]]. cbn [fst snd] in *. destruct (get_relative_path r) as [rp|e|e] eqn:Er.
  - destruct (file_name_new name sheets r o rp Hn Er) as (k & Hg' & _ & Ha & _). cbv zeta in *. rewrite Hg in Hg'. assert (ws_path w = sheet_path (rp +:+ c_path c_worksheet) k) as Hp by congruence.
    rewrite <- Hp in Ha. destruct Hsrc as [[_ Hi]|(e & data & He & _)]; [|congruence].
    destruct ws_init_spec as (d & d1 & t' & Hi' & Hl' & Hd' & Hn' & Hns' & Hv' & Ha' & Hc'). assert (op_doc p0 = d) as Hd0. { rewrite Hi in Hi'. by injection Hi' as ->. }
    rewrite Hd0, Hl' in Hl. injection Hl as <- Hw1 Hw2 Hw3 Hw4. split; [|split; [|split; [done|split; [|done]]]].
    + apply SheetOpen_Doc. eexists _, t'. split; [exact Hop|]. cbn [op_doc]. repeat (split; [done|]). rewrite Hc'. constructor.
    + constructor; [by rewrite <- Hw1|rewrite <- Hw3; by apply Forall_singleton| |rewrite <- Hw4; by vm_compute]. rewrite <- Hw2. intros m [= <-] q x. by rewrite lookup_empty.
    + rewrite Hp. apply sheet_no_rels.
  - exfalso. unfold get_sheet_file_name, bind, get, lift in Hg. assert (name ≫= (fun n => List.find (fun x => seqb (sh_name x) n) sheets) = None) as Hf.
    { destruct name as [n|]; [|done]. cbn. destruct (List.find _ sheets) as [x|] eqn:Ef; [|done]. apply find_some in Ef as [Hin He]. apply seqb_true in He. by apply elem_of_list_In, (Hn n x eq_refl) in Hin. }
    rewrite Hf, Er in Hg. done.
  - exfalso. unfold get_sheet_file_name, bind, get, lift in Hg. assert (name ≫= (fun n => List.find (fun x => seqb (sh_name x) n) sheets) = None) as Hf.
    { destruct name as [n|]; [|done]. cbn. destruct (List.find _ sheets) as [x|] eqn:Ef; [|done]. apply find_some in Ef as [Hin He]. apply seqb_true in He. by apply elem_of_list_In, (Hn n x eq_refl) in Hin. }
    rewrite Hf, Er in Hg. done.
Qed.

(** ** The table of strings *)
Lemma texts_said root texts : TextsSaid root texts -> omap si_text (List.filter (fun t => seqb (t_tag t) "si") (t_children root)) = texts.
Proof.
  unfold TextsSaid. change (fun t => String.eqb (t_tag t) "si") with (fun t => seqb (t_tag t) "si"). generalize (List.filter (fun t => seqb (t_tag t) "si") (t_children root)) as l.
  intros l Hl. induction Hl as [|x t xs ts (c & Hc & _ & Hx) _ IH]; [done|]. cbn [omap list_omap]. unfold si_text at 1. rewrite Hc. by rewrite IH, Hx.
Qed.
Lemma names_untagged g a v cs tag : names_ok (Node g a v cs) -> names_ok (Node g a v (untagged tag cs)).
Proof.
  intros (H1 & H2 & H3)%names_ok_node. apply names_ok_node. split; [done|]. split; [done|]. rewrite Forall_forall in H3. apply Forall_forall.
  intros t Ht. apply H3. unfold untagged in Ht. apply elem_of_list_In, filter_In in Ht as [Ht _]. by apply elem_of_list_In.
Qed.
Lemma untagged_none tag cs : Forall (fun t => t_tag t <> tag) (untagged tag cs).
Proof. apply Forall_forall. intros t Ht. unfold untagged in Ht. apply elem_of_list_In, filter_In in Ht as [_ Ht]. apply negb_true_iff in Ht. by apply seqb_false. Qed.
Lemma sst_ready o o' init path p0 d' strings : init = sst_init -> Source o init path p0 -> load_strings (op_doc p0) = (d', Ok strings) ->
  of_open o' !! path = Some (mkOpen d' (op_ct p0) (op_ext p0) (op_ext_type p0)) ->
  (of_archive o !! path = None -> PartOpen "si" o' path /\ strings = [])
  /\ (forall e data root, of_archive o !! path = Some e -> part_bytes e = Ok data -> ReadsAs data root -> t_value root = None ->
      PartOpen "si" o' path /\ strings = omap si_text (List.filter (fun t => seqb (t_tag t) "si") (t_children root))).
Proof.
  intros -> Hs Hl Hop. split.
  - intros Ha. destruct Hs as [[_ Hi]|(e & data & He & _)]; [|congruence].
    destruct (init_with_ns_spec c_share_string "sst") as (d & Hi' & Hd & Hns); [by vm_compute|]. assert (op_doc p0 = d) as Hd0. { unfold sst_init in Hi. rewrite Hi in Hi'. by injection Hi' as ->. }
    rewrite Hd0 in Hl. destruct (Doc_load_strings d _ _ _ _ Hd) as (d1 & Hl' & Hd' & Hns'). rewrite Hl in Hl'. injection Hl' as <- ->. split; [|done].
    apply PartOpen_Doc. eexists _, _. split; [exact Hop|]. cbn [op_doc]. split; [exact Hd'|]. cbn [List.filter t_value t_attrs t_children].
    split; [apply root_ok; [by vm_compute|apply attrs_ok_empty]|]. split; [rewrite Hns', Hns; apply ns_ok_single; by vm_compute|]. split; [done|]. split; [done|constructor].
  - intros e data root He Hb Hrd Hv. assert (read_doc data = Ok (op_doc p0)) as Hr. { destruct Hs as [[Hn _]|(e' & data' & He' & Hb' & Hr)]; congruence. }
    destruct (reads_doc _ _ Hrd) as (d & Hr' & Hd & Hn & Ha & Hns). assert (d = op_doc p0) as -> by congruence.
    destruct root as [g a v cs]. cbn in Hv. subst v. destruct (Doc_load_strings _ _ _ _ _ Hd) as (d1 & Hl' & Hd' & Hns'). rewrite Hl in Hl'. injection Hl' as <- ->. split; [|done].
    apply PartOpen_Doc. eexists _, _. split; [exact Hop|]. cbn [op_doc]. split; [exact Hd'|]. split; [by apply names_untagged|]. split; [by rewrite Hns'|]. split; [done|].
    apply attrs_present_node in Ha as [Ha _]. split; [done|]. apply untagged_none.
Qed.
End with_env.

Section sessions.
Context `{E : Env} `{Hs : Hashes}.
(** A new or opened workbook. *)
Lemma table_source file fs x : excel_new file fs = Ok x -> exists o, office_new file fs = Ok o /\ exists p0 d',
  Source o sst_init (ss_path (wb_sst (x_book x))) p0 /\ load_strings (op_doc p0) = (d', Ok (table (x, [])))
  /\ of_open (x_office x) !! ss_path (wb_sst (x_book x)) = Some (mkOpen d' (op_ct p0) (op_ext p0) (op_ext_type p0)).
Proof.
  unfold excel_new. destruct (suite_new file fs) as [s|e|e] eqn:Es; cbn [rbind]; [|done..].
  destruct (opens_suite _ _ _ Es) as (o & Ho & He & O1).
  destruct (workbook_new (su_root s, su_office s)) as [[root o1] [b|e|e]] eqn:Ew; [|done..].
  destruct (opens_workbook (su_root s, su_office s) _ _ (op_docs _ _ _ O1) Ew) as [O2 Hr]. cbn [fst snd] in *.
  destruct (sst_in_workbook (su_root s, su_office s) _ _ (op_docs _ _ _ O1) Ew) as (p0 & d' & Hsrc & Hl & Hop). cbn [fst snd] in *.
  pose proof (opens_trans _ _ _ _ _ O1 O2) as O.
  assert (Source o sst_init (ss_path (wb_sst b)) p0) as Hsrc'.
  { eapply source_same; [|exact Hsrc]. apply (op_rest _ _ _ O1); [|by rewrite He, lookup_empty]. intros Hin.
    assert (is_Some (of_open (su_office s) !! ss_path (wb_sst b))) as Hx by (apply (op_open _ _ _ O1); by right).
    rewrite (op_closed _ _ _ O2) in Hx; [by destruct Hx|]. unfold own_parts. rewrite !elem_of_cons. tauto. }
  set (x0 := mkExcel (mkSuite o1 root (su_core s)) b).
  destruct file as [p|].
  - intros [= <-]. exists o. split; [done|]. exists p0, d'. done.
  - intros Hx. assert (LInv (x0, [])) as I0.
    { assert (held (x0, []) ≡ₚ DocsIn s ++ own_parts b) as Hp.
      { unfold held, x0, live_parts. cbn [fst snd x_book x_suite]. cbn [fmap list_fmap concat]. rewrite app_nil_r. rewrite Permutation_app_comm.
        unfold DocsIn. cbn [su_root su_core]. by rewrite Hr. }
      constructor; [apply O|rewrite Hp; apply O|]. intros q Hq. rewrite Hp in Hq. apply (op_open _ _ _ O). by right. }
    fold x0 in Hx. destruct (on_book (add_sheet None) x0) as [x1 [w|e|e]] eqn:Ea; [|done..].
    assert (calls [CAdd None; CDrop 0] (x0, []) = Some (x, [None])) as Hc.
    { cbn [calls call_step]. unfold give. cbn [fst snd]. rewrite Ea. cbn [app]. unfold spend, handle. cbn. injection Hx as <-. done. }
    destruct (table_stays _ _ _ I0 Hc) as ((new & T1) & T2 & T3). cbn [fst] in *.
    assert (table (x, []) = table (x0, [])) as Ht.
    { unfold table. cbn [fst]. assert (forall w y, x_book (on_book (fun s => ((s.1, ws_drop w s.2), Ok tt)) y).1 = x_book y) as Hd by (by intros ? [[]]).
      injection Hx as <-. unfold on_book, add_sheet in Ea. cbn in Ea. destruct (ws_new None _) as [[sh [rl o2]] r2]. injection Ea as <- _. done. }
    exists o. split; [done|]. exists p0, d'. rewrite T2, T3, Ht. done.
Qed.
(** The texts of a workbook reach the saved file. *)
Definition TableReady (x : excel) : Prop := PartOpen "si" (x_office x) (ss_path (wb_sst (x_book x))).
Lemma ready_new fs x : excel_new None fs = Ok x -> TableReady x /\ table (x, []) = [].
Proof.
  intros Hx. destruct (table_source _ _ _ Hx) as (o & Ho & p0 & d' & Hsrc & Hl & Hop).
  injection Ho as <-. destruct (sst_ready _ (x_office x) _ _ _ _ _ eq_refl Hsrc Hl Hop) as [R _]. apply R. apply lookup_empty.
Qed.
Lemma ready_opened file fs l x texts : Stored fs file l -> excel_new (Some file) fs = Ok x -> ss_path (wb_sst (x_book x)) <> content_types_name ->
  TableSaid l (ss_path (wb_sst (x_book x))) texts -> TableReady x /\ table (x, []) = texts.
Proof.
  intros Hst Hx Hq Ht. destruct (table_source _ _ _ Hx) as (o & Ho & p0 & d' & Hsrc & Hl & Hop).
  destruct (reopened_file _ _ _ _ Hst Ho) as (_ & Hparts & Hno).
  destruct (sst_ready _ (x_office x) _ _ _ _ _ eq_refl Hsrc Hl Hop) as [R1 R2]. destruct Ht as [[Hn ->]|(data & root & Hin & Hr & Hv & Hs')].
  - apply R1. by apply Hno.
  - destruct (Hparts _ _ Hq Hin) as (e & He & Hb). destruct (R2 e data root He Hb Hr Hv) as [H1 H2]. split; [done|]. rewrite H2. by apply texts_said.
Qed.
Lemma texts_flow x0 cs s t f path fs tr fs' : LInv (x0, []) -> TableReady x0 -> calls cs (x0, []) = Some s ->
  excel_save t f path s.1 fs = (tr, Ok tt) -> last tr = Some fs' ->
  (exists new, table s = table (x0, []) ++ new)
  /\ exists l, Stored fs' path l /\ (table s <> [] -> TableIn l (ss_path (wb_sst (x_book x0))) (table s)).
Proof.
  intros I Hr Hcs Hsave Hl. destruct (table_stays _ _ _ I Hcs) as (T1 & T2 & T3). destruct (calls_effect _ _ _ I Hcs) as [I' _].
  split; [done|]. destruct (flow_saved t f path s fs tr fs' I' Hsave Hl) as (l & Hst & _ & Htab). exists l. split; [done|]. rewrite T2 in Htab. apply Htab.
  destruct Hr as (p & it & Hp & Hrest). exists p, it. split; [|done]. cbn [fst] in *. by rewrite T3.
Qed.

(** ** Sheets *)
Lemma asked c name s s1 : asks c name -> call_step c s = (s1, Ok tt) -> exists w st,
  ws_new name (wb_sheets (x_book s.1), (wb_rels (x_book s.1), x_office s.1)) = (st, Ok w) /\ s1.2 = s.2 ++ [Some w] /\ x_office s1.1 = st.2.2.
Proof.
  intros Ha Hc. assert (give (on_book (add_sheet name)) s = (s1, Ok tt)) as Hg by (by destruct Ha as [->|(n & -> & ->)]).
  clear Ha Hc. unfold give, on_book, add_sheet, x_state in Hg. cbn [fst snd] in Hg.
  destruct (ws_new name _) as [[sh [rl o2]] [w|e|e]]; [|done..]. injection Hg as <-. exists w, (sh, (rl, o2)). done.
Qed.
Lemma asked_handle c name s s1 w : asks c name -> call_step c s = (s1, Ok tt) -> handle (length s.2) s1 = Some w ->
  exists st, ws_new name (wb_sheets (x_book s.1), (wb_rels (x_book s.1), x_office s.1)) = (st, Ok w) /\ x_office s1.1 = st.2.2.
Proof.
  intros Ha Hc Hh. destruct (asked _ _ _ _ Ha Hc) as (w' & st & H1 & H2 & H3). unfold handle in Hh. rewrite H2, list_lookup_middle in Hh by done.
  cbn in Hh. injection Hh as ->. by exists st.
Qed.
Lemma kept_shown w table ops data rows : is_Some (ws_data w) ->
  (forall r c y, cell_at w r c = Some y <-> exists p cs, (r, p, cs) ∈ rows /\ (c, y) ∈ cs) ->
  (forall r p, props_at w r = Some p <-> exists cs, (r, p, cs) ∈ rows) ->
  SheetShown w table ops data -> SheetKept rows table ops data.
Proof.
  intros Hd Hc Hp [S1 S2 S3 S4 S5 S6]. constructor.
  - done.
  - intros r p cs c y Hr Hy Hw. apply S2; [done|]. apply Hc. by exists p, cs.
  - intros r c t Hw Hn. apply S3; [done|]. apply eq_None_not_Some. intros [y Hy]. apply Hc in Hy as (p & cs & H1 & H2). by apply (Hn p cs y).
  - done.
  - intros r p cs Hr Hw. apply S5; [done|]. apply Hp. by exists cs.
  - intros r t Ht Hn. apply S6; [done|]. intros [p Hrow]. apply Hp in Hrow as (cs & Hrow). by apply (Hn p cs).
Qed.
(** A new sheet. *)
Theorem flow_new file fs0 x0 pre c0 name s s1 w0 cs ops c post s2 s3 t f path fs tr fs' : excel_new file fs0 = Ok x0 -> calls pre (x0, []) = Some s ->
  asks c0 name -> (forall n, name = Some n -> n ∉ list_sheet_names (x_book s.1)) -> call_step c0 s = (s1, Ok tt) -> handle (length s.2) s1 = Some w0 ->
  History (length s.2) cs ops -> Forall in_range ops -> Forall op_typed ops -> releases (length s.2) c ->
  calls (cs ++ [c]) s1 = Some s2 -> calls post s2 = Some s3 -> ~ Reopens post s2 (ws_path w0) ->
  excel_save t f path s3.1 fs = (tr, Ok tt) -> last tr = Some fs' ->
  exists l data, Stored fs' path l /\ PartShows l (ws_path w0) data /\ SheetKept [] (table s3) ops data.
Proof.
  intros Hx Hpre Ha Hn Hc0 Hh Hhist Hr Hty Hrel Hcs Hpost Hre Hsave Hl.
  destruct (new_linv _ _ _ Hx) as (I0 & _). destruct (calls_effect _ _ _ I0 Hpre) as [I _].
  assert (LInv s1) as I1. { pose proof (call_effect c0 s I) as Hce. rewrite Hc0 in Hce. by apply Hce. }
  destruct (asked_handle _ _ _ _ _ Ha Hc0 Hh) as (st & Hw & Ho).
  assert (forall n x, name = Some n -> x ∈ wb_sheets (x_book s.1) -> sh_name x <> n) as Hnew.
  { intros n x E0 Hin Heq. apply (Hn n E0). unfold list_sheet_names. apply elem_of_list_In, in_map_iff. exists x. split; [done|]. by apply elem_of_list_In. }
  destruct (new_sheet_any name (wb_sheets (x_book s.1), (wb_rels (x_book s.1), x_office s.1)) _ _ Hnew Hw) as (N1 & N2 & N3 & N4 & _).
  destruct (flow_whole w0 (length s.2) cs ops c post s1 s2 s3 t f path fs tr fs') as (l & data & L1 & L2 & L3 & _); try done.
  { by rewrite Ho. }
  exists l, data. split; [done|]. split; [done|]. eapply kept_shown; [rewrite N3; by eexists| | |exact L3].
  - intros r k y. unfold cell_at. rewrite N3, lookup_empty. split; [done|]. by intros (p & ys & Hin%elem_of_nil & _).
  - intros r p. unfold props_at. rewrite N3, lookup_empty. split; [done|]. by intros (ys & Hin%elem_of_nil).
Qed.
(** A sheet that was in the file. *)
Theorem flow_opened file fs0 l0 q data0 root sd rows x0 pre c0 name s s1 w0 cs ops c post s2 s3 t f path fs tr fs' :
  Stored fs0 file l0 -> (q, data0) ∈ l0 -> q <> content_types_name -> ~ rels_name q ->
  ReadsAs data0 root -> t_value root = None -> only_child "sheetData" root sd -> SheetSays sd rows ->
  excel_new (Some file) fs0 = Ok x0 -> of_open (x_office x0) !! q = None -> calls pre (x0, []) = Some s -> ~ Reopens pre (x0, []) q ->
  asks c0 name -> call_step c0 s = (s1, Ok tt) -> handle (length s.2) s1 = Some w0 -> ws_path w0 = q ->
  History (length s.2) cs ops -> Forall in_range ops -> Forall op_typed ops -> releases (length s.2) c ->
  calls (cs ++ [c]) s1 = Some s2 -> calls post s2 = Some s3 -> ~ Reopens post s2 q ->
  excel_save t f path s3.1 fs = (tr, Ok tt) -> last tr = Some fs' ->
  exists l data, Stored fs' path l /\ PartShows l q data /\ SheetKept rows (table s3) ops data.
Proof.
  intros Hst Hin Hct Hnr Hrd Hv Hsd Hsay Hx Hcl Hpre Hre0 Ha Hc0 Hh Hq Hhist Hr Hty Hrel Hcs Hpost Hre Hsave Hl. subst q.
  destruct (new_linv _ _ _ Hx) as (I0 & o & Ho & _ & Hopen). destruct (reopened_file _ _ _ _ Hst Ho) as (_ & Hparts & _).
  destruct (Hparts _ _ Hct Hin) as (e & He & Hb). destruct (Hopen _ _ He) as [[H1 H2]|[[p H1]|H1]]; [|congruence|done].
  destruct (calls_effect _ _ _ I0 Hpre) as [I _].
  destruct (stored_stays _ _ _ _ _ I0 Hpre (conj H1 H2) Hnr Hre0) as [St1 St2].
  assert (LInv s1) as I1. { pose proof (call_effect c0 s I) as Hce. rewrite Hc0 in Hce. by apply Hce. }
  destruct (asked_handle _ _ _ _ _ Ha Hc0 Hh) as (st & Hw & Hof).
  destruct (opened_sheet _ _ _ _ _ _ _ _ _ Hw St2 Hb Hrd Hv Hsd Hsay) as (N1 & N2 & N3 & N4 & N5).
  destruct (flow_whole w0 (length s.2) cs ops c post s1 s2 s3 t f path fs tr fs') as (l & data & L1 & L2 & L3 & _); try done.
  { by rewrite Hof. }
  exists l, data. split; [done|]. split; [done|]. by eapply kept_shown.
Qed.
End sessions.
