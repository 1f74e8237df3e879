(** Worksheets in memory: typing, last write wins, dimension, columns. *)
From Verif.Model Require Import Worksheet.
From Verif.Spec Require Import XmlSpec PackageSpec PartSpec ColumnSpec SheetSpec.
From Verif.Proofs Require Import BaseFacts ConverterFacts SmallPartFacts.

(** ** Floating-point literals *)
Definition no_digit (s : string) : Prop := match s with String a _ => is_digit_byte a = false | EmptyString => True end.
Lemma span_digits_app ds r : sforall is_digit_byte ds = true -> no_digit r -> span_digits (ds +:+ r) = (ds, r).
Proof.
  induction ds as [|a ds IH]; intros Hd Hr.
  - destruct r as [|a r]; [done|]. cbn in *. by rewrite Hr.
  - cbn in Hd. apply andb_true_iff in Hd as [Ha Hd]. change (String a ds +:+ r) with (String a (ds +:+ r)). cbn [span_digits].
    by rewrite Ha, IH.
Qed.
Lemma span_digits_inv s d r : span_digits s = (d, r) -> s = d +:+ r /\ sforall is_digit_byte d = true /\ no_digit r.
Proof.
  revert d. induction s as [|a s IH]; intros d; cbn [span_digits]; [by intros [= <- <-]|].
  destruct (is_digit_byte a) eqn:Ea; [|intros [= <- <-]; by cbn].
  destruct (span_digits s) as [d' r'] eqn:Es. intros [= <- <-]. destruct (IH d' eq_refl) as (-> & H1 & H2). cbn. by rewrite Ea.
Qed.
Lemma is_nonempty_iff s : is_nonempty s = true <-> s <> "".
Proof. by destruct s. Qed.
Lemma digit_not_sign a : is_digit_byte a = true -> aeqb a "+" || aeqb a "-" = false.
Proof. destruct a as [[] [] [] [] [] [] [] []]; by vm_compute. Qed.
Lemma strip_sign_digits ds : sforall is_digit_byte ds = true -> strip_sign ds = ds.
Proof. destruct ds as [|a ds]; [done|]. cbn. intros [Ha _]%andb_true_iff. by rewrite digit_not_sign. Qed.
Lemma strip_sign_inv s : exists sg, Sign sg /\ s = sg +:+ strip_sign s.
Proof.
  destruct s as [|a s]; [exists ""; split; [constructor|done]|]. unfold strip_sign. destruct (aeqb a "+" || aeqb a "-") eqn:Ea.
  - apply orb_true_iff in Ea as [->%aeqb_true| ->%aeqb_true]; [exists "+"|exists "-"]; (split; [constructor|done]).
  - exists "". split; [constructor|done].
Qed.
Lemma exponent_ok s : f64_exponent_ok s = true <-> Exponent s.
Proof.
  split.
  - destruct s as [|a s]; [constructor|]. cbn [f64_exponent_ok]. destruct (aeqb a "e" || aeqb a "E") eqn:Ea; [|done].
    intros [H1 H2]%andb_true_iff. destruct (strip_sign_inv s) as (sg & Hsg & Hs). rewrite Hs.
    change (String a (sg +:+ strip_sign s)) with (String a "" +:+ sg +:+ strip_sign s). constructor; [|done|].
    + apply orb_true_iff in Ea as [->%aeqb_true| ->%aeqb_true]; [by left|by right].
    + split; [by apply is_nonempty_iff|done].
  - intros [|e sg ds He Hsg [H1 H2]]; [done|].
    assert (strip_sign (sg +:+ ds) = ds) as Hst. { destruct Hsg; [by apply strip_sign_digits|done|done]. }
    destruct He as [->| ->]; cbn [String.append f64_exponent_ok]; change (aeqb _ _ || aeqb _ _) with true; rewrite Hst; cbv zeta;
      rewrite H2, (proj2 (is_nonempty_iff ds) H1); done.
Qed.
Lemma exponent_no_digit e : Exponent e -> no_digit e.
Proof. intros [|e' sg ds [->| ->] _ _]; done. Qed.
Lemma exponent_no_dot e a r : Exponent e -> e = String a r -> aeqb a "." = false.
Proof. intros [|e' sg ds [->| ->] _ _]; [done|..]; by intros [= <- _]. Qed.
Lemma number_ok s : f64_number_ok s = true <-> (exists ds e, s = ds +:+ e /\ Digits ds /\ Exponent e)
  \/ (exists ds fs e, s = ds +:+ "." +:+ fs +:+ e /\ sforall is_digit_byte ds = true /\ sforall is_digit_byte fs = true
      /\ (ds <> "" \/ fs <> "") /\ Exponent e).
Proof.
  split.
  - unfold f64_number_ok. destruct (span_digits s) as [i r] eqn:Es. apply span_digits_inv in Es as (-> & Hi & Hr).
    destruct r as [|a r].
    + intros Hn%is_nonempty_iff. left. exists i, "". split; [done|]. split; [done|constructor].
    + destruct (aeqb a ".") eqn:Ea.
      * apply aeqb_true in Ea as ->. destruct (span_digits r) as [f r'] eqn:Er. apply span_digits_inv in Er as (-> & Hf & _).
        intros [Hn He]%andb_true_iff. right. exists i, f, r'. split; [done|]. split; [done|]. split; [done|].
        split; [|by apply exponent_ok]. apply orb_true_iff in Hn as [?%is_nonempty_iff|?%is_nonempty_iff]; [by left|by right].
      * intros [Hn He]%andb_true_iff. left. exists i, (String a r). split; [done|]. split; [|by apply exponent_ok].
        split; [by apply is_nonempty_iff|done].
  - intros [(ds & e & -> & (H1 & H2) & He)|(ds & fs & e & -> & H1 & H2 & H3 & He)]; unfold f64_number_ok.
    + rewrite span_digits_app by (done || by apply exponent_no_digit). destruct e as [|a e]; [by apply is_nonempty_iff|].
      rewrite (exponent_no_dot _ a e He eq_refl). apply andb_true_iff. split; [by apply is_nonempty_iff|by apply exponent_ok].
    + rewrite span_digits_app by done. change ("." +:+ fs +:+ e) with (String "." (fs +:+ e)). change (aeqb "." ".") with true. cbv iota.
      rewrite span_digits_app by (done || by apply exponent_no_digit). apply andb_true_iff.
      split; [|by apply exponent_ok]. apply orb_true_iff. rewrite !is_nonempty_iff. done.
Qed.
Lemma lower_sign a : aeqb a "+" || aeqb a "-" = true -> lower_byte a = a.
Proof. intros [->%aeqb_true| ->%aeqb_true]%orb_true_iff; done. Qed.
Lemma strip_sign_mag m : Magnitude m -> strip_sign m = m.
Proof.
  intros Hm. destruct m as [|a m]; [done|]. cbn [strip_sign]. destruct (aeqb a "+" || aeqb a "-") eqn:Ea; [|done]. exfalso.
  inversion Hm as [s Hw Hs|ds e (Hd1 & Hd2) He Hs|ds fs e Hd Hf Hne He Hs].
  - cbn [slower] in Hw. rewrite (lower_sign a Ea) in Hw. apply orb_true_iff in Ea as [->%aeqb_true| ->%aeqb_true];
      destruct Hw as [Hw|[Hw|Hw]]; discriminate Hw.
  - destruct ds as [|b ds]; [done|]. injection Hs as -> _. cbn in Hd2. apply andb_true_iff in Hd2 as [Hd2 _].
    rewrite digit_not_sign in Ea by done. done.
  - destruct ds as [|b ds]; injection Hs as <- _; [done|]. cbn in Hd. apply andb_true_iff in Hd as [Hd _].
    rewrite digit_not_sign in Ea by done. done.
Qed.
Lemma f64_parses_iff v : f64_parses v = true <-> FloatText v.
Proof.
  unfold f64_parses. rewrite !orb_true_iff, !seqb_true, number_ok. split.
  - intros Hv. destruct (strip_sign_inv v) as (sg & Hsg & Hs). rewrite Hs. constructor; [done|].
    destruct Hv as [[[H|H]|H]|[(ds & e & -> & H1 & H2)|(ds & fs & e & -> & H1 & H2 & H3 & H4)]].
    + constructor. tauto. + constructor. tauto. + constructor. tauto. + by constructor. + by constructor.
  - intros [sg m Hsg Hm]. assert (strip_sign (sg +:+ m) = m) as ->. { destruct Hsg; [by apply strip_sign_mag|done|done]. }
    destruct Hm as [s Hw|ds e H1 H2|ds fs e H1 H2 H3 H4]; [tauto|right; left|right; right].
    + by exists ds, e. + by exists ds, fs, e.
Qed.

(** ** Storing cells *)
Lemma Refers_app table new ref s : Refers table ref s -> Refers (table ++ new) ref s.
Proof. intros (i & -> & Hi). exists i. split; [done|]. by apply lookup_app_l_Some. Qed.
Lemma StoredAs_app table new t v t' v' : StoredAs table t v t' v' -> StoredAs (table ++ new) t v t' v'.
Proof. intros []; try by econstructor. - apply St_text; try done. by apply Refers_app. - apply St_shared. by apply Refers_app. Qed.
Lemma CellStored_app table new x y : CellStored table x y -> CellStored (table ++ new) x y.
Proof. intros (H1 & H2). split; [by apply StoredAs_app|done]. Qed.
Lemma get_string_id_refers v table table' ref : get_string_id v table = (table', ref) ->
  Refers table' ref v /\ exists new, table' = table ++ new.
Proof.
  intros Hg. apply get_string_id_spec in Hg as (i & -> & Hi & Hnew). split.
  - exists i. split; [done|]. by apply position_some.
  - destruct Hnew as [->|[_ ->]]; [exists []; by rewrite app_nil_r|by eexists].
Qed.
Lemma lower_digit0 v : slower v = "0" <-> v = "0".
Proof.
  split; [|by intros ->]. destruct v as [|a [|b v]]; [done| |done]. cbn. intros [= Ha]. f_equal.
  destruct a as [[] [] [] [] [] [] [] []]; vm_compute in Ha; by try discriminate Ha.
Qed.
Lemma lower_empty v : slower v = "" <-> v = "".
Proof. by destruct v. Qed.
Lemma store_cell_spec x table table' y : store_cell x table = (table', y) ->
  CellStored table' x y /\ exists new, table' = table ++ new.
Proof.
  assert (exists new, table = table ++ new) as Hnil by (exists []; by rewrite app_nil_r).
  unfold store_cell, CellStored, retyped. destruct (ce_value x) as [v|] eqn:Ev.
  2:{ intros [= <- <-]. cbn. split; [|done]. split; [constructor|done]. }
  destruct (ce_type x) eqn:Et.
  - destruct (f64_parses v) eqn:Ef.
    { intros [= <- <-]. cbn. split; [|done]. split; [|done]. constructor. by apply f64_parses_iff. }
    assert (~ FloatText v) as Hnf. { rewrite <- f64_parses_iff. by rewrite Ef. }
    destruct (seqb v "true") eqn:E1; [apply seqb_true in E1 as ->; intros [= <- <-]; cbn; split; [|done]; split; [constructor|done]|].
    destruct (seqb v "false") eqn:E2; [apply seqb_true in E2 as ->; intros [= <- <-]; cbn; split; [|done]; split; [constructor|done]|].
    apply seqb_false in E1, E2. destruct (get_string_id v table) as [t1 i] eqn:Eg. apply get_string_id_refers in Eg as [Hr Hn].
    intros [= <- <-]. cbn. split; [|done]. split; [by constructor|done].
  - intros [= <- <-]. rewrite Et, Ev. split; [|done]. split; [constructor; tauto|done].
  - intros [= <- <-]. cbn. split; [|done]. split; [|done].
    destruct (seqb (slower v) "false" || seqb (slower v) "0" || seqb (slower v) "") eqn:E1.
    + apply St_bool_false. rewrite !orb_true_iff, !seqb_true, lower_digit0, lower_empty in E1. unfold FalseWord. tauto.
    + apply St_bool_true. rewrite !orb_false_iff, !seqb_false, lower_digit0, lower_empty in E1. unfold FalseWord. tauto.
  - intros [= <- <-]. rewrite Et, Ev. split; [|done]. split; [constructor; tauto|done].
  - destruct (get_string_id v table) as [t1 i] eqn:Eg. apply get_string_id_refers in Eg as [Hr Hn].
    intros [= <- <-]. cbn. split; [|done]. split; [by constructor|done].
  - intros [= <- <-]. rewrite Et, Ev. split; [|done]. split; [constructor; tauto|done].
  - intros [= <- <-]. rewrite Et, Ev. split; [|done]. split; [constructor; tauto|done].
Qed.
Lemma store_cells_spec cs : forall table table' ys, store_cells cs table = (table', ys) ->
  Forall2 (CellStored table') cs ys /\ exists new, table' = table ++ new.
Proof.
  induction cs as [|x cs IH]; intros table table' ys; cbn [store_cells].
  - intros [= <- <-]. split; [constructor|]. exists []. by rewrite app_nil_r.
  - destruct (store_cell x table) as [t1 y] eqn:E1. destruct (store_cells cs t1) as [t2 ys2] eqn:E2. intros [= <- <-].
    apply store_cell_spec in E1 as (H1 & n1 & ->). apply IH in E2 as (H2 & n2 & ->). split.
    + constructor; [by apply CellStored_app|done].
    + exists (n1 ++ n2). by rewrite app_assoc.
Qed.

(** ** Placing cells *)
Lemma place_cells_spec m cs : forall col dim cells, col + N.of_nat (length cs) <= 65535 ->
  exists dim' cells', place_cells m col cs dim cells = (dim', cells', Ok tt)
  /\ (forall j x, cs !! j = Some x -> cells' !! (col + 1 + N.of_nat j) = Some x)
  /\ (forall c, c <= col \/ col + N.of_nat (length cs) < c -> cells' !! c = cells !! c)
  /\ dim' = (if N.of_nat (length cs) =? 0 then dim else
       mkDim (N.min (dm_start dim) (col + 1)) (N.max (dm_end dim) (col + N.of_nat (length cs)))).
Proof.
  induction cs as [|x cs IH]; intros col dim cells Hr.
  - exists dim, cells. cbn [place_cells]. split; [done|]. split; [intros j x Hj; by rewrite lookup_nil in Hj|]. done.
  - cbn [length] in Hr. cbn [place_cells]. unfold u16_add. rewrite u16_wrap_ok by lia.
    destruct (IH (col + 1) (dim_add dim (col + 1)) (<[col + 1 := x]> cells)) as (dim' & cells' & -> & H1 & H2 & H3); [lia|].
    exists dim', cells'. split; [done|]. split; [|split].
    + intros [|j] y.
      * intros [= <-]. rewrite H2 by lia. replace (col + 1 + N.of_nat 0) with (col + 1) by lia. apply lookup_insert.
      * change ((x :: cs) !! S j) with (cs !! j). intros Hj. apply H1 in Hj. replace (col + 1 + N.of_nat (S j)) with (col + 1 + 1 + N.of_nat j) by lia. done.
    + intros c Hc. cbn [length] in Hc. rewrite H2 by lia. apply lookup_insert_ne. lia.
    + rewrite H3. cbn [length]. replace (N.of_nat (S (length cs)) =? 0) with false by lia. unfold dim_add. cbn [dm_start dm_end].
      destruct (N.eqb_spec (N.of_nat (length cs)) 0) as [Hz|Hz]; cbn [dm_start dm_end]; f_equal; lia.
Qed.

(** ** One operation *)
Section with_env.
Context `{E : Env}.
Lemma u16_sub_one m c : 1 <= c -> u16_sub m c 1 = Ok (c - 1).
Proof. intros H. unfold u16_sub. destruct (N.leb_spec 1 c); [done|lia]. Qed.
Lemma Writes_col op r c x : Writes op r c x -> exists c0 cs, op = SWrite r c0 cs /\ c0 <= c < c0 + N.of_nat (length cs).
Proof. intros (c0 & cs & j & -> & Hj & ->). exists c0, cs. split; [done|]. apply lookup_lt_Some in Hj. lia. Qed.
Definition same_frame (w w' : worksheet) : Prop :=
  ws_path w' = ws_path w /\ ws_name w' = ws_name w /\ ws_rels w' = ws_rels w /\ ws_cols w' = ws_cols w /\ ws_views w' = ws_views w.
Lemma run_sheet_op_spec op w t : in_range op -> exists w' t', run_sheet_op op (w, t) = ((w', t'), Ok tt)
  /\ (exists new, t' = t ++ new) /\ same_frame w w'
  /\ (forall r c x, Writes op r c x -> exists y, cell_at w' r c = Some y /\ CellStored t' x y)
  /\ (forall r c, (forall x, ~ Writes op r c x) -> cell_at w' r c = cell_at w r c)
  /\ (forall r p, op = SProps r p -> props_at w' r = Some p)
  /\ (forall r, Touches op r -> (forall p, op <> SProps r p) -> props_at w' r = Some (default row_default (props_at w r)))
  /\ (forall r, ~ Touches op r -> props_at w' r = props_at w r)
  /\ ws_dim w' = (match op with
                  | SWrite _ c cs => if N.of_nat (length cs) =? 0 then ws_dim w
                                     else mkDim (N.min (dm_start (ws_dim w)) c) (N.max (dm_end (ws_dim w)) (c + N.of_nat (length cs) - 1))
                  | SProps _ _ => ws_dim w end).
Proof.
  destruct op as [r0 c0 cs|r0 p0]; intros Hr.
  - destruct Hr as [Hc Hlen]. cbn [run_sheet_op]. unfold set_row_value. rewrite u16_sub_one by done.
    destruct (store_cells cs t) as [t1 ys] eqn:Es. apply store_cells_spec in Es as [Hst Hnew].
    pose proof (Forall2_length _ _ _ Hst) as Hl.
    set (m := default ∅ (ws_data w)). set (old := match m !! r0 with Some x => x | None => mkRowData row_default None end).
    destruct (place_cells_spec env_mode ys (c0 - 1) (ws_dim w) (default ∅ (rd_cells old))) as (dim & cells & -> & H1 & H2 & H3); [lia|].
    eexists _, t1. split; [done|]. split; [done|]. split; [done|].
    assert (forall r c, cell_at (set_ws_data (set_ws_dim w dim) (Some (<[r0 := mkRowData (rd_row old) (Some cells)]> m))) r c
      = if decide (r = r0) then cells !! c else cell_at w r c) as Hcell.
    { intros r c. unfold cell_at at 1. cbn [set_ws_data ws_data]. destruct (decide (r = r0)) as [->|Hne]; [by rewrite lookup_insert|].
      rewrite lookup_insert_ne by done. unfold cell_at, m. by destruct (ws_data w). }
    assert (forall c, default ∅ (rd_cells old) !! c = cell_at w r0 c) as Hold.
    { intros c. unfold cell_at, old, m. destruct (ws_data w) as [mm|]; cbn [default]; [|rewrite lookup_empty; cbn; apply lookup_empty].
      unfold id. destruct (mm !! r0) as [x|]; [|cbn; apply lookup_empty]. destruct (rd_cells x); [done|]. cbn. apply lookup_empty. }
    split; [|split; [|split; [|split; [|split]]]].
    + intros r c x (c1 & cs1 & j & Heq & Hj & ->). injection Heq as <- <- <-.
      destruct (Forall2_lookup_l _ _ _ _ _ Hst Hj) as (y & Hy & Hxy). exists y. split; [|done]. rewrite Hcell.
      destruct (decide _); [|done]. replace (c0 + N.of_nat j) with (c0 - 1 + 1 + N.of_nat j) by lia. by apply H1.
    + intros r c Hno. rewrite Hcell. destruct (decide (r = r0)) as [->|]; [|done]. rewrite <- Hold. apply H2.
      destruct (N.le_gt_cases c (c0 - 1)) as [?|?]; [by left|]. right. destruct (N.le_gt_cases c (c0 - 1 + N.of_nat (length ys))) as [Hle|?]; [|done].
      exfalso. assert (N.to_nat (c - c0) < length cs)%nat as Hlt by lia. apply lookup_lt_is_Some in Hlt as (x & Hx).
      apply (Hno x). exists c0, cs, (N.to_nat (c - c0)). split; [done|]. split; [done|]. lia.
    + done.
    + intros r Ht _. cbn in Ht. subst r. unfold props_at at 1. cbn [set_ws_data ws_data]. rewrite lookup_insert. cbn [fmap option_fmap option_map rd_row].
      f_equal. unfold old, m, props_at. destruct (ws_data w) as [mm|]; cbn; unfold id; [|done]. by destruct (mm !! r0).
    + intros r Ht. cbn in Ht. unfold props_at at 1. cbn [set_ws_data ws_data]. rewrite lookup_insert_ne by done.
      unfold m, props_at. by destruct (ws_data w).
    + cbn [set_ws_data set_ws_dim ws_dim]. rewrite H3, <- Hl. destruct (N.of_nat (length cs) =? 0); [done|]. f_equal; f_equal; lia.
  - cbn [run_sheet_op]. unfold set_row_props, modify. cbn [fst snd]. set (m := default ∅ (ws_data w)).
    eexists _, t. split; [done|]. split; [exists []; by rewrite app_nil_r|]. split; [done|].
    split; [|split; [|split; [|split; [|split]]]].
    + intros r c x (c1 & cs1 & j & Heq & _). done.
    + intros r c _. unfold cell_at at 1. cbn [set_ws_data ws_data]. destruct (decide (r0 = r)) as [->|Hne].
      * rewrite lookup_insert. cbn [rd_cells]. unfold cell_at, m. destruct (ws_data w) as [mm|]; cbn; unfold id; [|done]. by destruct (mm !! r).
      * rewrite lookup_insert_ne by done. unfold cell_at, m. by destruct (ws_data w).
    + intros r p [= -> ->]. unfold props_at. cbn [set_ws_data ws_data]. by rewrite lookup_insert.
    + intros r Ht Hp. cbn in Ht. subst r. by destruct (Hp p0).
    + intros r Ht. cbn in Ht. unfold props_at at 1. cbn [set_ws_data ws_data]. rewrite lookup_insert_ne by done.
      unfold m, props_at. by destruct (ws_data w).
    + done.
Qed.

(** ** Histories *)
Lemma run_sheet_ops_app a b s : run_sheet_ops (a ++ b) s = bind (run_sheet_ops a) (fun _ => run_sheet_ops b) s.
Proof.
  revert s. induction a as [|op a IH]; intros s; [done|]. cbn [app run_sheet_ops]. unfold bind in *.
  destruct (run_sheet_op op s) as [s1 [[]| |]]; [apply IH|done|done].
Qed.
Lemma same_frame_trans a b c : same_frame a b -> same_frame b c -> same_frame a c.
Proof. unfold same_frame. intros (?&?&?&?&?) (?&?&?&?&?). repeat split; congruence. Qed.
Lemma snoc_inj {A} (l l' : list A) x y : l ++ [x] = l' ++ [y] -> l = l' /\ x = y.
Proof. apply app_inj_tail. Qed.
Lemma LastWrite_snoc r c ops op o : LastWrite r c (ops ++ [op]) o ->
  (exists x, o = Some x /\ Writes op r c x) \/ ((forall x, ~ Writes op r c x) /\ LastWrite r c ops o).
Proof.
  intros Hl. remember (ops ++ [op]) as l eqn:El. destruct Hl as [|ops' op' x Hw|ops' op' o' Hn Hl].
  - by destruct ops.
  - apply snoc_inj in El as [-> ->]. left. eauto.
  - apply snoc_inj in El as [-> ->]. right. eauto.
Qed.
Lemma LastProps_snoc r ops op o : LastProps r (ops ++ [op]) o ->
  (exists p, o = Some p /\ op = SProps r p) \/ ((forall p, op <> SProps r p) /\ LastProps r ops o).
Proof.
  intros Hl. remember (ops ++ [op]) as l eqn:El. destruct Hl as [|ops' p|ops' op' o' Hn Hl].
  - by destruct ops.
  - apply snoc_inj in El as [-> <-]. left. eauto.
  - apply snoc_inj in El as [-> ->]. right. eauto.
Qed.
Lemma Touches_dec op r : Touches op r \/ ~ Touches op r.
Proof. destruct op as [r' c cs|r' p]; cbn; destruct (decide (r' = r)); tauto. Qed.
Lemma Writes_dec op r c : (exists x, Writes op r c x) \/ (forall x, ~ Writes op r c x).
Proof.
  destruct op as [r' c0 cs|r' p]; [|right; by intros x (c1 & cs1 & j & ? & _)].
  destruct (decide (r' = r)) as [->|Hr]; [|right; intros x (c1 & cs1 & j & [= -> -> ->] & _); done].
  destruct (decide (c0 <= c /\ c < c0 + N.of_nat (length cs))) as [Hc|Hc].
  - left. assert (N.to_nat (c - c0) < length cs)%nat as Hlt by lia. apply lookup_lt_is_Some in Hlt as (x & Hx).
    exists x, c0, cs, (N.to_nat (c - c0)). split; [done|]. split; [done|]. lia.
  - right. intros x (c1 & cs1 & j & [= -> ->] & Hj & ->). apply lookup_lt_Some in Hj. lia.
Qed.
Lemma Writes_fun op r c x y : Writes op r c x -> Writes op r c y -> x = y.
Proof.
  intros (c0 & cs & j & -> & Hj & ->) (c1 & cs1 & k & [= <- <-] & Hk & Hjk). assert (j = k) as -> by lia. congruence.
Qed.
Lemma run_sheet_ops_spec ops w t : Forall in_range ops -> exists w' t', run_sheet_ops ops (w, t) = ((w', t'), Ok tt)
  /\ (exists new, t' = t ++ new) /\ same_frame w w'
  /\ (forall r c x, LastWrite r c ops (Some x) -> exists y, cell_at w' r c = Some y /\ CellStored t' x y)
  /\ (forall r c, LastWrite r c ops None -> cell_at w' r c = cell_at w r c)
  /\ (forall r p, LastProps r ops (Some p) -> props_at w' r = Some p)
  /\ (forall r, LastProps r ops None -> Exists (fun op => Touches op r) ops -> props_at w' r = Some (default row_default (props_at w r)))
  /\ (forall r, Forall (fun op => ~ Touches op r) ops -> props_at w' r = props_at w r).
Proof.
  induction ops as [|op ops IH] using rev_ind; intros Hr.
  - exists w, t. split; [done|]. split; [exists []; by rewrite app_nil_r|]. split; [done|].
    assert (forall A (l : list A) x, l ++ [x] <> []) as Hne by (by intros ? []).
    split; [intros r c x Hl; inversion Hl; subst; by edestruct Hne|]. split; [done|].
    split; [intros r p Hl; inversion Hl; subst; by edestruct Hne|]. split; [|done]. intros r _ He. by apply Exists_nil in He.
  - apply Forall_app in Hr as [Hr Hop]. apply Forall_cons in Hop as [Hop _].
    destruct (IH Hr) as (w1 & t1 & E1 & (n1 & ->) & F1 & A1 & A2 & A3 & A4 & A5).
    destruct (run_sheet_op_spec op w1 (t ++ n1) Hop) as (w2 & t2 & E2 & (n2 & ->) & F2 & B1 & B2 & B3 & B4 & B5 & _).
    exists w2, ((t ++ n1) ++ n2). split; [|split; [|split; [|split; [|split; [|split; [|split]]]]]].
    + rewrite run_sheet_ops_app. unfold bind at 1. rewrite E1. cbn [run_sheet_ops]. unfold bind. by rewrite E2.
    + exists (n1 ++ n2). by rewrite app_assoc.
    + by eapply same_frame_trans.
    + intros r c x Hl. apply LastWrite_snoc in Hl as [(y & [= <-] & Hw)|[Hn Hl]]; [by apply B1|].
      destruct (A1 _ _ _ Hl) as (y & Hy & Hxy). exists y. split; [by rewrite B2|]. by apply CellStored_app.
    + intros r c Hl. apply LastWrite_snoc in Hl as [(y & ? & Hw)|[Hn Hl]]; [done|]. rewrite B2 by done. by apply A2.
    + intros r p Hl. apply LastProps_snoc in Hl as [(y & [= <-] & Hw)|[Hn Hl]]; [by apply B3|].
      destruct (Touches_dec op r) as [Ht|Ht]; [|rewrite B5 by done; by apply A3]. rewrite B4 by done. by rewrite (A3 _ _ Hl).
    + intros r Hl He. apply LastProps_snoc in Hl as [(y & ? & Hw)|[Hn Hl]]; [done|].
      assert (Exists (fun op => Touches op r) ops \/ Forall (fun op => ~ Touches op r) ops) as [He'|He'].
      { clear. induction ops as [|op ops IH]; [right; constructor|]. destruct (Touches_dec op r); [left; by apply Exists_cons_hd|].
        destruct IH as [IH|IH]; [left; by apply Exists_cons_tl|right; by constructor]. }
      * specialize (A4 r Hl He'). destruct (Touches_dec op r) as [Ht|Ht]; [|rewrite B5 by done; done]. rewrite B4 by done. by rewrite A4.
      * specialize (A5 r He'). apply Exists_app in He as [He|He].
        { exfalso. apply Exists_exists in He as (z & Hz & Hzt). rewrite Forall_forall in He'. by apply (He' z). }
        apply Exists_cons in He as [Ht|He]; [|by apply Exists_nil in He]. rewrite B4 by done. by rewrite A5.
    + intros r Hf. apply Forall_app in Hf as [Hf Ho]. apply Forall_cons in Ho as [Ho _]. rewrite B5 by done. by apply A5.
Qed.
Lemma LastWrite_total r c ops : exists o, LastWrite r c ops o.
Proof.
  induction ops as [|op ops [o IH]] using rev_ind; [exists None; constructor|].
  destruct (Writes_dec op r c) as [[x Hx]|Hn]; [exists (Some x); by constructor|exists o; by constructor].
Qed.
Lemma LastWrite_some r c ops x : LastWrite r c ops (Some x) -> exists op, op ∈ ops /\ Writes op r c x.
Proof.
  induction ops as [|op ops IH] using rev_ind; intros Hl.
  - assert (forall A (l : list A) y, l ++ [y] <> []) as Hne by (by intros ? []). inversion Hl; subst; by edestruct Hne.
  - apply LastWrite_snoc in Hl as [(y & [= <-] & Hy)|[_ Hl]].
    + exists op. split; [apply elem_of_app; right; by left|done].
    + destruct (IH Hl) as (op' & Ho & Hw). exists op'. split; [apply elem_of_app; by left|done].
Qed.
Lemma LastWrite_none r c ops op x : LastWrite r c ops None -> op ∈ ops -> ~ Writes op r c x.
Proof.
  induction ops as [|op' ops IH] using rev_ind; intros Hl Hin; [by apply elem_of_nil in Hin|].
  apply LastWrite_snoc in Hl as [(y & Hy & _)|[Hn Hl]]; [done|].
  apply elem_of_app in Hin as [Hin|Hin%elem_of_list_singleton]; [by apply IH|subst; apply Hn].
Qed.
Lemma LastProps_total r ops : exists o, LastProps r ops o.
Proof.
  induction ops as [|op ops [o IH]] using rev_ind; [exists None; constructor|].
  destruct op as [r' c cs|r' p]; [exists o; by constructor|]. destruct (decide (r' = r)) as [->|Hn]; [exists (Some p); by constructor|].
  exists o. constructor; [|done]. intros q [= -> _]. done.
Qed.
Lemma LastProps_some r ops p : LastProps r ops (Some p) -> Exists (fun op => Touches op r) ops.
Proof.
  induction ops as [|op ops IH] using rev_ind; intros Hl.
  - assert (forall A (l : list A) y, l ++ [y] <> []) as Hne by (by intros ? []). inversion Hl; subst; by edestruct Hne.
  - apply Exists_app. apply LastProps_snoc in Hl as [(y & _ & ->)|[_ Hl]]; [right; by constructor|left; by apply IH].
Qed.
Lemma ops_box ops w w' t t' r1 c1 r2 c2 : Forall in_range ops -> (forall r, ~ has_row w r) ->
  run_sheet_ops ops (w, t) = ((w', t'), Ok tt) -> OpsBox ops r1 c1 r2 c2 -> RowBox w' r1 c1 r2 c2.
Proof.
  intros Hr He Hrun [B1 B2 B3 B4 B5 B6].
  destruct (run_sheet_ops_spec ops w t Hr) as (w2 & t2 & E2 & _ & _ & A1 & A2 & A3 & A4 & A5). rewrite Hrun in E2. injection E2 as <- <-.
  assert (forall r, props_at w r = None) as Hnone. { intros r. destruct (props_at w r) eqn:Hp; [|done]. exfalso. apply (He r). by exists r0. }
  assert (forall r c, cell_at w r c = None) as Hcell.
  { intros r c. specialize (Hnone r). unfold props_at in Hnone. unfold cell_at. destruct (ws_data w) as [m|]; [|done]. by destruct (m !! r). }
  assert (forall r, has_row w' r <-> Exists (fun op => Touches op r) ops) as Hrow.
  { intros r. split.
    - intros Hh. assert (Exists (fun op => Touches op r) ops \/ Forall (fun op => ~ Touches op r) ops) as [Hx|Hx]; [|done|].
      { clear. induction ops as [|op ops IH]; [right; constructor|]. destruct (Touches_dec op r); [left; by apply Exists_cons_hd|].
        destruct IH; [left; by apply Exists_cons_tl|right; by constructor]. }
      unfold has_row in Hh. rewrite A5, Hnone in Hh by done. by destruct Hh.
    - intros Hx. destruct (LastProps_total r ops) as [[p|] Hl]; [exists p; by apply A3|]. eexists. by apply A4. }
  assert (forall r c, is_Some (cell_at w' r c) <-> exists op x, op ∈ ops /\ Writes op r c x) as Hcells.
  { intros r c. destruct (LastWrite_total r c ops) as [[x|] Hl].
    - split; intros _; [|destruct (A1 _ _ _ Hl) as (y & -> & _); by exists y].
      destruct (LastWrite_some _ _ _ _ Hl) as (op & ? & ?). by exists op, x.
    - rewrite (A2 _ _ Hl), Hcell. split; [by intros []|]. intros (op & x & Hin & Hw). exfalso. by eapply LastWrite_none. }
  split.
  - intros r Hh. apply Hrow, Exists_exists in Hh as (op & Hin & Ht). by eapply B1.
  - by apply Hrow. - by apply Hrow.
  - intros r c Hs. apply Hcells in Hs as (op & x & Hin & Hw). by eapply B4.
  - destruct B5 as (op & r & x & Hin & Hw). exists r. apply Hcells. eauto.
  - destruct B6 as (op & r & x & Hin & Hw). exists r. apply Hcells. eauto.
Qed.
Lemma LastWrite_fun r c ops o o' : LastWrite r c ops o -> LastWrite r c ops o' -> o = o'.
Proof.
  revert o o'. induction ops as [|op ops IH] using rev_ind; intros o o' H1 H2.
  - assert (forall A (l : list A) x, l ++ [x] <> []) as Hne by (by intros ? []).
    inversion H1; inversion H2; subst; try done; by edestruct Hne.
  - apply LastWrite_snoc in H1 as [(x & -> & Hx)|[Hx H1]], H2 as [(y & -> & Hy)|[Hy H2]].
    + f_equal. by eapply Writes_fun. + by destruct (Hy x). + by destruct (Hx y). + by apply IH.
Qed.

(** ** The dimension *)
Lemma DimInv_op op w t w' t' : in_range op -> DimInv w -> run_sheet_op op (w, t) = ((w', t'), Ok tt) -> DimInv w'.
Proof.
  intros Hr [Hin Hs He] Hrun. destruct (run_sheet_op_spec op w t Hr) as (w2 & t2 & E2 & _ & _ & H1 & H2 & _ & _ & _ & Hd).
  rewrite E2 in Hrun. injection Hrun as -> ->.
  assert (forall r c, is_Some (cell_at w r c) -> is_Some (cell_at w' r c)) as Hkeep.
  { intros r c Hsome. destruct (Writes_dec op r c) as [[x Hx]|Hn]; [destruct (H1 _ _ _ Hx) as (y & -> & _); eauto|by rewrite H2]. }
  destruct op as [r0 c0 cs|r0 p0].
  2:{ assert (forall r c, cell_at w' r c = cell_at w r c) as Hsame.
      { intros r c. apply H2. by intros x (c1 & cs1 & j & ? & _). }
      split; rewrite Hd; [intros r c; rewrite Hsame; apply Hin|..].
      - destruct Hs as [?|[r ?]]; [by left|right; exists r; by rewrite Hsame].
      - destruct He as [?|[r ?]]; [by left|right; exists r; by rewrite Hsame]. }
  destruct Hr as [Hc Hlen]. destruct (N.eqb_spec (N.of_nat (length cs)) 0) as [Hz|Hz].
  { assert (forall r c, cell_at w' r c = cell_at w r c) as Hsame.
    { intros r c. apply H2. intros x Hx. apply Writes_col in Hx as (c1 & cs1 & [= -> -> ->] & ?). lia. }
    split; rewrite Hd; [intros r c; rewrite Hsame; apply Hin|..].
    - destruct Hs as [?|[r ?]]; [by left|right; exists r; by rewrite Hsame].
    - destruct He as [?|[r ?]]; [by left|right; exists r; by rewrite Hsame]. }
  assert (forall c, c0 <= c < c0 + N.of_nat (length cs) -> is_Some (cell_at w' r0 c)) as Hnew.
  { intros c Hcc. assert (N.to_nat (c - c0) < length cs)%nat as Hlt by lia. apply lookup_lt_is_Some in Hlt as (x & Hx).
    destruct (H1 r0 c x) as (y & -> & _); [|eauto]. exists c0, cs, (N.to_nat (c - c0)). split; [done|]. split; [done|]. lia. }
  split; rewrite Hd; cbn [dm_start dm_end].
  - intros r c Hsome. destruct (Writes_dec (SWrite r0 c0 cs) r c) as [[x Hx]|Hn].
    + apply Writes_col in Hx as (c1 & cs1 & [= -> -> ->] & ?). lia.
    + rewrite H2 in Hsome by done. apply Hin in Hsome. lia.
  - destruct (N.le_gt_cases c0 (dm_start (ws_dim w))) as [Hle|Hgt].
    + right. exists r0. rewrite N.min_r by done. apply Hnew. lia.
    + rewrite N.min_l by lia. destruct Hs as [?|[r Hs]]; [by left|right]. exists r. by apply Hkeep.
  - destruct (N.le_gt_cases (dm_end (ws_dim w)) (c0 + N.of_nat (length cs) - 1)) as [Hle|Hgt].
    + right. exists r0. rewrite N.max_r by done. apply Hnew. lia.
    + rewrite N.max_l by lia. destruct He as [?|[r He]]; [by left|right]. exists r. by apply Hkeep.
Qed.
Lemma DimInv_ops ops w t w' t' : Forall in_range ops -> DimInv w -> run_sheet_ops ops (w, t) = ((w', t'), Ok tt) -> DimInv w'.
Proof.
  revert w t. induction ops as [|op ops IH]; intros w t Hr Hi; cbn [run_sheet_ops]; [by intros [= <- <-]|].
  apply Forall_cons in Hr as [Hop Hr]. unfold bind.
  destruct (run_sheet_op op (w, t)) as [[w1 t1] [[]| |]] eqn:E1; [|done|done]. apply IH; [done|]. by eapply DimInv_op.
Qed.
Lemma RowBox_columns w r1 c1 r2 c2 : DimInv w -> RowBox w r1 c1 r2 c2 -> c1 <= 16384 -> 1 <= c1 ->
  dm_start (ws_dim w) = c1 /\ dm_end (ws_dim w) = c2.
Proof.
  intros [Hin Hs He] [_ _ _ Hb [ra Hl] [rb Hr]] Hc Hc1. pose proof (Hin _ _ Hl) as Ha. pose proof (Hin _ _ Hr) as Hb'.
  pose proof (Hb _ _ Hl). pose proof (Hb _ _ Hr). split.
  - destruct Hs as [Hs|[r Hs]]; [lia|]. apply Hb in Hs. lia.
  - destruct He as [He|[r He]]; [lia|]. apply Hb in He. lia.
Qed.
Lemma btree_first_last {V} (m : gmap N V) first rest r1 r2 : btree_entries m = first :: rest ->
  is_Some (m !! r1) -> is_Some (m !! r2) -> (forall r, is_Some (m !! r) -> r1 <= r <= r2) ->
  first.1 = r1 /\ (List.last (first :: rest) first).1 = r2.
Proof.
  intros Hb [v1 H1] [v2 H2] Hr. pose proof (btree_entries_sorted m) as Hs. rewrite Hb in Hs.
  assert (forall k v, (k, v) ∈ first :: rest <-> m !! k = Some v) as Hmem. { intros k v. rewrite <- Hb. by rewrite btree_entries_lookup. }
  apply Hmem in H1, H2. split.
  - apply StronglySorted_inv in Hs as [_ Hs]. rewrite Forall_forall in Hs.
    assert (r1 <= first.1 <= r2). { apply Hr. exists first.2. apply Hmem. destruct first. left. }
    apply elem_of_cons in H1 as [<-|H1]; [done|]. apply Hs in H1. unfold nkey_le in H1. cbn in H1. lia.
  - assert (forall (l : list (N * V)) d, l <> [] -> StronglySorted nkey_le l -> List.last l d ∈ l /\ forall x, x ∈ l -> x.1 <= (List.last l d).1) as Hlast.
    { clear. intros l d Hne Hs. induction l as [|x l IH]; [done|]. destruct l as [|y l].
      - split; [left|]. intros z Hz. apply elem_of_list_singleton in Hz as ->. cbn. lia.
      - apply StronglySorted_inv in Hs as [Hs Hx]. destruct (IH ltac:(done) Hs) as [I1 I2]. change (List.last (x :: y :: l) d) with (List.last (y :: l) d).
        split; [by right|]. intros z [->|Hz]%elem_of_cons; [|by apply I2]. rewrite Forall_forall in Hx. apply Hx in I1. exact I1. }
    destruct (Hlast (first :: rest) first ltac:(done) Hs) as [L1 L2]. specialize (L2 _ H2). cbn [fst] in L2.
    assert (r1 <= (List.last (first :: rest) first).1 <= r2); [|lia]. apply Hr. exists (List.last (first :: rest) first).2. apply Hmem. by destruct (List.last _ _).
Qed.
Lemma dim_ref_spec w r1 c1 r2 c2 : DimInv w -> RowBox w r1 c1 r2 c2 -> 1 <= c1 <= 16384 ->
  exists n1 n2, ColumnName c1 n1 /\ ColumnName c2 n2
  /\ dim_ref (ws_dim w) (ws_data w) = Ok (n1 +:+ show_N r1 +:+ ":" +:+ n2 +:+ show_N r2).
Proof.
  intros Hi Hb Hc. destruct (RowBox_columns w r1 c1 r2 c2 Hi Hb) as [H1 H2]; [lia|lia|]. destruct Hb as [Hrows Ht Hbo Hin [ra Hl] Hr].
  pose proof (Hin _ _ Hl) as Hc12. destruct (get_column_ref_spec c1) as (n1 & G1 & G2 & G3 & G4); [lia|].
  destruct (get_column_ref_spec c2) as (n2 & G5 & G6 & G7 & G8); [lia|]. exists n1, n2. split; [done|]. split; [done|].
  unfold dim_ref, has_row, props_at in *. destruct (ws_data w) as [m|]; [|by destruct Ht].
  assert (forall r, is_Some (rd_row <$> m !! r) <-> is_Some (m !! r)) as Hx by (intros r; apply fmap_is_Some).
  rewrite Hx in Ht, Hbo. destruct (btree_entries m) as [|first rest] eqn:Eb.
  { exfalso. destruct Ht as [v Hv]. apply btree_entries_lookup in Hv. rewrite Eb in Hv. by apply elem_of_nil in Hv. }
  destruct (btree_first_last m first rest r1 r2 Eb Ht Hbo) as [-> ->]; [intros r Hrr; by apply Hrows, Hx|].
  rewrite H1, H2, G1, G5. done.
Qed.
End with_env.

(** ** Columns *)
Definition coversb (c : N) (p : col_props) : bool := (co_min p <=? c) && (c <=? co_max p).
Lemma coversb_iff c p : coversb c p = true <-> covers p c.
Proof. unfold coversb, covers. lia. Qed.
Definition cover_count (l : list col_props) (c : N) : nat := length (List.filter (coversb c) l).
Lemma cover_count_app a b c : cover_count (a ++ b) c = (cover_count a c + cover_count b c)%nat.
Proof. unfold cover_count. by rewrite List.filter_app, app_length. Qed.
Lemma cover_count_cons p l c : cover_count (p :: l) c = ((if coversb c p then 1 else 0) + cover_count l c)%nat.
Proof. unfold cover_count. cbn. by destruct (coversb c p). Qed.
Lemma cover_count_two l c i j x y : l !! i = Some x -> l !! j = Some y -> (i < j)%nat -> covers x c -> covers y c -> (2 <= cover_count l c)%nat.
Proof.
  intros Hi Hj Hij Hx%coversb_iff Hy%coversb_iff. rewrite <- (take_drop_middle l i x Hi). rewrite cover_count_app, cover_count_cons, Hx.
  assert (1 <= cover_count (drop (S i) l) c)%nat; [|lia].
  assert (drop (S i) l !! (j - S i)%nat = Some y) as Hd by (rewrite lookup_drop; rewrite <- Hj; f_equal; lia).
  rewrite <- (take_drop_middle _ _ y Hd). rewrite cover_count_app, cover_count_cons, Hy. lia.
Qed.
Lemma ranges_ok_count l : ranges_ok l <-> Forall (fun p => co_min p <= co_max p) l /\ forall c, (cover_count l c <= 1)%nat.
Proof.
  unfold ranges_ok. split; intros [Hf Hd]; (split; [done|]).
  - intros c. induction l as [|p l IH]; [cbn; lia|]. apply Forall_cons in Hf as [_ Hf]. rewrite cover_count_cons.
    assert (cover_count l c <= 1)%nat. { apply IH; [done|]. intros i j x y c' Hi Hj Hx Hy. specialize (Hd (S i) (S j) x y c' Hi Hj Hx Hy). lia. }
    destruct (coversb c p) eqn:Ep; [|lia]. apply coversb_iff in Ep. destruct (cover_count l c) as [|n] eqn:En; [lia|]. exfalso.
    assert (exists y, y ∈ l /\ covers y c) as (y & Hy & Hyc).
    { clear -En. unfold cover_count in En. destruct (List.filter (coversb c) l) as [|y l'] eqn:Ef; [done|]. exists y.
      assert (In y (List.filter (coversb c) l)) as Hin by (rewrite Ef; by left). apply filter_In in Hin as [H1 H2].
      split; [by apply elem_of_list_In|by apply coversb_iff]. }
    apply elem_of_list_lookup in Hy as (j & Hj). specialize (Hd 0%nat (S j) p y c eq_refl Hj Ep Hyc). done.
  - intros i j x y c Hi Hj Hx Hy. specialize (Hd c). destruct (Nat.lt_trichotomy i j) as [Hlt|[->|Hlt]]; [|done|].
    + pose proof (cover_count_two _ _ _ _ _ _ Hi Hj Hlt Hx Hy). lia.
    + pose proof (cover_count_two _ _ _ _ _ _ Hj Hi Hlt Hy Hx). lia.
Qed.
Definition pieces (c : N) (x : col_props) : list col_props :=
  match (cut_range c x).1 with Some a => [a] | None => [] end ++ match (cut_range c x).2 with Some b => [b] | None => [] end.
Lemma cut_count c x c' : co_min x <= co_max x -> cover_count (pieces c x) c' = if (c' =? c) then 0%nat else cover_count [x] c'.
Proof.
  intros Hx. unfold pieces, cut_range. destruct x as [mn mx w h s b lv cl]. cbn [co_min co_max] in *.
  destruct ((mn =? c) && (mx =? c)) eqn:E1; [|destruct ((mn <=? c) && (c <=? mx)) eqn:E2; [destruct (mn =? c) eqn:E3; [|destruct (mx =? c) eqn:E4]|]];
    cbn [app fst snd]; rewrite ?cover_count_cons; unfold coversb, with_range; cbn [co_min co_max cover_count List.filter length];
    destruct (c' =? c) eqn:E5;
    repeat match goal with |- context [if ?b then _ else _] => destruct b eqn:? end; lia.
Qed.
Lemma omap_pieces_count c c' l : cover_count (omap (fun r => (cut_range c r).1) l ++ omap (fun r => (cut_range c r).2) l) c'
  = cover_count (flat_map (pieces c) l) c'.
Proof.
  induction l as [|x l IH]; [done|]. cbn [omap list_omap flat_map]. rewrite cover_count_app in IH |- *. rewrite cover_count_app, <- IH.
  unfold pieces. rewrite cover_count_app. destruct (cut_range c x) as [[a|] [b|]]; cbn [fst snd]; rewrite ?cover_count_cons; cbn [cover_count List.filter length]; unfold cover_count; lia.
Qed.
Lemma flat_pieces_count c c' l : Forall (fun p => co_min p <= co_max p) l ->
  cover_count (flat_map (pieces c) l) c' = if (c' =? c) then 0%nat else cover_count l c'.
Proof.
  induction 1 as [|x l Hx _ IH]; [by destruct (c' =? c)|]. cbn [flat_map]. rewrite cover_count_app, cut_count, IH by done.
  destruct (c' =? c); [done|]. rewrite (cover_count_cons x l), (cover_count_cons x []). cbn [cover_count List.filter length]. unfold cover_count. lia.
Qed.
Definition new_cols (c : N) (p : option col_props) (l : list col_props) : list col_props :=
  omap (fun r => (cut_range c r).1) l ++ match p with Some p => [with_range p c c] | None => [] end ++ omap (fun r => (cut_range c r).2) l.
Lemma new_cols_count c p l c' : Forall (fun p => co_min p <= co_max p) l ->
  cover_count (new_cols c p l) c' = if (c' =? c) then match p with Some _ => 1%nat | None => 0%nat end else cover_count l c'.
Proof.
  intros Hl. unfold new_cols. rewrite !cover_count_app.
  pose proof (omap_pieces_count c c' l) as H1. rewrite cover_count_app, flat_pieces_count in H1 by done.
  assert (cover_count (match p with Some p => [with_range p c c] | None => [] end) c' = if c' =? c then match p with Some _ => 1%nat | None => 0%nat end else 0%nat) as H2.
  { destruct p as [p|]; [|by destruct (c' =? c)]. rewrite cover_count_cons. unfold coversb, with_range. cbn [co_min co_max cover_count List.filter length].
    destruct (N.eqb_spec c' c) as [->|Hne]; destruct ((c <=? _) && _) eqn:Ec; lia. }
  rewrite H2. destruct (c' =? c); lia.
Qed.
Lemma cut_ranges c x : co_min x <= co_max x -> Forall (fun p => co_min p <= co_max p) (pieces c x).
Proof.
  intros Hx. unfold pieces, cut_range. destruct x as [mn mx w h s b lv cl]. cbn [co_min co_max] in *.
  destruct ((mn =? c) && (mx =? c)) eqn:E1; [|destruct ((mn <=? c) && (c <=? mx)) eqn:E2; [destruct (mn =? c) eqn:E3; [|destruct (mx =? c) eqn:E4]|]];
    cbn [app fst snd]; repeat constructor; cbn; lia.
Qed.
Lemma elem_new_cols c p l y : y ∈ new_cols c p l <-> (exists p0, p = Some p0 /\ y = with_range p0 c c) \/ exists x, x ∈ l /\ y ∈ pieces c x.
Proof.
  unfold new_cols. rewrite !elem_of_app, !elem_of_list_omap. split.
  - intros [(x & Hx & Hy)|[Hy|(x & Hx & Hy)]].
    + right. exists x. split; [done|]. unfold pieces. rewrite Hy. apply elem_of_app. left. left.
    + left. destruct p as [p0|]; [|by apply elem_of_nil in Hy]. apply elem_of_list_singleton in Hy. eauto.
    + right. exists x. split; [done|]. unfold pieces. rewrite Hy. apply elem_of_app. right. left.
  - intros [(p0 & -> & ->)|(x & Hx & Hy)]; [right; left; left|]. unfold pieces in Hy. apply elem_of_app in Hy as [Hy|Hy].
    + left. exists x. split; [done|]. destruct ((cut_range c x).1); [|by apply elem_of_nil in Hy]. by apply elem_of_list_singleton in Hy as ->.
    + right. right. exists x. split; [done|]. destruct ((cut_range c x).2); [|by apply elem_of_nil in Hy]. by apply elem_of_list_singleton in Hy as ->.
Qed.
Lemma new_cols_ok c p l : ranges_ok l -> ranges_ok (new_cols c p l).
Proof.
  rewrite !ranges_ok_count. intros [Hf Hc]. split.
  - apply Forall_forall. intros y Hy. apply elem_new_cols in Hy as [(p0 & _ & ->)|(x & Hx & Hy)]; [cbn; lia|].
    rewrite Forall_forall in Hf. pose proof (cut_ranges c x (Hf x Hx)) as Hp. rewrite Forall_forall in Hp. by apply Hp.
  - intros c'. rewrite new_cols_count by done. destruct (c' =? c); [destruct p; lia|apply Hc].
Qed.
(** The properties of column [c'] after cutting out column [c]. *)
Lemma pieces_at c x c' q : co_min x <= co_max x -> c' <> c ->
  col_at (pieces c x) c' q <-> covers x c' /\ q = (if (co_min x <? c) && (c <? c') && (c <=? co_max x) then col_default else with_range x 1 1).
Proof.
  intros Hx Hc. unfold col_at, pieces, cut_range, covers. destruct x as [mn mx w h s b lv cl]. cbn [co_min co_max] in *. unfold with_range at 1.
  assert (forall (P : col_props -> Prop) a, (exists y, y ∈ [a] /\ P y) <-> P a) as H1.
  { intros P a. split; [intros (y & ->%elem_of_list_singleton & ?); done|intros; exists a; split; [left|done]]. }
  assert (forall (P : col_props -> Prop) a a', (exists y, y ∈ [a; a'] /\ P y) <-> P a \/ P a') as H2.
  { intros P a a'. split; [intros (y & [-> | ->%elem_of_list_singleton]%elem_of_cons & ?); tauto|].
    intros [?|?]; [exists a; split; [left|done]|exists a'; split; [right; left|done]]. }
  destruct ((mn =? c) && (mx =? c)) eqn:E1; [|destruct ((mn <=? c) && (c <=? mx)) eqn:E2; [destruct (mn =? c) eqn:E3; [|destruct (mx =? c) eqn:E4]|]];
    cbn [app fst snd]; rewrite ?H1, ?H2; cbn [with_range co_min co_max co_width co_hidden co_style co_best co_level co_collapsed col_default].
  - split; [intros (y & Hy & _); by apply elem_of_nil in Hy|]. intros [Hy _]. exfalso. lia.
  - replace ((mn <? c) && (c <? c') && (c <=? mx)) with false by lia. split; intros [H3 H4]; (split; [lia|done]).
  - destruct ((mn <? c) && (c <? c') && (c <=? mx)) eqn:E5; split; intros [H3 H4]; try (split; [lia|done]); exfalso; lia.
  - destruct ((mn <? c) && (c <? c') && (c <=? mx)) eqn:E5.
    + split; [intros [[H3 H4]|[H3 H4]]; [exfalso; lia|split; [lia|done]]|]. intros [H3 H4]. right. split; [lia|done].
    + split; [intros [[H3 H4]|[H3 H4]]; [split; [lia|done]|exfalso; lia]|]. intros [H3 H4]. left. split; [lia|done].
  - replace ((mn <? c) && (c <? c') && (c <=? mx)) with false by lia. done.
Qed.
Lemma new_cols_at c p l c' q : ranges_ok l ->
  col_at (new_cols c p l) c' q <->
    if c' =? c then exists p0, p = Some p0 /\ q = with_range p0 1 1
    else exists x, x ∈ l /\ covers x c' /\ q = (if (co_min x <? c) && (c <? c') && (c <=? co_max x) then col_default else with_range x 1 1).
Proof.
  intros Hok. pose proof (proj1 (ranges_ok_count l) Hok) as [Hf _]. rewrite Forall_forall in Hf.
  destruct (N.eqb_spec c' c) as [->|Hne].
  - split.
    + intros (y & Hy & Hcov & ->). apply elem_new_cols in Hy as [(p0 & -> & ->)|(x & Hx & Hy)]; [by exists p0|]. exfalso.
      pose proof (cut_count c x c (Hf x Hx)) as Hcc. rewrite N.eqb_refl in Hcc. unfold cover_count in Hcc.
      apply nil_length_inv in Hcc. apply elem_of_list_In in Hy. assert (In y (List.filter (coversb c) (pieces c x))) as Hin.
      { apply filter_In. split; [done|by apply coversb_iff]. } by rewrite Hcc in Hin.
    + intros (p0 & -> & ->). exists (with_range p0 c c). split; [apply elem_new_cols; left; eauto|]. split; [unfold covers; cbn; lia|done].
  - split.
    + intros (y & Hy & Hcov & ->). apply elem_new_cols in Hy as [(p0 & -> & ->)|(x & Hx & Hy)]; [unfold covers in Hcov; cbn in Hcov; lia|].
      exists x. split; [done|]. apply (pieces_at c x c'); [by apply Hf|done|]. by exists y.
    + intros (x & Hx & Hq). apply (pieces_at c x c') in Hq as (y & Hy & Hq); [|by apply Hf|done]. exists y. split; [|done].
      apply elem_new_cols. right. eauto.
Qed.

(** ** Histories of column settings *)
Lemma pieces_cover c x y c' : co_min x <= co_max x -> y ∈ pieces c x -> covers y c' -> covers x c'.
Proof.
  intros Hx Hy Hc. unfold pieces, cut_range in Hy. destruct x as [mn mx w h s b lv cl]. cbn [co_min co_max] in *. unfold covers in *. cbn [co_min co_max].
  destruct ((mn =? c) && (mx =? c)) eqn:E1; [|destruct ((mn <=? c) && (c <=? mx)) eqn:E2; [destruct (mn =? c) eqn:E3; [|destruct (mx =? c) eqn:E4]|]];
    cbn [app fst snd] in Hy; repeat (apply elem_of_cons in Hy as [->|Hy]; [cbn in Hc; lia|]); by apply elem_of_nil in Hy.
Qed.
Lemma pieces_single c c' x y : co_min x = c' -> co_max x = c' -> c <> c' -> y ∈ pieces c x -> y = x.
Proof.
  intros H1 H2 Hc Hy. unfold pieces, cut_range in Hy. destruct x as [mn mx w h s b lv cl]. cbn [co_min co_max] in *. subst.
  destruct ((c' =? c) && (c' =? c)) eqn:E1; [lia|]. destruct ((c' <=? c) && (c <=? c')) eqn:E2; [lia|]. cbn [app fst snd] in Hy.
  by apply elem_of_list_singleton in Hy.
Qed.
Lemma pieces_left c x c' : covers x c' -> c <> c' -> ~ (co_min x <= c < c') ->
  exists y, y ∈ pieces c x /\ covers y c' /\ co_min y = co_min x /\ with_range y 1 1 = with_range x 1 1.
Proof.
  intros Hx Hc Hn. unfold pieces, cut_range. destruct x as [mn mx w h s b lv cl]. unfold covers in *. cbn [co_min co_max] in *.
  destruct ((mn =? c) && (mx =? c)) eqn:E1; [lia|]. destruct ((mn <=? c) && (c <=? mx)) eqn:E2; [destruct (mn =? c) eqn:E3; [lia|destruct (mx =? c) eqn:E4]|];
    cbn [app fst snd]; (eexists; split; [left|]; cbn; split; [lia|done]).
Qed.
Record ColInv (l0 : list col_props) (hist : list (N * option col_props)) (l : list col_props) : Prop := {
  ci_ok : ranges_ok l;
  ci_single : forall c p, LastSet c hist (Some p) -> forall x, x ∈ l -> covers x c -> co_min x = c /\ co_max x = c;
  ci_set : forall c p q, LastSet c hist (Some p) -> col_at l c q <-> exists p0, p = Some p0 /\ q = with_range p0 1 1;
  ci_keep : forall c x, LastSet c hist None -> x ∈ l0 -> covers x c -> ~ addressed hist (co_min x) c ->
    exists y, y ∈ l /\ covers y c /\ co_min y = co_min x /\ with_range y 1 1 = with_range x 1 1;
  ci_only : forall c q, LastSet c hist None -> col_at l c q -> exists x, x ∈ l0 /\ covers x c /\ (q = with_range x 1 1 \/ q = col_default);
}.
Lemma LastSet_snoc c hist c' p o : LastSet c (hist ++ [(c', p)]) o ->
  (c' = c /\ o = Some p) \/ (c' <> c /\ LastSet c hist o).
Proof.
  intros Hl. remember (hist ++ [(c', p)]) as l eqn:El. destruct Hl as [|hist' p'|hist' c'' p' o' Hn Hl].
  - by destruct hist.
  - apply snoc_inj in El as [-> [= <- <-]]. by left.
  - apply snoc_inj in El as [-> [= <- <-]]. by right.
Qed.
Lemma LastSet_nil c o : LastSet c [] o -> o = None.
Proof. intros Hl. remember [] as l eqn:El. destruct Hl; [done|..]; by destruct hist. Qed.
Lemma ColInv_nil l : ranges_ok l -> ColInv l [] l.
Proof.
  intros Hl. split; [done|..].
  - intros c p Hs. by apply LastSet_nil in Hs.
  - intros c p q Hs. by apply LastSet_nil in Hs.
  - intros c x _ Hx Hc _. by exists x.
  - intros c q _ (x & H1 & H2 & ->). eauto.
Qed.
Lemma ColInv_step l0 hist l c p : ColInv l0 hist l -> ColInv l0 (hist ++ [(c, p)]) (new_cols c p l).
Proof.
  intros [Hok Hsi Hse Hk Ho]. assert (forall x, x ∈ l -> co_min x <= co_max x) as Hle.
  { intros x Hx. destruct Hok as [Hf _]. rewrite Forall_forall in Hf. by apply Hf. }
  split.
  - by apply new_cols_ok.
  - intros c' p' Hs y Hy Hc. apply elem_new_cols in Hy as [(p0 & -> & ->)|(x & Hx & Hy)].
    + unfold covers in Hc. cbn in Hc |- *. lia.
    + pose proof (pieces_cover _ _ _ _ (Hle x Hx) Hy Hc) as Hxc. apply LastSet_snoc in Hs as [[-> [= ->]]|[Hne Hs]].
      * exfalso. pose proof (proj1 (ranges_ok_count l) Hok) as [Hf _]. pose proof (cut_count c' x c' (Hle x Hx)) as Hcc. rewrite N.eqb_refl in Hcc.
        unfold cover_count in Hcc. apply nil_length_inv in Hcc. assert (In y (List.filter (coversb c') (pieces c' x))) as Hin.
        { apply filter_In. split; [by apply elem_of_list_In|by apply coversb_iff]. } by rewrite Hcc in Hin.
      * destruct (Hsi c' p' Hs x Hx Hxc) as [H1 H2]. apply (pieces_single c c' x y H1 H2 Hne) in Hy as ->. done.
  - intros c' p' q Hs. rewrite new_cols_at by done. apply LastSet_snoc in Hs as [[-> [= ->]]|[Hne Hs]].
    + by rewrite N.eqb_refl.
    + destruct (N.eqb_spec c' c) as [->|_]; [done|]. rewrite <- (Hse c' p' q Hs). split.
      * intros (x & Hx & Hc & ->). destruct (Hsi c' p' Hs x Hx Hc) as [H1 H2]. exists x. split; [done|]. split; [done|].
        destruct ((co_min x <? c) && (c <? c') && (c <=? co_max x)) eqn:Eb; [lia|done].
      * intros (x & Hx & Hc & ->). destruct (Hsi c' p' Hs x Hx Hc) as [H1 H2]. exists x. split; [done|]. split; [done|].
        destruct ((co_min x <? c) && (c <? c') && (c <=? co_max x)) eqn:Eb; [lia|done].
  - intros c' x Hs Hx Hc Hn. apply LastSet_snoc in Hs as [[_ [=]]|[Hne Hs]].
    destruct (Hk c' x Hs Hx Hc) as (y & Hy & Hyc & Hym & Hyp).
    { intros (c2 & p2 & Hin & Hr). apply Hn. exists c2, p2. split; [by apply elem_of_app; left|done]. }
    destruct (pieces_left c y c' Hyc Hne) as (z & Hz & Hzc & Hzm & Hzp).
    { intros Hr. apply Hn. exists c, p. split; [apply elem_of_app; right; by apply elem_of_list_singleton|]. by rewrite <- Hym. }
    exists z. split; [apply elem_new_cols; right; eauto|]. split; [done|]. by rewrite Hzm, Hzp.
  - intros c' q Hs Hq. apply LastSet_snoc in Hs as [[_ [=]]|[Hne Hs]]. apply new_cols_at in Hq; [|done].
    destruct (N.eqb_spec c' c) as [->|_]; [done|]. destruct Hq as (y & Hy & Hyc & Hq).
    destruct (Ho c' (with_range y 1 1) Hs) as (x & Hx & Hxc & Hp); [by exists y|]. exists x. split; [done|]. split; [done|].
    destruct ((co_min y <? c) && (c <? c') && (c <=? co_max y)); [by right|]. by rewrite Hq.
Qed.
Lemma run_columns_spec hist w l : ws_cols w = Some l -> ranges_ok l ->
  exists l', run_columns hist w = (set_ws_cols w (Some l'), Ok tt) /\ ColInv l hist l'.
Proof.
  intros Hw Hl. assert (forall h h0 w0 l1, set_ws_cols w (Some l1) = w0 -> ColInv l h0 l1 ->
    exists l', run_columns h w0 = (set_ws_cols w (Some l'), Ok tt) /\ ColInv l (h0 ++ h) l') as Hgen.
  { induction h as [|[c p] h IH]; intros h0 w0 l1 <- Hi; [exists l1; by rewrite app_nil_r|]. cbn [run_columns]. unfold bind, set_column_index, modify.
    destruct (IH (h0 ++ [(c, p)]) (set_ws_cols w (Some (new_cols c p l1))) (new_cols c p l1) eq_refl) as (l' & H1 & H2); [by apply ColInv_step|].
    exists l'. split; [exact H1|]. by rewrite <- app_assoc in H2. }
  destruct (Hgen hist [] w l) as (l' & H1 & H2); [|by apply ColInv_nil|by exists l'].
  destruct w as [a b c0 d0 e0 f0 g0]. cbn in Hw |- *. by rewrite Hw.
Qed.
(** Writing one cell. *)
Lemma set_one_cell `{E : Env} w t r c x : 1 <= c <= 65535 ->
  exists w', set_row_value r c [x] (w, t) = ((w', (store_cell x t).1), Ok tt) /\ cell_at w' r c = Some (store_cell x t).2.
Proof.
  intros Hc. unfold set_row_value. rewrite u16_sub_one by lia. cbn [store_cells]. destruct (store_cell x t) as [t1 y]. cbn [fst snd].
  match goal with |- context [place_cells ?m ?c0 ?l ?d ?cells] => destruct (place_cells_spec m l c0 d cells) as (dim' & cells' & Hp & Hin & _) end; [cbn; lia|].
  rewrite Hp. eexists. split; [done|]. unfold cell_at. cbn [ws_data set_ws_data]. rewrite lookup_insert. cbn [rd_cells].
  specialize (Hin 0%nat y eq_refl). by replace (c - 1 + 1 + N.of_nat 0) with c in Hin by lia.
Qed.
