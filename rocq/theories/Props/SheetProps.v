(** C18, C19: cells in a sheet. C20: the sheet part written and read back. C21: the dimension.
    C22: columns. C39: the part of a new sheet. C40: views. *)
From Verif.Model Require Import Worksheet.
From Verif.Spec Require Import RelSpec XmlSpec XmlRepr PackageSpec PartSpec ColumnSpec SheetSpec DemoEnv.
From Verif.Proofs Require Import BaseFacts ConverterFacts AttrFacts SheetFacts SheetDocFacts SheetCycleFacts.

(** C18: after any history of row writes and row settings within the column range, every position
    holds the stored form of the last cell written there, a position never written is as it was;
    the last setting of a row's properties holds, a row only written to keeps its properties, and
    rows not mentioned are as they were. *)
Theorem C18_last_write_wins : forall (E : Env) (ops : list sheet_op) (w : worksheet) (t : list string),
  Forall in_range ops ->
  exists w' t', run_sheet_ops ops (w, t) = ((w', t'), Ok tt)
  /\ (forall r c, exists o, LastWrite r c ops o /\ (forall o', LastWrite r c ops o' -> o' = o)
       /\ match o with Some x => exists y, cell_at w' r c = Some y /\ CellStored t' x y | None => cell_at w' r c = cell_at w r c end)
  /\ (forall r p, LastProps r ops (Some p) -> props_at w' r = Some p)
  /\ (forall r, LastProps r ops None -> Exists (fun op => Touches op r) ops -> props_at w' r = Some (default row_default (props_at w r)))
  /\ (forall r, Forall (fun op => ~ Touches op r) ops -> props_at w' r = props_at w r)
  /\ (exists new, t' = t ++ new) /\ ws_cols w' = ws_cols w /\ ws_views w' = ws_views w /\ ws_path w' = ws_path w.
Proof.
  intros E ops w t Hr. destruct (run_sheet_ops_spec ops w t Hr) as (w' & t' & H1 & H2 & (F1 & F2 & F3 & F4 & F5) & H3 & H4 & H5 & H6 & H7).
  exists w', t'. split; [done|]. split; [|done]. intros r c. destruct (LastWrite_total r c ops) as [o Ho]. exists o. split; [done|].
  split; [intros o' Ho'; by eapply LastWrite_fun|]. destruct o as [x|]; [by apply H3|by apply H4].
Qed.
(** Addressing by reference text is the same as addressing by numbers. *)
Theorem C18_by_reference : forall (E : Env) (row col : N) (name : string) (cs : list cell) (s : worksheet * list string),
  row <= u32_max -> 1 <= col <= 65535 -> ColumnName col name ->
  set_row_value_ref (name +:+ show_N row) cs s = set_row_value row col cs s.
Proof.
  intros E row col name cs s Hr Hc (H1 & H2 & H3). unfold set_row_value_ref, bind, lift.
  rewrite (get_cell_index_word name row); [by rewrite H3|done|lia|done].
Qed.
(** Outside the range nothing of this holds: a write at column 0 stops the program when overflow is
    checked, and otherwise creates a cell in column 0, which has no reference. *)
Theorem C18_column_zero_refuted : forall (E : Env) (w : worksheet) (t : list string) (r : N) (x : cell),
  (env_mode = Checked -> exists e, set_row_value r 0 [x] (w, t) = ((w, t), Panic e))
  /\ (env_mode = Wrapping -> exists w' t', set_row_value r 0 [x] (w, t) = ((w', t'), Ok tt) /\ is_Some (cell_at w' r 0)).
Proof.
  intros E w t r x. unfold set_row_value. split; intros ->; [by eexists|].
  replace (u16_sub Wrapping 0 1) with (Ok 65535) by (by vm_compute). cbn [store_cells]. destruct (store_cell x t) as [t1 y] eqn:Es.
  cbn [place_cells]. replace (u16_add Wrapping 65535 1) with (Ok 0) by (by vm_compute).
  eexists _, _. split; [done|]. unfold cell_at. cbn [ws_data set_ws_data]. rewrite lookup_insert. cbn [rd_cells]. rewrite lookup_insert. eauto.
Qed.
Example C18_example : let E := demo_env Checked in
  let txt v := mkCell None (Some v) TAuto None None None None in
  exists w' t', run_sheet_ops [SWrite 2 1 [txt "a"; txt "1"; txt "b"]; SProps 2 row_default; SWrite 2 2 [txt "b"]] (fresh_sheet "p" "n" (mkRelations [] "r"), []) = ((w', t'), Ok tt)
  /\ LastWrite 2 2 [SWrite 2 1 [txt "a"; txt "1"; txt "b"]; SProps 2 row_default; SWrite 2 2 [txt "b"]] (Some (txt "b"))
  /\ ce_value <$> cell_at w' 2 2 = Some (Some "1") /\ ce_type <$> cell_at w' 2 2 = Some TShared /\ t' = ["a"; "b"]
  /\ cell_at w' 2 4 = None.
Proof.
  cbn zeta. eexists _, _. split; [reflexivity|]. split.
  - apply (Last_here 2 2 [_; _]). by exists 2, [mkCell None (Some "b") TAuto None None None None], 0%nat.
  - by vm_compute.
Qed.

(** C19: writing one cell with automatic type. It becomes a number exactly when the text is a
    floating-point literal and a boolean exactly when it is [true] or [false]; then its text stays,
    or becomes [1] or [0]. In all other cases it refers to its text in the string table. *)
Theorem C19_automatic_type : forall (E : Env) (w : worksheet) (t : list string) (r c : N) (x : cell) (v : string),
  1 <= c <= 65535 -> ce_type x = TAuto -> ce_value x = Some v ->
  exists w' t' y, set_row_value r c [x] (w, t) = ((w', t'), Ok tt) /\ cell_at w' r c = Some y
  /\ (ce_type y = TNumber <-> FloatText v) /\ (ce_type y = TBoolean <-> v = "true" \/ v = "false")
  /\ (ce_type y = TShared <-> ~ FloatText v /\ v <> "true" /\ v <> "false")
  /\ (ce_type y = TNumber -> ce_value y = Some v /\ t' = t)
  /\ (ce_type y = TBoolean -> ce_value y = Some (if String.eqb v "true" then "1" else "0") /\ t' = t)
  /\ (ce_type y = TShared -> exists ref, ce_value y = Some ref /\ Refers t' ref v)
  /\ (exists new, t' = t ++ new)
  /\ ce_formula y = ce_formula x /\ ce_style y = ce_style x.
Proof.
  intros E w t r c x v Hc Ht Hv.
  destruct (set_one_cell w t r c x Hc) as (w' & H1 & H2). eexists _, _, _. split; [exact H1|]. split; [exact H2|].
  assert (~ FloatText "true") as Ntr by (rewrite <- f64_parses_iff; by vm_compute).
  assert (~ FloatText "false") as Nfa by (rewrite <- f64_parses_iff; by vm_compute).
  unfold store_cell. rewrite Hv, Ht. destruct (f64_parses v) eqn:Ef; [|destruct (seqb v "true") eqn:Et; [|destruct (seqb v "false") eqn:Eb]].
  - apply f64_parses_iff in Ef. cbn. split; [tauto|]. split; [split; [done|intros [-> | ->]; done]|]. split; [split; [done|tauto]|]. split; [done|].
    split; [done|]. split; [done|]. split; [exists []; by rewrite app_nil_r|done].
  - apply seqb_true in Et as ->. cbn. split; [split; [done|tauto]|]. split; [split; [tauto|done]|]. split; [split; [done|tauto]|].
    split; [done|]. split; [done|]. split; [done|]. split; [exists []; by rewrite app_nil_r|done].
  - apply seqb_true in Eb as ->. cbn. split; [split; [done|tauto]|]. split; [split; [tauto|done]|]. split; [split; [done|tauto]|].
    split; [done|]. split; [done|]. split; [done|]. split; [exists []; by rewrite app_nil_r|done].
  - assert (~ FloatText v) as Nf by (rewrite <- f64_parses_iff; by rewrite Ef). apply seqb_false in Et, Eb.
    destruct (get_string_id v t) as [t1 i] eqn:Eg. cbn. apply get_string_id_refers in Eg as [Hre Hnew].
    split; [split; [done|tauto]|]. split; [split; [done|tauto]|]. split; [tauto|]. split; [done|]. split; [done|]. split; [eauto|done].
Qed.
(** A cell without value, whatever its type, is stored as an empty number cell; a cell given as
    boolean is [0] for an empty text, [0] and any spelling of [false], and [1] otherwise; numbers,
    formula strings, inline strings and errors are stored as given. *)
Theorem C19_other_types : forall (E : Env) (w : worksheet) (t : list string) (r c : N) (x : cell),
  1 <= c <= 65535 ->
  exists w' t' y, set_row_value r c [x] (w, t) = ((w', t'), Ok tt) /\ cell_at w' r c = Some y /\ CellStored t' x y.
Proof.
  intros E w t r c x Hc. destruct (set_one_cell w t r c x Hc) as (w' & H1 & H2). eexists _, _, _. split; [exact H1|]. split; [exact H2|].
  destruct (store_cell x t) as [t1 y] eqn:Es. by apply store_cell_spec in Es as [? _].
Qed.
(** A consequence users may not want: the words for infinity and not-a-number are numbers. *)
Theorem C19_words_refuted : forall (E : Env) (w : worksheet) (t : list string) (r c : N) (v : string),
  1 <= c <= 65535 -> v ∈ ["NaN"; "inf"; "Infinity"; "-infinity"] ->
  exists w' y, set_row_value r c [mkCell None (Some v) TAuto None None None None] (w, t) = ((w', t), Ok tt)
  /\ cell_at w' r c = Some y /\ ce_type y = TNumber.
Proof.
  intros E w t r c v Hc Hv. destruct (set_one_cell w t r c (mkCell None (Some v) TAuto None None None None) Hc) as (w' & H1 & H2).
  assert (store_cell (mkCell None (Some v) TAuto None None None None) t = (t, mkCell None (Some v) TNumber None None None None)) as Es.
  { unfold store_cell. cbn [ce_value ce_type]. assert (f64_parses v = true) as ->; [|done].
    repeat (apply elem_of_cons in Hv as [->|Hv]; [by vm_compute|]). by apply elem_of_nil in Hv. }
  rewrite Es in H1, H2. eauto.
Qed.
Example C19_example : let E := demo_env Checked in
  let kind v := let x := mkCell None (Some v) TAuto None None None None in let y := (store_cell x []).2 in (ce_type y, ce_value y) in
  map kind ["1"; "-.5e3"; "1."; "true"; "True"; "0x10"; " 1"; ""]
  = [(TNumber, Some "1"); (TNumber, Some "-.5e3"); (TNumber, Some "1."); (TBoolean, Some "1"); (TShared, Some "0");
     (TShared, Some "0"); (TShared, Some "0"); (TShared, Some "0")].
Proof. by vm_compute. Qed.

(** C20: closing a sheet writes its part, and nothing else changes in the package. The rows stand
    in ascending order in the one element for them, each with its cells in ascending order, under
    the right references; exactly the rows and cells of the sheet. *)
Theorem C20_written : forall (E : Env) (o : office) (w : worksheet),
  SheetOpen o (ws_path w) -> sheet_typed w ->
  exists w1 o1 e root nsl text, ws_close (w, o) = ((w1, o1), Ok tt)
  /\ of_open o1 = delete (ws_path w) (of_open o) /\ of_archive o1 = <[ws_path w := e]> (of_archive o)
  /\ part_bytes e = Ok (prolog +:+ text) /\ Renders (Some nsl) root text
  /\ (ws_data w <> None -> exists data rows, only_child "sheetData" root data /\ RowsWritten w data rows).
Proof.
  intros E o w Ho Hw. destruct (sheet_cycle o w Ho Hw) as (e & root & nsl & ref & Hc & (text & Hb & Ht) & _ & _ & Hd & _).
  eexists _, _, e, root, nsl, text. split; [exact Hc|]. split; [done|]. split; [done|]. split; [done|]. split; [done|].
  destruct (ws_data w) as [m|] eqn:Em; [|done]. intros _. exists (data_tree m), (row_list m). split; [by apply Hd|].
  apply rows_written; [done|]. by apply Hw.
Qed.
(** Whoever obtains that sheet again gets a handle with the same cells at the same places, the
    same row properties, and the same column definitions, up to what the format does to them:
    texts are trimmed, an absent flag and a false flag are the same, and the parts of columns the
    writer leaves out are lost. *)
Theorem C20_reopen : forall (E : Env) (o : office) (w : worksheet),
  SheetOpen o (ws_path w) -> sheet_typed w ->
  exists w1 o1 e, ws_close (w, o) = ((w1, o1), Ok tt) /\ of_archive o1 !! ws_path w = Some e
  /\ forall name s s1 nm rp rl, get_sheet_file_name name s = (s1, Ok (ws_path w, nm)) -> rels_beside (ws_path w) = Ok rp ->
        holds s1.2.2 (ws_path w) e -> RelsReadable s1.2.2 rp rl ->
        exists o3 w', ws_new name s = ((s1.1, (s1.2.1, o3)), Ok w')
        /\ (forall r c, cell_at w' r c = back_cell <$> cell_at w r c)
        /\ (forall r, props_at w' r = back_props <$> props_at w r)
        /\ ws_cols w' = back_cols (ws_cols w)
        /\ ws_path w' = ws_path w /\ ws_name w' = nm /\ ws_rels w' = mkRelations rl rp
        /\ SheetOpen o3 (ws_path w') /\ sheet_typed w' /\ DimInv w'
        /\ (forall q, q <> ws_path w -> q <> rp -> of_open o3 !! q = of_open s1.2.2 !! q /\ of_archive o3 !! q = of_archive s1.2.2 !! q).
Proof.
  intros E o w Ho Hw. destruct (sheet_cycle o w Ho Hw) as (e & root & nsl & ref & Hc & _ & _ & _ & _ & _ & _ & Hre).
  eexists _, _, e. split; [exact Hc|]. split; [cbn; apply lookup_insert|]. intros name s s1 nm rp rl H1 H2 H3 H4.
  destruct (Hre name s s1 nm rp rl H1 H2 H3 H4) as (o3 & H5 & H6 & _ & H8). eexists o3, _. split; [exact H5|].
  split; [intros; apply back_cell_at|]. split; [intros; apply back_props_at|]. split; [done|]. split; [done|]. split; [done|]. split; [done|].
  split; [done|]. split; [by apply back_typed|]. split; [apply back_inv|done].
Qed.
(** Without such oddities a cell, a row, a column definition comes back as it was. *)
Theorem C20_plain : (forall c, plain_cell c -> back_cell c = c) /\ (forall p, plain_props p -> back_props p = p)
  /\ (forall p, plain_col p -> back_col p = p).
Proof. split; [|split]; [apply back_cell_plain|apply back_props_plain|apply back_col_plain]. Qed.
(** A new sheet is as the two theorems above require, and so is every sheet got from it, or from a
    reopened one, by writing. *)
Theorem C20_new : forall (E : Env) name s s1 path nm rp rl,
  get_sheet_file_name name s = (s1, Ok (path, nm)) -> rels_beside path = Ok rp ->
  of_open s1.2.2 !! path = None -> of_archive s1.2.2 !! path = None -> RelsReadable s1.2.2 rp rl ->
  exists o3 w, ws_new name s = ((s1.1, (s1.2.1, o3)), Ok w) /\ ws_path w = path /\ ws_name w = nm
    /\ SheetOpen o3 path /\ sheet_typed w /\ DimInv w
    /\ (forall r, ~ has_row w r) /\ ws_cols w = None /\ ws_views w = [view_default].
Proof.
  intros E name s s1 path nm rp rl H1 H2 H3 H4 H5. destruct (ws_new_fresh name s s1 path nm rp rl H1 H2 H3 H4 H5) as (o3 & H6 & H7 & _).
  eexists o3, _. split; [exact H6|]. split; [done|]. split; [done|]. split; [done|]. split; [apply fresh_typed|]. split; [apply fresh_inv|].
  split; [|done]. intros r [x Hx]. unfold props_at in Hx. cbn in Hx. by rewrite lookup_empty in Hx.
Qed.
Theorem C20_kept : forall (E : Env) (ops : list sheet_op) (w w' : worksheet) (t t' : list string),
  Forall in_range ops -> Forall op_typed ops -> sheet_typed w -> DimInv w ->
  run_sheet_ops ops (w, t) = ((w', t'), Ok tt) -> sheet_typed w' /\ DimInv w'.
Proof. intros E ops w w' t t'. apply sheet_typed_ops. Qed.
(** The relationships part of the sheet may be absent, or be one that the library stored. *)
Theorem C20_relationships : forall (E : Env),
  (forall o rp, of_open o !! rp = None -> of_archive o !! rp = None -> RelsReadable o rp [])
  /\ (forall o r, RelsOpen o (rl_path r) -> rl_rels r <> [] ->
      exists o1 e, rels_close r o = (o1, Ok tt) /\ of_archive o1 !! rl_path r = Some e
      /\ forall o2, holds o2 (rl_path r) e -> RelsReadable o2 (rl_path r) (map escaped_rel (rl_rels r))).
Proof.
  intros E. split; [apply rels_absent|]. intros o r H1 H2. destruct (rels_stored o r H1 H2) as (e & H3 & H4). eexists _, e. split; [exact H3|].
  split; [cbn; apply lookup_insert|]. intros o2 (H5 & e2 & H6 & H7). by eapply H4.
Qed.
(** What does not come back: a flag set to false comes back as true, the collapsed flag and the
    outline level of columns are lost, the formula of an inline string cell is lost, and the
    surrounding spaces of texts are lost. *)
Theorem C20_lossy_refuted :
  ro_hidden (back_props (mkRow None None (Some false) None None None None None None)) = Some true
  /\ co_hidden (back_col (mkCol 1 1 None (Some false) None None 0 None)) = Some true
  /\ co_level (back_col (mkCol 1 1 None None None None 2 None)) = 0
  /\ ce_value (back_cell (mkCell None (Some " x ") TString None None None None)) = Some "x"
  /\ ce_formula (back_cell (mkCell (Some "A1") (Some "x") TInline None None None None)) = None.
Proof. by vm_compute. Qed.
(** All requirements met together: a new sheet, two writes, a save, and the sheet again. *)
Definition demo_sheet_cycle `{Env} : option (list (option (option string)) * list string) :=
  let txt v := mkCell None (Some v) TAuto None None None None in
  match ws_new (Some "S") ([], (mkRelations [] "xl/_rels/workbook.xml.rels", mkOffice ∅ ∅)) with
  | ((sheets, (r, o)), Ok w) =>
      match run_sheet_ops [SWrite 2 1 [txt "a"; txt "7"]; SWrite 1 3 [txt "true"]] (w, []) with
      | ((w, t), Ok _) =>
          match ws_close (w, o) with
          | ((_, o), Ok _) =>
              match ws_new (Some "S") (sheets, (r, set_open o (delete "xl/worksheets/_rels/sheet1.xml.rels" (of_open o)))) with
              | (_, Ok w) => Some (map (fun '(r, c) => ce_value <$> cell_at w r c) [(2, 1); (2, 2); (1, 3); (1, 1)], t)
              | _ => None
              end
          | _ => None
          end
      | _ => None
      end
  | _ => None
  end.
Example C20_example : let E := demo_env Checked in
  demo_sheet_cycle = Some ([Some (Some "0"); Some (Some "7"); Some (Some "1"); None], ["a"]).
Proof. by vm_compute. Qed.

(** C21: the dimension written at save, for a sheet got from a new or a reopened one (see
    [C20_new], [C20_reopen]) by writing: the reference spans the rows that exist and the columns
    that have cells, as long as a cell lies in the first 16384 columns. *)
Theorem C21_dimension : forall (E : Env) (o : office) (w : worksheet) (r1 c1 r2 c2 : N),
  SheetOpen o (ws_path w) -> sheet_typed w -> DimInv w -> RowBox w r1 c1 r2 c2 -> c1 <= 16384 ->
  exists w1 o1 e root nsl text dim n1 n2, ws_close (w, o) = ((w1, o1), Ok tt)
  /\ of_archive o1 !! ws_path w = Some e /\ part_bytes e = Ok (prolog +:+ text) /\ Renders (Some nsl) root text
  /\ only_child "dimension" root dim /\ ColumnName c1 n1 /\ ColumnName c2 n2
  /\ child_attr dim "ref" = Some (n1 +:+ show_N r1 +:+ ":" +:+ n2 +:+ show_N r2).
Proof.
  intros E o w r1 c1 r2 c2 Ho Hw Hi Hb Hc. destruct (sheet_cycle o w Ho Hw) as (e & root & nsl & ref & Hcl & (text & Hb' & Ht) & Href & Hd & _).
  assert (1 <= c1) as Hc1.
  { destruct Hb as [_ _ _ _ [r [x Hx]] _]. apply (data_ok_at w) in Hx as [? _]; [lia|]. intros m Hm. by apply Hw. }
  destruct (dim_ref_spec w r1 c1 r2 c2 Hi Hb) as (n1 & n2 & H1 & H2 & H3); [lia|]. rewrite Href in H3. injection H3 as ->.
  eexists _, _, e, root, nsl, text, _, n1, n2. split; [exact Hcl|]. split; [cbn; apply lookup_insert|]. split; [done|]. split; [done|].
  split; [exact Hd|]. split; [done|]. split; [done|]. by vm_compute.
Qed.
(** The same in one piece, from the sheet the library makes for a new part to the stored part; the
    rectangle is the one around what the history of writes names. *)
Theorem C21_session : forall (E : Env) name s s1 path nm rp rl ops t r1 c1 r2 c2,
  get_sheet_file_name name s = (s1, Ok (path, nm)) -> rels_beside path = Ok rp ->
  of_open s1.2.2 !! path = None -> of_archive s1.2.2 !! path = None -> RelsReadable s1.2.2 rp rl ->
  Forall in_range ops -> Forall op_typed ops -> OpsBox ops r1 c1 r2 c2 -> c1 <= 16384 ->
  exists o3 w w' t' w1 o1 e root nsl text dim n1 n2, ws_new name s = ((s1.1, (s1.2.1, o3)), Ok w)
  /\ run_sheet_ops ops (w, t) = ((w', t'), Ok tt) /\ ws_close (w', o3) = ((w1, o1), Ok tt)
  /\ of_archive o1 !! path = Some e /\ part_bytes e = Ok (prolog +:+ text) /\ Renders (Some nsl) root text
  /\ only_child "dimension" root dim /\ ColumnName c1 n1 /\ ColumnName c2 n2
  /\ child_attr dim "ref" = Some (n1 +:+ show_N r1 +:+ ":" +:+ n2 +:+ show_N r2).
Proof.
  intros E name s s1 path nm rp rl ops t r1 c1 r2 c2 H1 H2 H3 H4 H5 Hr Ht Hb Hc.
  destruct (C20_new E name s s1 path nm rp rl H1 H2 H3 H4 H5) as (o3 & w & N1 & N2 & _ & N3 & N4 & N5 & N6 & _).
  destruct (C18_last_write_wins E ops w t Hr) as (w' & t' & R1 & _ & _ & _ & _ & _ & _ & _ & R2).
  destruct (C20_kept E ops w w' t t' Hr Ht N4 N5 R1) as [K1 K2].
  assert (ws_path w' = path) as Hp by congruence.
  destruct (C21_dimension E o3 w' r1 c1 r2 c2) as (w1 & o1 & e & root & nsl & text & dim & n1 & n2 & D1 & D2 & D3); [by rewrite Hp|done|done|by eapply ops_box|done|].
  exists o3, w, w', t', w1, o1, e, root, nsl, text, dim, n1, n2. rewrite Hp in D2. done.
Qed.
(** If every row has a cell, that is the smallest rectangle around the cells. *)
Theorem C21_smallest : forall (w : worksheet) (r1 c1 r2 c2 : N),
  (forall r, has_row w r -> exists c, is_Some (cell_at w r c)) -> RowBox w r1 c1 r2 c2 -> Box w r1 c1 r2 c2.
Proof.
  intros w r1 c1 r2 c2 Hr [H1 H2 H3 H4 H5 H6]. split; try done.
  - intros r c Hc. split; [|by eapply H4]. apply H1. destruct Hc as [x Hx]. unfold has_row, props_at. unfold cell_at in Hx.
    destruct (ws_data w) as [m|]; [|done]. destruct (m !! r); [|done]. eauto.
  - by apply Hr. - by apply Hr.
Qed.
(** A sheet without rows: the reference is [A1]. *)
Theorem C21_empty : forall (E : Env) (o : office) (w : worksheet),
  SheetOpen o (ws_path w) -> sheet_typed w -> (forall r, ~ has_row w r) ->
  exists w1 o1 e root nsl text dim, ws_close (w, o) = ((w1, o1), Ok tt)
  /\ of_archive o1 !! ws_path w = Some e /\ part_bytes e = Ok (prolog +:+ text) /\ Renders (Some nsl) root text
  /\ only_child "dimension" root dim /\ child_attr dim "ref" = Some "A1".
Proof.
  intros E o w Ho Hw He. destruct (sheet_cycle o w Ho Hw) as (e & root & nsl & ref & Hcl & (text & Hb' & Ht) & Href & Hd & _).
  eexists _, _, e, root, nsl, text, _. split; [exact Hcl|]. split; [cbn; apply lookup_insert|]. split; [done|]. split; [done|].
  split; [exact Hd|]. change (Some ref = Some "A1"). f_equal.
  unfold dim_ref in Href. unfold has_row, props_at in He. destruct (ws_data w) as [m|]; [|congruence].
  assert (m = ∅) as ->; [|by injection Href as <-]. apply map_eq. intros r. rewrite lookup_empty. specialize (He r). destruct (m !! r); [|done].
  exfalso. apply He. eauto.
Qed.
(** With rows but no cells the reference is inverted: it runs from column XFD back to column A. *)
Theorem C21_rows_only_refuted : forall (E : Env) (path nm : string) (rels : relations) (r : N) (p : row_props) (t : list string),
  exists w', run_sheet_ops [SProps r p] (fresh_sheet path nm rels, t) = ((w', t), Ok tt)
  /\ dim_ref (ws_dim w') (ws_data w') = Ok ("XFD" +:+ show_N r +:+ ":A" +:+ show_N r).
Proof.
  intros E path nm rels r p t. eexists. split; [reflexivity|]. unfold dim_ref. cbn [ws_data ws_dim set_ws_data fresh_sheet default].
  assert (forall y : row_data, btree_entries (<[r := y]> (∅ : gmap N row_data)) = [(r, y)]) as Hone.
  { intros y. unfold btree_entries. by rewrite insert_empty, map_to_list_singleton. }
  match goal with |- context [<[r := ?y]> ?m] => change (<[r := y]> m) with (<[r := y]> (∅ : gmap N row_data)) end. by rewrite Hone.
Qed.
(** Cells beyond column 16384 only: the box starts at XFD, left of all cells. *)
Theorem C21_far_columns_refuted : forall (E : Env) (path nm : string) (rels : relations) (r c : N) (x : cell) (t : list string),
  16384 < c <= 65535 ->
  exists w' t', run_sheet_ops [SWrite r c [x]] (fresh_sheet path nm rels, t) = ((w', t'), Ok tt)
  /\ dm_start (ws_dim w') = 16384 /\ forall r' c', is_Some (cell_at w' r' c') -> 16384 < c'.
Proof.
  intros E path nm rels r c x t Hc. destruct (run_sheet_ops_spec [SWrite r c [x]] (fresh_sheet path nm rels) t) as (w' & t' & H1 & _ & _ & H3 & H4 & _).
  { apply Forall_singleton. cbn. lia. }
  assert (forall r' c', is_Some (cell_at w' r' c') -> 16384 < c') as Hcells.
  { intros r' c' Hs. destruct (Writes_dec (SWrite r c [x]) r' c') as [[y Hy]|Hn].
    - apply Writes_col in Hy as (c0 & cs & [= -> <- <-] & Hr). lia.
    - rewrite H4 in Hs; [|apply (Last_skip r' c' []); [done|constructor]]. unfold cell_at in Hs. cbn in Hs. rewrite lookup_empty in Hs. by destruct Hs. }
  exists w', t'. split; [done|]. split; [|done].
  assert (DimInv w') as [Hin Hst _]. { eapply DimInv_ops; [|apply fresh_inv|exact H1]. apply Forall_singleton. cbn. lia. }
  destruct Hst as [?|[r' Hs]]; [done|]. exfalso. pose proof (Hcells _ _ Hs). 
  destruct (run_sheet_op_spec (SWrite r c [x]) (fresh_sheet path nm rels) t) as (w2 & t2 & E2 & _ & _ & _ & _ & _ & _ & _ & Hd); [cbn; lia|].
  cbn [run_sheet_ops] in H1. unfold bind in H1. rewrite E2 in H1. injection H1 as <- <-. cbn in Hd. rewrite Hd in *. cbn in *. lia.
Qed.
Example C21_session_example : let txt v := mkCell None (Some v) TAuto None None None None in
  let ops := [SWrite 7 3 [txt "a"]; SWrite 2 28 [txt "7"; txt "8"]] in Forall in_range ops /\ OpsBox ops 2 3 7 29.
Proof.
  cbn zeta. split; [repeat constructor; cbn; lia|]. split.
  - intros op r Hin Ht. apply elem_of_cons in Hin as [->|Hin%elem_of_list_singleton]; [|subst]; cbn in Ht; lia.
  - apply Exists_cons_tl. by constructor.
  - by constructor.
  - intros op r c x Hin Hw. apply elem_of_cons in Hin as [->|Hin%elem_of_list_singleton]; [|subst];
      apply Writes_col in Hw as (c0 & cs & [= <- <- <-] & Hc); cbn in Hc; lia.
  - eexists _, 7, _. split; [by left|]. eexists 3, _, 0%nat. split; [done|]. by split.
  - eexists _, 2, _. split; [right; by left|]. eexists 28, _, 1%nat. split; [done|]. by split.
Qed.
Example C21_example : let E := demo_env Checked in
  let txt v := mkCell None (Some v) TAuto None None None None in
  exists w' t', run_sheet_ops [SWrite 7 3 [txt "a"]; SWrite 2 28 [txt "7"; txt "8"]] (fresh_sheet "p" "n" (mkRelations [] "r"), []) = ((w', t'), Ok tt)
  /\ dim_ref (ws_dim w') (ws_data w') = Ok "C2:AC7".
Proof. cbn zeta. eexists _, _. split; [reflexivity|]. by vm_compute. Qed.

(** C22: any history of column settings on a sheet whose column definitions do not overlap. They
    still do not overlap; a column that was addressed has exactly the properties last given, or
    none if they were removed; a column never addressed keeps its properties, provided no column
    left of it in the same definition was addressed; and nothing else than its old properties or
    the default ones can be found on it. *)
Theorem C22_columns : forall (hist : list (N * option col_props)) (w : worksheet) (l : list col_props),
  ws_cols w = Some l -> ranges_ok l ->
  exists w' l', run_columns hist w = (w', Ok tt) /\ ws_cols w' = Some l' /\ ranges_ok l'
  /\ (forall c p q, LastSet c hist (Some p) -> col_at l' c q <-> exists p0, p = Some p0 /\ q = with_range p0 1 1)
  /\ (forall c x, LastSet c hist None -> x ∈ l -> covers x c -> ~ addressed hist (co_min x) c -> col_at l' c (with_range x 1 1))
  /\ (forall c q, LastSet c hist None -> col_at l' c q -> exists x, x ∈ l /\ covers x c /\ (q = with_range x 1 1 \/ q = col_default))
  /\ ws_data w' = ws_data w /\ ws_views w' = ws_views w.
Proof.
  intros hist w l Hw Hl. destruct (run_columns_spec hist w l Hw Hl) as (l' & H1 & [I1 I2 I3 I4 I5]).
  eexists _, l'. split; [exact H1|]. split; [done|]. split; [done|]. split; [done|]. split; [|done].
  intros c x Hs Hx Hc Hn. destruct (I4 c x Hs Hx Hc Hn) as (y & Hy & Hyc & _ & Hyp). by exists y.
Qed.
(** The loss on the right, exactly: addressing a column strictly inside a definition resets every
    column right of it in that definition to the defaults. *)
Theorem C22_right_part_refuted : forall (w : worksheet) (l : list col_props) (c c' : N) (p : option col_props) (x : col_props),
  ws_cols w = Some l -> ranges_ok l -> x ∈ l -> co_min x < c -> c < c' -> covers x c' ->
  exists w' l', set_column_index c p w = (w', Ok tt) /\ ws_cols w' = Some l' /\ forall q, col_at l' c' q <-> q = col_default.
Proof.
  intros w l c c' p x Hw Hl Hx H1 H2 H3. eexists _, (new_cols c p l). split; [reflexivity|]. split; [cbn; by rewrite Hw|].
  intros q. rewrite new_cols_at by done. destruct (N.eqb_spec c' c) as [->|_]; [lia|].
  assert (forall y, y ∈ l -> covers y c' -> y = x) as Huniq.
  { intros y Hy Hyc. destruct Hl as [_ Hd]. apply elem_of_list_lookup in Hx as (i & Hi). apply elem_of_list_lookup in Hy as (j & Hj).
    assert (i = j) as -> by (by eapply Hd). congruence. }
  split.
  - intros (y & Hy & Hyc & ->). rewrite (Huniq y Hy Hyc). unfold covers in H3.
    destruct ((co_min x <? c) && (c <? c') && (c <=? co_max x)) eqn:Eb; [done|lia].
  - intros ->. exists x. split; [done|]. split; [done|]. unfold covers in H3.
    destruct ((co_min x <? c) && (c <? c') && (c <=? co_max x)) eqn:Eb; [done|lia].
Qed.
(** On a sheet without column definitions, such as every new one, settings are lost. *)
Theorem C22_no_definitions_refuted : forall (hist : list (N * option col_props)) (w : worksheet),
  ws_cols w = None -> exists w', run_columns hist w = (w', Ok tt) /\ ws_cols w' = None.
Proof.
  intros hist. induction hist as [|[c p] hist IH]; intros w Hw; [by exists w|]. cbn [run_columns]. unfold bind, set_column_index, modify.
  apply IH. cbn. by rewrite Hw.
Qed.
Example C22_example :
  let x := mkCol 2 9 (Some "12") None None None 0 None in let p := mkCol 1 1 None (Some true) None None 0 None in
  ranges_ok [x] /\ new_cols 5 (Some p) [x] = [mkCol 2 4 (Some "12") None None None 0 None; mkCol 5 5 None (Some true) None None 0 None; mkCol 6 9 None None None None 0 None].
Proof.
  split; [|by vm_compute]. split; [apply Forall_singleton; by vm_compute|]. intros [|i] [|j]; [done|..]; done.
Qed.

(** C39: the part of a sheet that is not in the list yet. The search ends, the number is the first
    from the number of sheets on whose part is not stored, and the list and the relationships
    grow by one entry pointing to it. *)
Theorem C39_new_part : forall name sheets rels o rp,
  (forall n x, name = Some n -> x ∈ sheets -> sh_name x <> n) -> get_relative_path rels = Ok rp ->
  exists k path nm id, get_sheet_file_name name (sheets, (rels, o)) =
    ((sheets ++ [mkSheet nm id false false], (mkRelations (rl_rels rels ++ [mkRel id ("/" +:+ path) (c_type c_worksheet) None]) (rl_path rels), o)), Ok (path, nm))
  /\ path = rp +:+ "worksheets/sheet" +:+ show_N k +:+ ".xml" /\ nm = default ("sheet" +:+ show_N k) name
  /\ N.of_nat (length sheets) < k /\ of_archive o !! path = None
  /\ (forall j, N.of_nat (length sheets) < j < k -> is_Some (of_archive o !! (rp +:+ "worksheets/sheet" +:+ show_N j +:+ ".xml"))).
Proof.
  intros name sheets rels o rp Hn Hrp. destruct (file_name_new name sheets rels o rp Hn Hrp) as (k & H1 & H2 & H3 & H4).
  assert (forall j, sheet_path (rp +:+ c_path c_worksheet) j = rp +:+ "worksheets/sheet" +:+ show_N j +:+ ".xml") as Hpath.
  { intros j. unfold sheet_path, sheet_file. rewrite <- !app_assoc_s. done. }
  rewrite Hpath in *. exists k. eexists _, _, _. split; [exact H1|]. split; [done|]. split; [done|]. split; [done|]. split; [done|].
  intros j Hj. specialize (H4 j Hj). by rewrite Hpath in H4.
Qed.
(** The part of a sheet that is open is not in the store, so it can be chosen; then obtaining the
    new sheet fails, and leaves an entry in the list and a relationship behind. *)
Theorem C39_open_part_refuted : forall (E : Env) name sheets rels o rp s1 path nm,
  get_sheet_file_name name (sheets, (rels, o)) = (s1, Ok (path, nm)) -> is_Some (of_open s1.2.2 !! path) ->
  (forall n x, name = Some n -> x ∈ sheets -> sh_name x <> n) -> get_relative_path rels = Ok rp ->
  exists e, ws_new name (sheets, (rels, o)) = (s1, Err e) /\ length s1.1 = S (length sheets) /\ length (rl_rels s1.2.1) = S (length (rl_rels rels)).
Proof.
  intros E name sheets rels o rp s1 path nm H1 [p Hp] H2 H3. destruct (file_name_new name sheets rels o rp H2 H3) as (k & H4 & _).
  rewrite H1 in H4. injection H4 as -> -> ->. cbn [fst snd] in *. eexists. split; [|cbn; rewrite !app_length; cbn; split; lia].
  unfold ws_new, bind. rewrite H1. unfold on_pkg, on_office, get_xml_document, get_xml_tree, bind. cbn [fst snd]. rewrite Hp. done.
Qed.
Definition demo_clash `{Env} : res string * list string :=
  let s0 := ([], (mkRelations [] "xl/_rels/workbook.xml.rels", mkOffice ∅ ∅)) in
  match ws_new (Some "A") s0 with
  | (s1, Ok a) =>
      match ws_new (Some "B") s1 with
      | (s2, Ok b) =>
          match delete_sheet a s2 with
          | (s3, Ok _) => let '(s4, x) := ws_new (Some "C") s3 in (rmap ws_path x, map sh_name s4.1)
          | _ => (Panic "", [])
          end
      | _ => (Panic "", [])
      end
  | _ => (Panic "", [])
  end.
Example C39_clash_example : let E := demo_env Checked in
  demo_clash = (Err "Please close the Existing object before creating new handle", ["B"; "C"]).
Proof. by vm_compute. Qed.
Example C39_example : let E := demo_env Checked in get_relative_path (mkRelations [] "xl/_rels/workbook.xml.rels") = Ok "xl/"
  /\ (get_sheet_file_name None ([mkSheet "A" "rId1" false false], (mkRelations [] "xl/_rels/workbook.xml.rels",
        mkOffice ∅ {["xl/worksheets/sheet2.xml" := pack "xml" "x" None "y"]}))).2 = Ok ("xl/worksheets/sheet3.xml", "sheet3").
Proof. by vm_compute. Qed.

(** C40: the views of a sheet. What is written has one element per view, in reverse order of the
    handle; whoever obtains the sheet again has a default view in front of them. *)
Theorem C40_views : forall (E : Env) (o : office) (w : worksheet),
  SheetOpen o (ws_path w) -> sheet_typed w ->
  exists w1 o1 e root nsl text views, ws_close (w, o) = ((w1, o1), Ok tt) /\ of_archive o1 !! ws_path w = Some e
  /\ part_bytes e = Ok (prolog +:+ text) /\ Renders (Some nsl) root text /\ only_child "sheetViews" root views
  /\ Forall2 (fun v t => t_tag t = "sheetView" /\ child_attr t "workbookViewId" = Some (vw_id v) /\ child_attr t "topLeftCell" = vw_top_left v)
       (rev (ws_views w)) (t_children views)
  /\ forall name s s1 nm rp rl, get_sheet_file_name name s = (s1, Ok (ws_path w, nm)) -> rels_beside (ws_path w) = Ok rp ->
        holds s1.2.2 (ws_path w) e -> RelsReadable s1.2.2 rp rl ->
        exists s' w', ws_new name s = (s', Ok w') /\ ws_views w' = view_default :: map back_view (rev (ws_views w)).
Proof.
  intros E o w Ho Hw. destruct (sheet_cycle o w Ho Hw) as (e & root & nsl & ref & Hc & (text & Hb & Ht) & _ & _ & _ & Hv & _ & Hre).
  eexists _, _, e, root, nsl, text, _. split; [exact Hc|]. split; [cbn; apply lookup_insert|]. split; [done|]. split; [done|]. split; [exact Hv|].
  split.
  - unfold views_tree. cbn [t_children]. change (map ?f ?l) with (f <$> l). rewrite Forall2_fmap_r. apply Forall_Forall2_diag, Forall_forall.
    intros v _. split; [done|]. unfold child_attr, view_tree. cbn [t_attrs]. unfold view_attrs. rewrite !opt_attrs_lookup by (lazy; reflexivity).
    split; lazy [find_attr List.find String.eqb Ascii.eqb Bool.eqb fst snd]; reflexivity.
  - intros name s s1 nm rp rl H1 H2 H3 H4. destruct (Hre name s s1 nm rp rl H1 H2 H3 H4) as (o3 & H5 & _). eexists _, _. split; [exact H5|]. done.
Qed.
(** So after any number of such cycles the number of views has grown by that number. *)
Theorem C40_growth : forall (E : Env) (n : nat) (w w' : worksheet),
  Cycles n w w' -> length (ws_views w') = (length (ws_views w) + n)%nat.
Proof. intros E n w w'. apply cycles_views. Qed.
Definition demo_views `{Env} : option (list string) :=
  let s0 := ([], (mkRelations [] "xl/_rels/workbook.xml.rels", mkOffice ∅ ∅)) in
  match ws_new (Some "A") s0 with
  | ((sheets, (r, o)), Ok w) =>
      match ws_close (set_ws_views w (ws_views w ++ [mkView "7" None None None None None None None None None None None None None None None None None]), o) with
      | ((_, o), Ok _) =>
          match ws_new (Some "A") (sheets, (r, set_open o (delete "xl/worksheets/_rels/sheet1.xml.rels" (of_open o)))) with
          | (_, Ok w) => Some (map vw_id (ws_views w))
          | _ => None
          end
      | _ => None
      end
  | _ => None
  end.
Example C40_example : let E := demo_env Checked in demo_views = Some ["0"; "7"; "0"].
Proof. by vm_compute. Qed.

Print Assumptions C18_last_write_wins.
Print Assumptions C18_by_reference.
Print Assumptions C19_automatic_type.
Print Assumptions C19_other_types.
Print Assumptions C20_written.
Print Assumptions C20_reopen.
Print Assumptions C20_new.
Print Assumptions C20_kept.
Print Assumptions C21_dimension.
Print Assumptions C21_session.
Print Assumptions C21_session_example.
Print Assumptions C21_empty.
Print Assumptions C22_columns.
Print Assumptions C22_right_part_refuted.
Print Assumptions C39_new_part.
Print Assumptions C39_open_part_refuted.
Print Assumptions C40_views.
Print Assumptions C40_growth.
