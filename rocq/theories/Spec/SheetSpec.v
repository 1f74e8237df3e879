(** What a worksheet means to its user, independent of how the handle stores it. *)
From Verif.Model Require Import Worksheet.
From Verif.Spec Require Import RelSpec XmlSpec XmlRepr PackageSpec PartSpec ColumnSpec.

(** ** Cells *)
(** The cell at row [r], column [c]. *)
Definition cell_at (w : worksheet) (r c : N) : option cell :=
  match ws_data w with
  | Some m => match m !! r with
              | Some x => match rd_cells x with Some cs => cs !! c | None => None end
              | None => None
              end
  | None => None
  end.
Definition props_at (w : worksheet) (r : N) : option row_props :=
  match ws_data w with Some m => rd_row <$> m !! r | None => None end.
Definition has_row (w : worksheet) (r : N) : Prop := is_Some (props_at w r).

(** ** Changing a sheet: any sequence of these *)
Inductive sheet_op :=
| SWrite (row col : N) (cells : list cell)
| SProps (row : N) (p : row_props).
Definition run_sheet_op `{Env} (op : sheet_op) : M (worksheet * list string) unit :=
  match op with
  | SWrite r c cs => set_row_value r c cs
  | SProps r p => fun s => let '(w, x) := set_row_props r p s.1 in ((w, s.2), x)
  end.
Fixpoint run_sheet_ops `{Env} (ops : list sheet_op) : M (worksheet * list string) unit :=
  match ops with [] => ret tt | op :: ops => bind (run_sheet_op op) (fun _ => run_sheet_ops ops) end.
(** A write stays in the column range: it starts at column 1 or later and ends at most at 65535. *)
Definition in_range (op : sheet_op) : Prop :=
  match op with
  | SWrite _ c cs => 1 <= c /\ c + N.of_nat (length cs) <= 65536
  | SProps _ _ => True
  end.
(** What an operation says about a position, a row. *)
Definition Writes (op : sheet_op) (r c : N) (x : cell) : Prop :=
  exists c0 cs j, op = SWrite r c0 cs /\ cs !! j = Some x /\ c = c0 + N.of_nat j.
Definition Touches (op : sheet_op) (r : N) : Prop :=
  match op with SWrite r' _ _ => r' = r | SProps r' _ => r' = r end.
(** The last thing a history says. *)
Inductive LastWrite (r c : N) : list sheet_op -> option cell -> Prop :=
| Last_none : LastWrite r c [] None
| Last_here ops op x : Writes op r c x -> LastWrite r c (ops ++ [op]) (Some x)
| Last_skip ops op o : (forall x, ~ Writes op r c x) -> LastWrite r c ops o -> LastWrite r c (ops ++ [op]) o.
Inductive LastProps (r : N) : list sheet_op -> option row_props -> Prop :=
| LastP_none : LastProps r [] None
| LastP_here ops p : LastProps r (ops ++ [SProps r p]) (Some p)
| LastP_skip ops op o : (forall p, op <> SProps r p) -> LastProps r ops o -> LastProps r (ops ++ [op]) o.

(** ** How a given cell is stored *)
(** Rust's floating-point literals. *)
Definition Digits (s : string) : Prop := s <> "" /\ sforall is_digit_byte s = true.
Inductive Sign : string -> Prop := Sign_none : Sign "" | Sign_plus : Sign "+" | Sign_minus : Sign "-".
Inductive Exponent : string -> Prop :=
| Exp_none : Exponent ""
| Exp_some e sg ds : e = "e" \/ e = "E" -> Sign sg -> Digits ds -> Exponent (e +:+ sg +:+ ds).
Inductive Magnitude : string -> Prop :=
| Mag_word s : slower s = "inf" \/ slower s = "infinity" \/ slower s = "nan" -> Magnitude s
| Mag_int ds e : Digits ds -> Exponent e -> Magnitude (ds +:+ e)
| Mag_dot ds fs e : sforall is_digit_byte ds = true -> sforall is_digit_byte fs = true -> ds <> "" \/ fs <> "" ->
    Exponent e -> Magnitude (ds +:+ "." +:+ fs +:+ e).
Inductive FloatText : string -> Prop := Float_intro sg m : Sign sg -> Magnitude m -> FloatText (sg +:+ m).
(** Type and text of the stored cell. *)
Definition FalseWord (v : string) : Prop := slower v = "false" \/ v = "0" \/ v = "".
Inductive StoredAs (table : list string) : cell_type -> option string -> cell_type -> option string -> Prop :=
| St_empty t : StoredAs table t None TNumber None
| St_number v : FloatText v -> StoredAs table TAuto (Some v) TNumber (Some v)
| St_true : StoredAs table TAuto (Some "true") TBoolean (Some "1")
| St_false : StoredAs table TAuto (Some "false") TBoolean (Some "0")
| St_text v ref : ~ FloatText v -> v <> "true" -> v <> "false" -> Refers table ref v ->
    StoredAs table TAuto (Some v) TShared (Some ref)
| St_shared v ref : Refers table ref v -> StoredAs table TShared (Some v) TShared (Some ref)
| St_bool_false v : FalseWord v -> StoredAs table TBoolean (Some v) TBoolean (Some "0")
| St_bool_true v : ~ FalseWord v -> StoredAs table TBoolean (Some v) TBoolean (Some "1")
| St_given t v : t = TNumber \/ t = TString \/ t = TInline \/ t = TError -> StoredAs table t (Some v) t (Some v).
Definition CellStored (table : list string) (given stored : cell) : Prop :=
  StoredAs table (ce_type given) (ce_value given) (ce_type stored) (ce_value stored)
  /\ ce_formula stored = ce_formula given /\ ce_style stored = ce_style given /\ ce_meta stored = ce_meta given
  /\ ce_comment stored = ce_comment given /\ ce_ph stored = ce_ph given.

(** ** Columns *)
Definition covers (p : col_props) (c : N) : Prop := co_min p <= c <= co_max p.
(** The properties a column has: those of a definition containing it, whatever its range. *)
Definition col_at (l : list col_props) (c : N) (p : col_props) : Prop :=
  exists x, x ∈ l /\ covers x c /\ p = with_range x 1 1.
Definition ranges_ok (l : list col_props) : Prop :=
  Forall (fun p => co_min p <= co_max p) l
  /\ (forall i j x y c, l !! i = Some x -> l !! j = Some y -> covers x c -> covers y c -> i = j).

(** A history of column settings: the last one for a column, and whether any is inside a range. *)
Fixpoint run_columns (hist : list (N * option col_props)) : M worksheet unit :=
  match hist with [] => ret tt | (c, p) :: hist => bind (set_column_index c p) (fun _ => run_columns hist) end.
Inductive LastSet (c : N) : list (N * option col_props) -> option (option col_props) -> Prop :=
| LastS_none : LastSet c [] None
| LastS_here hist p : LastSet c (hist ++ [(c, p)]) (Some p)
| LastS_skip hist c' p o : c' <> c -> LastSet c hist o -> LastSet c (hist ++ [(c', p)]) o.
Definition addressed (hist : list (N * option col_props)) (lo hi : N) : Prop :=
  exists c p, (c, p) ∈ hist /\ lo <= c < hi.

(** ** The part behind a sheet handle: everything the handle manages has been taken out. *)
Definition sheet_tags : list string := ["dimension"; "cols"; "sheetData"; "sheetViews"].
Definition SheetOpen `{Env} (o : office) (path : string) : Prop :=
  exists p it, of_open o !! path = Some p /\ Represents (op_doc p) it
    /\ (forall k e, d_elems (op_doc p) !! k = Some e -> k <= d_running (op_doc p))
    /\ names_ok (erase it) /\ ns_ok (d_ns (op_doc p)) /\ t_value (erase it) = None
    /\ t_attrs (erase it) <> None
    /\ Forall (fun t => t_tag t ∉ sheet_tags) (t_children (erase it)).
(** The data of a handle are values of their Rust types (u8, u16, u32, usize, f32, i16), and
    columns start at 1. *)
Definition below (max : N) (o : option N) : Prop := match o with Some n => n <= max | None => True end.
Definition is_f32 `{Env} (o : option string) : Prop := match o with Some s => env_f32 s = Some s | None => True end.
Definition is_i16 (o : option Z) : Prop := match o with Some z => (-32768 <= z <= 32767)%Z | None => True end.
Definition cell_typed (c : cell) : Prop := below u32_max (ce_style c) /\ below usize_max (ce_comment c).
Definition row_typed `{Env} (p : row_props) : Prop :=
  below u32_max (ro_style p) /\ is_f32 (ro_height p) /\ below u8_max (ro_level p).
Definition col_typed `{Env} (p : col_props) : Prop :=
  co_min p <= u16_max /\ co_max p <= u16_max /\ below u32_max (co_style p) /\ is_f32 (co_width p).
Definition view_typed (v : sheet_view) : Prop :=
  is_i16 (vw_zoom v) /\ is_i16 (vw_zoom_normal v) /\ is_i16 (vw_zoom_page v) /\ is_i16 (vw_zoom_sheet v).
Definition data_typed `{Env} (m : gmap N row_data) : Prop :=
  forall r x, m !! r = Some x -> r <= u32_max /\ row_typed (rd_row x)
    /\ forall cs, rd_cells x = Some cs -> forall c y, cs !! c = Some y -> 1 <= c <= u16_max /\ cell_typed y.
Record sheet_typed `{Env} (w : worksheet) : Prop := {
  st_cols : forall l, ws_cols w = Some l -> Forall col_typed l;
  st_views : Forall view_typed (ws_views w);
  st_data : forall m, ws_data w = Some m -> data_typed m;
  st_dim : 1 <= dm_start (ws_dim w) <= u16_max /\ 1 <= dm_end (ws_dim w) <= u16_max;
}.

(** ** What comes back after a save and reopen *)
Definition set_flag (o : option bool) : option bool := match o with Some _ => Some true | None => None end.
Definition back_cell (c : cell) : cell :=
  mkCell (match ce_type c with TInline => None | _ => visible (ce_formula c) end)
    (visible (ce_value c)) (ce_type c) (ce_style c) (spec_escape <$> ce_meta c) (ce_comment c) (set_flag (ce_ph c)).
Definition back_props (p : row_props) : row_props :=
  mkRow (ro_height p) (ro_style p) (set_flag (ro_hidden p)) (set_flag (ro_top p)) (set_flag (ro_bottom p))
    (match ro_level p with Some n => if 0 <? n then Some n else None | None => None end)
    (set_flag (ro_collapsed p)) (set_flag (ro_ph p)) (spec_escape <$> ro_span p).
Definition back_col (p : col_props) : col_props :=
  mkCol (co_min p) (co_max p) (co_width p) (set_flag (co_hidden p)) (co_style p) (set_flag (co_best p)) 0 None.
Definition back_view (v : sheet_view) : sheet_view :=
  mkView (spec_escape (vw_id v)) (vw_grid_color v) (vw_rtl v) (vw_formula v) (vw_grid_line v) (vw_outline v) (vw_header v)
    (vw_ruler v) (vw_white v) (vw_zero v) (vw_tab v) (spec_escape <$> vw_top_left v) (spec_escape <$> vw_view v)
    (vw_protection v) (vw_zoom v) (vw_zoom_normal v) (vw_zoom_page v) (vw_zoom_sheet v).
Definition back_cols (o : option (list col_props)) : option (list col_props) :=
  match o with Some [] | None => None | Some l => Some (map back_col l) end.
(** A cell, a row, a column definition that comes back as it was. *)
Definition plain_cell (c : cell) : Prop :=
  visible (ce_value c) = ce_value c /\ visible (ce_formula c) = ce_formula c
  /\ (ce_type c = TInline -> ce_formula c = None)
  /\ (forall s, ce_meta c = Some s -> plain_text s) /\ ce_ph c <> Some false.
Definition plain_props (p : row_props) : Prop :=
  ro_hidden p <> Some false /\ ro_top p <> Some false /\ ro_bottom p <> Some false /\ ro_level p <> Some 0
  /\ ro_collapsed p <> Some false /\ ro_ph p <> Some false /\ (forall s, ro_span p = Some s -> plain_text s).
Definition plain_col (p : col_props) : Prop :=
  co_hidden p <> Some false /\ co_best p <> Some false /\ co_level p = 0 /\ co_collapsed p = None.

(** ** The bounding box *)
(** [name] is the letter name of column [c]. *)
Definition ColumnName (c : N) (name : string) : Prop :=
  is_word name /\ sforall is_upper name = true /\ word_value name = c.
Record Box (w : worksheet) (r1 c1 r2 c2 : N) : Prop := {
  bx_in : forall r c, is_Some (cell_at w r c) -> r1 <= r <= r2 /\ c1 <= c <= c2;
  bx_left : exists r, is_Some (cell_at w r c1);
  bx_right : exists r, is_Some (cell_at w r c2);
  bx_top : exists c, is_Some (cell_at w r1 c);
  bx_bottom : exists c, is_Some (cell_at w r2 c);
}.
(** The same with the rows that exist in place of the rows that have cells. *)
Record RowBox (w : worksheet) (r1 c1 r2 c2 : N) : Prop := {
  rb_rows : forall r, has_row w r -> r1 <= r <= r2;
  rb_top : has_row w r1;
  rb_bottom : has_row w r2;
  rb_in : forall r c, is_Some (cell_at w r c) -> c1 <= c <= c2;
  rb_left : exists r, is_Some (cell_at w r c1);
  rb_right : exists r, is_Some (cell_at w r c2);
}.
(** And for what a history of writes names: the rows it touches and the positions it writes. *)
Record OpsBox (ops : list sheet_op) (r1 c1 r2 c2 : N) : Prop := {
  ob_rows : forall op r, op ∈ ops -> Touches op r -> r1 <= r <= r2;
  ob_top : Exists (fun op => Touches op r1) ops;
  ob_bottom : Exists (fun op => Touches op r2) ops;
  ob_in : forall op r c x, op ∈ ops -> Writes op r c x -> c1 <= c <= c2;
  ob_left : exists op r x, op ∈ ops /\ Writes op r c1 x;
  ob_right : exists op r x, op ∈ ops /\ Writes op r c2 x;
}.
(** What a handle remembers about columns: the extreme columns ever written. *)
Record DimInv (w : worksheet) : Prop := {
  di_in : forall r c, is_Some (cell_at w r c) -> dm_start (ws_dim w) <= c <= dm_end (ws_dim w);
  di_start : dm_start (ws_dim w) = 16384 \/ exists r, is_Some (cell_at w r (dm_start (ws_dim w)));
  di_end : dm_end (ws_dim w) = 1 \/ exists r, is_Some (cell_at w r (dm_end (ws_dim w)));
}.
(** Arguments that are values of their Rust types. *)
Definition op_typed `{Env} (op : sheet_op) : Prop :=
  match op with
  | SWrite r _ cs => r <= u32_max /\ Forall cell_typed cs
  | SProps r p => r <= u32_max /\ row_typed p
  end.

(** ** The written rows: ascending, each with its cells ascending *)
(** What the element of a cell shows: the type (a number has none), the style, the formula and the
    value; a formula is not written for text kept inside the cell. *)
Definition type_code (t : cell_type) : option string :=
  match t with
  | TNumber => None | TBoolean => Some "b" | TString => Some "str" | TShared => Some "s"
  | TInline => Some "inlineStr" | TError => Some "e" | TAuto => Some "a"
  end.
Definition text_elem (tag text : string) : tree := Node tag None (Some text) [].
Definition CellShows (x : cell) (t : tree) : Prop :=
  child_attr t "t" = type_code (ce_type x) /\ child_attr t "s" = show_N <$> ce_style x
  /\ child_attr t "cm" = show_N <$> ce_comment x /\ child_attr t "vm" = ce_meta x
  /\ match ce_type x with
     | TInline => t_children t = [Node "is" None None [text_elem "t" (default "" (ce_value x))]]
     | _ => exists fs, t_children t = fs ++ [text_elem "v" (default "" (ce_value x))]
              /\ fs = match ce_formula x with Some f => [text_elem "f" f] | None => [] end
     end.
(** What the element of a row shows. *)
Definition RowShows (p : row_props) (t : tree) : Prop :=
  child_attr t "ht" = ro_height p /\ child_attr t "s" = show_N <$> ro_style p /\ child_attr t "spans" = ro_span p
  /\ child_attr t "outlineLevel" = show_N <$> ro_level p
  /\ child_attr t "hidden" = (fun _ => "1") <$> ro_hidden p /\ child_attr t "collapsed" = (fun _ => "1") <$> ro_collapsed p
  /\ child_attr t "thickTop" = (fun _ => "1") <$> ro_top p /\ child_attr t "thickBot" = (fun _ => "1") <$> ro_bottom p.
Definition CellElem (w : worksheet) (r c : N) (t : tree) : Prop :=
  t_tag t = "c" /\ (exists name, ColumnName c name /\ child_attr t "r" = Some (name +:+ show_N r))
  /\ exists x, cell_at w r c = Some x /\ CellShows x t.
Definition RowElem (w : worksheet) (rc : N * list N) (t : tree) : Prop :=
  t_tag t = "row" /\ child_attr t "r" = Some (show_N rc.1) /\ Forall2 (CellElem w rc.1) rc.2 (t_children t)
  /\ exists p, props_at w rc.1 = Some p /\ RowShows p t.
Record RowsWritten (w : worksheet) (t : tree) (rows : list (N * list N)) : Prop := {
  rw_tag : t_tag t = "sheetData";
  rw_elems : Forall2 (RowElem w) rows (t_children t);
  rw_rows : StronglySorted N.lt rows.*1;
  rw_cells : Forall (StronglySorted N.lt) rows.*2;
  rw_has : forall r, r ∈ rows.*1 <-> has_row w r;
  rw_at : forall r c, (exists cs, (r, cs) ∈ rows /\ c ∈ cs) <-> is_Some (cell_at w r c);
}.
(** The one child element of that name. *)
Definition only_child (tag : string) (t c : tree) : Prop :=
  List.filter (fun x => String.eqb (t_tag x) tag) (t_children t) = [c].
(** A package holding, closed, the part that was written as [e]. *)
Definition holds `{Env} (o : office) (path : string) (e : entry) : Prop :=
  of_open o !! path = None /\ exists e2, of_archive o !! path = Some e2 /\ part_bytes e2 = part_bytes e.
(** The relationships part at [rp] can be opened in this package and holds [l]. *)
Definition RelsReadable `{Env} (o : office) (rp : string) (l : list rel) : Prop :=
  forall o', of_open o' !! rp = of_open o !! rp -> of_archive o' !! rp = of_archive o !! rp ->
  exists o2, rels_new rp o' = (o2, Ok (mkRelations l rp)) /\ RelsOpen o2 rp
    /\ (forall q, q <> rp -> of_open o2 !! q = of_open o' !! q /\ of_archive o2 !! q = of_archive o' !! q).
(** One save of a sheet, and obtaining it again from a package holding what was written. *)
Definition Reopened `{Env} (w w' : worksheet) : Prop :=
  exists o w1 o1 e name s s1 nm rp rl s',
    SheetOpen o (ws_path w) /\ sheet_typed w /\ ws_close (w, o) = ((w1, o1), Ok tt) /\ of_archive o1 !! ws_path w = Some e
    /\ get_sheet_file_name name s = (s1, Ok (ws_path w, nm)) /\ rels_beside (ws_path w) = Ok rp
    /\ holds s1.2.2 (ws_path w) e /\ RelsReadable s1.2.2 rp rl /\ ws_new name s = (s', Ok w').
Inductive Cycles `{Env} : nat -> worksheet -> worksheet -> Prop :=
| Cycles_none w : Cycles 0 w w
| Cycles_more n w w1 w2 : Cycles n w w1 -> Reopened w1 w2 -> Cycles (S n) w w2.
