(** [rs/src/spreadsheet/spreadsheet_2007/parts/worksheet.rs] and [models/worksheet.rs] *)
From Verif.Model Require Export ShareString Converters.
From stdpp Require Import sorting.
Open Scope mon_scope.
Open Scope N_scope.

(** ** Data, models/worksheet.rs *)
(** models/worksheet.rs 4-15 *)
Inductive cell_type := TAuto | TNumber | TBoolean | TString | TShared | TInline | TError.
(** models/worksheet.rs 18-28 *)
Definition type_string (t : cell_type) : string :=
  match t with
  | TBoolean => "b" | TString => "str" | TShared => "s" | TInline => "inlineStr"
  | TError => "e" | TNumber => "n" | TAuto => "a"
  end.
(** models/worksheet.rs 29-39 *)
Definition type_enum (s : string) : cell_type :=
  if seqb s "a" then TAuto else if seqb s "b" then TBoolean else if seqb s "str" then TString
  else if seqb s "s" then TShared else if seqb s "inlineStr" then TInline
  else if seqb s "e" then TError else TNumber.
Definition is_number (t : cell_type) : bool := match t with TNumber => true | _ => false end.
(** models/worksheet.rs 42-56. An [f32] is its decimal rendering (see [env_f32]). *)
Record row_props := mkRow {
  ro_height : option string;
  ro_style : option N;
  ro_hidden : option bool;
  ro_top : option bool;
  ro_bottom : option bool;
  ro_level : option N;
  ro_collapsed : option bool;
  ro_ph : option bool;
  ro_span : option string;
}.
Definition row_default : row_props := mkRow None None None None None None None None None.
(** models/worksheet.rs 58-90 *)
Record col_props := mkCol {
  co_min : N;
  co_max : N;
  co_width : option string;
  co_hidden : option bool;
  co_style : option N;
  co_best : option bool;
  co_level : N;
  co_collapsed : option bool;
}.
Definition col_default : col_props := mkCol 1 1 None None None None 0 None.
Definition with_range (c : col_props) (lo hi : N) : col_props :=
  mkCol lo hi (co_width c) (co_hidden c) (co_style c) (co_best c) (co_level c) (co_collapsed c).
(** models/worksheet.rs 92-118. SIMPL: [hyperlink_properties] is never read. *)
Record cell := mkCell {
  ce_formula : option string;
  ce_value : option string;
  ce_type : cell_type;
  ce_style : option N;
  ce_meta : option string;
  ce_comment : option N;
  ce_ph : option bool;
}.
Definition cell_default : cell := mkCell None None TAuto None None None None.

(** ** Data, worksheet.rs *)
(** worksheet.rs 24-28; a [BTreeMap] is a [gmap] visited through [btree_entries]. *)
Record row_data := mkRowData { rd_row : row_props; rd_cells : option (gmap N cell) }.
(** worksheet.rs 30-43 *)
Record dimension := mkDim { dm_start : N; dm_end : N }.
Definition dim_default : dimension := mkDim 16384 1.
Definition dim_add (d : dimension) (c : N) : dimension :=
  mkDim (N.min (dm_start d) c) (N.max (dm_end d) c).
(** worksheet.rs 45-98. SIMPL: [selection_collection] is never set. *)
Record sheet_view := mkView {
  vw_id : string;
  vw_grid_color : option bool;
  vw_rtl : option bool;
  vw_formula : option bool;
  vw_grid_line : option bool;
  vw_outline : option bool;
  vw_header : option bool;
  vw_ruler : option bool;
  vw_white : option bool;
  vw_zero : option bool;
  vw_tab : option bool;
  vw_top_left : option string;
  vw_view : option string;
  vw_protection : option bool;
  vw_zoom : option Z;
  vw_zoom_normal : option Z;
  vw_zoom_page : option Z;
  vw_zoom_sheet : option Z;
}.
Definition view_default : sheet_view :=
  mkView "0" None None None None None None None None None None None None None None None None None.
(** worksheet.rs 113-135 (handles are paths; the owner's state is passed by the caller). *)
Record worksheet := mkWs {
  ws_path : string;
  ws_name : string;
  ws_rels : relations;
  ws_dim : dimension;
  ws_views : list sheet_view;
  ws_cols : option (list col_props);
  ws_data : option (gmap N row_data);
}.
Definition set_ws_cols (w : worksheet) x : worksheet :=
  mkWs (ws_path w) (ws_name w) (ws_rels w) (ws_dim w) (ws_views w) x (ws_data w).
Definition set_ws_data (w : worksheet) x : worksheet :=
  mkWs (ws_path w) (ws_name w) (ws_rels w) (ws_dim w) (ws_views w) (ws_cols w) x.
Definition set_ws_views (w : worksheet) x : worksheet :=
  mkWs (ws_path w) (ws_name w) (ws_rels w) (ws_dim w) x (ws_cols w) (ws_data w).
Definition set_ws_dim (w : worksheet) x : worksheet :=
  mkWs (ws_path w) (ws_name w) (ws_rels w) x (ws_views w) (ws_cols w) (ws_data w).

(** worksheet.rs 141-163 *)
Definition ws_template : string := "<?xml version=""1.0"" encoding=""UTF-8"" standalone=""yes""?>
<worksheet xmlns=""http://schemas.openxmlformats.org/spreadsheetml/2006/main""
    xmlns:r=""http://schemas.openxmlformats.org/officeDocument/2006/relationships"">
    <sheetData />
</worksheet>".
Definition ws_init `{Env} : res open_part :=
  rmap (fun d => mkOpen d (Some (c_content_type c_worksheet)) (c_ext c_worksheet) (c_ext_type c_worksheet))
    (read_doc ws_template).

(** ** Reading attributes *)
(** [if let Some(x) = attributes.get(k) { ... x.parse()? }] *)
Definition parse_attr {A} (f : string -> option A) (a : gmap string string) (k : string) : res (option A) :=
  match a !! k with
  | None => Ok None
  | Some s => rmap Some (of_option ("Failed to parse " +:+ k) (f s))
  end.
Definition num_attr (max : N) := parse_attr (parse_uint max).
(** [if x == "1" { Some(true) } else { None }] *)
Definition one_attr (a : gmap string string) (k : string) : option bool :=
  match a !! k with Some s => if seqb s "1" then Some true else None | None => None end.
(** [normalize_bool_property_bool] *)
Definition bool_attr (a : gmap string string) (k : string) : option bool := normalize_bool <$> a !! k.
(** [str::parse::<i16>()] *)
Definition parse_i16 (s : string) : option Z :=
  match s with
  | String a s' => if aeqb a "-" then (fun n => (- Z.of_N n)%Z) <$> parse_digits 32768 s'
                   else Z.of_N <$> parse_uint 32767 s
  | EmptyString => None
  end.
Definition show_Z (z : Z) : string :=
  match z with Zneg p => String "-" (show_N (Npos p)) | Z0 => show_N 0 | Zpos p => show_N (Npos p) end.
Definition attrs_req (t : tree) : res (gmap string string) := of_option "Failed to pull attributes" (t_attrs t).
(** The last of the popped elements: [elements.pop()]. *)
Definition last_of (ts : option (list tree)) : option tree := match ts with Some l => last l | None => None end.

(** ** Columns *)
(** worksheet.rs 635-676 *)
Definition col_of_tree `{Env} (t : tree) : res col_props :=
  rbind (attrs_req t) (fun a =>
  rbind (num_attr u16_max a "min") (fun mn =>
  rbind (num_attr u16_max a "max") (fun mx =>
  rbind (num_attr u32_max a "style") (fun st =>
  rbind (num_attr usize_max a "outlineLevel") (fun lv =>
  rbind (match a !! "customWidth" with
         | Some s =>
             if seqb s "1" then
               rbind (of_option "Failed to get custom width" (a !! "width")) (fun w =>
               rmap Some (of_option "Failed to parse custom width" (env_f32 w)))
             else Ok None
         | None => Ok None
         end) (fun w =>
  Ok (mkCol (default 1 mn) (default 1 mx) w (one_attr a "hidden") st (one_attr a "bestFit")
        (default 0 lv) (one_attr a "collapsed")))))))).
(** worksheet.rs 624-687 *)
Definition load_cols `{Env} (ts : option (list tree)) : res (option (list col_props)) :=
  match last_of ts with
  | None => Ok None
  | Some t => rmap Some (rmapM col_of_tree (t_children t))
  end.

(** ** Views *)
(** worksheet.rs 708-817 *)
Definition view_of_attrs (a : gmap string string) : res sheet_view :=
  rbind (of_option "workbookViewId is missing" (a !! "workbookViewId")) (fun id =>
  rbind (parse_attr parse_i16 a "zoomScale") (fun z =>
  rbind (parse_attr parse_i16 a "zoomScaleNormal") (fun zn =>
  rbind (parse_attr parse_i16 a "zoomScaleSheetLayoutView") (fun zs =>
  rbind (parse_attr parse_i16 a "zoomScalePageLayoutView") (fun zp =>
  Ok (mkView id (bool_attr a "defaultGridColor") (bool_attr a "rightToLeft")
        (bool_attr a "showFormulas") (bool_attr a "showGridLines") (bool_attr a "showOutlineSymbols")
        (bool_attr a "showRowColHeaders") (bool_attr a "showRuler") (bool_attr a "showWhiteSpace")
        (bool_attr a "showZeros") (bool_attr a "tabSelected") (a !! "topLeftCell") (a !! "view")
        (bool_attr a "windowProtection") z zn zp zs)))))).
(** worksheet.rs 699-707 *)
Definition view_of_tree (t : tree) : res sheet_view :=
  if seqb (t_tag t) "sheetView" then rbind (attrs_req t) view_of_attrs
  else Err "Failed to Process Sheet Views child".
(** worksheet.rs 690-830: a default view, then the loaded ones. *)
Definition load_views (ts : option (list tree)) : res (list sheet_view) :=
  match last_of ts with
  | None => Ok [view_default]
  | Some t => rmap (cons view_default) (rmapM view_of_tree (t_children t))
  end.

(** ** Rows and cells *)
(** worksheet.rs 846-911: the row number and its properties. *)
Definition row_of_attrs `{Env} (a : gmap string string) : res (N * row_props) :=
  rbind (of_option "Missing mandatory row id attribute" (a !! "r")) (fun r =>
  rbind (of_option "Failed to parse row id" (parse_uint u32_max r)) (fun idx =>
  rbind (match a !! "s", a !! "customFormat" with
         | Some s, Some c => if seqb c "1" then rmap Some (of_option "Failed to parse the row style id" (parse_uint u32_max s)) else Ok None
         | _, _ => Ok None
         end) (fun st =>
  rbind (match a !! "ht", a !! "customHeight" with
         | Some h, Some c => if seqb c "1" then rmap Some (of_option "Failed to parse the row height" (env_f32 h)) else Ok None
         | _, _ => Ok None
         end) (fun ht =>
  rbind (num_attr u8_max a "outlineLevel") (fun lv =>
  Ok (idx, mkRow ht st (one_attr a "hidden") (one_attr a "thickTop") (one_attr a "thickBot")
             (match lv with Some n => if 0 <? n then Some n else None | None => None end)
             (one_attr a "collapsed") (one_attr a "ph") (a !! "spans"))))))).
(** worksheet.rs 922-966: the column and the cell without its content. *)
Definition cell_of_attrs `{Env} (a : gmap string string) : res (N * cell) :=
  rbind (of_option "Missing mandatory col id attribute" (a !! "r")) (fun r =>
  rbind (get_column_index r) (fun idx =>
  rbind (num_attr u32_max a "s") (fun st =>
  rbind (num_attr usize_max a "cm") (fun cm =>
  Ok (idx, mkCell None None (match a !! "t" with Some t => type_enum t | None => TNumber end)
             st (a !! "vm") cm (one_attr a "ph")))))).
(** worksheet.rs 967-1003: one child of a cell element. *)
Definition cell_child (c : cell) (t : tree) : res cell :=
  let put v := mkCell (ce_formula c) v (ce_type c) (ce_style c) (ce_meta c) (ce_comment c) (ce_ph c) in
  if seqb (t_tag t) "v" then Ok (put (t_value t))
  else if seqb (t_tag t) "f" then
    Ok (mkCell (t_value t) (ce_value c) (ce_type c) (ce_style c) (ce_meta c) (ce_comment c) (ce_ph c))
  else if seqb (t_tag t) "is" then
    match t_children t with [] => Ok c | x :: _ => Ok (put (t_value x)) end
  else Err "Found un-know element cell child".
Fixpoint cell_children (c : cell) (ts : list tree) : res cell :=
  match ts with [] => Ok c | t :: ts => rbind (cell_child c t) (fun c => cell_children c ts) end.
(** worksheet.rs 916-1009 *)
Definition cell_of_tree `{Env} (t : tree) : res (N * cell) :=
  rbind (attrs_req t) (fun a =>
  rbind (cell_of_attrs a) (fun '(idx, c) =>
  rmap (fun c => (idx, c)) (cell_children c (t_children t)))).
(** [BTreeMap::insert], one after the other. *)
Definition map_inserts {V} (l : list (N * V)) (m : gmap N V) : gmap N V :=
  foldl (fun m kv => <[kv.1 := kv.2]> m) m l.
(** worksheet.rs 844-1023: one row, with its columns for the dimension. *)
Definition row_of_tree `{Env} (t : tree) : res (N * row_data * list N) :=
  rbind (attrs_req t) (fun a =>
  rbind (row_of_attrs a) (fun '(idx, rp) =>
  rbind (rmapM cell_of_tree (t_children t)) (fun cs =>
  Ok (idx, mkRowData rp (match cs with [] => None | _ => Some (map_inserts cs ∅) end), cs.*1)))).
(** worksheet.rs 833-1030 *)
Definition load_data `{Env} (ts : option (list tree)) : res (option (gmap N row_data) * dimension) :=
  match last_of ts with
  | None => Ok (None, dim_default)
  | Some t =>
      rmap (fun rows : list (N * row_data * list N) =>
              (Some (map_inserts rows.*1 ∅), foldl dim_add dim_default (List.concat rows.*2)))
        (rmapM row_of_tree (t_children t))
  end.
(** worksheet.rs 261-302 *)
Definition ws_load `{Env} : M doc (option (list col_props) * option (gmap N row_data) * list sheet_view * dimension) :=
  take_subtrees "dimension" ;;;
  tc <- take_subtrees "cols" ;;
  cols <- lift (load_cols tc) ;;
  td <- take_subtrees "sheetData" ;;
  '(data, dim) <- lift (load_data td) ;;
  tv <- take_subtrees "sheetViews" ;;
  views <- lift (load_views tv) ;;
  ret (cols, data, views, dim).

(** ** Writing *)
(** A [HashMap] filled by [insert] for the entries that are present. *)
Definition opt_attrs (l : list (string * option string)) : gmap string string :=
  attrs_of (omap (fun kv : string * option string => (fun v => (kv.1, v)) <$> kv.2) l).
Definition one_if {A} (o : option A) : option string := match o with Some _ => Some "1" | None => None end.
(** worksheet.rs 304-346 *)
Definition dim_ref (d : dimension) (data : option (gmap N row_data)) : res string :=
  match data with
  | None => Ok "A1"
  | Some m =>
      match btree_entries m with
      | [] => Ok "A1"
      | first :: rest =>
          rbind (get_column_ref (dm_start d)) (fun s =>
          rbind (get_column_ref (dm_end d)) (fun e =>
          Ok (s +:+ show_N first.1 +:+ ":" +:+ e +:+ show_N (List.last (first :: rest) first).1)))
      end
  end.
Definition dim_tree (ref : string) : tree := leaf "dimension" [("ref", ref)].
(** worksheet.rs 359-374: the outline level and the collapsed flag are not written. *)
Definition col_attrs (c : col_props) : gmap string string :=
  opt_attrs [("min", Some (show_N (co_min c))); ("max", Some (show_N (co_max c)));
    ("customWidth", one_if (co_width c)); ("width", co_width c);
    ("style", show_N <$> co_style c); ("hidden", one_if (co_hidden c)); ("bestFit", one_if (co_best c))].
Definition col_tree (c : col_props) : tree := Node "col" (Some (col_attrs c)) None [].
Definition cols_tree (l : list col_props) : tree := Node "cols" None None (map col_tree l).
(** worksheet.rs 348-385 *)
Definition save_cols `{Env} (cols : option (list col_props)) : M doc unit :=
  match cols with
  | None | Some [] => ret tt
  | Some l => insert_tree_after "sheetFormatPr" (cols_tree l)
  end.
(** worksheet.rs 394-484 *)
Definition view_attrs (v : sheet_view) : gmap string string :=
  let flag b := bool_xml_flag <$> b in
  opt_attrs [("workbookViewId", Some (vw_id v)); ("windowProtection", flag (vw_protection v));
    ("showFormulas", flag (vw_formula v)); ("showGridLines", flag (vw_grid_line v));
    ("showRowColHeaders", flag (vw_header v)); ("showZeros", flag (vw_zero v));
    ("rightToLeft", flag (vw_rtl v)); ("tabSelected", flag (vw_tab v)); ("showRuler", flag (vw_ruler v));
    ("showWhiteSpace", flag (vw_white v)); ("showOutlineSymbols", flag (vw_outline v));
    ("defaultGridColor", flag (vw_grid_color v)); ("topLeftCell", vw_top_left v); ("view", vw_view v);
    ("zoomScale", show_Z <$> vw_zoom v); ("zoomScaleNormal", show_Z <$> vw_zoom_normal v);
    ("zoomScaleSheetLayoutView", show_Z <$> vw_zoom_sheet v);
    ("zoomScalePageLayoutView", show_Z <$> vw_zoom_page v)].
Definition view_tree (v : sheet_view) : tree := Node "sheetView" (Some (view_attrs v)) None [].
(** worksheet.rs 387-496: the views are popped from the end. *)
Definition views_tree (l : list sheet_view) : tree := Node "sheetViews" None None (map view_tree (rev l)).
(** worksheet.rs 509-543 *)
Definition row_attrs (r : N) (p : row_props) : gmap string string :=
  opt_attrs [("r", Some (show_N r)); ("spans", ro_span p); ("customFormat", one_if (ro_style p));
    ("s", show_N <$> ro_style p); ("customHeight", one_if (ro_height p)); ("ht", ro_height p);
    ("hidden", one_if (ro_hidden p)); ("outlineLevel", show_N <$> ro_level p);
    ("collapsed", one_if (ro_collapsed p)); ("thickTop", one_if (ro_top p));
    ("thickBot", one_if (ro_bottom p)); ("ph", one_if (ro_ph p))].
(** worksheet.rs 552-581 *)
Definition cell_attrs (ref : string) (c : cell) : gmap string string :=
  opt_attrs [("r", Some ref); ("s", show_N <$> ce_style c);
    ("t", if is_number (ce_type c) then None else Some (type_string (ce_type c)));
    ("cm", show_N <$> ce_comment c); ("vm", ce_meta c); ("ph", one_if (ce_ph c))].
(** worksheet.rs 582-616 *)
Definition cell_content (c : cell) : list tree :=
  match ce_type c with
  | TInline => [Node "is" None None [Node "t" None (Some (default "" (ce_value c))) []]]
  | _ => match ce_formula c with Some f => [Node "f" None (Some f) []] | None => [] end
         ++ [Node "v" None (Some (default "" (ce_value c))) []]
  end.
Definition cell_tree (ref : string) (c : cell) : tree := Node "c" (Some (cell_attrs ref c)) None (cell_content c).
(** worksheet.rs 545-616: the element is appended before its reference is computed. *)
Definition save_cell `{Env} (row_id r : N) (ic : N * cell) : M doc unit :=
  id <- append_child "c" (Some row_id) ;;
  col <- lift (get_column_ref ic.1) ;;
  fill id (cell_tree (col +:+ show_N r) ic.2).
(** worksheet.rs 504-618 *)
Definition save_row `{Env} (data_id : N) (ir : N * row_data) : M doc unit :=
  id <- append_child "row" (Some data_id) ;;
  set_attributes id (row_attrs ir.1 (rd_row ir.2)) ;;;
  match rd_cells ir.2 with
  | None => ret tt
  | Some cs => iterM (save_cell id ir.1) (btree_entries cs)
  end.
(** worksheet.rs 498-621 *)
Definition save_data `{Env} (data : option (gmap N row_data)) : M doc unit :=
  match data with
  | None => ret tt
  | Some m => id <- insert_after "sheetData" "cols" None ;; iterM (save_row id) (btree_entries m)
  end.
(** worksheet.rs 164-193. The state is the handle and the open document: what has been handed to
    the document is gone from the handle even when a later step fails. *)
Definition on_doc {A} (m : M doc A) : M (worksheet * doc) A := fun s =>
  let '(d, x) := m s.2 in ((s.1, d), x).
Definition on_ws (f : worksheet -> worksheet) : M (worksheet * doc) unit := fun s => ((f s.1, s.2), Ok tt).
Definition ws_save `{Env} : M (worksheet * doc) unit :=
  s <- get ;;
  let w := s.1 in
  ref <- lift (dim_ref (ws_dim w) (ws_data w)) ;;
  on_doc (add_tree 0 (dim_tree ref)) ;;;
  on_ws (fun w => set_ws_cols w None) ;;;
  on_doc (save_cols (ws_cols w)) ;;;
  on_ws (fun w => set_ws_views w []) ;;;
  on_doc (insert_tree_after "dimension" (views_tree (ws_views w))) ;;;
  on_ws (fun w => set_ws_data w None) ;;;
  on_doc (save_data (ws_data w)) ;;;
  on_doc (order_child worksheet_order 0).
(** worksheet.rs 164-209 *)
Definition ws_close `{Env} : M (worksheet * office) unit := fun s =>
  let '(w, o) := s in
  match of_open o !! ws_path w with
  | None => (s, Ok tt)
  | Some p =>
      let '((w1, d), r) := ws_save (w, op_doc p) in
      let o1 := set_open o (<[ws_path w := mkOpen d (op_ct p) (op_ext p) (op_ext_type p)]> (of_open o)) in
      match r with
      | Ok _ => let '(o2, r2) := close_xml_document (ws_path w) o1 in ((w1, o2), r2)
      | Err e => ((w1, o1), Err e)
      | Panic e => ((w1, o1), Panic e)
      end
  end.
(** Leaving scope: [Drop] closes again whatever the state, ignoring errors, then the relationships
    of the sheet are closed (worksheet.rs 137-141, relations.rs 18-22). SIMPL: a panic inside
    [Drop] is not continued. *)
Definition ws_drop `{Env} (w : worksheet) (o : office) : office :=
  let '((w1, o1), _) := ws_close (w, o) in
  (rels_close (ws_rels w1) o1).1.
(** xml_parts.rs 8-13 for a sheet: close, then drop. *)
Definition ws_flush `{Env} (w : worksheet) : M office unit := fun o =>
  let '((w1, o1), r) := ws_close (w, o) in (ws_drop w1 o1, r).

(** ** Opening *)
(** worksheet.rs 118: name, relationship id, active, hidden. *)
Record sheet := mkSheet { sh_name : string; sh_rel : string; sh_active : bool; sh_hidden : bool }.
(** What a sheet handle reaches: the sheet list, the workbook's relationships, the package. *)
Notation book_state := (list sheet * pkg_state)%type.
Definition on_pkg {A} (m : M pkg_state A) : M book_state A := fun s =>
  let '(p, x) := m s.2 in ((s.1, p), x).
Definition on_sheets {A} (m : M (list sheet) A) : M book_state A := fun s =>
  let '(l, x) := m s.1 in ((l, s.2), x).
(** worksheet.rs 1070-1083. [fuel] bounds the search: at most one more than the number of stored
    parts is needed. *)
Definition sheet_file (n : N) : string := c_name c_worksheet +:+ show_N n.
Fixpoint free_number (fuel : nat) (o : office) (dir : string) (n : N) : res N :=
  match fuel with
  | O => Panic "search out of fuel"
  | S f =>
      if check_file_exist o (dir +:+ "/" +:+ sheet_file n +:+ "." +:+ c_ext c_worksheet)
      then free_number f o dir (n + 1) else Ok n
  end.
(** worksheet.rs 1033-1127 *)
Definition get_sheet_file_name (name : option string) : M book_state (string * string) :=
  s <- get ;;
  let '(sheets, (rels, o)) := s in
  match name ≫= (fun n => List.find (fun x => seqb (sh_name x) n) sheets) with
  | Some x =>
      p <- lift (get_target_by_id rels (sh_rel x)) ;;
      match p with
      | Some p => ret (p, default "" name)
      | None => fail "Failed to Get Relationship path"
      end
  | None =>
      rp <- lift (get_relative_path rels) ;;
      let dir := rp +:+ c_path c_worksheet in
      n <- lift (free_number (S (size (of_archive o))) o dir (N.of_nat (length sheets) + 1)) ;;
      let nm := default (sheet_file n) name in
      let '(rels1, id) := set_new_relationship c_worksheet (Some dir) (Some (sheet_file n)) rels in
      put (sheets ++ [mkSheet nm id false false], (rels1, o)) ;;;
      ret (dir +:+ "/" +:+ sheet_file n +:+ "." +:+ c_ext c_worksheet, nm)
  end.
(** worksheet.rs 232-239: the relationships part beside the sheet part. *)
Definition rels_beside (path : string) : res string :=
  match rsplit_at_byte (fun a => aeqb a "/") path with
  | Some (dir, _, file) => Ok (dir +:+ "/_rels/" +:+ file +:+ ".rels")
  | None => Panic "called Option::unwrap on a None value"
  end.
(** worksheet.rs 215-259. When loading fails the relationships part is dropped, the sheet part
    stays open. *)
Definition ws_new `{Env} (name : option string) : M book_state worksheet :=
  '(path, nm) <- get_sheet_file_name name ;;
  on_pkg (on_office (get_xml_document ws_init path)) ;;;
  rp <- lift (rels_beside path) ;;
  rels <- on_pkg (on_office (rels_new rp)) ;;
  fun s =>
    match on_pkg (on_office (with_doc path ws_load)) s with
    | (s1, Ok x) =>
        let '(cols, data, views, dim) := default (None, None, [view_default], dim_default) x in
        (s1, Ok (mkWs path nm rels dim views cols data))
    | (s1, Err e) => (((s1.1, (s1.2.1, (rels_close rels s1.2.2).1)) : book_state), Err e)
    | (s1, Panic e) => (((s1.1, (s1.2.1, (rels_close rels s1.2.2).1)) : book_state), Panic e)
    end.

(** ** Changing a sheet *)
(** worksheet.rs 1153-1176: one definition against column [c]: what is left of it, and the part
    right of [c] when it is split. *)
Definition cut_range (c : N) (r : col_props) : option col_props * option col_props :=
  if (co_min r =? c) && (co_max r =? c) then (None, None)
  else if (co_min r <=? c) && (c <=? co_max r) then
    if co_min r =? c then (Some (with_range r (c + 1) (co_max r)), None)
    else if co_max r =? c then (Some (with_range r (co_min r) (c - 1)), None)
    else (Some (with_range r (co_min r) (c - 1)), Some (with_range col_default (c + 1) (co_max r)))
  else (Some r, None).
(** worksheet.rs 1146-1189 *)
Definition set_column (c : N) (p : option col_props) (cols : option (list col_props)) : option (list col_props) :=
  match cols with
  | None => None
  | Some l =>
      Some (omap (fun r => (cut_range c r).1) l
            ++ match p with Some p => [with_range p c c] | None => [] end
            ++ omap (fun r => (cut_range c r).2) l)
  end.
Definition set_column_index (c : N) (p : option col_props) : M worksheet unit :=
  modify (fun w => set_ws_cols w (set_column c p (ws_cols w))).
(** worksheet.rs 1136-1144 *)
Definition set_column_ref `{Env} (ref : string) (p : option col_props) : M worksheet unit :=
  c <- lift (get_column_index ref) ;; set_column_index c p.
(** worksheet.rs 1192-1221 *)
Definition set_row_props (r : N) (p : row_props) : M worksheet unit :=
  modify (fun w =>
    let m := default ∅ (ws_data w) in
    set_ws_data w (Some (<[r := mkRowData p (match m !! r with Some x => rd_cells x | None => None end)]> m))).

(** worksheet.rs 1244-1276: the type and text under which one given cell is stored; the state is
    the shared string table. *)
Definition retyped (c : cell) (t : cell_type) (v : option string) : cell :=
  mkCell (ce_formula c) v t (ce_style c) (ce_meta c) (ce_comment c) (ce_ph c).
Definition store_cell (c : cell) (table : list string) : list string * cell :=
  match ce_value c with
  | None => (table, retyped c TNumber None)
  | Some v =>
      match ce_type c with
      | TAuto =>
          if f64_parses v then (table, retyped c TNumber (Some v))
          else if seqb v "true" then (table, retyped c TBoolean (Some "1"))
          else if seqb v "false" then (table, retyped c TBoolean (Some "0"))
          else let '(table, i) := get_string_id v table in (table, retyped c TShared (Some i))
      | TShared => let '(table, i) := get_string_id v table in (table, retyped c TShared (Some i))
      | TBoolean =>
          let l := slower v in
          (table, retyped c TBoolean (Some (if seqb l "false" || seqb l "0" || seqb l "" then "0" else "1")))
      | _ => (table, c)
      end
  end.
Fixpoint store_cells (cs : list cell) (table : list string) : list string * list cell :=
  match cs with
  | [] => (table, [])
  | c :: cs =>
      let '(t1, c1) := store_cell c table in
      let '(t2, cs1) := store_cells cs t1 in (t2, c1 :: cs1)
  end.
(** worksheet.rs 1283-1290 and its copies: number the cells from [col + 1] on, insert them one by
    one, widen the dimension; an overflow of the column stops in the middle. *)
Fixpoint place_cells (m : mode) (col : N) (cs : list cell) (dim : dimension) (cells : gmap N cell)
  : dimension * gmap N cell * res unit :=
  match cs with
  | [] => (dim, cells, Ok tt)
  | c :: cs =>
      match u16_add m col 1 with
      | Ok col => place_cells m col cs (dim_add dim col) (<[col := c]> cells)
      | Err e => (dim, cells, Err e)
      | Panic e => (dim, cells, Panic e)
      end
  end.
(** worksheet.rs 1235-1336; the state is the handle and the shared string table. *)
Definition set_row_value `{Env} (r col : N) (cs : list cell) : M (worksheet * list string) unit := fun s =>
  let '(w, table) := s in
  match u16_sub env_mode col 1 with
  | Ok col0 =>
      let '(table1, cs1) := store_cells cs table in
      let m := default ∅ (ws_data w) in
      let old := match m !! r with Some x => x | None => mkRowData row_default None end in
      let '(dim, cells, x) := place_cells env_mode col0 cs1 (ws_dim w) (default ∅ (rd_cells old)) in
      let w1 := set_ws_dim w dim in
      let stored := set_ws_data w1 (Some (<[r := mkRowData (rd_row old) (Some cells)]> m)) in
      match x with
      | Ok _ => ((stored, table1), Ok tt)
      | _ => (((match rd_cells old with Some _ => stored | None => w1 end), table1), x)
      end
  | Err e => (s, Err e)
  | Panic e => (s, Panic e)
  end.
(** worksheet.rs 1224-1232 *)
Definition set_row_value_ref `{Env} (ref : string) (cs : list cell) : M (worksheet * list string) unit :=
  '(r, c) <- lift (get_cell_index ref) ;; set_row_value r c cs.

(** worksheet.rs 1360-1381 *)
Definition delete_sheet `{Env} (w : worksheet) : M book_state unit :=
  on_sheets (modify (List.filter (fun x => negb (seqb (sh_name x) (ws_name w))))) ;;;
  on_pkg (on_rels (modify (delete_relationship (ws_path w)))) ;;;
  on_pkg (on_office (delete_document (ws_path w))) ;;;
  on_pkg (on_office (ws_flush w)).
