(** [rs/src/spreadsheet/spreadsheet_2007/parts/workbook.rs] and [services/common_service.rs] *)
From Verif.Model Require Export Style CalcChain Theme.
Open Scope mon_scope.
Open Scope N_scope.

(** workbook.rs 37-48 *)
Record book_view := mkBookView {
  bv_active : option string;
  bv_first : option string;
  bv_visibility : option string;
  bv_min : bool;
  bv_no_hscroll : bool;
  bv_no_vscroll : bool;
  bv_no_tabs : bool;
  bv_ratio : option Z;
  bv_group : option bool;
}.
(** workbook.rs 50-64 *)
Definition book_view_default : book_view := mkBookView None None None false false false false None None.
(** workbook.rs 22-35 and common_service.rs 7-11 (the handles to the package and to the documents
    are the paths; the owner's state is passed by the caller). *)
Record workbook := mkBook {
  wb_path : string;
  wb_calc : calc;
  wb_sst : sst;
  wb_style : style_part;
  wb_rels : relations;
  wb_theme : string;
  wb_sheets : list sheet;
  wb_view : option book_view;
}.
Definition set_wb_rels (b : workbook) x : workbook :=
  mkBook (wb_path b) (wb_calc b) (wb_sst b) (wb_style b) x (wb_theme b) (wb_sheets b) (wb_view b).
Definition set_wb_sheets (b : workbook) x : workbook :=
  mkBook (wb_path b) (wb_calc b) (wb_sst b) (wb_style b) (wb_rels b) (wb_theme b) x (wb_view b).
Definition set_wb_view (b : workbook) x : workbook :=
  mkBook (wb_path b) (wb_calc b) (wb_sst b) (wb_style b) (wb_rels b) (wb_theme b) (wb_sheets b) x.
Definition set_wb_strings (b : workbook) x : workbook :=
  mkBook (wb_path b) (wb_calc b) (mkSst x (ss_path (wb_sst b))) (wb_style b) (wb_rels b) (wb_theme b) (wb_sheets b) (wb_view b).
Definition set_wb_styles (b : workbook) x : workbook :=
  mkBook (wb_path b) (wb_calc b) (wb_sst b) (mkStylePart x (sp_path (wb_style b))) (wb_rels b) (wb_theme b) (wb_sheets b) (wb_view b).

(** workbook.rs 77-81 *)
Definition workbook_template : string := "<?xml version=""1.0"" encoding=""UTF-8"" standalone=""yes""?>
<workbook xmlns=""http://schemas.openxmlformats.org/spreadsheetml/2006/main""
    xmlns:r=""http://schemas.openxmlformats.org/officeDocument/2006/relationships"">
    <fileVersion appName=""openxml-office"" lastEdited=""7"" lowestEdited=""7"" />
</workbook>".
(** workbook.rs 74-92 *)
Definition workbook_init `{Env} : res open_part :=
  rmap (fun d => mkOpen d (Some (c_content_type c_workbook)) (c_ext c_workbook) (c_ext_type c_workbook))
    (read_doc workbook_template).

(** ** Reading, workbook.rs 309-465 *)
(** workbook.rs 333-416. [showSheetTabs] is read as if it said that the tabs are hidden. *)
Definition book_view_of (a : gmap string string) : res book_view :=
  rmap (fun ratio =>
      mkBookView (a !! "activeTab") (a !! "firstSheet") (a !! "visibility")
        (default false (normalize_bool <$> a !! "minimized"))
        (default false ((fun s => negb (normalize_bool s)) <$> a !! "showHorizontalScroll"))
        (default false ((fun s => negb (normalize_bool s)) <$> a !! "showVerticalScroll"))
        (default false (normalize_bool <$> a !! "showSheetTabs"))
        ratio (normalize_bool <$> a !! "autoFilterDateGrouping"))
    (parse_attr parse_i16 a "tabRatio").
(** workbook.rs 325-422: each element replaces the view read before. *)
Fixpoint book_views_of (v : option book_view) (ts : list tree) : res (option book_view) :=
  match ts with
  | [] => Ok v
  | t :: ts =>
      match t_attrs t with
      | None => book_views_of v ts
      | Some a => rbind (book_view_of a) (fun v => book_views_of (Some v) ts)
      end
  end.
(** workbook.rs 435-451 *)
Definition sheet_of_attrs (a : gmap string string) : res sheet :=
  rbind (of_option "Error When Trying to read Sheet Details." (a !! "name")) (fun n =>
  rbind (of_option "Error When Trying to read Sheet Details." (a !! "r:id")) (fun r =>
  Ok (mkSheet n r false (match a !! "state" with Some s => seqb s "hidden" | None => false end)))).
Definition sheet_of_tree (t : tree) : res (option sheet) :=
  match t_attrs t with None => Ok None | Some a => rmap Some (sheet_of_attrs a) end.
(** workbook.rs 309-465: of each collection the last element counts. *)
Definition load_book : M doc (list sheet * option book_view) :=
  tv <- take_subtrees "bookViews" ;;
  v <- lift (match last_of tv with None => Ok None | Some t => book_views_of None (t_children t) end) ;;
  ts <- take_subtrees "sheets" ;;
  l <- lift (match last_of ts with None => Ok [] | Some t => rmap (omap id) (rmapM sheet_of_tree (t_children t)) end) ;;
  ret (l, v).
(** workbook.rs 472-490, 252-255: the relationships part beside the workbook part. *)
Definition book_rels_path (path : string) : res string :=
  match rsplit_at_byte (fun a => aeqb a "/") path with
  | Some (dir, _, _) => Ok (dir +:+ "/_rels/workbook.xml.rels")
  | None => Panic "called Option::unwrap on a None value"
  end.
(** workbook.rs 239-303. The state is the root relationships and the package; what a failure
    leaves behind is not modelled, since the caller (excel.rs 62-66) gives up the package. *)
Definition workbook_new `{Env} : M pkg_state workbook :=
  path <- on_rels (part_path c_workbook None) ;;
  on_office (get_xml_document workbook_init path) ;;;
  rp <- lift (book_rels_path path) ;;
  rels <- on_office (rels_new rp) ;;
  root <- get ;;
  match
    (theme <- theme_new ;;
     s <- sst_new ;;
     c <- calc_new ;;
     y <- style_new ;;
     ret (theme, s, c, y)) (rels, root.2)
  with
  | ((rels1, o1), Ok (theme, s, c, y)) =>
      put (root.1, o1) ;;;
      x <- on_office (with_doc path load_book) ;;
      let '(sheets, view) := default ([], None) x in
      ret (mkBook path c s y rels1 theme sheets view)
  | (_, Err e) => fail e
  | (_, Panic e) => panic e
  end.

(** ** Writing, workbook.rs 94-233 *)
(** workbook.rs 126-182. [autoFilterDateGrouping] is written under the name [tabRatio]. *)
Definition book_view_attrs (v : book_view) : gmap string string :=
  opt_attrs [("activeTab", bv_active v); ("firstSheet", bv_first v);
    ("tabRatio", match bv_group v with Some g => Some (bool_xml_flag g) | None => show_Z <$> bv_ratio v end);
    ("minimized", Some (bool_xml_flag (bv_min v))); ("visibility", bv_visibility v);
    ("showSheetTabs", Some (bool_xml_flag (negb (bv_no_tabs v))));
    ("showVerticalScroll", Some (bool_xml_flag (negb (bv_no_vscroll v))));
    ("showHorizontalScroll", Some (bool_xml_flag (negb (bv_no_hscroll v))))].
Definition book_views_tree (v : book_view) : tree :=
  Node "bookViews" None None [Node "workbookView" (Some (book_view_attrs v)) None []].
(** workbook.rs 198-211: numbered from 1; the active flag is not written. *)
Definition book_sheet_attrs (n : N) (s : sheet) : gmap string string :=
  opt_attrs [("name", Some (sh_name s)); ("sheetId", Some (show_N n)); ("r:id", Some (sh_rel s));
    ("state", if sh_hidden s then Some "hidden" else None)].
Fixpoint book_sheet_trees (n : N) (l : list sheet) : list tree :=
  match l with
  | [] => []
  | s :: l => Node "sheet" (Some (book_sheet_attrs n s)) None [] :: book_sheet_trees (n + 1) l
  end.
Definition book_sheets_tree (l : list sheet) : tree := Node "sheets" None None (book_sheet_trees 1 l).
(** workbook.rs 112-222 *)
Definition save_book `{Env} (view : option book_view) (sheets : list sheet) : M doc unit :=
  match view with
  | Some v => insert_tree_after "fileVersion" (book_views_tree v)
  | None => ret tt
  end ;;;
  insert_tree_after "bookViews" (book_sheets_tree sheets) ;;;
  order_child workbook_order 0.
(** workbook.rs 112-230 *)
Definition book_part_close `{Env} (path : string) (view : option book_view) (sheets : list sheet) : M office unit :=
  with_doc path (save_book view sheets) ;;; close_xml_document path.
(** The state of the workbook part: itself and the package. *)
Notation wb_state := (workbook * office)%type.
Definition on_wb_office {A} (m : M office A) : M wb_state A := fun s =>
  let '(o, x) := m s.2 in ((s.1, o), x).
Definition on_wb_rels {A} (m : M pkg_state A) : M wb_state A := fun s =>
  let '((r, o), x) := m (wb_rels s.1, s.2) in ((set_wb_rels s.1 r, o), x).
(** common_service.rs 25-36 *)
Definition services_close `{Env} (b : workbook) : M wb_state unit :=
  on_wb_rels (calc_close (wb_calc b)) ;;;
  on_wb_rels (sst_close (wb_sst b)) ;;;
  on_wb_office (style_close (wb_style b)).
(** workbook.rs 94-233 *)
Definition wb_close `{Env} : M wb_state unit :=
  s <- get ;;
  let b := s.1 in
  on_wb_office (theme_close (wb_theme b)) ;;;
  services_close b ;;;
  (fun s => on_wb_office (rels_close (wb_rels s.1)) s) ;;;
  on_wb_office (book_part_close (wb_path b) (wb_view b) (wb_sheets b)).
(** One step of leaving scope: errors are ignored. SIMPL: a panic inside [Drop] is not continued. *)
Definition quietly {S} (m : M S unit) (s : S) : S := (m s).1.
(** Leaving scope: [Drop] of the workbook part (workbook.rs 66-70) closes again, then its fields
    are dropped in order, each closing again: the services (calculation chain, strings, styles),
    the relationships, the theme. *)
Definition wb_drop `{Env} (b : workbook) (o : office) : office :=
  let s := quietly wb_close (b, o) in
  let s := quietly (on_wb_rels (calc_close (wb_calc b))) s in
  let s := quietly (on_wb_rels (sst_close (wb_sst b))) s in
  let s := quietly (on_wb_office (style_close (wb_style b))) s in
  let s := quietly (on_wb_office (rels_close (wb_rels s.1))) s in
  (quietly (on_wb_office (theme_close (wb_theme b))) s).2.
(** xml_parts.rs 8-13 for the workbook: close, then drop. *)
Definition wb_flush `{Env} (b : workbook) : M office unit := fun o =>
  let '((b1, o1), r) := wb_close (b, o) in (wb_drop b1 o1, r).

(** ** Changing a workbook *)
(** workbook.rs 492-500 *)
Definition list_sheet_names (b : workbook) : list string := map sh_name (wb_sheets b).
(** workbook.rs 505-516; 519-533 is the same with [Some]. *)
Definition add_sheet `{Env} (name : option string) : M wb_state worksheet := fun s =>
  let '((sheets, (rels, o)), r) := ws_new name (wb_sheets s.1, (wb_rels s.1, s.2)) in
  ((set_wb_rels (set_wb_sheets s.1 sheets) rels, o), r).
Definition get_worksheet `{Env} (name : string) : M wb_state worksheet := add_sheet (Some name).
(** worksheet.rs 1360-1381, called on a handle of this workbook. *)
Definition wb_delete_sheet `{Env} (w : worksheet) : M wb_state unit := fun s =>
  let '((sheets, (rels, o)), r) := delete_sheet w (wb_sheets s.1, (wb_rels s.1, s.2)) in
  ((set_wb_rels (set_wb_sheets s.1 sheets) rels, o), r).
(** workbook.rs 536-550 *)
Definition set_active_sheet (name : string) : M workbook unit :=
  modify (fun b => set_wb_sheets b
    (map (fun s => mkSheet (sh_name s) (sh_rel s) (seqb (sh_name s) name) (sh_hidden s)) (wb_sheets b))).
(** workbook.rs 632-646 *)
Definition hide_sheet (name : string) : M workbook unit :=
  modify (fun b => set_wb_sheets b
    (map (fun s => mkSheet (sh_name s) (sh_rel s) (sh_active s) (seqb (sh_name s) name)) (wb_sheets b))).
(** workbook.rs 648-676 *)
Fixpoint rename_first (old new : string) (l : list sheet) : option (list sheet) :=
  match l with
  | [] => None
  | s :: l =>
      if seqb (sh_name s) old then Some (mkSheet new (sh_rel s) (sh_active s) (sh_hidden s) :: l)
      else cons s <$> rename_first old new l
  end.
Definition rename_sheet (old new : string) : M workbook unit := fun b =>
  if existsb (fun s => seqb new (sh_name s)) (wb_sheets b) then (b, Err "New Sheet Name Already exist in the stack")
  else
    match rename_first old new (wb_sheets b) with
    | Some l => (set_wb_sheets b l, Ok tt)
    | None => (b, Err "Old Sheet Name not found in the stack")
    end.
(** The view setters: a missing view is first created with its defaults. *)
Definition on_view (f : book_view -> book_view) : M workbook unit :=
  modify (fun b => set_wb_view b (Some (f (default book_view_default (wb_view b))))).
(** workbook.rs 553-571 *)
Definition set_visibility (visible : bool) : M workbook unit :=
  on_view (fun v => mkBookView (bv_active v) (bv_first v) (Some (if visible then "visible" else "hidden"))
    (bv_min v) (bv_no_hscroll v) (bv_no_vscroll v) (bv_no_tabs v) (bv_ratio v) (bv_group v)).
(** workbook.rs 574-584 *)
Definition minimize_workbook (b : bool) : M workbook unit :=
  on_view (fun v => mkBookView (bv_active v) (bv_first v) (bv_visibility v) b (bv_no_hscroll v) (bv_no_vscroll v)
    (bv_no_tabs v) (bv_ratio v) (bv_group v)).
(** workbook.rs 587-597 *)
Definition hide_sheet_tabs (b : bool) : M workbook unit :=
  on_view (fun v => mkBookView (bv_active v) (bv_first v) (bv_visibility v) (bv_min v) (bv_no_hscroll v) (bv_no_vscroll v)
    b (bv_ratio v) (bv_group v)).
(** workbook.rs 600-613 *)
Definition hide_vertical_scroll (b : bool) : M workbook unit :=
  on_view (fun v => mkBookView (bv_active v) (bv_first v) (bv_visibility v) (bv_min v) (bv_no_hscroll v) b
    (bv_no_tabs v) (bv_ratio v) (bv_group v)).
(** workbook.rs 616-629 *)
Definition hide_horizontal_scroll (b : bool) : M workbook unit :=
  on_view (fun v => mkBookView (bv_active v) (bv_first v) (bv_visibility v) (bv_min v) b (bv_no_vscroll v)
    (bv_no_tabs v) (bv_ratio v) (bv_group v)).
(** workbook.rs 679-688 *)
Definition wb_style_id `{Env} `{Hashes} (s : setting) : M workbook N := fun b =>
  let '(st, r) := get_style_id s (sp_styles (wb_style b)) in (set_wb_styles b st, r).
