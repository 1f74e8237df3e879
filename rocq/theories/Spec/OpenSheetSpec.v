(** What the part of a sheet says when a file is opened, and what the file saved from it shows for
    everything but the cells and rows (these are in FlowSpec). *)
From Verif.Model Require Import Excel.
From Verif.Spec Require Import XmlSpec XmlRepr PackageSpec PartSpec ColumnSpec SheetSpec SessionSpec FlowSpec OpenSpec.
Open Scope N_scope.

(** ** The order of the elements *)
(** The elements of a sheet, in the order of the schema (ECMA-376 part 1, [CT_Worksheet]). *)
Definition sheet_schema : list string :=
  ["sheetPr"; "dimension"; "sheetViews"; "sheetFormatPr"; "cols"; "sheetData"; "sheetCalcPr"; "sheetProtection";
   "protectedRanges"; "scenarios"; "autoFilter"; "sortState"; "dataConsolidate"; "customSheetViews"; "mergeCells"; "phoneticPr";
   "conditionalFormatting"; "dataValidations"; "hyperlinks"; "printOptions"; "pageMargins"; "pageSetup"; "headerFooter"; "rowBreaks";
   "colBreaks"; "customProperties"; "cellWatches"; "ignoredErrors"; "smartTags"; "drawing"; "legacyDrawing"; "legacyDrawingHF";
   "drawingHF"; "picture"; "oleObjects"; "controls"; "webPublishItems"; "tableParts"; "extLst"].
(** Those the library puts behind all others. *)
Definition sheet_late : list string := ["sheetProtection"; "legacyDrawing"; "legacyDrawingHF"].

(** ** Columns *)
(** One column definition of a file: a width of its own is marked as such. *)
Record ColSays `{Env} (x : col_props) (t : tree) : Prop := {
  cs_min : child_attr t "min" = Some (show_N (co_min x));
  cs_max : child_attr t "max" = Some (show_N (co_max x));
  cs_width : (co_width x = None /\ child_attr t "customWidth" <> Some "1")
    \/ (exists w, co_width x = Some w /\ is_f32 (Some w) /\ child_attr t "width" = Some w /\ child_attr t "customWidth" = Some "1");
  cs_style : child_attr t "style" = show_N <$> co_style x;
  cs_hidden : Flag (co_hidden x) (child_attr t "hidden");
  cs_best : Flag (co_best x) (child_attr t "bestFit");
  cs_level : (co_level x = 0 /\ child_attr t "outlineLevel" = None) \/ child_attr t "outlineLevel" = Some (show_N (co_level x));
  cs_collapsed : Flag (co_collapsed x) (child_attr t "collapsed");
}.
(** The column definitions of a sheet; none is different from an empty list of them. *)
Definition ColsSaid `{Env} (root : tree) (cols : option (list col_props)) : Prop :=
  (no_child "cols" root /\ cols = None) \/ exists ts l, only_child "cols" root ts /\ Forall2 ColSays l (t_children ts) /\ cols = Some l.
(** One column definition as it is written: the outline level and the collapsed flag are not. *)
Definition ColShows (x : col_props) (t : tree) : Prop :=
  t_tag t = "col" /\ t_children t = []
  /\ child_attr t "min" = Some (show_N (co_min x)) /\ child_attr t "max" = Some (show_N (co_max x))
  /\ child_attr t "width" = co_width x /\ child_attr t "customWidth" = (fun _ => "1") <$> co_width x
  /\ child_attr t "style" = show_N <$> co_style x
  /\ child_attr t "hidden" = (fun _ => "1") <$> co_hidden x /\ child_attr t "bestFit" = (fun _ => "1") <$> co_best x.
Definition ColsShown (root : tree) (l : list col_props) : Prop :=
  (no_child "cols" root /\ l = []) \/ exists ts, only_child "cols" root ts /\ Forall2 ColShows l (t_children ts) /\ l <> [].
(** What the calls of a session set through handle [h]. *)
Definition col_set (h : nat) (c : call) : list (N * option col_props) :=
  match c with
  | CCol k i p => if Nat.eqb k h then [(i, p)] else []
  | CColRef k name p => if Nat.eqb k h then [(word_value name, p)] else []
  | _ => []
  end.
Definition col_sets (h : nat) (cs : list call) : list (N * option col_props) := flat_map (col_set h) cs.
(** The definitions [l'] after the definitions [l] and then the settings [hist] (as in C22). *)
Record ColsAfter (hist : list (N * option col_props)) (l l' : list col_props) : Prop := {
  ca_ranges : ranges_ok l';
  ca_set : forall c p q, LastSet c hist (Some p) -> col_at l' c q <-> exists p0, p = Some p0 /\ q = with_range p0 1 1;
  ca_old : forall c x, LastSet c hist None -> x ∈ l -> covers x c -> ~ addressed hist (co_min x) c -> col_at l' c (with_range x 1 1);
  ca_no_more : forall c q, LastSet c hist None -> col_at l' c q -> exists x, x ∈ l /\ covers x c /\ (q = with_range x 1 1 \/ q = col_default);
}.

(** ** Views *)
(** A switch of a view: absent, on, or off. *)
Definition Toggle (o : option bool) (a : option string) : Prop :=
  (o = None /\ a = None) \/ (o = Some true /\ (a = Some "1" \/ a = Some "true")) \/ (o = Some false /\ (a = Some "0" \/ a = Some "false")).
Record SheetViewSays (v : sheet_view) (t : tree) : Prop := {
  sv_id : child_attr t "workbookViewId" = Some (vw_id v);
  sv_grid_color : Toggle (vw_grid_color v) (child_attr t "defaultGridColor");
  sv_rtl : Toggle (vw_rtl v) (child_attr t "rightToLeft");
  sv_formula : Toggle (vw_formula v) (child_attr t "showFormulas");
  sv_grid_line : Toggle (vw_grid_line v) (child_attr t "showGridLines");
  sv_outline : Toggle (vw_outline v) (child_attr t "showOutlineSymbols");
  sv_header : Toggle (vw_header v) (child_attr t "showRowColHeaders");
  sv_ruler : Toggle (vw_ruler v) (child_attr t "showRuler");
  sv_white : Toggle (vw_white v) (child_attr t "showWhiteSpace");
  sv_zero : Toggle (vw_zero v) (child_attr t "showZeros");
  sv_tab : Toggle (vw_tab v) (child_attr t "tabSelected");
  sv_protection : Toggle (vw_protection v) (child_attr t "windowProtection");
  sv_top_left : child_attr t "topLeftCell" = vw_top_left v;
  sv_view : child_attr t "view" = vw_view v;
  sv_zoom : child_attr t "zoomScale" = show_Z <$> vw_zoom v;
  sv_zoom_normal : child_attr t "zoomScaleNormal" = show_Z <$> vw_zoom_normal v;
  sv_zoom_page : child_attr t "zoomScalePageLayoutView" = show_Z <$> vw_zoom_page v;
  sv_zoom_sheet : child_attr t "zoomScaleSheetLayoutView" = show_Z <$> vw_zoom_sheet v;
  sv_range : view_typed v;
}.
Definition ViewsSaid (root : tree) (l : list sheet_view) : Prop :=
  (no_child "sheetViews" root /\ l = []) \/ exists ts, only_child "sheetViews" root ts /\ Forall2 SheetViewSays l (t_children ts).
(** A view as it is written: with these settings and nothing inside, neither panes nor selections. *)
Definition SheetViewShows (v : sheet_view) (t : tree) : Prop := t_tag t = "sheetView" /\ t_children t = [] /\ SheetViewSays v t.
(** The views as they are written: those of the list, then one for the first window with no settings. *)
Definition ViewsShown (l : list sheet_view) (ts : tree) : Prop :=
  exists vs t0, t_children ts = vs ++ [t0] /\ Forall2 SheetViewShows l vs
  /\ t_tag t0 = "sheetView" /\ t_attrs t0 = Some {["workbookViewId" := "0"]} /\ t_children t0 = [].

(** ** The dimension *)
(** The reference says [A1] when there are no rows; else it says the first and the last row, and
    columns around all cells. *)
Definition DimShown (data dim : tree) : Prop :=
  (child_attr dim "ref" = Some "A1" /\ forall r t, ~ RowAt data r t)
  \/ exists r1 c1 r2 c2 n1 n2, ColumnName c1 n1 /\ ColumnName c2 n2 /\ child_attr dim "ref" = Some (n1 +:+ show_N r1 +:+ ":" +:+ n2 +:+ show_N r2)
     /\ (exists t, RowAt data r1 t) /\ (exists t, RowAt data r2 t) /\ (forall r t, RowAt data r t -> r1 <= r <= r2)
     /\ (forall r c t, CellAt data r c t -> c1 <= c <= c2).

(** ** The whole part *)
(** Every cell of the part has a reference: the letters of a column, then digits. *)
Definition CellsPlaced (data : tree) : Prop :=
  forall row t, row ∈ t_children data -> t ∈ t_children row -> exists name rest, is_word name /\ word_value name <= u16_max
  /\ sforall is_digit_byte rest = true /\ child_attr t "r" = Some (name +:+ rest).
(** The part of a sheet in the saved file, against the root element it had in the opened one. *)
Record SheetPart `{Env} (ns : gmap string string) (root sd : tree) (cols : option (list col_props)) (views : list sheet_view)
    (table : list string) (ops : list sheet_op) (hist : list (N * option col_props)) (nsl : list (string * string)) (root' : tree) : Prop := {
  sp_tag : t_tag root' = t_tag root;
  sp_attrs : t_attrs root' = t_attrs root;
  sp_ns : NsKept ns nsl;
  sp_data : exists data dim, only_child "sheetData" root' data /\ only_child "dimension" root' dim /\ DimShown data dim
    /\ forall rows, SheetSays sd rows -> SheetKept rows table ops data;
  sp_cols : match cols with
            | None => no_child "cols" root'
            | Some l => ranges_ok l -> exists l', ColsShown root' l' /\ ColsAfter hist l l'
            end;
  sp_views : exists ts, only_child "sheetViews" root' ts /\ ViewsShown (rev views) ts;
  sp_rest : RestKept sheet_tags root root';
  sp_order : Ordered sheet_schema sheet_late root root';
}.
