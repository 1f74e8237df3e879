(** [rs/src/spreadsheet/spreadsheet_2007/services/style.rs] and [models/style.rs] *)
From Verif.Model Require Export Worksheet.
Open Scope mon_scope.
Open Scope N_scope.

(** ** Data, models/style.rs *)
(** models/style.rs 4-128. SIMPL: the code only asks whether a format is custom, so the 36 built-in
    formats are one constructor with their number. *)
Inductive num_type := NFBuiltin (n : N) | NFCustom.
(** models/style.rs 130-152 *)
Inductive font_scheme := FSNone | FSMinor | FSMajor.
Definition scheme_string (s : font_scheme) : string :=
  match s with FSMajor => "major" | FSMinor => "minor" | FSNone => "none" end.
Definition scheme_enum (s : string) : font_scheme :=
  if seqb s "major" then FSMajor else if seqb s "minor" then FSMinor else FSNone.
(** models/style.rs 154-177 *)
Inductive pattern := PNone | PGray125 | PSolid.
Definition pattern_string (p : pattern) : string :=
  match p with PSolid => "solid" | PGray125 => "gray125" | PNone => "none" end.
Definition pattern_enum (s : string) : pattern :=
  if seqb s "solid" then PSolid else if seqb s "gray125" then PGray125 else PNone.
(** models/style.rs 179-234 *)
Inductive line := LNone | LThin | LThick | LDotted | LDouble | LDashed | LDashDot | LDashDotDot
  | LMedium | LMediumDashed | LMediumDashDot | LMediumDashDotDot | LSlantDashDot | LHair.
Definition line_string (l : line) : string :=
  match l with
  | LDashDot => "dashDot" | LDashDotDot => "dashDotDot" | LDashed => "dashed" | LDotted => "dotted"
  | LDouble => "double" | LHair => "hair" | LMedium => "medium" | LMediumDashDot => "mediumDashDot"
  | LMediumDashDotDot => "mediumDashDotDot" | LMediumDashed => "mediumDashed"
  | LSlantDashDot => "slantDashDot" | LThick => "thick" | LThin => "thin" | LNone => "none"
  end.
Definition line_enum (s : string) : line :=
  if seqb s "dashDot" then LDashDot else if seqb s "dashDotDot" then LDashDotDot
  else if seqb s "dashed" then LDashed else if seqb s "dotted" then LDotted
  else if seqb s "double" then LDouble else if seqb s "hair" then LHair
  else if seqb s "medium" then LMedium else if seqb s "mediumDashDot" then LMediumDashDot
  else if seqb s "mediumDashDotDot" then LMediumDashDotDot
  else if seqb s "mediumDashed" then LMediumDashed else if seqb s "slantDashDot" then LSlantDashDot
  else if seqb s "thick" then LThick else if seqb s "thin" then LThin else LNone.
Definition is_none_line (l : line) : bool := match l with LNone => true | _ => false end.
(** models/style.rs 236-258 *)
Inductive color_type := CIndexed | CTheme | CRgb.
Definition color_key (t : color_type) : string :=
  match t with CTheme => "theme" | CRgb => "rgb" | CIndexed => "indexed" end.
(** models/style.rs 260-273 *)
Record color := mkColor { cl_type : color_type; cl_value : string }.
Definition color_default : color := mkColor CTheme "1".
(** models/style.rs 275-288 *)
Record border_side := mkSide { bd_color : option color; bd_line : line }.
Definition side_default : border_side := mkSide None LNone.
(** models/style.rs 290-311. SIMPL: the field [id] is always 0. *)
Record border := mkBorder {
  bo_bottom : border_side;
  bo_left : border_side;
  bo_right : border_side;
  bo_top : border_side;
  bo_diagonal : border_side;
}.
Definition border_default : border := mkBorder side_default side_default side_default side_default side_default.
(** models/style.rs 313-368 *)
Inductive halign := HNone | HLeft | HCenter | HRight | HJustify.
Definition halign_string (h : halign) : string :=
  match h with HLeft => "left" | HCenter => "center" | HRight => "right" | HJustify => "justify" | HNone => "none" end.
Definition halign_enum (s : string) : halign :=
  if seqb s "left" then HLeft else if seqb s "center" then HCenter
  else if seqb s "right" then HRight else if seqb s "justify" then HJustify else HNone.
Inductive valign := VNone | VTop | VMiddle | VBottom.
Definition valign_string (v : valign) : string :=
  match v with VTop => "top" | VMiddle => "center" | VBottom => "bottom" | VNone => "none" end.
Definition valign_enum (s : string) : valign :=
  if seqb s "top" then VTop else if seqb s "center" then VMiddle
  else if seqb s "bottom" then VBottom else VNone.
(** models/style.rs 370-385 *)
Record num_format := mkNum { nf_id : N; nf_type : num_type; nf_code : string }.
(** models/style.rs 386-416 *)
Record font := mkFont {
  fo_name : string;
  fo_size : N;
  fo_color : color;
  fo_family : N;
  fo_scheme : font_scheme;
  fo_bold : bool;
  fo_double : bool;
  fo_italic : bool;
  fo_underline : bool;
}.
Definition font_default : font := mkFont "Calibri" 11 (mkColor CTheme "1") 2 FSNone false false false false.
(** models/style.rs 417-454. SIMPL: the u8 flags are only ever 0 or 1. *)
Record xf := mkXf {
  xf_format : N;
  xf_num : N;
  xf_font : N;
  xf_fill : N;
  xf_border : N;
  xf_app_font : bool;
  xf_app_align : bool;
  xf_app_fill : bool;
  xf_app_border : bool;
  xf_app_num : bool;
  xf_app_prot : bool;
  xf_wrap : bool;
  xf_halign : halign;
  xf_valign : valign;
}.
Definition xf_default : xf := mkXf 0 0 0 0 0 false false false false false false false HNone VNone.
Definition set_format (x : xf) (n : N) : xf :=
  mkXf n (xf_num x) (xf_font x) (xf_fill x) (xf_border x) (xf_app_font x) (xf_app_align x) (xf_app_fill x)
    (xf_app_border x) (xf_app_num x) (xf_app_prot x) (xf_wrap x) (xf_halign x) (xf_valign x).
(** models/style.rs 456-471 *)
Record fill := mkFill { fi_pattern : pattern; fi_bg : option color; fi_fg : option color }.
(** models/style.rs 473-540 (the field [protect] is never read). *)
Record setting := mkSetting {
  se_num : num_type;
  se_code : option string;
  se_left : border_side;
  se_top : border_side;
  se_right : border_side;
  se_bottom : border_side;
  se_diagonal : border_side;
  se_font : string;
  se_size : N;
  se_color : color;
  se_bold : bool;
  se_italic : bool;
  se_underline : bool;
  se_double : bool;
  se_wrap : bool;
  se_bg : option string;
  se_fg : option string;
  se_pattern : pattern;
  se_halign : halign;
  se_valign : valign;
}.
Definition setting_default : setting :=
  mkSetting (NFBuiltin 0) None side_default side_default side_default side_default side_default
    "Calibri" 11 (mkColor CTheme "1") false false false false false None None PNone HNone VNone.

(** style.rs 24-39. SIMPL: the hash stored beside every entry is recomputed from the entry; the
    cache is left out because nothing is ever inserted into it. *)
Record styles := mkStyles {
  st_nums : list num_format;
  st_fonts : list font;
  st_fills : list fill;
  st_borders : list border;
  st_style_xfs : list xf;
  st_cell_xfs : list xf;
}.
(** [DefaultHasher]: an arbitrary function from each kind of entry to numbers. *)
Class Hashes := {
  hash_num : num_format -> N;
  hash_font : font -> N;
  hash_fill : fill -> N;
  hash_border : border -> N;
  hash_xf : xf -> N;
}.

(** ** Reading, style.rs 152-547 *)
Definition first_child (t : tree) : option tree := match t_children t with [] => None | c :: _ => Some c end.
(** style.rs 180-206 *)
Definition num_of_tree (t : tree) : res (option num_format) :=
  match t_attrs t with
  | None => Ok None
  | Some a =>
      rbind (of_option "numFmtId Attribute Not Found!" (a !! "numFmtId")) (fun i =>
      rbind (of_option "Number format ID parsing Failed" (parse_uint usize_max i)) (fun i =>
      rbind (of_option "formatCode Attribute Not Found!" (a !! "formatCode")) (fun c =>
      Ok (Some (mkNum i (NFBuiltin 0) c)))))
  end.
(** The colour attributes, style.rs 251-277, 350-385, 386-421, 896-919: theme, then rgb, then
    indexed ([String::parse] never fails). *)
Definition color_of_attrs (a : gmap string string) : option color :=
  match a !! "theme" with
  | Some v => Some (mkColor CTheme v)
  | None =>
      match a !! "rgb" with
      | Some v => Some (mkColor CRgb v)
      | None => mkColor CIndexed <$> a !! "indexed"
      end
  end.
Definition attr_of (t : tree) (k : string) : option string := attr_opt (t_attrs t) k.
Definition color_of_tree (t : tree) : option color := match t_attrs t with Some a => color_of_attrs a | None => None end.
Definition set_font_name (f : font) x := mkFont x (fo_size f) (fo_color f) (fo_family f) (fo_scheme f) (fo_bold f) (fo_double f) (fo_italic f) (fo_underline f).
Definition set_font_size (f : font) x := mkFont (fo_name f) x (fo_color f) (fo_family f) (fo_scheme f) (fo_bold f) (fo_double f) (fo_italic f) (fo_underline f).
Definition set_font_color (f : font) x := mkFont (fo_name f) (fo_size f) x (fo_family f) (fo_scheme f) (fo_bold f) (fo_double f) (fo_italic f) (fo_underline f).
Definition set_font_family (f : font) x := mkFont (fo_name f) (fo_size f) (fo_color f) x (fo_scheme f) (fo_bold f) (fo_double f) (fo_italic f) (fo_underline f).
Definition set_font_scheme (f : font) x := mkFont (fo_name f) (fo_size f) (fo_color f) (fo_family f) x (fo_bold f) (fo_double f) (fo_italic f) (fo_underline f).
Definition set_font_bold (f : font) := mkFont (fo_name f) (fo_size f) (fo_color f) (fo_family f) (fo_scheme f) true (fo_double f) (fo_italic f) (fo_underline f).
Definition set_font_u (f : font) (double : bool) := mkFont (fo_name f) (fo_size f) (fo_color f) (fo_family f) (fo_scheme f) (fo_bold f) double (fo_italic f) false.
Definition set_font_i (f : font) := mkFont (fo_name f) (fo_size f) (fo_color f) (fo_family f) (fo_scheme f) (fo_bold f) (fo_double f) false (fo_underline f).
(** [if let Some(val) = attributes.get("val") { x = val.parse()? }] *)
Definition opt_set {A} (o : option string) (g : string -> option A) (f : font) (h : A -> font) : res font :=
  match o with None => Ok f | Some s => rmap h (of_option "Parse Failed" (g s)) end.
(** style.rs 219-311: one child of a [font] element. Italic and underline are set to false. *)
Definition font_child (f : font) (t : tree) : res font :=
  let tag := t_tag t in
  let val := attr_of t "val" in
  if seqb tag "b" then Ok (set_font_bold f)
  else if seqb tag "u" then
    Ok (set_font_u f (match val with Some v => seqb v "double" || fo_double f | None => fo_double f end))
  else if seqb tag "i" then Ok (set_font_i f)
  else if seqb tag "sz" then opt_set val (parse_uint u8_max) f (set_font_size f)
  else if seqb tag "color" then Ok (match color_of_tree t with Some c => set_font_color f c | None => f end)
  else if seqb tag "name" then opt_set val Some f (set_font_name f)
  else if seqb tag "family" then opt_set val (parse_uint u32_max) f (set_font_family f)
  else if seqb tag "scheme" then opt_set val (fun s => Some (scheme_enum s)) f (set_font_scheme f)
  else Err "Unknown Font Style Found!".
Fixpoint font_children (f : font) (ts : list tree) : res font :=
  match ts with [] => Ok f | t :: ts => rbind (font_child f t) (fun f => font_children f ts) end.
(** style.rs 208-321 *)
Definition font_of_tree (t : tree) : res font := font_children font_default (t_children t).
(** style.rs 341-430: one child of a [patternFill] element. *)
Definition fill_child (f : fill) (t : tree) : res fill :=
  match t_attrs t with
  | None => Ok f
  | Some a =>
      let c := color_of_attrs a in
      if seqb (t_tag t) "fgColor" then
        Ok (match c with Some _ => mkFill (fi_pattern f) (fi_bg f) c | None => f end)
      else if seqb (t_tag t) "bgColor" then
        Ok (match c with Some _ => mkFill (fi_pattern f) c (fi_fg f) | None => f end)
      else Err "Unknown Color patter found"
  end.
Fixpoint fill_children (f : fill) (ts : list tree) : res fill :=
  match ts with [] => Ok f | t :: ts => rbind (fill_child f t) (fun f => fill_children f ts) end.
(** style.rs 322-447: only the first child is looked at, whatever its name. *)
Definition fill_of_tree (t : tree) : res fill :=
  match first_child t with
  | None => Ok (mkFill PNone None None)
  | Some p =>
      match attr_of p "patternType" with
      | None => Ok (mkFill PNone None None)
      | Some s => fill_children (mkFill (pattern_enum s) None None) (t_children p)
      end
  end.
(** style.rs 886-923 *)
Definition side_of_tree (b : border_side) (t : tree) : border_side :=
  match attr_of t "style" with
  | None => b
  | Some s =>
      let l := line_enum s in
      let c := if is_none_line l then None else first_child t ≫= color_of_tree in
      mkSide (match c with Some _ => c | None => bd_color b end) l
  end.
(** style.rs 455-511: one child of a [border] element. *)
Definition border_child (b : border) (t : tree) : res border :=
  let tag := t_tag t in
  if seqb tag "left" then Ok (mkBorder (bo_bottom b) (side_of_tree (bo_left b) t) (bo_right b) (bo_top b) (bo_diagonal b))
  else if seqb tag "right" then Ok (mkBorder (bo_bottom b) (bo_left b) (side_of_tree (bo_right b) t) (bo_top b) (bo_diagonal b))
  else if seqb tag "top" then Ok (mkBorder (bo_bottom b) (bo_left b) (bo_right b) (side_of_tree (bo_top b) t) (bo_diagonal b))
  else if seqb tag "bottom" then Ok (mkBorder (side_of_tree (bo_bottom b) t) (bo_left b) (bo_right b) (bo_top b) (bo_diagonal b))
  else if seqb tag "diagonal" then Ok (mkBorder (bo_bottom b) (bo_left b) (bo_right b) (bo_top b) (side_of_tree (bo_diagonal b) t))
  else Err "Unknown border style found".
Fixpoint border_children (b : border) (ts : list tree) : res border :=
  match ts with [] => Ok b | t :: ts => rbind (border_child b t) (fun b => border_children b ts) end.
(** style.rs 448-522 *)
Definition border_of_tree (t : tree) : res border := border_children border_default (t_children t).
(** style.rs 791-884 *)
Definition flag_attr (a : gmap string string) (k : string) : bool := default false (normalize_bool <$> a !! k).
Definition xf_of_tree (t : tree) : res xf :=
  match t_attrs t with
  | None => Ok xf_default
  | Some a =>
      let num k := rmap (default 0) (num_attr u16_max a k) in
      rbind (num "numFmtId") (fun n =>
      rbind (num "fontId") (fun fo =>
      rbind (num "fillId") (fun fi =>
      rbind (num "borderId") (fun bo =>
      rbind (num "xfId") (fun x =>
      let al := default ∅ (first_child t ≫= t_attrs) in
      Ok (mkXf x n fo fi bo (flag_attr a "applyFont") (flag_attr a "applyAlignment") (flag_attr a "applyFill")
            (flag_attr a "applyBorder") (flag_attr a "applyNumberFormat") (flag_attr a "applyProtection")
            (flag_attr al "wrapText") (default HNone (halign_enum <$> al !! "horizontal"))
            (default VNone (valign_enum <$> al !! "vertical"))))))))
  end.
(** The children of the last element of that name, style.rs 177-184 and its copies. *)
Definition table_of {A} (f : tree -> res A) (ts : option (list tree)) : res (list A) :=
  match last_of ts with None => Ok [] | Some t => rmapM f (t_children t) end.
(** style.rs 152-547 *)
Definition load_styles : M doc styles :=
  nums <- take_subtrees "numFmts" ;;
  nums <- lift (rmap (omap id) (table_of num_of_tree nums)) ;;
  fonts <- take_subtrees "fonts" ;;
  fonts <- lift (table_of font_of_tree fonts) ;;
  fills <- take_subtrees "fills" ;;
  fills <- lift (table_of fill_of_tree fills) ;;
  borders <- take_subtrees "borders" ;;
  borders <- lift (table_of border_of_tree borders) ;;
  sxfs <- take_subtrees "cellStyleXfs" ;;
  sxfs <- lift (table_of xf_of_tree sxfs) ;;
  xfs <- take_subtrees "cellXfs" ;;
  xfs <- lift (table_of xf_of_tree xfs) ;;
  ret (mkStyles nums fonts fills borders sxfs xfs).

(** [services/style.xml] *)
Definition style_template : string := "<?xml version=""1.0"" encoding=""UTF-8"" standalone=""yes""?>
<styleSheet xmlns=""http://schemas.openxmlformats.org/spreadsheetml/2006/main"">
    <fonts count=""1"">
        <font>
            <sz val=""11"" />
            <color theme=""1"" />
            <name val=""Calibri"" />
            <family val=""2"" />
            <scheme val=""minor"" />
        </font>
    </fonts>
    <fills count=""2"">
        <fill>
            <patternFill patternType=""none"" />
        </fill>
        <fill>
            <patternFill patternType=""gray125"" />
        </fill>
    </fills>
    <borders count=""1"">
        <border>
            <left />
            <right />
            <top />
            <bottom />
            <diagonal />
        </border>
    </borders>
    <cellStyleXfs count=""1"">
        <xf numFmtId=""0"" fontId=""0"" fillId=""0"" borderId=""0"" />
    </cellStyleXfs>
    <cellXfs count=""1"">
        <xf numFmtId=""0"" fontId=""0"" fillId=""0"" borderId=""0"" xfId=""0"" />
    </cellXfs>
    <cellStyles count=""1"">
        <cellStyle name=""Normal"" xfId=""0"" builtinId=""0"" />
    </cellStyles>
    <dxfs count=""0"" />
    <tableStyles count=""0"" defaultTableStyle=""TableStyleMedium2""
        defaultPivotStyle=""PivotStyleLight16"" />
</styleSheet>".
(** style.rs 79-94 *)
Definition style_init `{Env} : res open_part :=
  rmap (fun d => mkOpen d (Some (c_content_type c_style)) (c_ext c_style) (c_ext_type c_style))
    (read_doc style_template).
Record style_part := mkStylePart { sp_styles : styles; sp_path : string }.
Definition no_styles : styles := mkStyles [] [] [] [] [] [].
(** style.rs 96-150 *)
Definition style_new `{Env} : M pkg_state style_part :=
  path <- on_rels (part_path c_style None) ;;
  on_office (get_xml_document style_init path) ;;;
  s <- on_office (with_doc path load_styles) ;;
  ret (mkStylePart (default no_styles s) path).

(** ** Writing, style.rs 549-789 *)
Definition count_attr {A} (l : list A) : option (gmap string string) :=
  Some (attrs_of [("count", show_N (N.of_nat (length l)))]).
(** style.rs 555-580 *)
Definition num_tree (n : num_format) : tree := leaf "numFmt" [("numFmtId", show_N (nf_id n)); ("formatCode", nf_code n)].
Definition nums_tree (l : list num_format) : tree := Node "numFmts" (count_attr l) None (map num_tree l).
(** style.rs 925-944 *)
Definition color_tree (tag : string) (c : color) : tree := leaf tag [(color_key (cl_type c), cl_value c)].
Definition color_trees (tag : string) (o : option color) : list tree :=
  match o with Some c => [color_tree tag c] | None => [] end.
Definition val_tree (tag v : string) : tree := leaf tag [("val", v)].
Definition when (b : bool) (t : tree) : list tree := if b then [t] else [].
(** style.rs 581-662 *)
Definition font_tree (f : font) : tree :=
  Node "font" None None
    (when (fo_bold f) (Node "b" None None []) ++ when (fo_italic f) (Node "i" None None [])
     ++ when (fo_underline f) (Node "u" None None []) ++ when (fo_double f) (val_tree "u" "double")
     ++ [val_tree "sz" (show_N (fo_size f)); color_tree "color" (fo_color f); val_tree "name" (fo_name f);
         val_tree "family" (show_N (fo_family f)); val_tree "scheme" (scheme_string (fo_scheme f))]).
Definition fonts_tree (l : list font) : tree := Node "fonts" (count_attr l) None (map font_tree l).
(** style.rs 663-718 *)
Definition fill_tree (f : fill) : tree :=
  Node "fill" None None
    [Node "patternFill" (Some (attrs_of [("patternType", pattern_string (fi_pattern f))])) None
       (color_trees "fgColor" (fi_fg f) ++ color_trees "bgColor" (fi_bg f))].
Definition fills_tree (l : list fill) : tree := Node "fills" (count_attr l) None (map fill_tree l).
(** style.rs 946-969 *)
Definition side_tree (tag : string) (b : border_side) : tree :=
  if is_none_line (bd_line b) then Node tag None None []
  else Node tag (Some (attrs_of [("style", line_string (bd_line b))])) None (color_trees "color" (bd_color b)).
(** style.rs 719-774 *)
Definition border_tree (b : border) : tree :=
  Node "border" None None
    [side_tree "left" (bo_left b); side_tree "right" (bo_right b); side_tree "top" (bo_top b);
     side_tree "bottom" (bo_bottom b); side_tree "diagonal" (bo_diagonal b)].
Definition borders_tree (l : list border) : tree := Node "borders" (count_attr l) None (map border_tree l).
(** style.rs 971-1065 *)
Definition flag_if (b : bool) : option string := if b then Some "1" else None.
Definition not_hnone (h : halign) : bool := match h with HNone => false | _ => true end.
Definition not_vnone (v : valign) : bool := match v with VNone => false | _ => true end.
Definition align_tree (x : xf) : tree :=
  Node "alignment" (Some (opt_attrs
    [("wrapText", flag_if (xf_wrap x));
     ("vertical", if not_vnone (xf_valign x) then Some (valign_string (xf_valign x)) else None);
     ("horizontal", if not_hnone (xf_halign x) then Some (halign_string (xf_halign x)) else None)])) None [].
Definition xf_tree (with_format : bool) (x : xf) : tree :=
  Node "xf" (Some (opt_attrs
    [("numFmtId", Some (show_N (xf_num x))); ("fontId", Some (show_N (xf_font x)));
     ("fillId", Some (show_N (xf_fill x))); ("borderId", Some (show_N (xf_border x)));
     ("xfId", if with_format then Some (show_N (xf_format x)) else None);
     ("applyFont", flag_if (xf_app_font x)); ("applyAlignment", flag_if (xf_app_align x));
     ("applyFill", flag_if (xf_app_fill x)); ("applyBorder", flag_if (xf_app_border x));
     ("applyNumberFormat", flag_if (xf_app_num x)); ("applyProtection", flag_if (xf_app_prot x))])) None
    (when (xf_wrap x || not_vnone (xf_valign x) || not_hnone (xf_halign x)) (align_tree x)).
Definition xfs_tree (with_format : bool) (l : list xf) : tree :=
  Node (if with_format then "cellXfs" else "cellStyleXfs") (count_attr l) None (map (xf_tree with_format) l).
(** [insert_child_at_mut(tag, 0, None)] and its content. *)
Definition insert_tree_first `{Env} (t : tree) : M doc unit :=
  i <- insert_at (t_tag t) 0 None ;; XmlView.fill i t.
(** style.rs 549-789 *)
Definition save_styles `{Env} (s : styles) : M doc unit :=
  insert_tree_first (nums_tree (st_nums s)) ;;;
  insert_tree_after "numFmts" (fonts_tree (st_fonts s)) ;;;
  insert_tree_after "fonts" (fills_tree (st_fills s)) ;;;
  insert_tree_after "fills" (borders_tree (st_borders s)) ;;;
  insert_tree_after "borders" (xfs_tree true (st_cell_xfs s)) ;;;
  insert_tree_after "borders" (xfs_tree false (st_style_xfs s)).
(** style.rs 47-77 *)
Definition style_close `{Env} (s : style_part) : M office unit :=
  with_doc (sp_path s) (save_styles (sp_styles s)) ;;;
  close_xml_document (sp_path s).

(** ** Asking for a style, style.rs 1069-1263 *)
Definition as_u16 (n : N) : N := n mod 65536.
Definition as_u32 (n : N) : N := n mod 4294967296.
(** The entry with that hash, or a new entry at the end: the table, the position, and whether the
    entry is new. *)
Definition intern {A} (hash : A -> N) (x : A) (l : list A) : list A * N * bool :=
  match position (fun y => hash y =? hash x) l with
  | Some i => (l, i, false)
  | None => (l ++ [x], N.of_nat (length l), true)
  end.
(** style.rs 1084-1116: the table, the number format id, the apply flag. *)
Definition num_for `{Env} `{Hashes} (s : setting) (l : list num_format) : res (list num_format * N * bool) :=
  match se_num s with
  | NFBuiltin _ => Ok (l, 0, false)
  | NFCustom =>
      match se_code s with
      | None => Err "Custom Format Type is used without providing custom number format."
      | Some code =>
          let '(l1, i, new) := intern hash_num (mkNum 0 NFCustom code) l in
          if new then Ok (l1, as_u16 i, true)
          else rmap (fun k => (l1, k, true)) (u16_add env_mode (as_u16 i) 163)
      end
  end.
(** style.rs 1118-1129 *)
Definition font_for (s : setting) : font :=
  mkFont (se_font s) (se_size s) (se_color s) 2 FSNone (se_bold s) (se_double s) (se_italic s) (se_underline s).
(** style.rs 1148-1171 *)
Definition fill_for (s : setting) : fill :=
  mkFill (se_pattern s) (mkColor CRgb <$> se_bg s) (mkColor CRgb <$> se_fg s).
(** style.rs 1190-1199 *)
Definition border_for (s : setting) : border :=
  mkBorder (se_bottom s) (se_left s) (se_right s) (se_top s) (se_diagonal s).
(** style.rs 1131-1145 and its copies: the flag is set for new entries and positions above 0. *)
Definition applies (i : N) (new : bool) : bool := new || (0 <? i).
(** style.rs 1076-1262 *)
Definition get_style_id `{Env} `{Hashes} (s : setting) : M styles N := fun st =>
  match num_for s (st_nums st) with
  | Err e => (st, Err e)
  | Panic e => (st, Panic e)
  | Ok (nums, num, num_on) =>
      let '(fonts, fo, fo_new) := intern hash_font (font_for s) (st_fonts st) in
      let '(fills, fi, fi_new) := intern hash_fill (fill_for s) (st_fills st) in
      let '(borders, bo, bo_new) := intern hash_border (border_for s) (st_borders st) in
      let x := mkXf 0 num (as_u16 fo) (as_u16 fi) (as_u16 bo) (applies fo fo_new)
                 (not_vnone (se_valign s) || not_hnone (se_halign s) || se_wrap s)
                 (applies fi fi_new) (applies bo bo_new) num_on false (se_wrap s) (se_halign s) (se_valign s) in
      let '(sxfs, sx, _) := intern hash_xf x (st_style_xfs st) in
      let '(xfs, id, _) := intern hash_xf (set_format x (as_u16 sx)) (st_cell_xfs st) in
      (mkStyles nums fonts fills borders sxfs xfs, Ok (as_u32 id))
  end.
