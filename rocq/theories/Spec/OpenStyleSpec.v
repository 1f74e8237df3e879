(** What the styles part of a file says. *)
From Verif.Model Require Import Excel.
From Verif.Spec Require Import XmlSpec XmlRepr PackageSpec PartSpec SheetSpec StyleSpec OpenSpec.
Open Scope N_scope.

(** The only child element of that name, if there is one. *)
Definition Child (tag : string) (t : tree) (o : option tree) : Prop :=
  match o with None => no_child tag t | Some c => only_child tag t c end.
Definition only_tags (tags : list string) (t : tree) : Prop := Forall (fun c => t_tag c ∈ tags) (t_children t).
(** A number in an attribute; 0 when it is not given. *)
Definition NumberAt (t : tree) (k : string) (n : N) : Prop :=
  (child_attr t k = None /\ n = 0) \/ child_attr t k = Some (show_N n).

(** ** Names, ECMA-376 part 1, 18.18.55, 18.18.3, 18.18.40, 18.18.88, 18.18.33 *)
Definition pattern_names : list (string * pattern) := [("none", PNone); ("gray125", PGray125); ("solid", PSolid)].
Definition line_names : list (string * line) :=
  [("thin", LThin); ("thick", LThick); ("dotted", LDotted); ("double", LDouble); ("dashed", LDashed); ("dashDot", LDashDot);
   ("dashDotDot", LDashDotDot); ("medium", LMedium); ("mediumDashed", LMediumDashed); ("mediumDashDot", LMediumDashDot);
   ("mediumDashDotDot", LMediumDashDotDot); ("slantDashDot", LSlantDashDot); ("hair", LHair)].
Definition halign_names : list (string * halign) := [("left", HLeft); ("center", HCenter); ("right", HRight); ("justify", HJustify)].
Definition valign_names : list (string * valign) := [("top", VTop); ("center", VMiddle); ("bottom", VBottom)].
Definition scheme_names : list (string * font_scheme) := [("none", FSNone); ("minor", FSMinor); ("major", FSMajor)].
Definition color_names : list (string * color_type) := [("theme", CTheme); ("rgb", CRgb); ("indexed", CIndexed)].

(** ** Entries *)
Definition NumSays (n : num_format) (t : tree) : Prop :=
  child_attr t "numFmtId" = Some (show_N (nf_id n)) /\ child_attr t "formatCode" = Some (nf_code n).
(** A colour is given in one of three ways. *)
Definition ColorSays (c : color) (t : tree) : Prop :=
  exists k, (k, cl_type c) ∈ color_names /\ child_attr t k = Some (cl_value c)
    /\ forall k', k' ∈ color_names.*1 -> k' <> k -> child_attr t k' = None.
Definition no_color (t : tree) : Prop := forall k, k ∈ color_names.*1 -> child_attr t k = None.
Definition OptColor (tag : string) (t : tree) (o : option color) : Prop :=
  exists c, Child tag t c /\ match c, o with
    | None, None => True
    | Some c, None => no_color c
    | Some c, Some k => ColorSays k c
    | None, Some _ => False end.
(** The child element [tag] has the value [v]; without it the library takes [d]. *)
Definition Valued (tag : string) (t : tree) (is_default : Prop) (v : string -> Prop) : Prop :=
  exists o, Child tag t o /\ match o with None => is_default | Some c => exists s, child_attr c "val" = Some s /\ v s end.
Definition Marked (tag : string) (t : tree) (b : bool) : Prop :=
  (forall c, c ∈ t_children t -> t_tag c = tag -> child_attr c "val" = None)
  /\ (b = true <-> exists c, c ∈ t_children t /\ t_tag c = tag).
Record FontSays (f : font) (t : tree) : Prop := {
  fs_tags : only_tags ["b"; "i"; "u"; "sz"; "color"; "name"; "family"; "scheme"] t;
  fs_bold : Marked "b" t (fo_bold f);
  fs_italic : Marked "i" t (fo_italic f);
  fs_underline : forall c, c ∈ t_children t -> t_tag c = "u" -> child_attr c "val" = None \/ child_attr c "val" = Some "single" \/ child_attr c "val" = Some "double";
  fs_single : fo_underline f = true <-> exists c, c ∈ t_children t /\ t_tag c = "u" /\ child_attr c "val" <> Some "double";
  fs_double : fo_double f = true <-> exists c, c ∈ t_children t /\ t_tag c = "u" /\ child_attr c "val" = Some "double";
  fs_size : Valued "sz" t (fo_size f = 11) (fun s => s = show_N (fo_size f));
  fs_color : exists o, Child "color" t o /\ match o with None => fo_color f = mkColor CTheme "1" | Some c => ColorSays (fo_color f) c end;
  fs_name : Valued "name" t (fo_name f = "Calibri") (fun s => s = fo_name f);
  fs_family : Valued "family" t (fo_family f = 2) (fun s => s = show_N (fo_family f));
  fs_scheme : Valued "scheme" t (fo_scheme f = FSNone) (fun s => (s, fo_scheme f) ∈ scheme_names);
}.
Definition FillSays (f : Style.fill) (t : tree) : Prop :=
  exists p s, t_children t = [p] /\ t_tag p = "patternFill" /\ child_attr p "patternType" = Some s /\ (s, fi_pattern f) ∈ pattern_names
    /\ only_tags ["fgColor"; "bgColor"] p /\ OptColor "fgColor" p (fi_fg f) /\ OptColor "bgColor" p (fi_bg f).
Definition SideSays (b : border_side) (t : tree) : Prop :=
  ((child_attr t "style" = None \/ child_attr t "style" = Some "none") /\ bd_line b = LNone)
  \/ exists s, child_attr t "style" = Some s /\ (s, bd_line b) ∈ line_names /\ only_tags ["color"] t /\ OptColor "color" t (bd_color b).
Definition SideAt (tag : string) (t : tree) (b : border_side) : Prop :=
  exists o, Child tag t o /\ match o with None => bd_line b = LNone | Some c => SideSays b c end.
Record BorderSays (b : border) (t : tree) : Prop := {
  bs_tags : only_tags ["left"; "right"; "top"; "bottom"; "diagonal"] t;
  bs_left : SideAt "left" t (bo_left b);
  bs_right : SideAt "right" t (bo_right b);
  bs_top : SideAt "top" t (bo_top b);
  bs_bottom : SideAt "bottom" t (bo_bottom b);
  bs_diagonal : SideAt "diagonal" t (bo_diagonal b);
}.
Definition Named {A} (names : list (string * A)) (o : option string) (none x : A) : Prop :=
  match o with None => x = none | Some s => (s, x) ∈ names end.
Definition AlignSays (x : xf) (t : tree) : Prop :=
  Switch false (child_attr t "wrapText") (xf_wrap x) /\ Named halign_names (child_attr t "horizontal") HNone (xf_halign x)
  /\ Named valign_names (child_attr t "vertical") VNone (xf_valign x).
(** A format; [refers]: it says to which style it belongs. *)
Record XfSays (refers : bool) (x : xf) (t : tree) : Prop := {
  xs_num : NumberAt t "numFmtId" (xf_num x);
  xs_font : NumberAt t "fontId" (xf_font x);
  xs_fill : NumberAt t "fillId" (xf_fill x);
  xs_border : NumberAt t "borderId" (xf_border x);
  xs_format : refers = true -> NumberAt t "xfId" (xf_format x);
  xs_app_num : Switch false (child_attr t "applyNumberFormat") (xf_app_num x);
  xs_app_font : Switch false (child_attr t "applyFont") (xf_app_font x);
  xs_app_fill : Switch false (child_attr t "applyFill") (xf_app_fill x);
  xs_app_border : Switch false (child_attr t "applyBorder") (xf_app_border x);
  xs_app_align : Switch false (child_attr t "applyAlignment") (xf_app_align x);
  xs_app_prot : Switch false (child_attr t "applyProtection") (xf_app_prot x);
  xs_align : (t_children t = [] /\ xf_wrap x = false /\ xf_halign x = HNone /\ xf_valign x = VNone)
    \/ exists a, t_children t = [a] /\ t_tag a = "alignment" /\ AlignSays x a;
}.

(** ** Tables *)
Definition Table {A} (tag : string) (says : A -> tree -> Prop) (root : tree) (l : list A) : Prop :=
  (no_child tag root /\ l = []) \/ exists ts, only_child tag root ts /\ Forall2 says l (t_children ts).
Definition Entry {A} (tag : string) (says : A -> tree -> Prop) (x : A) (t : tree) : Prop := t_tag t = tag /\ says x t.
Record StylesSay (refers : bool) (root : tree) (st : styles) : Prop := {
  ss_nums : Table "numFmts" (Entry "numFmt" NumSays) root (st_nums st);
  ss_fonts : Table "fonts" (Entry "font" FontSays) root (st_fonts st);
  ss_fills : Table "fills" (Entry "fill" FillSays) root (st_fills st);
  ss_borders : Table "borders" (Entry "border" BorderSays) root (st_borders st);
  ss_style_xfs : Table "cellStyleXfs" (Entry "xf" (XfSays refers)) root (st_style_xfs st);
  ss_cell_xfs : Table "cellXfs" (Entry "xf" (XfSays true)) root (st_cell_xfs st);
}.
(** What the library takes from a file: without italic and single underline; number formats lose
    whether they are custom; a border without a line has no colour. *)
Definition taken_num (n : num_format) : num_format := mkNum (nf_id n) (NFBuiltin 0) (nf_code n).
Definition taken_font (f : font) : font :=
  mkFont (fo_name f) (fo_size f) (fo_color f) (fo_family f) (fo_scheme f) (fo_bold f) (fo_double f) false false.
Definition taken_side (b : border_side) : border_side := match bd_line b with LNone => mkSide None LNone | _ => b end.
Definition taken_border (b : border) : border :=
  mkBorder (taken_side (bo_bottom b)) (taken_side (bo_left b)) (taken_side (bo_right b)) (taken_side (bo_top b)) (taken_side (bo_diagonal b)).
Definition taken (st : styles) : styles :=
  mkStyles (map taken_num (st_nums st)) (map taken_font (st_fonts st)) (st_fills st) (map taken_border (st_borders st))
    (st_style_xfs st) (st_cell_xfs st).
(** The order the schema wants (ECMA-376 part 1, 18.8.39), and the number of entries beside each table. *)
Definition style_order : list string := ["numFmts"; "fonts"; "fills"; "borders"; "cellStyleXfs"; "cellXfs"].
Definition Counted (root : tree) : Prop :=
  forall tag, tag ∈ style_order -> exists ts, only_child tag root ts /\ child_attr ts "count" = Some (show_N (N.of_nat (length (t_children ts)))).
(** The styles part of the saved file, against the root element it had in the opened one. *)
Definition StylesShown `{Env} (l : list (string * string)) (path : string) (ns : gmap string string) (root : tree) (st : styles) : Prop :=
  exists text root' nsl, (forall b, (path, b) ∈ l <-> b = prolog +:+ text) /\ Renders (Some nsl) root' text /\ NsKept ns nsl
  /\ t_tag root' = t_tag root /\ t_attrs root' = t_attrs root
  /\ StylesSay false root' st /\ others style_tags root' = others style_tags root
  /\ Counted root' /\ map t_tag (t_children root') = style_order ++ map t_tag (others style_tags root).
(** The styles asked for in a session. *)
Definition request (c : call) : option setting := match c with CStyle s => Some s | _ => None end.
