(** What asking for a style, and saving the styles, mean to a user. *)
From stdpp Require Import countable.
From Verif.Model Require Import Style.
From Verif.Spec Require Import XmlSpec XmlRepr PackageSpec PartSpec.
Open Scope N_scope.

(** ** Requests *)
(** A history of requests, one after the other, with what each of them answered. *)
Fixpoint style_run `{Env} `{Hashes} (reqs : list setting) (st : styles) : styles * list (res N) :=
  match reqs with
  | [] => (st, [])
  | s :: reqs =>
      let '(st1, r) := get_style_id s st in
      let '(st2, rs) := style_run reqs st1 in (st2, r :: rs)
  end.
(** A font, fill or border is the one the caller described. *)
Definition FontFor (s : setting) (f : font) : Prop :=
  fo_name f = se_font s /\ fo_size f = se_size s /\ fo_color f = se_color s /\ fo_bold f = se_bold s
  /\ fo_italic f = se_italic s /\ fo_underline f = se_underline s /\ fo_double f = se_double s.
Definition RgbColor (o : option string) (c : option color) : Prop :=
  match o, c with
  | None, None => True
  | Some v, Some c => cl_type c = CRgb /\ cl_value c = v
  | _, _ => False
  end.
Definition FillFor (s : setting) (f : fill) : Prop :=
  fi_pattern f = se_pattern s /\ RgbColor (se_bg s) (fi_bg f) /\ RgbColor (se_fg s) (fi_fg f).
Definition BorderFor (s : setting) (b : border) : Prop :=
  bo_left b = se_left s /\ bo_right b = se_right s /\ bo_top b = se_top s /\ bo_bottom b = se_bottom s
  /\ bo_diagonal b = se_diagonal s.
Definition AlignFor (s : setting) (x : xf) : Prop :=
  xf_wrap x = se_wrap s /\ xf_halign x = se_halign s /\ xf_valign x = se_valign s
  /\ (xf_app_align x = true <-> se_wrap s = true \/ se_halign s <> HNone \/ se_valign s <> VNone).
(** A format takes its font, fill and border from the tables, and says so unless it is entry 0. *)
Definition FormatFor (st : styles) (s : setting) (x : xf) : Prop :=
  (exists f, st_fonts st !! N.to_nat (xf_font x) = Some f /\ FontFor s f /\ (xf_font x <> 0 -> xf_app_font x = true))
  /\ (exists f, st_fills st !! N.to_nat (xf_fill x) = Some f /\ FillFor s f /\ (xf_fill x <> 0 -> xf_app_fill x = true))
  /\ (exists b, st_borders st !! N.to_nat (xf_border x) = Some b /\ BorderFor s b /\ (xf_border x <> 0 -> xf_app_border x = true))
  /\ AlignFor s x.
(** The id names a cell format as described, over a style format as described. *)
Definition Shows (st : styles) (s : setting) (id : N) : Prop :=
  exists x y, st_cell_xfs st !! N.to_nat id = Some x /\ FormatFor st s x
    /\ st_style_xfs st !! N.to_nat (xf_format x) = Some y /\ FormatFor st s y.
(** Every entry of every table is still where it was. *)
Definition Extends (st st' : styles) : Prop :=
  st_nums st `prefix_of` st_nums st' /\ st_fonts st `prefix_of` st_fonts st' /\ st_fills st `prefix_of` st_fills st'
  /\ st_borders st `prefix_of` st_borders st' /\ st_style_xfs st `prefix_of` st_style_xfs st'
  /\ st_cell_xfs st `prefix_of` st_cell_xfs st'.
(** Ids are 16 bits wide. *)
Definition below_len {A} (l : list A) (n : N) : Prop := N.of_nat (length l) <= n.
Definition Small (st : styles) : Prop :=
  below_len (st_nums st) 65000 /\ below_len (st_fonts st) 65536 /\ below_len (st_fills st) 65536
  /\ below_len (st_borders st) 65536 /\ below_len (st_style_xfs st) 65536 /\ below_len (st_cell_xfs st) 65536.
(** The number format a reader finds for an id of a cell format: the entry carrying that id. *)
Definition NumberFormat (st : styles) (id : N) (code : string) : Prop :=
  exists n, n ∈ st_nums st /\ nf_id n = id /\ nf_code n = code.

(** A custom number format comes with its code. *)
Definition number_given (s : setting) : Prop := match se_num s, se_code s with NFCustom, None => False | _, _ => True end.
Definition custom (code : string) : num_format := mkNum 0 NFCustom code.
(** If the request has a custom number format, the table already holds it. *)
Definition settled (s : setting) (st : styles) : Prop :=
  match se_num s, se_code s with NFCustom, Some code => custom code ∈ st_nums st | _, _ => True end.

(** ** Hash collisions *)
(** Entries compared by value: what the library does if no two entries have the same hash. *)
#[global] Instance num_type_eq : EqDecision num_type. Proof. solve_decision. Defined.
#[global] Instance font_scheme_eq : EqDecision font_scheme. Proof. solve_decision. Defined.
#[global] Instance pattern_eq : EqDecision pattern. Proof. solve_decision. Defined.
#[global] Instance line_eq : EqDecision line. Proof. solve_decision. Defined.
#[global] Instance color_type_eq : EqDecision color_type. Proof. solve_decision. Defined.
#[global] Instance color_eq : EqDecision color. Proof. solve_decision. Defined.
#[global] Instance side_eq : EqDecision border_side. Proof. solve_decision. Defined.
#[global] Instance border_eq : EqDecision border. Proof. solve_decision. Defined.
#[global] Instance halign_eq : EqDecision halign. Proof. solve_decision. Defined.
#[global] Instance valign_eq : EqDecision valign. Proof. solve_decision. Defined.
#[global] Instance num_format_eq : EqDecision num_format. Proof. solve_decision. Defined.
#[global] Instance font_eq : EqDecision font. Proof. solve_decision. Defined.
#[global] Instance xf_eq : EqDecision xf. Proof. solve_decision. Defined.
#[global] Instance fill_eq : EqDecision fill. Proof. solve_decision. Defined.
#[global] Instance num_type_count : Countable num_type.
Proof.
  refine (inj_countable' (fun t => match t with NFBuiltin n => Some n | NFCustom => None end)
    (fun o => match o with Some n => NFBuiltin n | None => NFCustom end) _). by intros [].
Defined.
#[global] Instance font_scheme_count : Countable font_scheme.
Proof. refine (inj_countable' (fun t => scheme_string t) scheme_enum _). by intros []. Defined.
#[global] Instance pattern_count : Countable pattern.
Proof. refine (inj_countable' (fun t => pattern_string t) pattern_enum _). by intros []. Defined.
#[global] Instance line_count : Countable line.
Proof. refine (inj_countable' (fun t => line_string t) line_enum _). by intros []. Defined.
#[global] Instance halign_count : Countable halign.
Proof. refine (inj_countable' (fun t => halign_string t) halign_enum _). by intros []. Defined.
#[global] Instance valign_count : Countable valign.
Proof. refine (inj_countable' (fun t => valign_string t) valign_enum _). by intros []. Defined.
#[global] Instance color_type_count : Countable color_type.
Proof.
  refine (inj_countable' (fun t => match t with CIndexed => 0%N | CTheme => 1%N | CRgb => 2%N end)
    (fun n => match n with 0%N => CIndexed | 1%N => CTheme | _ => CRgb end) _). by intros [].
Defined.
#[global] Instance color_count : Countable color.
Proof. refine (inj_countable' (fun c => (cl_type c, cl_value c)) (fun p => mkColor p.1 p.2) _). by intros []. Defined.
#[global] Instance side_count : Countable border_side.
Proof. refine (inj_countable' (fun c => (bd_color c, bd_line c)) (fun p => mkSide p.1 p.2) _). by intros []. Defined.
#[global] Instance border_count : Countable border.
Proof.
  refine (inj_countable' (fun c => (bo_bottom c, bo_left c, bo_right c, bo_top c, bo_diagonal c))
    (fun p => mkBorder p.1.1.1.1 p.1.1.1.2 p.1.1.2 p.1.2 p.2) _). by intros [].
Defined.
#[global] Instance num_format_count : Countable num_format.
Proof. refine (inj_countable' (fun c => (nf_id c, nf_type c, nf_code c)) (fun p => mkNum p.1.1 p.1.2 p.2) _). by intros []. Defined.
#[global] Instance font_count : Countable font.
Proof.
  refine (inj_countable' (fun c => (fo_name c, fo_size c, fo_color c, fo_family c, fo_scheme c,
      (fo_bold c, fo_double c, fo_italic c, fo_underline c)))
    (fun p => mkFont p.1.1.1.1.1 p.1.1.1.1.2 p.1.1.1.2 p.1.1.2 p.1.2 p.2.1.1.1 p.2.1.1.2 p.2.1.2 p.2.2) _). by intros [].
Defined.
#[global] Instance fill_count : Countable fill.
Proof. refine (inj_countable' (fun c => (fi_pattern c, fi_bg c, fi_fg c)) (fun p => mkFill p.1.1 p.1.2 p.2) _). by intros []. Defined.
#[global] Instance xf_count : Countable xf.
Proof.
  refine (inj_countable' (fun c => ((xf_format c, xf_num c, xf_font c, xf_fill c, xf_border c),
      (xf_app_font c, xf_app_align c, xf_app_fill c, xf_app_border c, xf_app_num c, xf_app_prot c, xf_wrap c),
      (xf_halign c, xf_valign c)))
    (fun p => let '((a, b, c, d, e), (f, g, h, i, j, k, l), (m, n)) := p in mkXf a b c d e f g h i j k l m n) _). by intros [].
Defined.
Definition value_hashes : Hashes := {|
  hash_num := fun x => N.pos (encode x);
  hash_font := fun x => N.pos (encode x);
  hash_fill := fun x => N.pos (encode x);
  hash_border := fun x => N.pos (encode x);
  hash_xf := fun x => N.pos (encode x) |}.
Definition Separates {A} (h : A -> N) (l : list A) : Prop := forall x y, x ∈ l -> y ∈ l -> h x = h y -> x = y.
(** No two different entries of these tables have the same hash. *)
Definition NoCollision (H : Hashes) (st : styles) : Prop :=
  Separates hash_num (st_nums st) /\ Separates hash_font (st_fonts st) /\ Separates hash_fill (st_fills st)
  /\ Separates hash_border (st_borders st) /\ Separates hash_xf (st_style_xfs st) /\ Separates hash_xf (st_cell_xfs st).
(** No hash collision shows up while serving these requests: the entries the tables would hold, were
    they compared by value, have different hashes. *)
Definition Collisionless `{Env} (H : Hashes) (reqs : list setting) (st : styles) : Prop :=
  NoCollision H (style_run (H0 := value_hashes) reqs st).1.

(** ** Save and reopen *)
(** Values fit their Rust types. *)
Definition xf_typed (x : xf) : Prop :=
  xf_format x <= u16_max /\ xf_num x <= u16_max /\ xf_font x <= u16_max /\ xf_fill x <= u16_max /\ xf_border x <= u16_max.
Definition styles_typed (st : styles) : Prop :=
  Forall (fun n => nf_id n <= usize_max) (st_nums st)
  /\ Forall (fun f => fo_size f <= u8_max /\ fo_family f <= u32_max) (st_fonts st)
  /\ Forall xf_typed (st_style_xfs st) /\ Forall xf_typed (st_cell_xfs st).
(** What comes back. *)
Definition back_num (n : num_format) : num_format := mkNum (nf_id n) (NFBuiltin 0) (spec_escape (nf_code n)).
Definition back_color (c : color) : color := mkColor (cl_type c) (spec_escape (cl_value c)).
Definition back_font (f : font) : font :=
  mkFont (spec_escape (fo_name f)) (fo_size f) (back_color (fo_color f)) (fo_family f) (fo_scheme f)
    (fo_bold f) (fo_double f) false false.
Definition back_fill (f : fill) : fill := mkFill (fi_pattern f) (back_color <$> fi_bg f) (back_color <$> fi_fg f).
Definition back_side (b : border_side) : border_side :=
  match bd_line b with LNone => mkSide None LNone | l => mkSide (back_color <$> bd_color b) l end.
Definition back_border (b : border) : border :=
  mkBorder (back_side (bo_bottom b)) (back_side (bo_left b)) (back_side (bo_right b)) (back_side (bo_top b)) (back_side (bo_diagonal b)).
Definition back_styles (st : styles) : styles :=
  mkStyles (map back_num (st_nums st)) (map back_font (st_fonts st)) (map back_fill (st_fills st))
    (map back_border (st_borders st)) (map (fun x => set_format x 0) (st_style_xfs st)) (st_cell_xfs st).
Definition style_tags : list string := ["numFmts"; "fonts"; "fills"; "borders"; "cellStyleXfs"; "cellXfs"].
(** The style part is open, its tables taken out of the document. *)
Definition StyleOpen `{Env} (o : office) (path : string) (rest : list tree) : Prop :=
  exists p it, of_open o !! path = Some p /\ Represents (op_doc p) it
    /\ (forall k e, d_elems (op_doc p) !! k = Some e -> k <= d_running (op_doc p))
    /\ names_ok (erase it) /\ ns_ok (d_ns (op_doc p)) /\ t_value (erase it) = None /\ t_children (erase it) = rest
    /\ Forall (fun t => t_tag t ∉ style_tags) rest.
(** Settings without italic, single underline or characters that XML escapes; a side without a line has no colour. *)
Definition PlainSide (b : border_side) : Prop :=
  (bd_line b = LNone -> bd_color b = None) /\ match bd_color b with Some c => spec_escape (cl_value c) = cl_value c | None => True end.
Definition PlainSetting (s : setting) : Prop :=
  spec_escape (se_font s) = se_font s /\ se_italic s = false /\ se_underline s = false
  /\ spec_escape (cl_value (se_color s)) = cl_value (se_color s)
  /\ (forall v, se_bg s = Some v -> spec_escape v = v) /\ (forall v, se_fg s = Some v -> spec_escape v = v)
  /\ PlainSide (se_left s) /\ PlainSide (se_right s) /\ PlainSide (se_top s) /\ PlainSide (se_bottom s) /\ PlainSide (se_diagonal s).
