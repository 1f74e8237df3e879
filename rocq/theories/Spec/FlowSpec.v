(** What a user writes through a sheet handle during a session, and what the saved file shows. *)
From Verif.Model Require Import Excel.
From Verif.Spec Require Import XmlSpec XmlRepr PackageSpec PartSpec ColumnSpec SheetSpec SessionSpec.
Open Scope N_scope.

(** ** What the calls of a session say about one sheet *)
(** The handle a call is made through. *)
Definition through (c : call) : option nat :=
  match c with
  | CRow h _ _ _ | CRowRef h _ _ | CRowProps h _ _ | CCol h _ _ | CColRef h _ _ | CDrop h | CFlush h | CDelete h => Some h
  | _ => None
  end.
Definition releases (h : nat) (c : call) : Prop := c = CDrop h \/ c = CFlush h.
Definition col_arg `{Env} (p : option col_props) : Prop := match p with Some p => col_typed p | None => True end.
(** A call writes cells (the place given by numbers or by a reference), sets a row, sets a column,
    or is not made through the handle. A call releasing the handle is none of these. *)
Inductive Says `{Env} (h : nat) : call -> list sheet_op -> Prop :=
| Says_row r c cs : Says h (CRow h r c cs) [SWrite r c cs]
| Says_ref name r cs : is_word name -> word_value name <= u16_max -> r <= u32_max ->
    Says h (CRowRef h (name +:+ show_N r) cs) [SWrite r (word_value name) cs]
| Says_props r p : Says h (CRowProps h r p) [SProps r p]
| Says_col c p : c <= u16_max -> col_arg p -> Says h (CCol h c p) []
| Says_col_ref name p : is_word name -> word_value name <= u16_max -> col_arg p -> Says h (CColRef h name p) []
| Says_other c : through c <> Some h -> Says h c [].
(** All that a list of calls says about the sheet of handle [h]. *)
Inductive History `{Env} (h : nat) : list call -> list sheet_op -> Prop :=
| History_none : History h [] []
| History_more c cs op ops : Says h c op -> History h cs ops -> History h (c :: cs) (op ++ ops).

(** ** Opening a sheet again *)
(** The workbook's list of sheets leads from the name [n] to the part [q]. *)
Definition LeadsTo (s : session) (n q : string) : Prop :=
  exists x, x ∈ wb_sheets (x_book s.1) /\ sh_name x = n /\ get_target_by_id (wb_rels (x_book s.1)) (sh_rel x) = Ok (Some q).
(** One of the calls asks for a sheet whose part is [q]. *)
Definition Reopens `{Env} `{Hashes} (cs : list call) (s : session) (q : string) : Prop :=
  exists cs1 c cs2 s1 n, cs = cs1 ++ c :: cs2 /\ calls cs1 s = Some s1 /\ (c = CAdd (Some n) \/ c = CGet n) /\ LeadsTo s1 n q.
Definition rels_name (q : string) : Prop := exists dir file, q = dir +:+ "/_rels/" +:+ file +:+ ".rels".

(** ** What a file shows *)
(** The elements of a row and of a cell, found by the numbers and references they carry. *)
Definition RowAt (data : tree) (r : N) (t : tree) : Prop :=
  t ∈ t_children data /\ t_tag t = "row" /\ child_attr t "r" = Some (show_N r).
Definition CellAt (data : tree) (r c : N) (t : tree) : Prop :=
  exists row name, RowAt data r row /\ t ∈ t_children row /\ t_tag t = "c"
  /\ ColumnName c name /\ child_attr t "r" = Some (name +:+ show_N r).
(** The file shows, in the part of a sheet, the cells and rows of the history [ops]; where the
    history says nothing, it shows what the sheet [w] held before. *)
Record SheetShown (w : worksheet) (table : list string) (ops : list sheet_op) (data : tree) : Prop := {
  sn_cell : forall r c x, LastWrite r c ops (Some x) ->
    exists y t, CellStored table x y /\ CellShows y t /\ CellAt data r c t /\ (forall t', CellAt data r c t' -> t' = t);
  sn_old : forall r c y, LastWrite r c ops None -> cell_at w r c = Some y ->
    exists t, CellShows y t /\ CellAt data r c t /\ (forall t', CellAt data r c t' -> t' = t);
  sn_none : forall r c t, LastWrite r c ops None -> cell_at w r c = None -> ~ CellAt data r c t;
  sn_row : forall r p, LastProps r ops (Some p) ->
    exists t, RowShows p t /\ RowAt data r t /\ (forall t', RowAt data r t' -> t' = t);
  sn_old_row : forall r p, LastProps r ops None -> props_at w r = Some p ->
    exists t, RowShows p t /\ RowAt data r t /\ (forall t', RowAt data r t' -> t' = t);
  sn_no_row : forall r t, Forall (fun op => ~ Touches op r) ops -> ~ has_row w r -> ~ RowAt data r t;
}.
Definition PartShows `{Env} (l : list (string * string)) (part : string) (data : tree) : Prop :=
  exists text root nsl, (forall b, (part, b) ∈ l <-> b = prolog +:+ text) /\ Renders (Some nsl) root text
  /\ only_child "sheetData" root data.
(** The file has the texts of [table], in this order, in its table of strings. *)
Definition TableIn `{Env} (l : list (string * string)) (path : string) (table : list string) : Prop :=
  exists text root nsl, (forall b, (path, b) ∈ l <-> b = prolog +:+ text) /\ Renders (Some nsl) root text
  /\ Forall2 Item table (List.filter (fun t => String.eqb (t_tag t) "si") (t_children root)).

(** ** What the part of a sheet says when it is opened *)
(** The bytes of a part are read as the tree [t]. *)
Definition ReadsAs `{Env} (data : string) (t : tree) : Prop :=
  exists d it, read_doc data = Ok d /\ Represents d it /\ erase it = t /\ ns_ok (d_ns d).
(** A setting that is on, or off. *)
Definition Flag (o : option bool) (a : option string) : Prop :=
  (o = Some true /\ a = Some "1") \/ (o = None /\ (a = None \/ a = Some "0" \/ a = Some "false")).
Definition no_attrs (t : tree) : Prop := forall k, child_attr t k = None.
(** A cell element: its type (none or ["n"] for a number), its numbers, then a formula without
    settings of its own, then a value or one plain text. *)
Record CellSays (t : tree) (y : cell) : Prop := {
  cy_type : child_attr t "t" = type_code (ce_type y) \/ (child_attr t "t" = Some "n" /\ ce_type y = TNumber);
  cy_auto : ce_type y <> TAuto;
  cy_style : child_attr t "s" = show_N <$> ce_style y;
  cy_comment : child_attr t "cm" = show_N <$> ce_comment y;
  cy_meta : child_attr t "vm" = ce_meta y;
  cy_phonetic : Flag (ce_ph y) (child_attr t "ph");
  cy_content : exists fs vs, t_children t = fs ++ vs
    /\ ((fs = [] /\ ce_formula y = None) \/ exists f, fs = [f] /\ t_tag f = "f" /\ no_attrs f /\ ce_formula y = t_value f)
    /\ ((vs = [] /\ ce_value y = None)
        \/ (exists v, vs = [v] /\ t_tag v = "v" /\ ce_value y = t_value v)
        \/ (exists v x, vs = [v] /\ t_tag v = "is" /\ t_children v = [x] /\ t_tag x = "t" /\ ce_value y = t_value x));
}.
(** A row element: a height or a style of its own is marked as such. *)
Record RowSays `{Env} (t : tree) (p : row_props) : Prop := {
  ry_height : (ro_height p = None /\ child_attr t "customHeight" <> Some "1")
    \/ (exists h, ro_height p = Some h /\ is_f32 (Some h) /\ child_attr t "ht" = Some h /\ child_attr t "customHeight" = Some "1");
  ry_style : (ro_style p = None /\ child_attr t "customFormat" <> Some "1")
    \/ (exists n, ro_style p = Some n /\ child_attr t "s" = Some (show_N n) /\ child_attr t "customFormat" = Some "1");
  ry_level : (ro_level p = None /\ (child_attr t "outlineLevel" = None \/ child_attr t "outlineLevel" = Some "0"))
    \/ (exists n, ro_level p = Some n /\ 0 < n /\ child_attr t "outlineLevel" = Some (show_N n));
  ry_spans : child_attr t "spans" = ro_span p;
  ry_hidden : Flag (ro_hidden p) (child_attr t "hidden");
  ry_collapsed : Flag (ro_collapsed p) (child_attr t "collapsed");
  ry_top : Flag (ro_top p) (child_attr t "thickTop");
  ry_bottom : Flag (ro_bottom p) (child_attr t "thickBot");
  ry_phonetic : Flag (ro_ph p) (child_attr t "ph");
}.
(** The rows and cells of a sheet, each with its number or reference and no two in one place. *)
Definition CellSaid (r : N) (x : N * cell) (t : tree) : Prop :=
  (exists name, ColumnName x.1 name /\ child_attr t "r" = Some (name +:+ show_N r)) /\ x.1 <= u16_max /\ CellSays t x.2.
Definition RowSaid `{Env} (x : N * row_props * list (N * cell)) (t : tree) : Prop :=
  child_attr t "r" = Some (show_N x.1.1) /\ RowSays t x.1.2 /\ Forall2 (CellSaid x.1.1) x.2 (t_children t) /\ NoDup x.2.*1.
Definition SheetSays `{Env} (data : tree) (rows : list (N * row_props * list (N * cell))) : Prop :=
  Forall2 RowSaid rows (t_children data) /\ NoDup rows.*1.*1.
(** The file shows what the history [ops] says and, where it says nothing, the rows and cells
    [rows] that were there before. *)
Record SheetKept (rows : list (N * row_props * list (N * cell))) (table : list string) (ops : list sheet_op) (data : tree) : Prop := {
  sk_cell : forall r c x, LastWrite r c ops (Some x) ->
    exists y t, CellStored table x y /\ CellShows y t /\ CellAt data r c t /\ (forall t', CellAt data r c t' -> t' = t);
  sk_old : forall r p cs c y, (r, p, cs) ∈ rows -> (c, y) ∈ cs -> LastWrite r c ops None ->
    exists t, CellShows y t /\ CellAt data r c t /\ (forall t', CellAt data r c t' -> t' = t);
  sk_none : forall r c t, LastWrite r c ops None -> (forall p cs y, (r, p, cs) ∈ rows -> (c, y) ∉ cs) -> ~ CellAt data r c t;
  sk_row : forall r p, LastProps r ops (Some p) ->
    exists t, RowShows p t /\ RowAt data r t /\ (forall t', RowAt data r t' -> t' = t);
  sk_old_row : forall r p cs, (r, p, cs) ∈ rows -> LastProps r ops None ->
    exists t, RowShows p t /\ RowAt data r t /\ (forall t', RowAt data r t' -> t' = t);
  sk_no_row : forall r t, Forall (fun op => ~ Touches op r) ops -> (forall p cs, (r, p, cs) ∉ rows) -> ~ RowAt data r t;
}.
(** The call asks for the sheet of that name, or for a new one with an automatic name. *)
Definition asks (c : call) (name : option string) : Prop := c = CAdd name \/ exists n, name = Some n /\ c = CGet n.
(** The items of a table of strings, each with one plain text. *)
Definition TextsSaid (root : tree) (texts : list string) : Prop :=
  Forall2 (fun x t => exists c, t_children t = [c] /\ t_tag c = "t" /\ x = default "" (t_value c))
    texts (List.filter (fun t => String.eqb (t_tag t) "si") (t_children root)).
(** The table of strings of a workbook, as the file it comes from has it: there is none, or it is
    read as a tree whose root has no text of its own. *)
Definition TableSaid `{Env} (l : list (string * string)) (path : string) (texts : list string) : Prop :=
  (path ∉ l.*1 /\ texts = []) \/
  exists data root, (path, data) ∈ l /\ ReadsAs data root /\ t_value root = None /\ TextsSaid root texts.
