(** What the list of sheets and the settings of a workbook mean to its user. *)
From Verif.Model Require Import Workbook.
From Verif.Spec Require Import XmlSpec XmlRepr PackageSpec RelSpec PartSpec.
Open Scope N_scope.

(** ** The sheet list *)
Definition names (l : list sheet) : list string := map sh_name l.
Definition renamed (n : string) (x : sheet) : sheet := mkSheet n (sh_rel x) (sh_active x) (sh_hidden x).
(** Everything a caller can do to the sheet list: through the workbook, or by deleting a sheet
    through a handle. *)
Inductive list_op :=
| LAdd (name : option string)
| LGet (name : string)
| LRename (old new : string)
| LDelete (w : worksheet)
| LHide (name : string)
| LActive (name : string).
Definition on_book {A} (m : M workbook A) (s : workbook * office) : workbook * office := ((m s.1).1, s.2).
Definition run_list `{Env} (op : list_op) (s : workbook * office) : workbook * office :=
  match op with
  | LAdd n => (add_sheet n s).1
  | LGet n => (get_worksheet n s).1
  | LRename a b => on_book (rename_sheet a b) s
  | LDelete w => (wb_delete_sheet w s).1
  | LHide n => on_book (hide_sheet n) s
  | LActive n => on_book (set_active_sheet n) s
  end.
Fixpoint run_lists `{Env} (ops : list list_op) (s : workbook * office) : workbook * office :=
  match ops with [] => s | op :: ops => run_lists ops (run_list op s) end.
(** A sheet by that name: nothing if there is one, else a new visible one at the end. *)
Inductive Ensured (n : string) (l : list sheet) : list sheet -> Prop :=
| Ens_old : n ∈ names l -> Ensured n l l
| Ens_new id : n ∉ names l -> Ensured n l (l ++ [mkSheet n id false false]).
(** What each operation does to the list. A sheet is known by its relationship id. *)
Inductive ListStep : list_op -> list sheet -> list sheet -> Prop :=
| St_named n l l' : Ensured n l l' -> ListStep (LAdd (Some n)) l l'
| St_get n l l' : Ensured n l l' -> ListStep (LGet n) l l'
| St_auto k id l : N.of_nat (length l) < k ->
    ListStep (LAdd None) l (l ++ [mkSheet ("sheet" +:+ show_N k) id false false])
| St_rename old new l1 x l2 : sh_name x = old -> old ∉ names l1 -> new ∉ names (l1 ++ x :: l2) ->
    ListStep (LRename old new) (l1 ++ x :: l2) (l1 ++ renamed new x :: l2)
| St_rename_not old new l : old ∉ names l \/ new ∈ names l -> ListStep (LRename old new) l l
| St_delete w l : ListStep (LDelete w) l (filter (fun x => sh_name x <> ws_name w) l)
| St_hide n l l' : Forall2 (fun x y => y = mkSheet (sh_name x) (sh_rel x) (sh_active x) (bool_decide (sh_name x = n))) l l' ->
    ListStep (LHide n) l l'
| St_active n l l' : Forall2 (fun x y => y = mkSheet (sh_name x) (sh_rel x) (bool_decide (sh_name x = n)) (sh_hidden x)) l l' ->
    ListStep (LActive n) l l'.
Inductive ListHistory : list list_op -> list sheet -> list sheet -> Prop :=
| Hist_nil l : ListHistory [] l l
| Hist_cons op ops l l1 l2 : ListStep op l l1 -> ListHistory ops l1 l2 -> ListHistory (op :: ops) l l2.

(** ** Save and reopen *)
Definition book_tags : list string := ["bookViews"; "sheets"].
(** The workbook part is open, views and sheets taken out of the document. *)
Definition BookOpen `{Env} (o : office) (path : string) (rest : list tree) : Prop :=
  exists p it, of_open o !! path = Some p /\ Represents (op_doc p) it
    /\ (forall k e, d_elems (op_doc p) !! k = Some e -> k <= d_running (op_doc p))
    /\ names_ok (erase it) /\ ns_ok (d_ns (op_doc p)) /\ t_value (erase it) = None /\ t_children (erase it) = rest
    /\ Forall (fun t => t_tag t ∉ book_tags) rest.
Definition ratio_typed (v : book_view) : Prop :=
  match bv_ratio v with Some z => (-32768 <= z <= 32767)%Z | None => True end.
(** The entry of the sheet at position [i] in the file. *)
Definition SheetEntry (i : nat) (s : sheet) (t : tree) : Prop :=
  t_tag t = "sheet" /\ child_attr t "name" = Some (sh_name s) /\ child_attr t "sheetId" = Some (show_N (N.of_nat i + 1))
  /\ child_attr t "r:id" = Some (sh_rel s) /\ child_attr t "state" = (if sh_hidden s then Some "hidden" else None).
Definition SheetsEntry (l : list sheet) (t : tree) : Prop :=
  t_tag t = "sheets" /\ length (t_children t) = length l
  /\ forall i s, l !! i = Some s -> exists c, t_children t !! i = Some c /\ SheetEntry i s c.
(** The single workbook view in the file. *)
Definition flag_text (b : bool) : string := if b then "1" else "0".
Definition ViewEntry (v : book_view) (t : tree) : Prop :=
  t_tag t = "bookViews" /\ exists c, t_children t = [c] /\ t_tag c = "workbookView"
  /\ child_attr c "activeTab" = bv_active v /\ child_attr c "firstSheet" = bv_first v
  /\ child_attr c "visibility" = bv_visibility v /\ child_attr c "minimized" = Some (flag_text (bv_min v))
  /\ child_attr c "showSheetTabs" = Some (flag_text (negb (bv_no_tabs v)))
  /\ child_attr c "showVerticalScroll" = Some (flag_text (negb (bv_no_vscroll v)))
  /\ child_attr c "showHorizontalScroll" = Some (flag_text (negb (bv_no_hscroll v)))
  /\ child_attr c "autoFilterDateGrouping" = None
  /\ (bv_group v = None -> child_attr c "tabRatio" = show_Z <$> bv_ratio v)
  /\ (forall g, bv_group v = Some g -> child_attr c "tabRatio" = Some (flag_text g)).
(** What comes back. *)
Definition book_sheet_back (s : sheet) : sheet := mkSheet (spec_escape (sh_name s)) (spec_escape (sh_rel s)) false (sh_hidden s).
Definition book_view_back (v : book_view) : book_view :=
  mkBookView (spec_escape <$> bv_active v) (spec_escape <$> bv_first v) (spec_escape <$> bv_visibility v)
    (bv_min v) (bv_no_hscroll v) (bv_no_vscroll v) (negb (bv_no_tabs v))
    (match bv_group v with Some g => Some (if g then 1%Z else 0%Z) | None => bv_ratio v end) None.

(** ** View settings *)
Inductive view_op := VVisible (b : bool) | VMinimize (b : bool) | VNoTabs (b : bool) | VNoVertical (b : bool) | VNoHorizontal (b : bool).
Definition run_view (op : view_op) (b : workbook) : workbook :=
  match op with
  | VVisible x => (set_visibility x b).1
  | VMinimize x => (minimize_workbook x b).1
  | VNoTabs x => (hide_sheet_tabs x b).1
  | VNoVertical x => (hide_vertical_scroll x b).1
  | VNoHorizontal x => (hide_horizontal_scroll x b).1
  end.
Fixpoint run_views (ops : list view_op) (b : workbook) : workbook :=
  match ops with [] => b | op :: ops => run_views ops (run_view op b) end.
(** The last value set by calls of one kind, else [old]. *)
Definition last_set {A} (kind : view_op -> option A) (ops : list view_op) (old : A) : A := default old (last (omap kind ops)).
Definition k_visible op := match op with VVisible x => Some (Some (if x then "visible" else "hidden")) | _ => None end.
Definition k_min op := match op with VMinimize x => Some x | _ => None end.
Definition k_tabs op := match op with VNoTabs x => Some x | _ => None end.
Definition k_vert op := match op with VNoVertical x => Some x | _ => None end.
Definition k_hor op := match op with VNoHorizontal x => Some x | _ => None end.
