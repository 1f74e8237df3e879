(** What an opened workbook file says in the parts of the workbook itself, and what the file saved
    from it shows there. *)
From Verif.Model Require Import Excel.
From Verif.Spec Require Import RelSpec XmlSpec XmlRepr XmlHistory PackageSpec PartSpec SheetSpec SessionSpec FlowSpec BookSpec.
Open Scope N_scope.

Definition no_child (tag : string) (t : tree) : Prop := List.filter (fun x => String.eqb (t_tag x) tag) (t_children t) = [].
(** The elements of a part other than those with the tags given. *)
Definition others (tags : list string) (root : tree) : list tree := filter (fun t => t_tag t ∉ tags) (t_children root).

(** The bytes of a part are read as the tree [root], with the namespaces [ns] declared in it. *)
Definition ReadsIn `{Env} (data : string) (root : tree) (ns : gmap string string) : Prop :=
  exists d it, read_doc data = Ok d /\ Represents d it /\ erase it = root /\ d_ns d = ns /\ ns_ok ns.
(** The namespaces of the part are declared as before (a build for release adds one, [dvmo]). *)
Definition NsKept (ns : gmap string string) (nsl : list (string * string)) : Prop :=
  forall k v, k <> "dvmo" -> (k, v) ∈ nsl <-> ns !! k = Some v.

(** The elements [root'] has, against those of [root]: the elements of each name that is not among
    [tags] are the same, in the same order. *)
Definition RestKept (tags : list string) (root root' : tree) : Prop :=
  Permutation (others tags root') (others tags root)
  /\ (forall tag, tag ∉ tags -> List.filter (fun t => String.eqb (t_tag t) tag) (t_children root') = List.filter (fun t => String.eqb (t_tag t) tag) (t_children root)).
(** The elements of [root'] come in the order of the schema; those with names that are not in the
    schema, or are among [late], come after all others, in the order in which [root] has them. *)
Definition placed (schema late : list string) (t : tree) : Prop := t_tag t ∈ schema /\ t_tag t ∉ late.
Definition Ordered (schema late : list string) (root root' : tree) : Prop :=
  exists front, t_children root' = front ++ filter (fun t => ~ placed schema late t) (t_children root)
  /\ Forall (placed schema late) front /\ StronglySorted (fun x y => MayPrecede schema (t_tag x) (t_tag y)) front.

(** ** The workbook part *)
(** The elements of a workbook, in the order of the schema (ECMA-376 part 1, [CT_Workbook]), with
    the two that Excel writes after [workbookPr]. *)
Definition book_schema : list string :=
  ["fileVersion"; "fileSharing"; "workbookPr"; "mc:AlternateContent"; "xr:revisionPtr"; "workbookProtection"; "bookViews"; "sheets";
   "functionGroups"; "externalReferences"; "definedNames"; "calcPr"; "oleSize"; "customWorkbookViews"; "pivotCaches"; "smartTagPr";
   "smartTagTypes"; "webPublishing"; "fileRecoveryPr"; "webPublishObjects"; "extLst"].
(** One sheet of the list in the file. *)
Definition SheetSaid (x : sheet) (t : tree) : Prop :=
  child_attr t "name" = Some (sh_name x) /\ child_attr t "r:id" = Some (sh_rel x)
  /\ (sh_hidden x = true <-> child_attr t "state" = Some "hidden") /\ sh_active x = false.
Definition ListSaid (root : tree) (l : list sheet) : Prop :=
  (no_child "sheets" root /\ l = []) \/ exists ts, only_child "sheets" root ts /\ Forall2 SheetSaid l (t_children ts).
(** An attribute that is on or off; [b0] when it is not given. *)
Definition Switch (b0 : bool) (a : option string) (b : bool) : Prop :=
  (a = None /\ b = b0) \/ ((a = Some "1" \/ a = Some "true") /\ b = true) \/ ((a = Some "0" \/ a = Some "false") /\ b = false).
(** The settings of the workbook view, as the library takes them: an attribute saying that the tabs
    are shown is taken to say that they are not. *)
Record ViewSays (t : tree) (v : book_view) : Prop := {
  vs_active : child_attr t "activeTab" = bv_active v;
  vs_first : child_attr t "firstSheet" = bv_first v;
  vs_visibility : child_attr t "visibility" = bv_visibility v;
  vs_min : Switch false (child_attr t "minimized") (bv_min v);
  vs_horizontal : Switch true (child_attr t "showHorizontalScroll") (negb (bv_no_hscroll v));
  vs_vertical : Switch true (child_attr t "showVerticalScroll") (negb (bv_no_vscroll v));
  vs_tabs : Switch false (child_attr t "showSheetTabs") (bv_no_tabs v);
  vs_ratio : child_attr t "tabRatio" = show_Z <$> bv_ratio v;
  vs_range : ratio_typed v;
  vs_group : child_attr t "autoFilterDateGrouping" = None /\ bv_group v = None;
}.
Definition ViewSaid (root : tree) (view : option book_view) : Prop :=
  (no_child "bookViews" root /\ view = None)
  \/ exists ts t v, only_child "bookViews" root ts /\ t_children ts = [t] /\ ViewSays t v /\ view = Some v.
(** The workbook part of the saved file, against the root element it had in the opened one. *)
Definition BookShown `{Env} (l : list (string * string)) (path : string) (ns : gmap string string) (root : tree)
    (sheets : list sheet) (view : option book_view) : Prop :=
  exists text root' nsl ts, (forall b, (path, b) ∈ l <-> b = prolog +:+ text) /\ Renders (Some nsl) root' text /\ NsKept ns nsl
  /\ t_tag root' = t_tag root /\ t_attrs root' = t_attrs root
  /\ only_child "sheets" root' ts /\ SheetsEntry sheets ts
  /\ match view with Some v => exists tv, only_child "bookViews" root' tv /\ ViewEntry v tv | None => no_child "bookViews" root' end
  /\ RestKept book_tags root root' /\ Ordered book_schema [] root root'.

(** ** What the calls of a session mean to the workbook itself *)
(** A handle deletes under the name it was obtained with. *)
Definition list_op_of (s : session) (c : call) : option list_op :=
  match c with
  | CAdd n => Some (LAdd n)
  | CGet n => Some (LGet n)
  | CRename a b => Some (LRename a b)
  | CActive n => Some (LActive n)
  | CHide n => Some (LHide n)
  | CDelete h => LDelete <$> handle h s
  | _ => None
  end.
Fixpoint list_ops `{Env} `{Hashes} (cs : list call) (s : session) : list list_op :=
  match cs with
  | [] => []
  | c :: cs => option_list (list_op_of s c) ++ list_ops cs (call_step c s).1
  end.
Definition view_op_of (c : call) : option view_op :=
  match c with
  | CVisible b => Some (VVisible b)
  | CMinimize b => Some (VMinimize b)
  | CTabs b => Some (VNoTabs b)
  | CVScroll b => Some (VNoVertical b)
  | CHScroll b => Some (VNoHorizontal b)
  | _ => None
  end.
(** The view settings [v'] after the settings [v] and then the calls [ops]. *)
Definition ViewAfter (ops : list view_op) (v v' : option book_view) : Prop :=
  (ops = [] /\ v' = v) \/ (ops <> [] /\ exists w, v' = Some w /\ let old := default book_view_default v in
    bv_visibility w = last_set k_visible ops (bv_visibility old) /\ bv_min w = last_set k_min ops (bv_min old)
    /\ bv_no_tabs w = last_set k_tabs ops (bv_no_tabs old) /\ bv_no_vscroll w = last_set k_vert ops (bv_no_vscroll old)
    /\ bv_no_hscroll w = last_set k_hor ops (bv_no_hscroll old)
    /\ bv_active w = bv_active old /\ bv_first w = bv_first old /\ bv_ratio w = bv_ratio old /\ bv_group w = bv_group old).

(** ** The relationships of the workbook *)
Definition RelSaid (x : rel) (t : tree) : Prop :=
  child_attr t "Id" = Some (r_id x) /\ child_attr t "Target" = Some (r_target x) /\ child_attr t "Type" = Some (r_type x)
  /\ child_attr t "TargetMode" = r_mode x.
Definition RelsSaid (root : tree) (l : list rel) : Prop :=
  Forall2 RelSaid l (List.filter (fun t => String.eqb (t_tag t) "Relationship") (t_children root)).
Definition RelsShown `{Env} (l : list (string * string)) (path : string) (ns : gmap string string) (root : tree) (rels : list rel) : Prop :=
  exists text root' nsl, (forall b, (path, b) ∈ l <-> b = prolog +:+ text) /\ Renders (Some nsl) root' text /\ NsKept ns nsl
  /\ t_tag root' = t_tag root /\ t_attrs root' = t_attrs root
  /\ RelsSaid root' rels /\ others ["Relationship"] root' = others ["Relationship"] root.
(** The targets of the sheets deleted in a session. *)
Definition deleted_of (s : session) (c : call) : option string :=
  match c with CDelete h => (fun w => absolute (ws_path w)) <$> handle h s | _ => None end.
Fixpoint deleted `{Env} `{Hashes} (cs : list call) (s : session) : list string :=
  match cs with
  | [] => []
  | c :: cs => option_list (deleted_of s c) ++ deleted cs (call_step c s).1
  end.
(** The parts that a workbook has no use for when it is saved. *)
Definition unused (b : workbook) : list string :=
  (match cc_entries (wb_calc b) with [] => [absolute (cc_path (wb_calc b))] | _ => [] end)
  ++ (match ss_strings (wb_sst b) with [] => [absolute (ss_path (wb_sst b))] | _ => [] end).
Definition rel_type (kind : string) : string := "http://schemas.openxmlformats.org/officeDocument/2006/relationships/" +:+ kind.
(** The relationships the library adds to a workbook: to a part every workbook has, at its usual
    place, or to a sheet. *)
Definition usual_targets : list (string * string) :=
  [(rel_type "theme", "/xl/theme/theme1.xml"); (rel_type "sharedStrings", "/xl/sharedStrings.xml"); (rel_type "calcChain", "/xl/calcChain.xml"); (rel_type "styles", "/xl/styles.xml")].
Definition rel_added (x : rel) : Prop := ((r_type x, r_target x) ∈ usual_targets \/ r_type x = rel_type "worksheet") /\ r_mode x = None.

(** ** A part the library only passes on *)
Definition PartSame `{Env} (l : list (string * string)) (path : string) (ns : gmap string string) (root : tree) : Prop :=
  exists text nsl, (forall b, (path, b) ∈ l <-> b = prolog +:+ text) /\ Renders (Some nsl) root text /\ NsKept ns nsl.

(** ** Where the parts are *)
(** The part of type [ty] that the relationships [rels] of an owner in [folder] lead to: the target
    of the first relationship of that type, or [usual] when there is none. *)
Definition FoundBy (rels : list rel) (folder ty usual path : string) : Prop :=
  (exists l1 x l2, rels = l1 ++ x :: l2 /\ r_type x = ty /\ Forall (fun y => r_type y <> ty) l1 /\ Resolves folder (r_target x) path)
  \/ (Forall (fun y => r_type y <> ty) rels /\ path = usual).
(** The part [path] of a package lists these relationships, or is not there. *)
Definition Lists `{Env} (l0 : list (string * string)) (path : string) (rels : list rel) : Prop :=
  exists data root ns, (path, data) ∈ l0 /\ ReadsIn data root ns /\ RelsSaid root rels.
(** The parts of the workbook, from the relationships [l] of the workbook. *)
Definition BookFound (l : list rel) (folder : string) (b : workbook) : Prop :=
  FoundBy l folder (rel_type "theme") "xl/theme/theme1.xml" (wb_theme b)
  /\ FoundBy l folder (rel_type "sharedStrings") "xl/sharedStrings.xml" (ss_path (wb_sst b))
  /\ FoundBy l folder (rel_type "calcChain") "xl/calcChain.xml" (cc_path (wb_calc b))
  /\ FoundBy l folder (rel_type "styles") "xl/styles.xml" (sp_path (wb_style b)).
