(** [rs/src/spreadsheet/spreadsheet_2007/services/share_string.rs] *)
From Verif.Model Require Export Relations.
Open Scope mon_scope.

(** A part handle reaches the package and the relationships of its owner. *)
Notation pkg_state := (relations * office)%type.
Definition on_rels {A} (m : M relations A) : M pkg_state A := fun s =>
  let '(r, x) := m s.1 in ((r, s.2), x).
Definition on_office {A} (m : M office A) : M pkg_state A := fun s =>
  let '(o, x) := m s.2 in ((s.1, o), x).
(** A fresh document for a part kind whose template is only a root with a namespace. *)
Definition init_with_ns `{Env} (c : content) (tag : string) : res open_part :=
  rmap (fun d => mkOpen d (Some (c_content_type c)) (c_ext c) (c_ext_type c))
    (doc_of_m (create_with_ns tag (c_namespace c))).
(** The path of a part kind from the relationships of its owner: share_string.rs 149-166,
    calculation_chain.rs 121-140, core_properties.rs 109-126, theme.rs. *)
Definition part_path (c : content) (path : option string) : M relations string :=
  get_target_by_type (c_type c) c path None.

(** share_string.rs 16-23 *)
Record sst := mkSst { ss_strings : list string; ss_path : string }.
(** share_string.rs 99-124 *)
Definition sst_init `{Env} : res open_part := init_with_ns c_share_string "sst".
(** share_string.rs 177-183: the text of the first child; an item without children is skipped. *)
Definition si_text (t : tree) : option string :=
  match t_children t with [] => None | c :: _ => Some (default "" (t_value c)) end.
(** share_string.rs 168-188 *)
Definition load_strings : M doc (list string) :=
  ts <- take_subtrees "si" ;; ret (omap si_text (default [] ts)).
(** share_string.rs 127-146 *)
Definition sst_new `{Env} : M pkg_state sst :=
  path <- on_rels (part_path c_share_string None) ;;
  on_office (get_xml_document sst_init path) ;;;
  l <- on_office (with_doc path load_strings) ;;
  ret (mkSst (default [] l) path).

(** share_string.rs 192-205: the first position, or a new entry at the end. *)
Fixpoint position {A} (f : A -> bool) (l : list A) : option N :=
  match l with
  | [] => None
  | x :: l => if f x then Some 0 else match position f l with Some i => Some (i + 1) | None => None end
  end.
Definition get_string_id (s : string) (l : list string) : list string * string :=
  match position (fun x => seqb x s) l with
  | Some i => (l, show_N i)
  | None => (l ++ [s], show_N (N.of_nat (length l)))
  end.

(** share_string.rs 62-71 *)
Definition si_tree (s : string) : tree := Node "si" None None [Node "t" None (Some s) []].
(** share_string.rs 42-71 *)
Definition save_strings `{Env} (l : list string) : M doc unit :=
  insert_attribute 0 "count" (show_N (N.of_nat (length l))) ;;;
  insert_attribute 0 "uniqueCount" (show_N (N.of_nat (length (remove_dups l)))) ;;;
  add_trees 0 (map si_tree l).
(** share_string.rs 32-97 *)
Definition sst_close `{Env} (s : sst) : M pkg_state unit :=
  match ss_strings s with
  | [] => on_rels (modify (delete_relationship (ss_path s))) ;;;
          on_office (delete_document (ss_path s))
  | l => on_office (with_doc (ss_path s) (save_strings l)) ;;;
         on_office (close_xml_document (ss_path s))
  end.
