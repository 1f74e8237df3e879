(** [rs/src/spreadsheet/spreadsheet_2007/services/calculation_chain.rs] *)
From Verif.Model Require Export ShareString.
Open Scope mon_scope.

(** calculation_chain.rs 12-19: cell, sheet id, level. *)
Notation calc_entry := (string * string * option string)%type.
Record calc := mkCalc { cc_entries : list calc_entry; cc_path : string }.
(** calculation_chain.rs 73-97 *)
Definition calc_init `{Env} : res open_part := init_with_ns c_calc_chain "calcChain".
(** [attributes[k]]: panics when the key is missing. *)
Definition index_attr (a : gmap string string) (k : string) : res string :=
  match a !! k with Some v => Ok v | None => Panic ("no entry found for key " +:+ k) end.
(** calculation_chain.rs 150-157 *)
Definition calc_of_attrs (a : option (gmap string string)) : res (option calc_entry) :=
  match a with
  | None => Ok None
  | Some a =>
      rbind (index_attr a "r") (fun r =>
      rbind (index_attr a "i") (fun i => Ok (Some (r, i, a !! "l"))))
  end.
(** calculation_chain.rs 141-162 *)
Definition load_calc : M doc (list calc_entry) :=
  ts <- take_subtrees "c" ;;
  lift (rmap (omap id) (rmapM calc_of_attrs (map t_attrs (default [] ts)))).
(** calculation_chain.rs 101-118 *)
Definition calc_new `{Env} : M pkg_state calc :=
  path <- on_rels (part_path c_calc_chain None) ;;
  on_office (get_xml_document calc_init path) ;;;
  l <- on_office (with_doc path load_calc) ;;
  ret (mkCalc (default [] l) path).
(** calculation_chain.rs 41-48: the level is not written. *)
Definition calc_tree (e : calc_entry) : tree := leaf "c" [("r", e.1.1); ("i", e.1.2)].
(** calculation_chain.rs 28-71 *)
Definition calc_close `{Env} (c : calc) : M pkg_state unit :=
  match cc_entries c with
  | [] => on_rels (modify (delete_relationship (cc_path c))) ;;;
          on_office (delete_document (cc_path c))
  | l => on_office (with_doc (cc_path c) (add_trees 0 (map calc_tree l))) ;;;
         on_office (close_xml_document (cc_path c))
  end.
