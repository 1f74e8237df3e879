(** [rs/src/global/global_2007/parts/relations.rs] *)
From Verif.Model Require Export Package.
Open Scope mon_scope.

(** relations.rs 11-12: id, target, type, target mode. *)
Record rel := mkRel {
  r_id : string;
  r_target : string;
  r_type : string;
  r_mode : option string;
}.
(** relations.rs 10-16 (the handles are the paths themselves). *)
Record relations := mkRelations {
  rl_rels : list rel;
  rl_path : string;
}.
Definition set_rels (r : relations) (l : list rel) : relations := mkRelations l (rl_path r).

(** Work on the open document at [path]; [None] when there is none ([Weak::upgrade] fails). *)
Definition with_doc {A} (path : string) (m : M doc A) : M office (option A) := fun o =>
  match of_open o !! path with
  | None => (o, Ok None)
  | Some p =>
      let '(d, r) := m (op_doc p) in
      (set_open o (<[path := mkOpen d (op_ct p) (op_ext p) (op_ext_type p)]> (of_open o)),
       rmap Some r)
  end.

(** relations.rs 50-70 *)
Definition doc_of_m (m : M doc unit) : res doc :=
  match m new_doc with (d, Ok _) => Ok d | (_, Err e) => Err e | (_, Panic e) => Panic e end.
Definition rels_init `{Env} : res open_part :=
  rmap (fun d => mkOpen d None (c_ext c_rels) (c_ext_type c_rels))
    (doc_of_m (create_with_ns "Relationships" (c_namespace c_rels))).

(** relations.rs 104-123 *)
Definition rel_of_attrs (a : option (gmap string string)) : res rel :=
  rbind (need_attr a "Id") (fun i =>
  rbind (need_attr a "Target") (fun t =>
  rbind (need_attr a "Type") (fun y =>
  Ok (mkRel i t y (attr_opt a "TargetMode"))))).
(** relations.rs 93-127 *)
Definition load_relations : M doc (list rel) :=
  es <- pop_elements_by_tag "Relationship" None ;;
  match es with None => ret [] | Some es => lift (rmapM rel_of_attrs (map e_attrs es)) end.
(** relations.rs 75-90 *)
Definition rels_new `{Env} (path : string) : M office relations :=
  get_xml_document rels_init path ;;;
  l <- with_doc path load_relations ;;
  ret (mkRelations (default [] l) path).

(** relations.rs 129-139; slicing inside a multi-byte character panics. *)
Fixpoint split_last (s : string) : option (string * ascii) :=
  match s with
  | EmptyString => None
  | String a s' =>
      match split_last s' with Some (l, b) => Some (String a l, b) | None => Some ("", a) end
  end.
Definition get_relative_path (r : relations) : res string :=
  match split_at_sub "_rels" (rl_path r) with
  | None => Err "Failed to string Prefix path from relation"
  | Some (before, _) =>
      match split_last before with
      | None => Ok ""
      | Some (l, a) => if is_cont a then Panic "byte index is not a char boundary" else Ok (l +:+ "/")
      end
  end.
(** relations.rs 151-158, 178-186 *)
Definition resolve_target (r : relations) (target : string) : res string :=
  rbind (get_relative_path r) (fun rp =>
  match strip_prefix "/" target with Some t => Ok t | None => Ok (rp +:+ target) end).
(** relations.rs 141-162 *)
Definition get_target_by_id (r : relations) (id : string) : res (option string) :=
  match List.find (fun x => seqb (r_id x) id) (rl_rels r) with
  | Some x => rmap Some (resolve_target r (r_target x))
  | None => Ok None
  end.
(** relations.rs 200-215. [fuel] bounds the loop; the ids in use run out after as many steps as
    there are relationships. *)
Definition rid (n : N) : string := "rId" +:+ show_N n.
Fixpoint next_rid (fuel : nat) (l : list rel) (n : N) : N :=
  match fuel with
  | O => n
  | S f => if existsb (fun x => seqb (r_id x) (rid n)) l then next_rid f l (n + 1) else n
  end.
Definition get_next_relationship_id (r : relations) : string :=
  rid (next_rid (length (rl_rels r)) (rl_rels r) (N.of_nat (length (rl_rels r)) + 1)).
(** relations.rs 188-193, 259-266 *)
Definition target_path (c : content) (path name : option string) : string :=
  default (c_path c) path +:+ "/" +:+ default (c_name c) name +:+ "." +:+ c_ext c.
(** relations.rs 252-271 *)
Definition set_new_relationship (c : content) (path name : option string) (r : relations)
  : relations * string :=
  let id := get_next_relationship_id r in
  (set_rels r (rl_rels r ++ [mkRel id ("/" +:+ target_path c path name) (c_type c) None]), id).
(** relations.rs 166-197 *)
Definition get_target_by_type (ty : string) (c : content) (path name : option string)
  : M relations string := fun r =>
  match List.find (fun x => seqb (r_type x) ty) (rl_rels r) with
  | Some x => (r, resolve_target r (r_target x))
  | None => ((set_new_relationship c path name r).1, Ok (target_path c path name))
  end.
(** relations.rs 274-283 *)
Definition delete_relationship (path : string) (r : relations) : relations :=
  let t := if starts_with "/" path then path else "/" +:+ path in
  set_rels r (List.filter (fun x => negb (seqb (r_target x) t)) (rl_rels r)).

(** relations.rs 235-242 *)
Definition rel_tree (x : rel) : tree :=
  leaf "Relationship" ([("Id", r_id x); ("Target", r_target x); ("Type", r_type x)]
            ++ match r_mode x with Some m => [("TargetMode", m)] | None => [] end).
(** relations.rs 221-249 *)
Definition save_relationships `{Env} (l : list rel) : M doc bool :=
  d <- get ;;
  match get_root d with
  | None => fail "No Root Relationship Element Found"
  | Some root =>
      add_trees 0 (map rel_tree l) ;;;
      ret (Nat.ltb 0 (length (e_children root)) || Nat.ltb 0 (length l))
  end.
(** relations.rs 26-48 *)
Definition rels_close `{Env} (r : relations) : M office unit :=
  saved <- with_doc (rl_path r) (save_relationships (rl_rels r)) ;;
  match saved with
  | None => fail "Failed to Get XML Handle"
  | Some true => close_xml_document (rl_path r)
  | Some false => delete_document (rl_path r)
  end.
