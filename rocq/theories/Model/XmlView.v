(** The way every part reads and writes its share of the document: it removes the subtrees under
    one tag of the root and decodes them, and at close appends or inserts freshly built subtrees.
    [tree] (Spec/XmlSpec.v) is only used as the data type of such subtrees. *)
From Verif.Model Require Export XmlTree.
From Verif.Spec Require Export XmlSpec.
Open Scope mon_scope.

(** The subtree of an element taken out of the collection: the loops over [pop_child_mut] and
    [pop_element_mut] in the loaders. SIMPL: the code also drops the visited elements from the
    collection; they are unreachable either way. [fuel] bounds the depth. *)
Fixpoint subtree (fuel : nat) (m : gmap N elem) (e : elem) : res tree :=
  match fuel with
  | O => Err "element not found"
  | S f =>
      rbind (rmapM (fun c : N * string =>
               match m !! c.1 with
               | Some x => subtree f m x
               | None => Err "element not found"
               end) (e_children e)) (fun cs =>
      Ok (Node (e_tag e) (e_attrs e) (e_value e) cs))
  end.
(** [pop_elements_by_tag_mut(tag, None)] and the subtrees of the result. *)
Definition take_subtrees (tag : string) : M doc (option (list tree)) :=
  es <- pop_elements_by_tag tag None ;;
  match es with
  | None => ret None
  | Some es => d <- get ;; lift (rmap Some (rmapM (subtree (S (size (d_elems d))) (d_elems d)) es))
  end.

(** [append_child_mut], [set_attribute_mut], [set_value_mut], children depth-first. *)
Fixpoint fill `{Env} (id : N) (t : tree) : M doc unit :=
  match t with
  | Node _ a v cs =>
      match a with Some m => set_attributes id m | None => ret tt end ;;;
      match v with Some s => set_value id s | None => ret tt end ;;;
      (fix go l := match l with
                   | [] => ret tt
                   | c :: l => (i <- append_child (t_tag c) (Some id) ;; fill i c) ;;; go l
                   end) cs
  end.
Definition add_tree `{Env} (parent : N) (t : tree) : M doc unit :=
  i <- append_child (t_tag t) (Some parent) ;; fill i t.
Definition add_trees `{Env} (parent : N) (l : list tree) : M doc unit := iterM (add_tree parent) l.
(** [insert_children_after_tag_mut(tag, find, None)] and its content. *)
Definition insert_tree_after `{Env} (find : string) (t : tree) : M doc unit :=
  i <- insert_after (t_tag t) find None ;; fill i t.
(** [insert_children_before_tag_mut] *)
Definition insert_tree_before `{Env} (find : string) (t : tree) : M doc unit :=
  i <- insert_before (t_tag t) find None ;; fill i t.

(** An element with literal attributes and nothing in it. *)
Definition leaf (tag : string) (attrs : list (string * string)) : tree :=
  Node tag (Some (attrs_of attrs)) None [].
(** [XmlDocument::new], [create_root_mut] and its [xmlns] attribute (content_types.rs 71-80,
    relations.rs 50-66). *)
Definition create_with_ns `{Env} (tag uri : string) : M doc unit :=
  id <- create_root tag ;; set_attributes id (attrs_of [("xmlns", uri)]).
