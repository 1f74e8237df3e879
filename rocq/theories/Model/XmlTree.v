(** [rs/src/files/xml/xml_tree.rs]: the in-memory XML document. Elements live in a collection
    keyed by id; parents hold (id, tag) entries for their children. *)
From Verif.Model Require Export Base.

(** xml_tree.rs 326-342 ([namespace_collection_ref] is the document's own namespace map). *)
Record elem := mkElem {
  e_id : N;
  e_parent : N;
  e_tag : string;
  e_attrs : option (gmap string string);
  e_value : option string;
  e_children : list (N * string);
}.
(** xml_tree.rs 9-15 *)
Record doc := mkDoc {
  d_running : N;
  d_ns : gmap string string;
  d_elems : gmap N elem;
}.

Definition set_children (e : elem) (cs : list (N * string)) : elem :=
  mkElem (e_id e) (e_parent e) (e_tag e) (e_attrs e) (e_value e) cs.
Definition set_elem_attrs (e : elem) (a : option (gmap string string)) : elem :=
  mkElem (e_id e) (e_parent e) (e_tag e) a (e_value e) (e_children e).
Definition set_elem_value (e : elem) (v : option string) : elem :=
  mkElem (e_id e) (e_parent e) (e_tag e) (e_attrs e) v (e_children e).
Definition with_elems (d : doc) (m : gmap N elem) : doc := mkDoc (d_running d) (d_ns d) m.

(** xml_tree.rs 19-25 *)
Definition new_doc : doc := mkDoc 0 ∅ ∅.

(** xml_tree.rs 365-393 *)
Definition is_name_start_char `{Env} (c : N) : bool :=
  is_ascii_alpha c || (c =? 95) || is_alphabetic c.
Definition is_name_char `{Env} (c : N) : bool :=
  is_name_start_char c || is_ascii_digit c || (c =? 45) || (c =? 46) || (c =? 58).
Fixpoint name_tail_ok `{Env} (colons : N) (cs : list N) : bool :=
  match cs with
  | [] => true
  | c :: cs =>
      if c =? 58 then (if 1 <? colons + 1 then false else name_tail_ok (colons + 1) cs)
      else if negb (is_name_char c) then false
      else name_tail_ok colons cs
  end.
Definition is_valid_xml_name `{Env} (name : string) : bool :=
  match chars name with
  | [] => false
  | c :: cs => is_name_start_char c && name_tail_ok 0 cs
  end.

(** xml_tree.rs 346-363; id and parent are filled in by the caller. *)
Definition new_elem `{Env} (id parent : N) (tag : string) : res elem :=
  if is_valid_xml_name tag then Ok (mkElem id parent tag None None [])
  else Err "Provided Tag Name is not valid.".

(** xml_tree.rs 409-411 *)
Definition is_empty_tag (e : elem) : bool :=
  match e_children e, e_value e with [], None => true | _, _ => false end.

(** xml_tree.rs 31-33, 88-90 *)
Definition get_element (d : doc) (id : N) : option elem := d_elems d !! id.
Definition get_root (d : doc) : option elem := get_element d 0.
(** xml_tree.rs 27-29 *)
Definition element_count (d : doc) : N := N.of_nat (size (d_elems d)).

(** xml_tree.rs 99-104 *)
Definition create_root `{Env} (tag : string) : M doc N := fun d =>
  match new_elem 0 0 tag with
  | Ok e => (with_elems d (<[0 := e]> (d_elems d)), Ok 0)
  | Err m => (d, Err m)
  | Panic m => (d, Panic m)
  end.

(** Common body of xml_tree.rs 142-164, 166-188, 190-212, 214-237: create the element with the
    next id and register it with its parent through [place]. *)
Definition insert_with `{Env} (place : N -> list (N * string) -> res (list (N * string)))
    (tag : string) (parent : option N) : M doc N := fun d =>
  let pid := default 0 parent in
  match d_elems d !! pid with
  | None => (d, Err "Parent Element Not Found")
  | Some p =>
      let id := d_running d + 1 in
      match new_elem id pid tag with
      | Err m => (d, Err m)
      | Panic m => (d, Panic m)
      | Ok e =>
          match place id (e_children p) with
          | Ok cs =>
              (mkDoc id (d_ns d) (<[id := e]> (<[pid := set_children p cs]> (d_elems d))), Ok id)
          | Err m => (mkDoc id (d_ns d) (d_elems d), Err m)
          | Panic m => (mkDoc id (d_ns d) (d_elems d), Panic m)
          end
      end
  end.
(** xml_tree.rs 536-545 *)
Definition place_append (tag : string) (id : N) (cs : list (N * string)) : list (N * string) :=
  cs ++ [(id, tag)].
(** xml_tree.rs 547-566 *)
Fixpoint place_before_found (tag find_tag : string) (id : N) (cs : list (N * string))
  : option (list (N * string)) :=
  match cs with
  | [] => None
  | c :: cs' =>
      if seqb c.2 find_tag then Some ((id, tag) :: c :: cs')
      else match place_before_found tag find_tag id cs' with
           | Some r => Some (c :: r)
           | None => None
           end
  end.
Definition place_before (tag find_tag : string) (id : N) (cs : list (N * string))
  : list (N * string) :=
  match place_before_found tag find_tag id cs with Some r => r | None => (id, tag) :: cs end.
(** xml_tree.rs 568-584: after the last child with the tag. *)
Fixpoint place_after_found (tag find_tag : string) (id : N) (cs : list (N * string))
  : option (list (N * string)) :=
  match cs with
  | [] => None
  | c :: cs' =>
      match place_after_found tag find_tag id cs' with
      | Some r => Some (c :: r)
      | None => if seqb c.2 find_tag then Some (c :: (id, tag) :: cs') else None
      end
  end.
Definition place_after (tag find_tag : string) (id : N) (cs : list (N * string))
  : list (N * string) :=
  match place_after_found tag find_tag id cs with Some r => r | None => cs ++ [(id, tag)] end.
(** xml_tree.rs 586-594; [Vec::insert] panics beyond the end. *)
Definition place_at (tag : string) (pos : nat) (id : N) (cs : list (N * string))
  : res (list (N * string)) :=
  if Nat.leb pos (length cs) then Ok (take pos cs ++ (id, tag) :: drop pos cs)
  else Panic "insertion index out of range".

(** xml_tree.rs 214-237 *)
Definition append_child `{Env} (tag : string) (parent : option N) : M doc N :=
  insert_with (fun id cs => Ok (place_append tag id cs)) tag parent.
(** xml_tree.rs 142-164 *)
Definition insert_before `{Env} (tag find_tag : string) (parent : option N) : M doc N :=
  insert_with (fun id cs => Ok (place_before tag find_tag id cs)) tag parent.
(** xml_tree.rs 166-188 *)
Definition insert_after `{Env} (tag find_tag : string) (parent : option N) : M doc N :=
  insert_with (fun id cs => Ok (place_after tag find_tag id cs)) tag parent.
(** xml_tree.rs 190-212 *)
Definition insert_at `{Env} (tag : string) (pos : nat) (parent : option N) : M doc N :=
  insert_with (place_at tag pos) tag parent.

(** xml_tree.rs 35-65; [None] when nothing matches, as in the code. *)
Definition ids_by_attribute (d : doc) (key value : string) (parent : option N) : option (list N) :=
  match d_elems d !! default 0 parent with
  | None => None
  | Some p =>
      let ids := map fst (List.filter (fun c : N * string =>
        match d_elems d !! c.1 with
        | Some e => match e_attrs e with
                    | Some a => match a !! key with Some v => seqb v value | None => false end
                    | None => false
                    end
        | None => false
        end) (e_children p)) in
      match ids with [] => None | _ => Some ids end
  end.
(** xml_tree.rs 67-86 *)
Definition ids_by_tag (d : doc) (tag : string) (parent : option N) : option (list N) :=
  match d_elems d !! default 0 parent with
  | None => None
  | Some p =>
      match map fst (List.filter (fun c : N * string => seqb c.2 tag) (e_children p)) with
      | [] => None
      | ids => Some ids
      end
  end.

(** xml_tree.rs 120-124: remove the listed elements from the collection, collecting those present. *)
Fixpoint remove_elems (ids : list N) (m : gmap N elem) : list elem * gmap N elem :=
  match ids with
  | [] => ([], m)
  | i :: ids =>
      match m !! i with
      | Some e => let '(es, m') := remove_elems ids (delete i m) in (e :: es, m')
      | None => remove_elems ids m
      end
  end.
(** xml_tree.rs 107-136 *)
Definition pop_elements_by_tag (tag : string) (parent : option N) : M doc (option (list elem)) :=
  fun d =>
  let pid := default 0 parent in
  match d_elems d !! pid with
  | None => (d, Ok None)
  | Some p =>
      match ids_by_tag d tag parent with
      | None => (d, Ok None)
      | Some ids =>
          let p' := set_children p
            (List.filter (fun c : N * string => negb (seqb c.2 tag)) (e_children p)) in
          let '(es, m) := remove_elems ids (<[pid := p']> (d_elems d)) in
          (with_elems d m, Ok (match es with [] => None | _ => Some es end))
      end
  end.
(** xml_tree.rs 138-140 *)
Definition pop_element (id : N) : M doc (option elem) := fun d =>
  (with_elems d (delete id (d_elems d)), Ok (d_elems d !! id)).

(** xml_tree.rs 239-282: walk down first matching children; the path may begin with the root's
    own tag. [unwrap] on a missing element panics. *)
Fixpoint first_element_id (d : doc) (path : list string) (cur : N) : res (option N) :=
  match path with
  | [] => Ok None
  | t :: rest =>
      match d_elems d !! cur with
      | None => Panic "called Option::unwrap() on a None value"
      | Some e =>
          if seqb (e_tag e) t && (cur =? 0) then
            match rest with [] => Ok (Some cur) | _ => first_element_id d rest cur end
          else
            match List.find (fun c : N * string => seqb c.2 t) (e_children e) with
            | Some c => match rest with [] => Ok (Some c.1) | _ => first_element_id d rest c.1 end
            | None => Ok None
            end
      end
  end.
Definition get_first_element_id (path : list string) (start : option N) : M doc (option N) :=
  fun d => (d, first_element_id d path (default 0 start)).

(** xml_tree.rs 462-477. [order_map] keeps the last index of a repeated tag; tags not listed get
    [usize::MAX]; [sort_by_key] is a stable sort. *)
Fixpoint order_index_from (i : N) (skeleton : list string) (tag : string) (acc : option N)
  : option N :=
  match skeleton with
  | [] => acc
  | t :: ts => order_index_from (i + 1) ts tag (if seqb t tag then Some i else acc)
  end.
Definition order_index (skeleton : list string) (tag : string) : N :=
  default usize_max (order_index_from 0 skeleton tag None).
(** Stable insertion sort by key: what [slice::sort_by_key] computes. *)
Fixpoint insert_by {A} (key : A -> N) (a : A) (l : list A) : list A :=
  match l with
  | [] => [a]
  | b :: l' => if key a <=? key b then a :: l else b :: insert_by key a l'
  end.
Definition sort_by {A} (key : A -> N) (l : list A) : list A := foldr (insert_by key) [] l.
Definition order_child (skeleton : list string) (id : N) : M doc unit := fun d =>
  match d_elems d !! id with
  | None => (d, Ok tt)
  | Some e =>
      match e_children e, skeleton with
      | _ :: _, _ :: _ =>
          let cs := sort_by (fun c : N * string => order_index skeleton c.2) (e_children e) in
          (with_elems d (<[id := set_children e cs]> (d_elems d)), Ok tt)
      | _, _ => (d, Ok tt)
      end
  end.

(** xml_tree.rs 506-521: register the declarations [ns_keys] of [attrs]. *)
Definition default_ns_key : string := "<Default>".
Fixpoint register_ns (ns_keys : list string) (attrs ns : gmap string string)
  : gmap string string :=
  match ns_keys with
  | [] => ns
  | k :: ks =>
      let v := default "" (attrs !! k) in
      let ns' :=
        match split_byte ":" k with
        | _ :: alias :: _ => match ns !! alias with Some _ => ns | None => <[alias := v]> ns end
        | _ => <[default_ns_key := v]> ns
        end in
      register_ns ks attrs ns'
  end.
Definition is_ns_key (k : string) : bool := starts_with "xmlns" k.
(** xml_tree.rs 479-529 (keys visited in hash order). *)
Definition set_attributes `{Env} (id : N) (attrs : gmap string string) : M doc unit := fun d =>
  let keys := env_order (map_keys attrs) in
  if negb (forallb is_valid_xml_name keys) then
    (d, Err "Not All the attribute satisfy naming standards")
  else
    let ns_keys := List.filter is_ns_key keys in
    let ns := register_ns ns_keys attrs (d_ns d) in
    let kept := filter (fun kv : string * string => is_ns_key kv.1 = false) attrs in
    match d_elems d !! id with
    | None => (d, Panic "element not in the collection")
    | Some e => (mkDoc (d_running d) ns (<[id := set_elem_attrs e (Some kept)]> (d_elems d)), Ok tt)
    end.
(** xml_tree.rs 458-460 with an [insert] on the map: no effect when the element has no attribute
    map. *)
Definition insert_attribute (id : N) (k v : string) : M doc unit := fun d =>
  match d_elems d !! id with
  | Some e =>
      match e_attrs e with
      | Some a => (with_elems d (<[id := set_elem_attrs e (Some (<[k := v]> a))]> (d_elems d)), Ok tt)
      | None => (d, Ok tt)
      end
  | None => (d, Ok tt)
  end.
(** xml_tree.rs 531-534 *)
Definition set_value (id : N) (v : string) : M doc unit := fun d =>
  match d_elems d !! id with
  | None => (d, Panic "element not in the collection")
  | Some e => (with_elems d (<[id := set_elem_value e (Some v)]> (d_elems d)), Ok tt)
  end.
(** xml_tree.rs 449-456 on an element of the collection. *)
Definition pop_child (id : N) : M doc (option (N * string)) := fun d =>
  match d_elems d !! id with
  | None => (d, Ok None)
  | Some e =>
      match e_children e with
      | [] => (d, Ok None)
      | c :: cs => (with_elems d (<[id := set_children e cs]> (d_elems d)), Ok (Some c))
      end
  end.

(** Literal attribute maps ([HashMap::new] and [insert] calls). *)
Definition attrs_of (l : list (string * string)) : gmap string string :=
  foldl (fun m kv => <[kv.1 := kv.2]> m) ∅ l.
