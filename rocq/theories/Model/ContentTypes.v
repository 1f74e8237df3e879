(** [rs/src/global/global_2007/parts/content_types.rs] *)
From Verif.Model Require Export Dictionary XmlTree XmlWrite XmlRead XmlView.
Open Scope mon_scope.

Definition attr_opt (a : option (gmap string string)) (k : string) : option string :=
  match a with Some a => a !! k | None => None end.
(** [element.get_attribute().ok_or(..)] followed by [attributes.get(k).ok_or(..)]. *)
Definition need_attr (a : option (gmap string string)) (k : string) : res string :=
  match a with
  | None => Err "attributes missing"
  | Some a => of_option ("attribute missing: " +:+ k) (a !! k)
  end.

(** content_types.rs 21-44; [None] when the list is empty. *)
Definition default_entry (a : option (gmap string string)) : res (string * string) :=
  rbind (need_attr a "Extension") (fun x =>
  rbind (need_attr a "ContentType") (fun t => Ok (x, t))).
Definition get_extensions : M doc (list (string * string)) :=
  es <- pop_elements_by_tag "Default" None ;;
  match es with
  | None => ret []
  | Some es => lift (rmapM default_entry (map e_attrs es))
  end.

(** content_types.rs 46-65: the last child with that part name; [unwrap] panics when it has no
    content type. *)
Definition get_override_content_type (file_name : string) : M doc (option string) :=
  d <- get ;;
  match ids_by_attribute d "PartName" ("/" +:+ file_name) None with
  | None => ret None
  | Some ids =>
      match last ids with
      | None => ret None
      | Some id =>
          oe <- pop_element id ;;
          match oe with
          | None => ret None
          | Some e =>
              match e_attrs e with
              | None => ret None
              | Some a =>
                  match a !! "ContentType" with
                  | Some t => ret (Some t)
                  | None => panic "called Option::unwrap() on a None value"
                  end
              end
          end
      end
  end.

(** content_types.rs 71-114 *)
Definition default_tree (xt : string * string) : tree :=
  leaf "Default" [("Extension", xt.1); ("ContentType", xt.2)].
Definition override_tree (nt : string * string) : tree :=
  leaf "Override" [("PartName", nt.1); ("ContentType", nt.2)].
Definition content_types_doc `{Env} (extensions overrides : list (string * string)) : M doc unit :=
  create_with_ns "Types" (c_namespace c_types) ;;;
  add_trees 0 (map default_tree extensions) ;;;
  add_trees 0 (map override_tree overrides).
(** content_types.rs 67-116 *)
Definition create_content_types `{Env} (extensions overrides : list (string * string))
  : res string :=
  match content_types_doc extensions overrides new_doc with
  | (d, Ok _) => write_doc d
  | (_, Err e) => Err e
  | (_, Panic e) => Panic e
  end.
