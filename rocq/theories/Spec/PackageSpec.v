(** What a package is to its user: named parts in a zip file. *)
From Verif.Model Require Import Package.
From Verif.Spec Require Import XmlSpec XmlRepr.

(** The file [path] holds a zip container with these entries. *)
Definition Stored `{Env} (fs : filesys) (path : string) (l : list (string * string)) : Prop :=
  exists b, fs !! path = Some b /\ env_unzip b = Some l.

(** Everything the library does to a package between loading and saving it: open or create a
    part, edit an open part, close it, delete it, save. *)
Inductive pkg_op :=
| POpen (init : res open_part) (path : string)
| PEdit (path : string) (f : doc -> doc)
| PClose (path : string)
| PDelete (path : string)
| PSave (f : faults) (path : string) (fs : filesys).
Definition edit_open (path : string) (f : doc -> doc) (o : office) : office :=
  match of_open o !! path with
  | Some p => set_open o (<[path := mkOpen (f (op_doc p)) (op_ct p) (op_ext p) (op_ext_type p)]> (of_open o))
  | None => o
  end.
Definition run_pkg `{Env} (op : pkg_op) (o : office) : office :=
  match op with
  | POpen init path => (get_xml_document init path o).1
  | PEdit path f => edit_open path f o
  | PClose path => (close_xml_document path o).1
  | PDelete path => (delete_document path o).1
  | PSave f path fs => (office_save f path o fs).1
  end.
Fixpoint run_pkgs `{Env} (os : list pkg_op) (o : office) : office :=
  match os with [] => o | op :: os => run_pkgs os (run_pkg op o) end.
Definition touches (name : string) (op : pkg_op) : Prop :=
  match op with
  | POpen _ p | PEdit p _ | PClose p | PDelete p => p = name
  | PSave _ _ _ => False
  end.

(** [s] is the beginning of [t]. *)
Definition Prefix (s t : string) : Prop := exists r, t = s +:+ r.
(** The only file that differs is [path]. *)
Definition OnlyAt (path : string) (fs fs' : filesys) : Prop := forall q, q <> path -> fs' !! q = fs !! q.

(** ** Content type declarations *)
Definition child_attr (t : tree) (k : string) : option string :=
  match t_attrs t with Some m => m !! k | None => None end.
(** The child of the content types root that speaks about the part [name]. *)
Definition speaks_of (name : string) (t : tree) : bool :=
  match child_attr t "PartName" with Some n => String.eqb n ("/" +:+ name) | None => false end.
Definition OverrideFor (name type : string) (t : tree) : Prop :=
  t_tag t = "Override" /\ child_attr t "PartName" = Some ("/" +:+ name) /\ child_attr t "ContentType" = Some type.
Definition DefaultFor (ext type : string) (t : tree) : Prop :=
  t_tag t = "Default" /\ child_attr t "Extension" = Some ext /\ child_attr t "ContentType" = Some type.
(** A part as the user sees it: its bytes and its declared types. *)
Definition same_part `{Env} (e e' : entry) : Prop :=
  part_bytes e' = part_bytes e /\ en_ct e' = en_ct e /\ en_ext e' = en_ext e /\ en_ext_type e' = en_ext_type e.
Definition plain_text (s : string) : Prop := sexists is_special s = false.

(** The part behind a handle that has taken all [tag] elements into its own memory: an open
    document with valid names, no text at the root, and no [tag] element left below the root. *)
Definition PartOpen `{Env} (tag : string) (o : office) (path : string) : Prop :=
  exists p it, of_open o !! path = Some p /\ Represents (op_doc p) it
    /\ (forall k e, d_elems (op_doc p) !! k = Some e -> k <= d_running (op_doc p))
    /\ names_ok (erase it) /\ ns_ok (d_ns (op_doc p)) /\ t_value (erase it) = None
    /\ t_attrs (erase it) <> None
    /\ Forall (fun t => t_tag t <> tag) (t_children (erase it)).
