(** Which content type a file gives to one of its parts. *)
From Verif.Model Require Import Excel.
From Verif.Spec Require Import XmlSpec XmlRepr PackageSpec OpenSpec.
Open Scope N_scope.

(** [ext] is what follows the last dot in the name of a part. *)
Definition Extension (q ext : string) : Prop := (exists base, q = base +:+ "." +:+ ext) /\ (forall a b, ext <> a +:+ "." +:+ b).
(** The content types with root [root] declare a type for the part [q] itself, once. *)
Definition TypedByName (root : tree) (q ty : string) : Prop := exists c, List.filter (speaks_of q) (t_children root) = [c] /\ OverrideFor q ty c.
(** They do not speak of the part [q], but declare a type for its extension, and only one. *)
Definition TypedByExtension (root : tree) (q ext ty : string) : Prop :=
  List.filter (speaks_of q) (t_children root) = [] /\ Extension q ext /\ (exists c, c ∈ t_children root /\ DefaultFor ext ty c)
  /\ forall c ty', c ∈ t_children root -> DefaultFor ext ty' c -> ty' = ty.
(** The types under which the library knows its own extensions. *)
Definition OwnExtension (ext ty : string) : Prop :=
  (ext = "xml" -> ty = "application/xml") /\ (ext = "rels" -> ty = "application/vnd.openxmlformats-package.relationships+xml").
(** The file at [path] has content types with root [root]. *)
Definition TypesAt `{Env} (fs : filesys) (path : string) (root : tree) : Prop :=
  exists l types ns, Stored fs path l /\ (content_types_name, types) ∈ l /\ ReadsIn types root ns.
