(** What stays of a sheet whatever is done with it. *)
From Verif.Model Require Import Excel.
From Verif.Spec Require Import XmlSpec XmlRepr PackageSpec SheetSpec SessionSpec FlowSpec OpenSpec.
Open Scope N_scope.

(** The elements of a sheet that the library takes apart. *)
Definition own_tags : list string := ["dimension"; "cols"; "sheetData"; "sheetViews"].
(** A tree that was written and read [n] times. *)
Definition again (n : nat) (t : tree) : tree := Nat.iter n reread t.
(** [root'] has the name, attributes and elements of [root], but for those elements, written and read [n] times. *)
Record Endures (n : nat) (root root' : tree) : Prop := {
  su_tag : t_tag root' = t_tag root;
  su_attrs : t_attrs root' = t_attrs (again n root);
  su_value : t_value root' = None;
  su_rest : RestKept own_tags (again n root) root';
}.

(** The namespaces declared are the same; a build for release adds one, [dvmo]. *)
Definition SameNs (ns ns' : gmap string string) : Prop := forall k, k <> "dvmo" -> ns' !! k = ns !! k.
(** Trees that writing and reading does not change: attribute values without special characters, text without blanks around
    it, and no elements beside text. *)
Inductive Lasting : tree -> Prop :=
| Lasting_text tag (a : gmap string string) v : map_Forall (fun _ x => plain_text x) a -> trim v = v -> v <> "" -> Lasting (Node tag (Some a) (Some v) [])
| Lasting_node tag (a : gmap string string) cs : map_Forall (fun _ x => plain_text x) a -> Forall Lasting cs -> Lasting (Node tag (Some a) None cs).

(** A file opened, worked on through the calls [cs] and saved again, and so on; [q] is never one of the parts that are opened with the file. *)
Inductive Passes `{Env} `{Hashes} (q : string) : string * filesys -> list (list call) -> string * filesys -> Prop :=
| Passes_none p : Passes q p [] p
| Passes_more file fs0 x0 cs s t f path fs tr fs' rest p : excel_new (Some file) fs0 = Ok x0 -> of_open (x_office x0) !! q = None ->
    calls cs (x0, []) = Some s -> excel_save t f path s.1 fs = (tr, Ok tt) -> last tr = Some fs' ->
    Passes q (path, fs') rest p -> Passes q (file, fs0) (cs :: rest) p.
