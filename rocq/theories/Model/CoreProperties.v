(** [rs/src/global/global_2007/parts/core_properties.rs] *)
From Verif.Model Require Export ShareString.
Open Scope mon_scope.

(** [parts/core_properties.xml] *)
Definition core_template : string := "<?xml version=""1.0"" encoding=""UTF-8"" standalone=""yes""?>
<cp:coreProperties
    xmlns:cp=""http://schemas.openxmlformats.org/package/2006/metadata/core-properties""
    xmlns:dc=""http://purl.org/dc/elements/1.1/""
    xmlns:dcterms=""http://purl.org/dc/terms/""
    xmlns:dcmitype=""http://purl.org/dc/dcmitype/""
    xmlns:xsi=""http://www.w3.org/2001/XMLSchema-instance"">
    <dc:creator>OpenXML-Office</dc:creator>
    <cp:lastModifiedBy>OpenXML-Office</cp:lastModifiedBy>
    <dcterms:created xsi:type=""dcterms:W3CDTF"" />
    <dcterms:modified xsi:type=""dcterms:W3CDTF"" />
</cp:coreProperties>".
(** core_properties.rs 28-41 *)
Definition core_init `{Env} : res open_part :=
  rmap (fun d => mkOpen d (Some (c_content_type c_core)) (c_ext c_core) (c_ext_type c_core))
    (read_doc core_template).
(** core_properties.rs 92-105: only the path is kept. *)
Definition core_new `{Env} : M pkg_state string :=
  path <- on_rels (part_path c_core None) ;;
  on_office (get_xml_document core_init path) ;;;
  ret path.
(** core_properties.rs 53-65, 66-80: set the text of the first matching element, if there is one
    and [only_empty] allows it. An error of the search is ignored. *)
Definition has_value (e : elem) : bool := match e_value e with Some _ => true | None => false end.
Definition stamp (only_empty : bool) (tag now : string) : M doc unit := fun d =>
  match first_element_id d ["cp:coreProperties"; tag] 0 with
  | Ok (Some id) =>
      match d_elems d !! id with
      | Some e => if only_empty && has_value e then (d, Ok tt) else set_value id now d
      | None => (d, Ok tt)
      end
  | Ok None => (d, Ok tt)
  | Err _ => (d, Ok tt)
  | Panic m => (d, Panic m)
  end.
(** core_properties.rs 43-87; [now1] and [now2] are the two readings of the clock. *)
Definition core_stamps (now1 now2 : string) : M doc unit :=
  stamp false "dcterms:modified" now1 ;;; stamp true "dcterms:created" now2.
Definition core_close `{Env} (now1 now2 path : string) : M office unit :=
  with_doc path (core_stamps now1 now2) ;;; close_xml_document path.
