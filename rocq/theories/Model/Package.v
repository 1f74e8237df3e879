(** [rs/src/files/office_document.rs]: the package. Parts are either open (an XML document that
    a part handle works on) or archived (gzip-compressed bytes). *)
From Verif.Model Require Export ContentTypes.
Open Scope mon_scope.

(** office_document.rs 18-20 *)
Record open_part := mkOpen {
  op_doc : doc;
  op_ct : option string;
  op_ext : string;
  op_ext_type : string;
}.
(** office_document.rs 21-33: file extension, extension type, content type, sizes, compression
    level, content. *)
Record entry := mkEntry {
  en_ext : string;
  en_ext_type : string;
  en_ct : option string;
  en_csize : N;
  en_usize : N;
  en_level : N;
  en_content : option string;
}.
(** office_document.rs 16-34 *)
Record office := mkOffice {
  of_open : gmap string open_part;
  of_archive : gmap string entry;
}.
Definition set_open (o : office) (m : gmap string open_part) : office := mkOffice m (of_archive o).
Definition set_archive (o : office) (m : gmap string entry) : office := mkOffice (of_open o) m.

(** file_handling.rs 7-15: gzip; the level only affects the size. *)
Definition compress_content `{Env} (s : string) : string := env_gzip s.
(** file_handling.rs 17-22 *)
Definition decompress_content `{Env} (s : string) : res string :=
  of_option "Raw Content Decompression Failed" (env_gunzip s).
Definition slen (s : string) : N := N.of_nat (String.length s).
(** The tuple built at office_document.rs 134-147 and 297-306. *)
Definition pack `{Env} (ext ext_type : string) (ct : option string) (data : string) : entry :=
  let c := compress_content data in mkEntry ext ext_type ct (slen c) (slen data) 4 (Some c).

(** office_document.rs 51-53 *)
Definition check_file_exist (o : office) (path : string) : bool :=
  match of_archive o !! path with Some _ => true | None => false end.
(** office_document.rs 55-57 *)
Definition delete_document (path : string) : M office unit :=
  modify (fun o => set_archive o (delete path (of_archive o))).
(** office_document.rs 59-79 *)
Definition get_xml_document_ref (path : string) (p : open_part) : M office unit :=
  modify (fun o => set_open o (<[path := p]> (of_open o))).
(** office_document.rs 82-110. The entry leaves the archive before it is parsed. *)
Definition get_xml_tree `{Env} (path : string) : M office (option open_part) := fun o =>
  match of_open o !! path with
  | Some _ => (o, Err "Please close the Existing object before creating new handle")
  | None =>
      match of_archive o !! path with
      | None => (o, Ok None)
      | Some e =>
          (set_archive o (delete path (of_archive o)),
           rbind (of_option "Failed To Get content vec" (en_content e)) (fun c =>
           rbind (decompress_content c) (fun data =>
           rbind (read_doc data) (fun d =>
           Ok (Some (mkOpen d (en_ct e) (en_ext e) (en_ext_type e)))))))
      end
  end.
(** traits/xml_parts.rs 19-51, given the part kind's [initialize_content_xml]. *)
Definition get_xml_document `{Env} (init : res open_part) (path : string) : M office unit :=
  found <- get_xml_tree path ;;
  p <- match found with Some p => ret p | None => lift init end ;;
  get_xml_document_ref path p.

(** office_document.rs 113-150. The document leaves the open collection before it is written. *)
Definition close_xml_document `{Env} (path : string) : M office unit := fun o =>
  match of_open o !! path with
  | None => (o, Ok tt)
  | Some p =>
      let o1 := set_open o (delete path (of_open o)) in
      match write_doc (op_doc p) with
      | Ok data =>
          (set_archive o1 (<[path := pack (op_ext p) (op_ext_type p) (op_ct p) data]> (of_archive o1)),
           Ok tt)
      | Err e => (o1, Err e)
      | Panic e => (o1, Panic e)
      end
  end.
(** office_document.rs 155-163 *)
Definition close_all `{Env} : M office unit := fun o =>
  iterM close_xml_document (env_order (map_keys (of_open o))) o.

(** office_document.rs 183-209: the parts in hash order with their bytes. *)
Definition part_bytes `{Env} (e : entry) : res string :=
  match en_content e with
  | Some c => decompress_content c
  | None => Ok ""
  end.
Definition content_types_name : string := "[Content_Types].xml".
(** office_document.rs 176-231. A duplicate entry name is an error of the zip writer; part names
    are map keys, so only the content types part itself can collide. *)
Definition save_archive `{Env} (archive : gmap string entry) : res string :=
  let parts := hash_entries archive in
  let extensions := map (fun ne : string * entry => (en_ext ne.2, en_ext_type ne.2)) parts in
  let overrides := omap (fun ne : string * entry =>
    match en_ct ne.2 with Some t => Some ("/" +:+ ne.1, t) | None => None end) parts in
  rbind (rmapM (fun ne : string * entry => rmap (fun b => (ne.1, b)) (part_bytes ne.2)) parts)
    (fun files =>
  match archive !! content_types_name with
  | Some _ => Err "Duplicate filename"
  | None =>
      rbind (create_content_types (env_order2 (remove_dups extensions)) overrides) (fun types =>
      Ok (env_zip (files ++ [(content_types_name, types)])))
  end).

(** The part of the file name after its last dot, office_document.rs 276. *)
Definition file_extension (name : string) : string :=
  match rsplit_at_byte (fun a => aeqb a ".") name with Some (_, _, r) => r | None => name end.
(** office_document.rs 273-283 *)
Definition extension_of (exts : list (string * string)) (name : string) : string * string :=
  match List.find (fun x : string * string => seqb x.1 (file_extension name)) exts with
  | Some x => x
  | None => ("", "")
  end.
(** office_document.rs 272-308 *)
Fixpoint load_files `{Env} (exts : list (string * string)) (files : list (string * string))
    (acc : gmap string entry) : M doc (gmap string entry) :=
  match files with
  | [] => ret acc
  | (name, data) :: files =>
      let x := extension_of exts name in
      ct <- get_override_content_type name ;;
      load_files exts files (<[name := pack x.1 x.2 ct data]> acc)
  end.
(** office_document.rs 234-311, from the bytes of the file. *)
Definition load_archive `{Env} (file : string) : res (gmap string entry) :=
  rbind (of_option "Archive read Failed" (env_unzip file)) (fun files =>
  match List.find (fun f : string * string => seqb f.1 content_types_name) files with
  | None => Err "Read [Content_Types].xml Failed"
  | Some (_, types) =>
      rbind (read_doc types) (fun d =>
      let names := List.filter (fun f : string * string => negb (seqb content_types_name f.1)) files in
      (bind get_extensions (fun exts => load_files exts names ∅) d).2)
  end).

(** ** The file system: path to bytes. [faults] says which calls fail, and in which pieces the
    operating system takes the data. *)
Notation filesys := (gmap string string).
Record faults := mkFaults {
  f_remove : bool;
  f_create : bool;
  f_write : option nat;          (* fail after that many pieces *)
  f_pieces : list nat;           (* sizes of the pieces; the rest goes in one piece *)
}.
Fixpoint stake (n : nat) (s : string) : string :=
  match n, s with S n, String a s => String a (stake n s) | _, _ => "" end.
Fixpoint sdrop (n : nat) (s : string) : string :=
  match n, s with O, _ => s | S n, String _ s => sdrop n s | S _, EmptyString => "" end.
(** [write_all]: the file contents after each piece; [None] as result means success. *)
Fixpoint write_pieces (sizes : list nat) (limit : option nat) (done todo : string)
  : list string * bool :=
  match limit with
  | Some O => ([], false)
  | _ =>
      let limit' := match limit with Some (S n) => Some n | _ => None end in
      match sizes with
      | [] => ([done +:+ todo], true)
      | n :: sizes =>
          let done' := done +:+ stake n todo in
          let '(l, ok) := write_pieces sizes limit' done' (sdrop n todo) in
          (done' :: l, ok)
      end
  end.
(** office_document.rs 167-172: the states the file system goes through, and the result. *)
Definition write_file (f : faults) (path bytes : string) (fs : filesys) : list filesys * res unit :=
  let existed := match fs !! path with Some _ => true | None => false end in
  if existed && f_remove f then ([], Err "Remove Save File Target Failed.")
  else
    let fs1 := delete path fs in
    let t1 := if existed then [fs1] else [] in
    if f_create f then (t1, Err "Create Save File Failed")
    else
      let '(l, ok) := write_pieces (f_pieces f) (f_write f) "" bytes in
      (t1 ++ <[path := ""]> fs1 :: map (fun b => <[path := b]> fs1) l,
       if ok then Ok tt else Err "Save File Write Failed").
(** office_document.rs 153-173: the package state afterwards, the file-system states and the
    result. *)
Definition office_save `{Env} (f : faults) (path : string) (o : office) (fs : filesys)
  : office * (list filesys * res unit) :=
  match close_all o with
  | (o1, Ok _) =>
      (o1, match save_archive (of_archive o1) with
           | Ok bytes => write_file f path bytes fs
           | Err e => ([], Err e)
           | Panic e => ([], Panic e)
           end)
  | (o1, Err e) => (o1, ([], Err e))
  | (o1, Panic e) => (o1, ([], Panic e))
  end.
(** office_document.rs 38-49 *)
Definition office_new `{Env} (file_path : option string) (fs : filesys) : res office :=
  match file_path with
  | None => Ok (mkOffice ∅ ∅)
  | Some p =>
      rbind (of_option "Open Existing archive File" (fs !! p)) (fun bytes =>
      rmap (mkOffice ∅) (load_archive bytes))
  end.
