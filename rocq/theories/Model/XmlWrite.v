(** [rs/src/files/xml/xml_deserialize.rs]: writing a document. *)
From Verif.Model Require Export XmlTree.

(** [quick_xml::escape::escape] (0.37): the five predefined entities. *)
Definition escape_byte (a : ascii) : string :=
  if aeqb a "<" then "&lt;"
  else if aeqb a ">" then "&gt;"
  else if aeqb a "'" then "&apos;"
  else if aeqb a "&" then "&amp;"
  else if aeqb a """" then "&quot;"
  else String a "".
Fixpoint escape (s : string) : string :=
  match s with EmptyString => "" | String a s => escape_byte a +:+ escape s end.

Definition dquote : string := """".

(** xml_deserialize.rs 120-126: a release build adds the library's own namespace. *)
Definition dvmo_uri : string := "http://schemas.draviavemal.com/openxml-office".
Definition written_ns `{Env} (ns : gmap string string) : gmap string string :=
  match env_mode with Checked => ns | Wrapping => <["dvmo" := dvmo_uri]> ns end.
(** xml_deserialize.rs 132-138 *)
Definition ns_text (kv : string * string) : string :=
  if seqb kv.1 default_ns_key then "xmlns=" +:+ dquote +:+ kv.2 +:+ dquote
  else "xmlns:" +:+ kv.1 +:+ "=" +:+ dquote +:+ kv.2 +:+ dquote.
(** xml_deserialize.rs 153 *)
Definition attr_text (kv : string * string) : string :=
  kv.1 +:+ "=" +:+ dquote +:+ escape kv.2 +:+ dquote.
(** xml_deserialize.rs 115-166 *)
Definition open_tag `{Env} (ns : option (gmap string string)) (tag : string)
    (attrs : option (gmap string string)) (close : bool) : string :=
  "<" +:+ tag
  +:+ match ns with
      | Some ns => " " +:+ join " " (map ns_text (hash_entries (written_ns ns)))
      | None => ""
      end
  +:+ match attrs with
      | Some a => " " +:+ join " " (map attr_text (sorted_entries a))
      | None => ""
      end
  +:+ (if close then " />" else " >").
Definition generate_element `{Env} (d : doc) (e : elem) (close root : bool) : string :=
  open_tag (if root then Some (d_ns d) else None) (e_tag e) (e_attrs e) close.
(** xml_deserialize.rs 168-170 *)
Definition value_close (value tag : string) : string := escape value +:+ "</" +:+ tag +:+ ">".

(** xml_deserialize.rs 58-107: the loop. [budget] is [max_count - current_count]; the code
    fails when it is used up. *)
Fixpoint write_loop `{Env} (budget : nat) (d : doc) (parent_id : N) (out : string) : res string :=
  match budget with
  | O => Err "Loop Safety Error Triggered at XML Deserialized"
  | S budget =>
      match d_elems d !! parent_id with
      | None => Err "Un know Element pull failed"
      | Some cur =>
          match e_children cur with
          | (cid, _) :: cs =>
              let d' := with_elems d (<[parent_id := set_children cur cs]> (d_elems d)) in
              match d_elems d' !! cid with
              | None => Err "Un know element ID is Pull failed"
              | Some e =>
                  if is_empty_tag e then
                    write_loop budget d' parent_id (out +:+ generate_element d' e true false)
                  else
                    let out' := out +:+ generate_element d' e false false in
                    match e_value e with
                    | Some v => write_loop budget d' parent_id (out' +:+ value_close v (e_tag e))
                    | None => write_loop budget d' cid out'
                    end
              end
          | [] =>
              if parent_id =? 0 then Ok out
              else write_loop budget d (e_parent cur) (out +:+ value_close "" (e_tag cur))
          end
      end
  end.

(** xml_deserialize.rs 43-113 *)
Definition build_xml_tree `{Env} (d : doc) (out : string) : res string :=
  let max_count := (size (d_elems d) * 2)%nat in
  match get_root d with
  | None => Ok out
  | Some root =>
      if is_empty_tag root then Ok (out +:+ generate_element d root true true)
      else
        let out' := out +:+ generate_element d root false true in
        match e_value root with
        | Some v => Ok (out' +:+ value_close v (e_tag root))
        | None =>
            rbind (write_loop max_count d 0 out') (fun out'' =>
            Ok (out'' +:+ value_close "" (e_tag root)))
        end
  end.

(** xml_deserialize.rs 15-32: the prolog, with the provenance comment of a release build. *)
Definition xml_decl : string :=
  "<?xml version=" +:+ dquote +:+ "1.0" +:+ dquote +:+ " encoding=" +:+ dquote +:+ "utf-8"
  +:+ dquote +:+ "?>".
Definition release_comment `{Env} : string :=
  "<!--<dvmo:office><dvmo:appName>draviavemal-openxml_office</dvmo:appName><dvmo:repo>https://github.com/DraviaVemal/openxml-office</dvmo:repo><dvmo:version>4.0.0-alpha.4</dvmo:version><dvmo:modified>"
  +:+ env_now +:+ "</dvmo:modified></dvmo:office>-->".
Definition prolog `{Env} : string :=
  match env_mode with Checked => xml_decl | Wrapping => xml_decl +:+ release_comment end.

(** xml_deserialize.rs 11-41 *)
Definition write_doc `{Env} (d : doc) : res string := build_xml_tree d prolog.
