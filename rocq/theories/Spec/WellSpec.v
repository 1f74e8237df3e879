(** Well-formed parts. *)
From Verif.Model Require Import XmlTree XmlWrite XmlRead.
From Verif.Spec Require Import XmlSpec XmlRepr.

(** A namespace declaration: a prefix that makes a name, or none, and a URI without markup. *)
Definition decl_ok `{Env} (kv : string * string) : Prop :=
  SafeText kv.2 /\ (kv.1 = default_ns_key \/ is_valid_xml_name ("xmlns:" +:+ kv.1) = true).
(** The text of one tree after the declaration: tags are balanced, tags and attributes have names, no
    attribute or namespace is given twice, text and values are escaped. (Characters that XML does not
    allow at all are not excluded.) *)
Definition WellFormed `{Env} (data : string) : Prop :=
  exists nsl t text, data = prolog +:+ text /\ Renders (Some nsl) t text /\ names_ok t /\ Forall decl_ok nsl /\ NoDup nsl.*1.
(** What reading these bytes gives has a root element, and its namespace declarations are fine. *)
Definition Ordinary `{Env} (data : string) : Prop :=
  forall d, read_doc data = Ok d -> is_Some (d_elems d !! 0%N) /\ forall k v, d_ns d !! k = Some v -> decl_ok (k, v).
