(** What the small parts of a package mean to a user: the shared string table, the calculation
    chain and the core properties. *)
From Verif.Model Require Import ShareString CalcChain CoreProperties.
From Verif.Spec Require Import XmlSpec XmlRepr PackageSpec.

(** ** Shared strings *)
(** A cell refers to a string by the decimal position of the string in the table. *)
Definition Refers (table : list string) (ref s : string) : Prop :=
  exists i, ref = show_N i /\ table !! N.to_nat i = Some s.
(** Registering a history of strings, one after the other. *)
Fixpoint register (hist table : list string) : list string * list string :=
  match hist with
  | [] => (table, [])
  | s :: hist =>
      let '(t1, r) := get_string_id s table in
      let '(t2, rs) := register hist t1 in (t2, r :: rs)
  end.
(** The item a string becomes in the file. *)
Inductive Item (s : string) : tree -> Prop :=
| Item_intro a b : Item s (Node "si" a None [Node "t" b (Some s) []]).
(** The number of different strings. *)
Inductive Distinct : list string -> N -> Prop :=
| Distinct_nil : Distinct [] 0
| Distinct_old s l n : s ∈ l -> Distinct l n -> Distinct (s :: l) n
| Distinct_new s l n : s ∉ l -> Distinct l n -> Distinct (s :: l) (n + 1).

(** ** Calculation chain *)
Definition escaped_calc (e : calc_entry) : calc_entry := (spec_escape e.1.1, spec_escape e.1.2, None).

(** ** Core properties *)
(** The property named [tag]: the text of the first element of that name. *)
Definition property (tag : string) (t : tree) : option string :=
  match List.find (fun c => String.eqb (t_tag c) tag) (t_children t) with
  | Some c => t_value c
  | None => None
  end.
Definition has_property (tag : string) (t : tree) : Prop := exists c, c ∈ t_children t /\ t_tag c = tag.
(** [SetText tag s cs cs']: the first element named [tag] has text [s] in [cs'], and nothing else
    changed; if there is no such element nothing changed. *)
Inductive SetText (tag s : string) : list tree -> list tree -> Prop :=
| Set_here a v cs rest : SetText tag s (Node tag a v cs :: rest) (Node tag a (Some s) cs :: rest)
| Set_skip t rest rest' : t_tag t <> tag -> SetText tag s rest rest' -> SetText tag s (t :: rest) (t :: rest')
| Set_none : SetText tag s [] [].
(** A time as chrono writes it: digits and punctuation. *)
Definition time_byte (a : ascii) : bool :=
  is_digit_byte a || Ascii.eqb a "-" || Ascii.eqb a ":" || Ascii.eqb a "T" || Ascii.eqb a "Z".
Definition time_text (s : string) : Prop := s <> "" /\ sforall time_byte s = true.
(** The core properties part is open and holds the tree [t]. *)
Definition CoreOpen `{Env} (o : office) (path : string) (t : tree) : Prop :=
  exists p it, of_open o !! path = Some p /\ Represents (op_doc p) it /\ erase it = t
    /\ (forall k e, d_elems (op_doc p) !! k = Some e -> k <= d_running (op_doc p))
    /\ names_ok t /\ ns_ok (d_ns (op_doc p)) /\ t_tag t = "cp:coreProperties" /\ t_value t = None.
(** Save and reopen, once per pair of clock readings. *)
Fixpoint core_saves `{Env} (times : list (string * string)) (path : string) : M office unit :=
  match times with
  | [] => ret tt
  | (now1, now2) :: times =>
      bind (core_close now1 now2 path) (fun _ =>
      bind (get_xml_document core_init path) (fun _ => core_saves times path))
  end.
(** What a reader sees of a text. *)
Definition visible (v : option string) : option string :=
  match v with Some s => if String.eqb (trim s) "" then None else Some (trim s) | None => None end.
