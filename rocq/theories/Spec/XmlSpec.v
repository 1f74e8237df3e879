(** Specification of XML documents, independent of the arena, the writer loop and the reader:
    a document is a rose tree; its text is the depth-first rendering of the tree. *)
From Verif.Model Require Import Base.

Inductive tree : Type :=
| Node (tag : string) (attrs : option (gmap string string)) (value : option string)
       (children : list tree).
Definition t_tag (t : tree) : string := let 'Node g _ _ _ := t in g.
Definition t_attrs (t : tree) : option (gmap string string) := let 'Node _ a _ _ := t in a.
Definition t_value (t : tree) : option string := let 'Node _ _ v _ := t in v.
Definition t_children (t : tree) : list tree := let 'Node _ _ _ c := t in c.

(** Induction with the hypothesis for every child. *)
Definition tree_rect' (P : tree -> Prop)
    (H : forall g a v cs, Forall P cs -> P (Node g a v cs)) : forall t, P t :=
  fix go t := match t with
  | Node g a v cs =>
      H g a v cs ((fix gol l : Forall P l :=
        match l with [] => List.Forall_nil _ | c :: l => List.Forall_cons _ _ _ (go c) (gol l) end) cs)
  end.

(** ** Text *)
(** The five characters that are special in XML and their entities. *)
Definition entity_of (a : ascii) : option string :=
  if Ascii.eqb a "<" then Some "&lt;"
  else if Ascii.eqb a ">" then Some "&gt;"
  else if Ascii.eqb a "&" then Some "&amp;"
  else if Ascii.eqb a "'" then Some "&apos;"
  else if Ascii.eqb a """" then Some "&quot;"
  else None.
Fixpoint spec_escape (s : string) : string :=
  match s with
  | EmptyString => ""
  | String a s => match entity_of a with
                  | Some e => e +:+ spec_escape s
                  | None => String a (spec_escape s)
                  end
  end.
Definition is_special (a : ascii) : bool := match entity_of a with Some _ => true | None => false end.

(** White space as XML defines it. *)
Definition xml_space (a : ascii) : bool :=
  Ascii.eqb a " " || Ascii.eqb a "009" || Ascii.eqb a "010" || Ascii.eqb a "013".
Fixpoint trim_left (s : string) : string :=
  match s with String a s' => if xml_space a then trim_left s' else s | EmptyString => "" end.
Fixpoint all_space (s : string) : bool :=
  match s with String a s' => xml_space a && all_space s' | EmptyString => true end.
Fixpoint trim_right (s : string) : string :=
  match s with
  | String a s' => if all_space s then "" else String a (trim_right s')
  | EmptyString => ""
  end.
Definition trim (s : string) : string := trim_right (trim_left s).

(** ** Rendering *)
Definition quoted (s : string) : string := """" +:+ s +:+ """".
Definition spec_attr (kv : string * string) : string := kv.1 +:+ "=" +:+ quoted (spec_escape kv.2).
(** Namespace declarations: the key <Default> stands for the default namespace. *)
Definition spec_ns (kv : string * string) : string :=
  (if String.eqb kv.1 "<Default>" then "xmlns" else "xmlns:" +:+ kv.1) +:+ "=" +:+ quoted kv.2.
Fixpoint spaced (l : list string) : string :=
  match l with [] => "" | [a] => a | a :: l => a +:+ " " +:+ spaced l end.

(** [AttrOrder m l]: [l] lists the entries of [m] in ascending key order. *)
Definition AttrOrder (m : gmap string string) (l : list (string * string)) : Prop :=
  Permutation l (map_to_list m) /\ StronglySorted (fun x y => str_leb x.1 y.1 = true) l.
Inductive Head : option (list (string * string)) -> string -> option (gmap string string) -> string -> Prop :=
| Head_intro nsl tag attrs al :
    match attrs with Some m => AttrOrder m al | None => al = [] end ->
    Head nsl tag attrs
      ("<" +:+ tag
       +:+ match nsl with Some l => " " +:+ spaced (map spec_ns l) | None => "" end
       +:+ match attrs with Some _ => " " +:+ spaced (map spec_attr al) | None => "" end).
(** [Renders nsl t s]: [s] is the text of [t], with namespace declarations [nsl] in its tag. *)
Inductive Renders : option (list (string * string)) -> tree -> string -> Prop :=
| Renders_empty nsl tag attrs h :
    Head nsl tag attrs h ->
    Renders nsl (Node tag attrs None []) (h +:+ " />")
| Renders_value nsl tag attrs v cs h :
    Head nsl tag attrs h ->
    Renders nsl (Node tag attrs (Some v) cs) (h +:+ " >" +:+ spec_escape v +:+ "</" +:+ tag +:+ ">")
| Renders_children nsl tag attrs c cs h body :
    Head nsl tag attrs h ->
    RendersAll (c :: cs) body ->
    Renders nsl (Node tag attrs None (c :: cs)) (h +:+ " >" +:+ body +:+ "</" +:+ tag +:+ ">")
with RendersAll : list tree -> string -> Prop :=
| RendersAll_nil : RendersAll [] ""
| RendersAll_cons t ts s ss :
    Renders None t s -> RendersAll ts ss -> RendersAll (t :: ts) (s +:+ ss).

(** What a save and reopen does to a tree: attribute values come back escaped, text is trimmed
    (empty text is no text), an element with text loses its children, every element has an
    attribute map. *)
Fixpoint reread (t : tree) : tree :=
  match t with
  | Node tag attrs v cs =>
      let attrs' := Some (spec_escape <$> default ∅ attrs) in
      match v with
      | Some s => Node tag attrs' (if String.eqb (trim s) "" then None else Some (trim s)) []
      | None => Node tag attrs' None (map reread cs)
      end
  end.

(** ** Trees with element ids, and what it means for an arena to hold one *)
Inductive itree : Type :=
| INode (id : N) (tag : string) (attrs : option (gmap string string)) (value : option string)
        (children : list itree).
Definition i_id (t : itree) : N := let 'INode i _ _ _ _ := t in i.
Definition i_tag (t : itree) : string := let 'INode _ g _ _ _ := t in g.
Definition itree_rect' (P : itree -> Prop)
    (H : forall i g a v cs, Forall P cs -> P (INode i g a v cs)) : forall t, P t :=
  fix go t := match t with
  | INode i g a v cs =>
      H i g a v cs ((fix gol l : Forall P l :=
        match l with [] => List.Forall_nil _ | c :: l => List.Forall_cons _ _ _ (go c) (gol l) end) cs)
  end.
Fixpoint erase (t : itree) : tree :=
  match t with INode _ g a v cs => Node g a v (map erase cs) end.
Fixpoint ids (t : itree) : list N :=
  match t with INode i _ _ _ cs => i :: flat_map ids cs end.
