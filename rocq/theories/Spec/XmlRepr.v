(** When an in-memory document (the arena) represents a tree. *)
From Verif.Model Require Import XmlTree.
From Verif.Spec Require Export XmlSpec.

(** Decidable equality, for the examples. *)
Global Instance elem_eq_dec : EqDecision elem.
Proof. solve_decision. Defined.
Global Instance doc_eq_dec : EqDecision doc.
Proof. solve_decision. Defined.
Global Instance res_eq_dec {A} `{EqDecision A} : EqDecision (res A).
Proof. solve_decision. Defined.

Definition child_entry (t : itree) : N * string := (i_id t, i_tag t).
(** All (id, element) pairs of a tree whose root hangs below [parent]. *)
Fixpoint flat (parent : N) (t : itree) : list (N * elem) :=
  match t with
  | INode i g a v cs =>
      (i, mkElem i parent g a v (map child_entry cs)) :: flat_map (flat i) cs
  end.
Definition Holds (m : gmap N elem) (parent : N) (t : itree) : Prop :=
  Forall (fun p => m !! p.1 = Some p.2) (flat parent t).
(** The document [d] represents [t]: its root has id 0, all ids are distinct, and every node is
    stored with its parent link and child entries. Other, unreachable elements may exist. *)
Definition Represents (d : doc) (t : itree) : Prop :=
  i_id t = 0 /\ NoDup (ids t) /\ Holds (d_elems d) 0 t.

(** Valid documents: names accepted by the library, attribute keys that are no namespace
    declarations, namespace URIs without a double quote. *)
Definition attrs_ok `{Env} (a : option (gmap string string)) : Prop :=
  match a with
  | Some m => map_Forall (fun k _ => is_valid_xml_name k = true /\ is_ns_key k = false) m
  | None => True
  end.
Fixpoint names_ok `{Env} (t : tree) : Prop :=
  match t with
  | Node g a v cs =>
      is_valid_xml_name g = true /\ attrs_ok a
      /\ (fix go l := match l with [] => True | c :: l => names_ok c /\ go l end) cs
  end.
Definition has_no_dquote (s : string) : bool := negb (sexists (fun a => aeqb a """") s).
Definition ns_ok `{Env} (ns : gmap string string) : Prop :=
  map_Forall (fun k v =>
    has_no_dquote v = true
    /\ (k = default_ns_key
        \/ (is_valid_xml_name ("xmlns:" +:+ k) = true))) ns.

(** [Sub p t q n]: [n] is a subtree of [t] hanging below [q], when [t] hangs below [p]. *)
Inductive Sub : N -> itree -> N -> itree -> Prop :=
| Sub_here p t : Sub p t p t
| Sub_child p i g a v cs c q n : c ∈ cs -> Sub i c q n -> Sub p (INode i g a v cs) q n.

(** Replace the subtree with id [i]. *)
Fixpoint subst (i : N) (n' : itree) (t : itree) : itree :=
  match t with
  | INode j g a v cs => if j =? i then n' else INode j g a v (map (subst i n') cs)
  end.

(** The element at a path of child positions. Below an element with text nothing is written, so
    nothing is addressed there. *)
Fixpoint at_path (p : list nat) (t : tree) : option tree :=
  match p with
  | [] => Some t
  | n :: p => match t with
              | Node _ _ None cs => match nth_error cs n with Some c => at_path p c | None => None end
              | Node _ _ (Some _) _ => None
              end
  end.
Definition attr_at (p : list nat) (k : string) (t : tree) : option string :=
  match at_path p t with
  | Some (Node _ (Some a) _ _) => a !! k
  | _ => None
  end.
(** Text without markup: no special character except as part of one of the five entities. *)
Inductive SafeText : string -> Prop :=
| Safe_nil : SafeText ""
| Safe_plain a s : is_special a = false -> SafeText s -> SafeText (String a s)
| Safe_entity e s : e ∈ ["&lt;"; "&gt;"; "&amp;"; "&apos;"; "&quot;"] -> SafeText s -> SafeText (e +:+ s).
