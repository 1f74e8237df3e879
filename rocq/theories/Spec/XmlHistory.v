(** Histories of edits on an in-memory document, and the specifications used to talk about them. *)
From Verif.Model Require Import XmlTree XmlWrite XmlRead.
From Verif.Spec Require Import XmlSpec XmlRepr.

(** One call on a document, with arbitrary arguments. *)
Inductive tree_op :=
| OpRoot (tag : string)
| OpAppend (tag : string) (parent : option N)
| OpBefore (tag find : string) (parent : option N)
| OpAfter (tag find : string) (parent : option N)
| OpAt (tag : string) (pos : nat) (parent : option N)
| OpAttrs (id : N) (attrs : gmap string string)
| OpAttr (id : N) (key value : string)
| OpValue (id : N) (value : string)
| OpPopTag (tag : string) (parent : option N)
| OpOrder (skeleton : list string) (id : N).
(** The document after the call, and the id the call handed out, if any. *)
Definition fst_res {A} (x : doc * res A) : doc * option N := (x.1, None).
Definition new_id (x : doc * res N) : doc * option N :=
  (x.1, match x.2 with Ok i => Some i | _ => None end).
Definition apply_op `{Env} (o : tree_op) (d : doc) : doc * option N :=
  match o with
  | OpRoot tag => fst_res (create_root tag d)
  | OpAppend tag p => new_id (append_child tag p d)
  | OpBefore tag f p => new_id (insert_before tag f p d)
  | OpAfter tag f p => new_id (insert_after tag f p d)
  | OpAt tag pos p => new_id (insert_at tag pos p d)
  | OpAttrs i a => fst_res (set_attributes i a d)
  | OpAttr i k v => fst_res (insert_attribute i k v d)
  | OpValue i v => fst_res (set_value i v d)
  | OpPopTag tag p => fst_res (pop_elements_by_tag tag p d)
  | OpOrder s i => fst_res (order_child s i d)
  end.
(** Run a history; the second component lists the ids handed out, oldest first. *)
Fixpoint run_ops `{Env} (os : list tree_op) (d : doc) : doc * list N :=
  match os with
  | [] => (d, [])
  | o :: os =>
      let '(d1, i) := apply_op o d in
      let '(d2, is) := run_ops os d1 in
      (d2, match i with Some i => i :: is | None => is end)
  end.

(** A document is sound when it is empty, or its reachable elements form a finite tree in which
    every child entry names an existing element with that tag and that parent, none twice. *)
Definition Sound (d : doc) : Prop := d_elems d = ∅ \/ exists t, Represents d t.

(** Where an insertion puts the new element among the children [l1 ++ l2] of its parent. *)
Definition placed (o : tree_op) (l1 l2 : list itree) : Prop :=
  match o with
  | OpAppend _ _ => l2 = []
  | OpBefore _ f _ =>
      (exists c r, l2 = c :: r /\ i_tag c = f /\ Forall (fun x => i_tag x <> f) l1)
      \/ (l1 = [] /\ Forall (fun x => i_tag x <> f) l2)
  | OpAfter _ f _ =>
      (exists c r, l1 = r ++ [c] /\ i_tag c = f /\ Forall (fun x => i_tag x <> f) l2)
      \/ (l2 = [] /\ Forall (fun x => i_tag x <> f) l1)
  | OpAt _ pos _ => length l1 = pos
  | _ => False
  end.
Definition insertion (o : tree_op) : option (string * option N) :=
  match o with
  | OpAppend t p | OpBefore t _ p | OpAfter t _ p | OpAt t _ p => Some (t, p)
  | _ => None
  end.

(** Position of a tag in an order list: its last occurrence. *)
Definition LastAt (order : list string) (tag : string) (i : nat) : Prop :=
  nth_error order i = Some tag /\ forall j, (i < j)%nat -> nth_error order j <> Some tag.
(** [x] may precede [y]: if [y] is listed then [x] is listed, at an earlier or the same place. *)
Definition MayPrecede (order : list string) (x y : string) : Prop :=
  forall j, LastAt order y j -> exists i, LastAt order x i /\ (i <= j)%nat.

(** Namespace declarations of the elements of a part, in document order. *)
(** Keys are either a proper declaration or no declaration (no attribute like xmlnsfoo). *)
Definition regular_key (k : string) : Prop :=
  starts_with "xmlns" k = true -> k = "xmlns" \/ starts_with "xmlns:" k = true.
(** The first binding of a prefix, and the last binding of the default namespace. *)
Fixpoint first_binding (key : string) (l : list (gmap string string)) : option string :=
  match l with
  | [] => None
  | m :: l => match m !! key with Some v => Some v | None => first_binding key l end
  end.
Definition last_binding (key : string) (l : list (gmap string string)) : option string :=
  first_binding key (rev l).

(** The tokens of a byte sequence: one event after the other until the end of input. *)
Inductive Tokens : string -> list event -> Prop :=
| Tokens_eof s r : read_event s = Ok (EvEof, r) -> Tokens s []
| Tokens_step s ev r evs : read_event s = Ok (ev, r) -> ev <> EvEof -> Tokens r evs ->
    Tokens s (ev :: evs).
Definition tag_attrs (ev : event) : option (gmap string string) :=
  match ev with
  | EvStart _ raw | EvEmpty _ raw =>
      match get_attributes raw with Ok m => Some m | _ => None end
  | _ => None
  end.

(** [Cycles n d d']: [d'] is what [n] times writing and reading back makes of [d]. *)
Inductive Cycles `{Env} : nat -> doc -> doc -> Prop :=
| Cycles_0 d : Cycles 0 d d
| Cycles_S n d bytes d1 d2 :
    write_doc d = Ok bytes -> read_doc bytes = Ok d1 -> Cycles n d1 d2 -> Cycles (S n) d d2.
