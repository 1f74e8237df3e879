(** What relationship lists mean to a user of the package, independent of how the code searches
    them. *)
From Verif.Model Require Import Relations.
From Verif.Spec Require Import XmlSpec XmlRepr PackageSpec.

Definition rel_ids (r : relations) : list string := map r_id (rl_rels r).

(** A target is absolute ("/a/b") or relative to the folder of the owner of the relationships. *)
Inductive Resolves (folder : string) : string -> string -> Prop :=
| Res_abs p : Resolves folder (String "/" p) p
| Res_rel a t : a <> "/"%char -> Resolves folder (String a t) (folder +:+ String a t)
| Res_empty : Resolves folder "" folder.

(** The relationships of [dir/name] are kept in [dir/_rels/name.rels], those of the package in
    [_rels/.rels]. *)
Definition no_rels (s : string) : Prop := forall a b, s <> a +:+ "_rels" +:+ b.
Inductive OwnerFolder : string -> string -> Prop :=
| Own_root rest : OwnerFolder ("_rels" +:+ rest) ""
| Own_dir dir rest : no_rels dir -> OwnerFolder (dir +:+ "/_rels" +:+ rest) (dir +:+ "/").

Definition absolute (path : string) : string :=
  match path with String a s => if aeqb a "/" then path else String "/" path | EmptyString => "/" end.

(** The operations the workbook performs on a relationship list. *)
Inductive rel_op :=
| RAdd (c : content) (path name : option string)
| RLookup (ty : string) (c : content) (path name : option string)
| RDelete (path : string).
Definition run_rel (o : rel_op) (r : relations) : relations :=
  match o with
  | RAdd c p n => (set_new_relationship c p n r).1
  | RLookup ty c p n => (get_target_by_type ty c p n r).1
  | RDelete p => delete_relationship p r
  end.
Fixpoint run_rels (os : list rel_op) (r : relations) : relations :=
  match os with [] => r | o :: os => run_rels os (run_rel o r) end.

(** What a save and reopen does to a relationship: its texts are escaped. *)
Definition escaped_rel (x : rel) : rel :=
  mkRel (spec_escape (r_id x)) (spec_escape (r_target x)) (spec_escape (r_type x)) (spec_escape <$> r_mode x).
(** The part behind a relationships handle. *)
Definition RelsOpen `{Env} : office -> string -> Prop := PartOpen "Relationship".
