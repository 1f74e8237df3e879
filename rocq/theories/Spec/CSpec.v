(** Programs that use a workbook through the C interface. *)
From Coq Require Import ZArith.
From Verif.Model Require Import Ffi.
Open Scope N_scope.

(** The calls a C program can make on a workbook, with their arguments; a null pointer is [None]. *)
Inductive c_call :=
  | KAdd (name : option string)
  | KRename (old new : option string)
  | KGet (name : option string)
  | KHide (name : option string)
  | KStyle (b : buffer fbs_setting).
(** The workbook and the sheets the program was given, of which it can release none: the interface has no call that takes one. *)
Notation c_state := (excel * list worksheet)%type.
Definition given {A} (r : option (reply A)) : list A := match r with Some r => match rp_out r with Some w => [w] | None => [] end | None => [] end.
(** One call: the state after it and the code returned; none if the process was aborted. *)
Definition c_step `{Env} `{Hashes} (k : c_call) (s : c_state) : c_state * option Z :=
  match k with
  | KAdd n => let '(x, r) := ffi_add_sheet (Some s.1) n in ((default s.1 x, s.2 ++ given r), rp_code <$> r)
  | KRename old new => let '(x, r) := ffi_rename_sheet (Some s.1) old new in ((default s.1 x, s.2), rp_code <$> r)
  | KGet n => let '(x, r) := ffi_get_sheet (Some s.1) n in ((default s.1 x, s.2 ++ given r), rp_code <$> r)
  | KHide n => let '(x, r) := ffi_hide_sheet (Some s.1) n in ((default s.1 x, s.2), rp_code <$> r)
  | KStyle b => let '(x, r) := ffi_style_id (Some s.1) b in ((default s.1 x, s.2), rp_code <$> r)
  end.
(** A program: the state after it and the codes returned. *)
Fixpoint c_run `{Env} `{Hashes} (ks : list c_call) (s : c_state) : option (c_state * list Z) :=
  match ks with
  | [] => Some (s, [])
  | k :: ks => let '(s1, z) := c_step k s in z ← z; r ← c_run ks s1; Some (r.1, z :: r.2)
  end.

(** The library call a C call stands for; none if its arguments are unusable. *)
Definition stands_for (k : c_call) : option call :=
  match k with
  | KAdd n => Some (CAdd n)
  | KRename (Some old) (Some new) => Some (CRename old new)
  | KGet (Some n) => Some (CGet n)
  | KHide (Some n) => Some (CHide n)
  | KStyle (Some (inr f)) => Some (CStyle (ffi_setting f))
  | _ => None
  end.
Definition renames (k : c_call) : Prop := match k with KRename _ _ => True | _ => False end.
