(** Documents and presentations over many saves. *)
From Verif.Model Require Import Excel.
Open Scope N_scope.

(** Save to a file, drop the object, open the file, again and again; each time with the readings of
    the clock, a path, and the pieces in which the operating system takes the data. [None] as soon
    as one of the calls fails. *)
Notation saving := (clock * (string * list nat))%type.
Fixpoint suite_cycles `{Env} (l : list saving) (s : suite) (fs : filesys) : option (suite * filesys) :=
  match l with
  | [] => Some (s, fs)
  | (t, (path, pieces)) :: l =>
      match suite_save t (mkFaults false false None pieces) path s fs with
      | (tr, Ok _) =>
          match last tr with
          | Some fs1 => match suite_new (Some path) fs1 with Ok s1 => suite_cycles l s1 fs1 | _ => None end
          | None => None
          end
      | _ => None
      end
  end.
