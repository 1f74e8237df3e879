(** What it means that a file the library has written can be opened and worked on again. *)
From Verif.Model Require Import Excel.
From Verif.Spec Require Import RelSpec XmlSpec XmlRepr PackageSpec PartSpec SheetSpec StyleSpec SessionSpec FlowSpec BookSpec OpenSpec.
Open Scope N_scope.

(** A part that can be read again after it was written: an element with other elements in it and
    no text of its own. *)
Definition Sturdy `{Env} (data : string) : Prop := exists root ns, ReadsIn data root ns /\ t_value root = None /\ t_children root <> [].
(** The parts every workbook has. *)
Definition root_part : string := "_rels/.rels".
Definition basic_parts (x : excel) : list string :=
  [root_part; wb_path (x_book x); rl_path (wb_rels (x_book x)); wb_theme (x_book x); cc_path (wb_calc (x_book x)); sp_path (wb_style (x_book x))].
Definition other_parts (x : excel) : list string := [su_core (x_suite x); ss_path (wb_sst (x_book x))].
(** A file the workbook [x] was opened from, in which the parts the library reads are in order:
    their names are without the five characters XML escapes, each of them can be read again after
    it was written, and all but the document properties and the shared strings are there. *)
Record Orderly `{Env} (l : list (string * string)) (x : excel) : Prop := {
  or_plain : forall q, q ∈ basic_parts x ++ other_parts x -> plain_text q;
  or_types : content_types_name ∉ basic_parts x ++ other_parts x;
  or_there : forall q, q ∈ basic_parts x -> q ∈ l.*1;
  or_sturdy : forall q data, q ∈ basic_parts x ++ other_parts x -> (q, data) ∈ l -> Sturdy data;
  or_core : forall data root ns, (su_core (x_suite x), data) ∈ l -> ReadsIn data root ns -> t_tag root = "cp:coreProperties";
  or_folder : exists folder, OwnerFolder (rl_path (wb_rels (x_book x))) folder;
}.
(** No sheet is deleted to which a relationship leads that is also the one of a part every
    workbook has. *)
Definition own_types : list string := map c_type [c_theme; c_share_string; c_calc_chain; c_style].
Definition Spared `{Env} (x : excel) (gone : list string) : Prop :=
  forall r, r ∈ rl_rels (wb_rels (x_book x)) -> r_type r ∈ own_types -> r_target r ∉ gone.
(** Font sizes fit into a byte, as their type says. *)
Definition sized (c : call) : Prop := match c with CStyle s => se_size s <= u8_max | _ => True end.

(** The workbook [x1] is [x] after saving and opening: the parts are where they were, and what the
    library knows of them is what it was, up to the losses that single parts have. *)
Record Reopened (x x1 : excel) : Prop := {
  re_parts : basic_parts x1 ++ other_parts x1 = basic_parts x ++ other_parts x;
  re_sheets : wb_sheets (x_book x1) = map book_sheet_back (wb_sheets (x_book x));
  re_view : wb_view (x_book x1) = book_view_back <$> wb_view (x_book x);
  re_strings : ss_strings (wb_sst (x_book x1)) = map trim (ss_strings (wb_sst (x_book x)));
  re_chain : cc_entries (wb_calc (x_book x1)) = map escaped_calc (cc_entries (wb_calc (x_book x)));
  re_styles : sp_styles (wb_style (x_book x1)) = back_styles (sp_styles (wb_style (x_book x)));
  re_rels : rl_rels (wb_rels (x_book x1)) = map escaped_rel (rl_rels (wb_rels (x_book x)));
  re_root : rl_rels (su_root (x_suite x1)) = map escaped_rel (rl_rels (su_root (x_suite x)));
}.

(** One round of work on a workbook: some calls, then saving at a path. *)
Record round := mkRound { ro_calls : list call; ro_clock : clock; ro_faults : faults; ro_path : string }.
(** The round [r] on the workbook [x] ends with the session [s] and the files [fs1], and the save
    reports success. *)
Definition Worked `{Env} `{Hashes} (r : round) (x : excel) (fs : filesys) (s : session) (fs1 : filesys) : Prop :=
  calls (ro_calls r) (x, []) = Some s
  /\ exists tr, excel_save (ro_clock r) (ro_faults r) (ro_path r) s.1 fs = (tr, Ok tt) /\ last tr = Some fs1.
(** In the round [r], too, what the workbook has is kept: it has texts when it is saved. *)
Definition Sound `{Env} `{Hashes} (r : round) (x : excel) (s : session) : Prop :=
  Forall sized (ro_calls r) /\ Spared x (deleted (ro_calls r) (x, [])) /\ ss_strings (wb_sst (x_book s.1)) <> [].
(** Rounds one after the other, each on the file the one before has written. *)
Inductive Rounds `{Env} `{Hashes} : list round -> excel -> filesys -> excel -> filesys -> Prop :=
| Rounds_none x fs : Rounds [] x fs x fs
| Rounds_more r rs x fs s fs1 x1 x2 fs2 : Worked r x fs s fs1 -> Sound r x s -> excel_new (Some (ro_path r)) fs1 = Ok x1 ->
    Rounds rs x1 fs1 x2 fs2 -> Rounds (r :: rs) x fs x2 fs2.
