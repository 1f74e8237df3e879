(** What a call concerns: which calls have nothing to do with each other. *)
From Verif.Model Require Import Excel.
From Verif.Spec Require Import SessionSpec FlowSpec InventorySpec.

(** The things of a session. *)
Inductive thing :=
  | TNames            (* the list of the sheets *)
  | TWindow           (* the settings of the window *)
  | TStyles           (* the table of styles *)
  | TTexts            (* the texts of the workbook *)
  | TContent (h : nat) (* what the sheet of this handle holds *)
  | TPart (h : nat)    (* the stored parts of the sheet of this handle *)
  | TParts.            (* all stored parts *)
(** What a call reads or changes. *)
Definition touches (c : call) : list thing :=
  match c with
  | CAdd _ | CGet _ => [TNames; TParts]
  | CRename _ _ | CActive _ | CHide _ => [TNames]
  | CVisible _ | CMinimize _ | CTabs _ | CVScroll _ | CHScroll _ => [TWindow]
  | CStyle _ => [TStyles]
  | CRow h _ _ cs | CRowRef h _ cs => TContent h :: (if existsb shares cs then [TTexts] else [])
  | CRowProps h _ _ | CCol h _ _ | CColRef h _ _ => [TContent h]
  | CDrop h | CFlush h => [TContent h; TPart h]
  | CDelete h => [TNames; TContent h; TPart h]
  end.
Definition overlap (a b : thing) : bool :=
  match a, b with
  | TNames, TNames | TWindow, TWindow | TStyles, TStyles | TTexts, TTexts => true
  | TContent h, TContent k | TPart h, TPart k => Nat.eqb h k
  | TParts, TParts | TParts, TPart _ | TPart _, TParts => true
  | _, _ => false
  end.
(** The two calls concern different things. *)
Definition separate (c1 c2 : call) : bool := forallb (fun a => forallb (fun b => negb (overlap a b)) (touches c2)) (touches c1).
(** If the call is made through a handle, it is one of the first [n]. *)
Definition Early (n : nat) (c : call) : Prop := forall h, through c = Some h -> (h < n)%nat.
(** The two calls concern different things; and if one of them opens a sheet, the other does not wait for it. *)
Definition Independent (n : nat) (c1 c2 : call) : Prop :=
  separate c1 c2 = true /\ (opens c1 -> Early n c2) /\ (opens c2 -> Early n c1).

(** A list of things each of which belongs to one of two sides; those of one side. *)
Definition side {A} (b : bool) (m : list (bool * A)) : list A := map snd (List.filter (fun x => Bool.eqb (fst x) b) m).

(** One list of calls is another one in which independent neighbours have changed places, any number of times. *)
Inductive Rearranged `{Env} `{Hashes} (s : session) : list call -> list call -> Prop :=
| Re_same cs : Rearranged s cs cs
| Re_swap cs1 c1 c2 cs2 s1 : calls cs1 s = Some s1 -> Independent (length s1.2) c1 c2 ->
    Rearranged s (cs1 ++ c1 :: c2 :: cs2) (cs1 ++ c2 :: c1 :: cs2)
| Re_trans cs cs' cs'' : Rearranged s cs cs' -> Rearranged s cs' cs'' -> Rearranged s cs cs''.

(** ** Calls that fail *)
(** The calls that get no sheet, store no sheet and delete none. *)
Definition plain_call (c : call) : bool := match c with CAdd _ | CGet _ | CFlush _ | CDelete _ => false | _ => true end.
(** The calls for which the library has no error. *)
Definition never_fails (c : call) : bool :=
  match c with
  | CActive _ | CHide _ | CVisible _ | CMinimize _ | CTabs _ | CVScroll _ | CHScroll _ | CRow _ _ _ _ | CRowProps _ _ _ | CCol _ _ _ | CDrop _ => true
  | _ => false
  end.
(** The packages differ at most in these parts. *)
Definition SameBut (ps : list string) (o o' : office) : Prop :=
  forall q, q ∉ ps -> of_open o' !! q = of_open o !! q /\ of_archive o' !! q = of_archive o !! q.
(** The sessions differ at most in the list of sheets with their relationships, in the handles, and in these parts. *)
Record Aside (ps : list string) (s s1 : session) : Prop := {
  as_parts : SameBut ps (x_office s.1) (x_office s1.1);
  as_root : su_root (x_suite s1.1) = su_root (x_suite s.1) /\ su_core (x_suite s1.1) = su_core (x_suite s.1);
  as_view : wb_view (x_book s1.1) = wb_view (x_book s.1);
  as_styles : wb_style (x_book s1.1) = wb_style (x_book s.1);
  as_texts : wb_sst (x_book s1.1) = wb_sst (x_book s.1);
  as_rest : wb_path (x_book s1.1) = wb_path (x_book s.1) /\ wb_theme (x_book s1.1) = wb_theme (x_book s.1) /\ wb_calc (x_book s1.1) = wb_calc (x_book s.1);
}.
