(** Which calls end a program. *)
From Verif.Model Require Import Excel.
From Verif.Spec Require Import XmlRepr ColumnSpec RelSpec SessionSpec.
Open Scope N_scope.

(** The first member of [l] for which [P] holds comes after [l1]. *)
Definition FirstAfter {A} (P : A -> Prop) (l l1 : list A) (x : A) : Prop := exists l2, l = l1 ++ x :: l2 /\ P x /\ Forall (fun y => ~ P y) l1.
Definition First {A} (P : A -> Prop) (l : list A) (x : A) : Prop := exists l1, FirstAfter P l l1 x.
(** The call asks for a sheet that the workbook lists; its relationship leads to the part [p]. *)
Definition Asks (folder : string) (c : call) (s : session) (p : string) : Prop :=
  exists n x r, (c = CGet n \/ c = CAdd (Some n)) /\ First (fun x => sh_name x = n) (wb_sheets (x_book s.1)) x
  /\ First (fun r => r_id r = sh_rel x) (rl_rels (wb_rels (x_book s.1))) r /\ Resolves folder (r_target r) p.
(** The part is in no folder. *)
Definition no_folder (p : string) : Prop := forall a b, p <> a +:+ "/" +:+ b.
(** The call asks for a sheet whose part is in no folder of the package, nobody works on it, and it is not one that is
    stored and cannot be read. *)
Definition AtRoot `{Env} (folder : string) (c : call) (s : session) : Prop :=
  exists p, Asks folder c s p /\ no_folder p /\ of_open (x_office s.1) !! p = None /\ ~ Unreadable (x_office s.1) p.
(** The call asks for a sheet in whose stored part a cell has a reference beyond the last column a [u16] can number. *)
Definition BadCell `{Env} (folder : string) (c : call) (s : session) : Prop :=
  exists p entry bytes data d it sd row cell a r msg, Asks folder c s p /\ of_open (x_office s.1) !! p = None
  /\ of_archive (x_office s.1) !! p = Some entry /\ en_content entry = Some bytes /\ env_gunzip bytes = Some data
  /\ read_doc data = Ok d /\ Represents d it /\ sd ∈ t_children (erase it) /\ t_tag sd = "sheetData" /\ row ∈ t_children sd /\ cell ∈ t_children row
  /\ t_attrs cell = Some a /\ a !! "r" = Some r /\ get_column_index r = Panic msg.

(** The cell references in the call are letters followed by a row number, the column references are letters
    followed by something else. *)
Definition Addressed `{Env} (c : call) : Prop :=
  match c with
  | CRowRef _ ref _ => exists w r, ref = w +:+ show_N r /\ is_word w /\ r <= u32_max
  | CColRef _ ref _ => exists w rest, ref = w +:+ rest /\ is_word w /\ ends_word rest
  | _ => True
  end.
(** Cells put from column [c] on, counted from 1, run over the numbers of a [u16]. *)
Definition RunsOver (c : N) (cs : list cell) : Prop := c = 0 \/ cs <> [] /\ 65535 < c - 1 + N.of_nat (length cs).
(** The call counts beyond what a [u16] can hold: in columns, or in number formats. *)
Definition Overruns `{Env} `{Hashes} (c : call) (s : session) : Prop :=
  match c with
  | CRow h _ c cs => is_Some (handle h s) /\ RunsOver c cs
  | CRowRef h ref cs => is_Some (handle h s) /\ exists w r, ref = w +:+ show_N r /\ is_word w /\ r <= u32_max /\ (65535 < word_value w \/ RunsOver (word_value w) cs)
  | CColRef h ref _ => is_Some (handle h s) /\ exists w rest, ref = w +:+ rest /\ is_word w /\ ends_word rest /\ 65535 < word_value w
  | CStyle st =>
      exists code l1 y, se_num st = NFCustom /\ se_code st = Some code
      /\ FirstAfter (fun y => hash_num y = hash_num (mkNum 0 NFCustom code)) (st_nums (sp_styles (wb_style (x_book s.1)))) l1 y
      /\ 65535 < N.of_nat (length l1) mod 65536 + 163
  | _ => False
  end.
(** One of the calls is made in a state for which [P] holds of it. *)
Definition Reaches `{Env} `{Hashes} (cs : list call) (s : session) (P : call -> session -> Prop) : Prop :=
  exists cs1 c cs2 s1, cs = cs1 ++ c :: cs2 /\ calls cs1 s = Some s1 /\ P c s1.
