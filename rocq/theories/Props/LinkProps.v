(** C49: the sheets a saved workbook lists, and the parts they lead to. *)
From Verif.Model Require Import Excel.
From Verif.Spec Require Import XmlSpec PackageSpec SheetSpec StyleSpec SessionSpec LinkSpec DemoEnv.
From Verif.Proofs Require Import BaseFacts LinkFacts.
Open Scope N_scope.

(** C49. Start a new workbook, make any calls, hold any handles, and save with success. Unless a call
    that asks for a new sheet failed, or one that asks for a listed sheet failed while a part of the workbook could
    not be read, or a sheet was deleted through a handle that has an older name of it, the
    file written lists the sheets of the workbook in order under their names, each leads through
    exactly one relationship to a part of the file, and no two lead to the same part. *)
Theorem C49_links : forall (E : Env) (Hs : Hashes) (fs fs1 fs' : filesys) (x0 : excel) (cs : list call) (s : session)
    (t : clock) (f : faults) (path : string) (tr : list filesys),
  excel_new None fs = Ok x0 -> calls cs (x0, []) = Some s ->
  ~ BadOpen cs (x0, []) any_rel -> ~ StaleDelete cs (x0, []) ->
  excel_save t f path s.1 fs1 = (tr, Ok tt) -> last tr = Some fs' ->
  exists l, Stored fs' path l /\ GoodLinks l (list_sheet_names (x_book s.1)).
Proof. intros E Hs fs fs1 fs' x0 cs s t f path tr. apply saved_links. Qed.
(** Where no sheet is renamed, no handle has an older name. *)
Theorem C49_no_rename : forall (E : Env) (Hs : Hashes) (fs : filesys) (x0 : excel) (cs : list call),
  excel_new None fs = Ok x0 -> ~ BadOpen cs (x0, []) any_rel -> Forall (fun c => ~ renames c) cs -> ~ StaleDelete cs (x0, []).
Proof. intros E Hs fs x0 cs. apply unrenamed_not_stale. Qed.

Definition demo_clock : clock := mkClock "1" "2" "3" "4".
Definition demo_faults : faults := mkFaults false false None [].
Definition saved_parts `{Env} (r : list filesys * res unit) : option (list (string * string)) :=
  match r.2, last r.1 with
  | Ok _, Some fs => b ← fs !! "a.xlsx"; env_unzip b
  | _, _ => None
  end.
(** The names listed and the parts written when these calls are made on a new workbook, and whether each call succeeded. *)
Definition demo_session `{Env} `{Hashes} (cs : list call) : option (list string * list (string * string) * list bool) :=
  match excel_new None ∅ with
  | Ok x0 => s ← calls cs (x0, []);
      l ← saved_parts (excel_save demo_clock demo_faults "a.xlsx" s.1 ∅);
      let rs := map (fun k => match calls (take k cs) (x0, []) with
        | Some s1 => match nth_error cs k with Some c => match (call_step c s1).2 with Ok _ => true | _ => false end | None => true end
        | None => true end) (seq 0 (length cs)) in
      Some (list_sheet_names (x_book s.1), l, rs)
  | _ => None end.
Definition text_of (q : string) (l : list (string * string)) : option string := option_map snd (List.find (fun x => seqb x.1 q) l).
Definition demo_calls : list call :=
  [CAdd (Some "A"); CAdd None; CAdd None; CDelete 2; CDrop 1; CAdd (Some "C"); CRename "A" "D"; CRow 0 1 1 [mkCell None (Some "v") TInline None None None None]].
(** Sheets are added, deleted, released and renamed, and every call succeeds. *)
Example C49_example : let E := demo_env Checked in let Hs := value_hashes in
  match demo_session demo_calls with
  | Some (names, l, rs) => bool_decide (names = ["sheet1"; "D"; "sheet3"; "C"]) && forallb id rs
      && forallb (fun q => bool_decide (q ∈ map fst l)) ["xl/worksheets/sheet1.xml"; "xl/worksheets/sheet2.xml"; "xl/worksheets/sheet3.xml"; "xl/worksheets/sheet5.xml"]
  | None => false end = true.
Proof. vm_compute. reflexivity. Qed.

(** A sheet whose handle is still held is asked for again: the call fails, and the links stay. *)
Example C49_held_example : let E := demo_env Checked in let Hs := value_hashes in
  match demo_session [CAdd (Some "A"); CGet "A"; CAdd (Some "A"); CAdd (Some "B")] with
  | Some (names, l, rs) => bool_decide (names = ["sheet1"; "A"; "B"]) && bool_decide (rs = [true; false; false; true])
      && forallb (fun q => bool_decide (q ∈ map fst l)) ["xl/worksheets/sheet1.xml"; "xl/worksheets/sheet2.xml"; "xl/worksheets/sheet3.xml"]
  | None => false end = true.
Proof. vm_compute. reflexivity. Qed.

(** C49, what one would want and what does not hold. A sheet is renamed and then deleted through
    the handle it was made with. Every call succeeds. The file written still lists the sheet, under a
    relationship id that the relationships do not contain. *)
Definition stale_calls : list call := [CAdd (Some "A"); CAdd (Some "B"); CRename "A" "C"; CDelete 0].
Definition has (sub text : string) : bool := match String.index 0 sub text with Some _ => true | None => false end.
Definition link_check `{Env} `{Hashes} (cs : list call) (ok : list (string * string) -> bool) (rs : list bool) : bool :=
  match demo_session cs with
  | Some (_, l, rs') => bool_decide (rs = rs') && ok l
  | None => false end.
Definition both `{Env} (l : list (string * string)) (ok : string -> string -> bool) : bool :=
  match text_of "xl/workbook.xml" l, text_of "xl/_rels/workbook.xml.rels" l with
  | Some a, Some b => ok a b
  | _, _ => false end.
Lemma text_of_in q l a : text_of q l = Some a -> (q, a) ∈ l.
Proof.
  unfold text_of. destruct (List.find _ l) as [[q' a']|] eqn:Ef; [|done]. intros [= <-]. apply find_some in Ef as [H1 H2].
  cbn [fst] in H2. apply String.eqb_eq in H2 as ->. by apply elem_of_list_In.
Qed.
Lemma link_checked `{Env} `{Hashes} cs ok rs : link_check cs (fun l => both l ok) rs = true ->
  exists (x0 : excel) (s : session) (tr : list filesys) (fs' : filesys) (l : list (string * string)) (a b : string),
  excel_new None ∅ = Ok x0 /\ calls cs (x0, []) = Some s /\ excel_save demo_clock demo_faults "a.xlsx" s.1 ∅ = (tr, Ok tt) /\ last tr = Some fs'
  /\ Stored fs' "a.xlsx" l /\ ("xl/workbook.xml", a) ∈ l /\ ("xl/_rels/workbook.xml.rels", b) ∈ l /\ ok a b = true.
Proof.
  unfold link_check, demo_session. destruct (excel_new _ _) as [x0| |] eqn:En; [|done..].
  destruct (calls cs _) as [s|] eqn:Ec; cbn [mbind option_bind]; [|done]. unfold saved_parts.
  destruct (excel_save _ _ _ _ _) as [tr r] eqn:Ev. cbn [fst snd].
  destruct r as [[]|r|r]; [|done..]. destruct (last tr) as [fs'|] eqn:El; [|done].
  destruct (fs' !! "a.xlsx") as [c|] eqn:Eb; cbn [mbind option_bind]; [|done]. destruct (env_unzip c) as [l|] eqn:Eu; cbn [mbind option_bind]; [|done].
  rewrite andb_true_iff. intros [_ Hb]. unfold both in Hb.
  destruct (text_of "xl/workbook.xml" l) as [a|] eqn:Ea; [|done]. destruct (text_of "xl/_rels/workbook.xml.rels" l) as [b|] eqn:Er; [|done].
  exists x0, s, tr, fs', l, a, b. do 4 (split; [done|]). split; [by exists c|]. split; [by apply text_of_in|]. split; [by apply text_of_in|done].
Qed.
Theorem C49_stale_delete_refuted : exists (E : Env) (Hs : Hashes) (x0 : excel) (s : session) (t : clock) (f : faults) (path : string)
    (tr : list filesys) (fs' : filesys) (l : list (string * string)) (a b : string),
  excel_new None ∅ = Ok x0 /\ calls stale_calls (x0, []) = Some s /\ excel_save t f path s.1 ∅ = (tr, Ok tt) /\ last tr = Some fs'
  /\ Stored fs' path l /\ ("xl/workbook.xml", a) ∈ l /\ ("xl/_rels/workbook.xml.rels", b) ∈ l
  /\ has "<sheet name=""C"" r:id=""rId6""" a && negb (has """rId6""" b) = true.
Proof.
  exists (demo_env Checked), value_hashes.
  assert (@link_check (demo_env Checked) value_hashes stale_calls (fun l => @both (demo_env Checked) l (fun a b => has "<sheet name=""C"" r:id=""rId6""" a && negb (has """rId6""" b))) [true; true; true; true] = true) as Hc.
  { vm_compute. reflexivity. }
  destruct (@link_checked (demo_env Checked) value_hashes _ _ _ Hc) as (x0 & s & tr & fs' & l & a & b & H1).
  by exists x0, s, demo_clock, demo_faults, "a.xlsx", tr, fs', l, a, b.
Qed.
(** Nor does it hold after a failing call. The first of two sheets is deleted while the second is
    held, and adding a third fails. The file written lists it nevertheless, and the second and the third
    lead to the same part. *)
Definition clash_calls : list call := [CAdd (Some "A"); CAdd (Some "B"); CDelete 0; CAdd (Some "C")].
Definition relation_text (id path : string) : string := "Id=""" +:+ id +:+ """ Target=""" +:+ path +:+ """".
Theorem C49_failed_add_refuted : exists (E : Env) (Hs : Hashes) (x0 : excel) (s : session) (t : clock) (f : faults) (path : string)
    (tr : list filesys) (fs' : filesys) (l : list (string * string)) (a b : string),
  excel_new None ∅ = Ok x0 /\ calls clash_calls (x0, []) = Some s /\ excel_save t f path s.1 ∅ = (tr, Ok tt) /\ last tr = Some fs'
  /\ Stored fs' path l /\ ("xl/workbook.xml", a) ∈ l /\ ("xl/_rels/workbook.xml.rels", b) ∈ l
  /\ has "<sheet name=""B"" r:id=""rId7""" a && has "<sheet name=""C"" r:id=""rId8""" a
     && has (relation_text "rId7" "/xl/worksheets/sheet3.xml") b && has (relation_text "rId8" "/xl/worksheets/sheet3.xml") b = true.
Proof.
  exists (demo_env Checked), value_hashes.
  assert (@link_check (demo_env Checked) value_hashes clash_calls (fun l => @both (demo_env Checked) l (fun a b =>
     has "<sheet name=""B"" r:id=""rId7""" a && has "<sheet name=""C"" r:id=""rId8""" a
     && has (relation_text "rId7" "/xl/worksheets/sheet3.xml") b && has (relation_text "rId8" "/xl/worksheets/sheet3.xml") b)) [true; true; true; false] = true) as Hc.
  { vm_compute. reflexivity. }
  destruct (@link_checked (demo_env Checked) value_hashes _ _ _ Hc) as (x0 & s & tr & fs' & l & a & b & H1).
  by exists x0, s, demo_clock, demo_faults, "a.xlsx", tr, fs', l, a, b.
Qed.

Print Assumptions C49_links.
Print Assumptions C49_no_rename.
Print Assumptions C49_example.
Print Assumptions C49_held_example.
Print Assumptions C49_stale_delete_refuted.
Print Assumptions C49_failed_add_refuted.
