(** C69, C70: calls that fail, and calls that change places. *)
From Verif.Model Require Import Excel.
From Verif.Spec Require Import XmlSpec PackageSpec StyleSpec SessionSpec FlowSpec InventorySpec RepeatSpec SwapSpec DemoEnv.
From Verif.Proofs Require Import BaseFacts KeepFacts SwapFacts FailFacts.
Open Scope N_scope.

(** C69. A call that reports an error leaves the session as it was: every call but those that get, store or delete a sheet. *)
Theorem C69_unchanged : forall (E : Env) (HH : Hashes) (c : call) (s s1 : session) (e : string),
  plain_call c = true -> call_step c s = (s1, Err e) -> s1 = s.
Proof. intros E HH c s s1 e. apply plain_error. Qed.
(** C69. So the rest of the session goes as if the call had not been made. *)
Theorem C69_skipped : forall (E : Env) (HH : Hashes) (c : call) (cs1 cs2 : list call) (s s1 : session) (e : string),
  plain_call c = true -> calls cs1 s = Some s1 -> (call_step c s1).2 = Err e ->
  calls (cs1 ++ c :: cs2) s = calls (cs1 ++ cs2) s /\ replies (cs1 ++ c :: cs2) s = replies cs1 s ++ Err e :: replies cs2 s1
  /\ replies (cs1 ++ cs2) s = replies cs1 s ++ replies cs2 s1.
Proof. intros E HH c cs1 cs2 s s1 e. apply skip_calls. Qed.
(** C69. Some calls never report an error. *)
Theorem C69_never : forall (E : Env) (HH : Hashes) (c : call) (s : session) (e : string), never_fails c = true -> (call_step c s).2 <> Err e.
Proof. intros E HH c s e. apply no_error. Qed.
(** C69, getting a sheet: no handle is given out, nothing but one part and the part of its relationships is touched, and the
    list of the sheets is the same or has one more entry; the latter only if the name asked for was not listed. *)
Theorem C69_opening : forall (E : Env) (HH : Hashes) (c : call) (s s1 : session) (e : string), opens c -> call_step c s = (s1, Err e) ->
  s1.2 = s.2 /\ (exists p, Aside (p :: match rels_beside p with Ok rp => [rp] | _ => [] end) s s1)
  /\ ((wb_sheets (x_book s1.1) = wb_sheets (x_book s.1) /\ wb_rels (x_book s1.1) = wb_rels (x_book s.1))
      \/ (exists nm id, wb_sheets (x_book s1.1) = wb_sheets (x_book s.1) ++ [mkSheet nm id false false]
           /\ forall n, c = CAdd (Some n) \/ c = CGet n -> nm = n /\ n ∉ list_sheet_names (x_book s.1))).
Proof.
  intros E HH c s s1 e Ho Hc. destruct (open_error c s s1 e Ho Hc) as (H1 & H2 & H3). split; [done|]. split; [done|].
  destruct H3 as [H3|(nm & id & H3 & H4)]; [by left|right]. exists nm, id. split; [done|]. intros n [->| ->]; by apply H4.
Qed.
(** C69, storing a sheet: the handle is gone; of the rest only the two parts of the sheet can differ. *)
Theorem C69_storing : forall (E : Env) (HH : Hashes) (h : nat) (s s1 : session) (e : string), call_step (CFlush h) s = (s1, Err e) ->
  exists w, handle h s = Some w /\ s1.2 = <[h := None]> s.2 /\ x_book s1.1 = x_book s.1 /\ Aside [ws_path w; rl_path (ws_rels w)] s s1.
Proof. intros E HH h s s1 e. apply flush_error. Qed.
(** C69, deleting a sheet: the handle is gone and the name is off the list; of the rest only the two parts of the sheet can differ. *)
Theorem C69_deleting : forall (E : Env) (HH : Hashes) (h : nat) (s s1 : session) (e : string), call_step (CDelete h) s = (s1, Err e) ->
  exists w, handle h s = Some w /\ s1.2 = <[h := None]> s.2 /\ Aside [ws_path w; rl_path (ws_rels w)] s s1
  /\ list_sheet_names (x_book s1.1) = List.filter (fun n => negb (String.eqb n (ws_name w))) (list_sheet_names (x_book s.1)).
Proof. intros E HH h s s1 e. apply delete_error. Qed.

(** C70. Two neighbouring calls that concern different things can change places: the session is the same afterwards, or
    panics either way; and each of the two gets the same answer. *)
Theorem C70_swapped : forall (E : Env) (HH : Hashes) (file : option string) (fs : filesys) (x : excel) (cs1 cs2 : list call) (c1 c2 : call) (s1 : session),
  excel_new file fs = Ok x -> calls cs1 (x, []) = Some s1 -> Independent (length s1.2) c1 c2 ->
  calls (cs1 ++ c1 :: c2 :: cs2) (x, []) = calls (cs1 ++ c2 :: c1 :: cs2) (x, []) /\
  (calls (cs1 ++ c1 :: c2 :: cs2) (x, []) <> None -> exists l1 r1 r2 l2, length l1 = length cs1 /\
    replies (cs1 ++ c1 :: c2 :: cs2) (x, []) = l1 ++ r1 :: r2 :: l2 /\ replies (cs1 ++ c2 :: c1 :: cs2) (x, []) = l1 ++ r2 :: r1 :: l2).
Proof.
  intros E HH file fs x cs1 cs2 c1 c2 s1 Hx Hc Hi. destruct (new_linv _ _ _ Hx) as [I _].
  assert (LInv s1) as I1 by (by apply (calls_effect cs1 _ _ I Hc)). split.
  - rewrite !calls_app, Hc. by apply swap_calls.
  - rewrite calls_app, Hc, !calls_cons. destruct (swap_step s1 c1 c2 I1 Hi) as (H1 & H2 & H3). rewrite H2.
    destruct (stops (call_step c1 s1).2) eqn:E1; [done|]. destruct (stops (call_step c2 s1).2) eqn:E2; [done|]. intros _.
    exists (replies cs1 (x, [])), (call_step c1 s1).2, (call_step c2 s1).2, (replies cs2 (call_step c2 (call_step c1 s1).1).1).
    split; [by eapply replies_length|]. rewrite !(replies_app _ _ _ _ Hc), !replies_cons, H2, H3, E1, E2, H1. done.
Qed.
(** C70. So can any number of such pairs, one after the other. *)
Theorem C70_rearranged : forall (E : Env) (HH : Hashes) (file : option string) (fs : filesys) (x : excel) (cs cs' : list call),
  excel_new file fs = Ok x -> Rearranged (x, []) cs cs' -> calls cs (x, []) = calls cs' (x, []).
Proof. intros E HH file fs x cs cs' Hx. apply rearranged_calls. by apply (new_linv _ _ _ Hx). Qed.
(** C70. Two programs that concern different things: however they are mixed, the session ends as if one had run after the
    other. *)
Theorem C70_mixed : forall (E : Env) (HH : Hashes) (file : option string) (fs : filesys) (x : excel) (cs0 : list call) (s : session) (m : list (bool * call)),
  excel_new file fs = Ok x -> calls cs0 (x, []) = Some s ->
  (forall a b, a ∈ side true m -> b ∈ side false m -> Independent (length s.2) a b) ->
  calls (map snd m) s = calls (side true m ++ side false m) s.
Proof.
  intros E HH file fs x cs0 s m Hx Hc. apply mixed_calls. destruct (new_linv _ _ _ Hx) as [I _]. by apply (calls_effect cs0 _ _ I Hc).
Qed.
(** C70. And each of them is answered, call for call, as if the other did not exist. *)
Theorem C70_alone : forall (E : Env) (HH : Hashes) (file : option string) (fs : filesys) (x : excel) (cs0 : list call) (s s' : session) (m : list (bool * call)) (b : bool),
  excel_new file fs = Ok x -> calls cs0 (x, []) = Some s ->
  (forall a b, a ∈ side true m -> b ∈ side false m -> Independent (length s.2) a b) ->
  calls (map snd m) s = Some s' -> side b (combine (map fst m) (replies (map snd m) s)) = replies (side b m) s.
Proof.
  intros E HH file fs x cs0 s s' m b Hx Hc. apply mixed_alone. destruct (new_linv _ _ _ Hx) as [I _]. by apply (calls_effect cs0 _ _ I Hc).
Qed.

(** ** Cases *)
Definition failed {A} (r : res A) : bool := match r with Err _ => true | _ => false end.
Lemma failed_err {A} (r : res A) : failed r = true -> exists e, r = Err e.
Proof. destruct r; [done|eauto|done]. Qed.
Definition text_cell (v : string) : cell := mkCell None (Some v) TShared None None None None.
Definition number_cell (v : string) : cell := mkCell None (Some v) TNumber None None None None.
(** Which calls of a session in a new workbook fail. *)
Definition failures `{Env} `{Hashes} (cs : list call) : list bool :=
  match excel_new None ∅ with Ok x => map failed (replies cs (x, [])) | _ => [] end.
(** A rename to a name in use, a reference that is none, a style without its number format; a sheet whose number is taken;
    a sheet with a cell in column 0. *)
Definition fail_style : setting := mkSetting NFCustom None side_default side_default side_default side_default side_default
  "Calibri" 11 (mkColor CTheme "1") false false false false false None None PNone HNone VNone.
Definition fail_calls : list call :=
  [CAdd (Some "a"); CAdd (Some "b"); CRename "a" "b"; CRowRef 0 "7" [text_cell "x"]; CColRef 0 "" None; CStyle fail_style; CDelete 0; CAdd (Some "c");
   CRow 1 1 0 [number_cell "1"]; CFlush 1].
Example C69_ex_failures : failures (H := demo_env Wrapping) (H0 := value_hashes) fail_calls = [false; false; true; true; true; true; false; true; false; true].
Proof. vm_compute. reflexivity. Qed.
Example C69_ex_delete : failures (H := demo_env Wrapping) (H0 := value_hashes) [CAdd (Some "a"); CRow 0 1 0 [number_cell "1"]; CDelete 0] = [false; false; true].
Proof. vm_compute. reflexivity. Qed.
(** C69, the general wish is refuted: a call for a sheet fails, and yet the workbook lists the sheet from then on. *)
Definition names_of (s : session) : list string := list_sheet_names (x_book s.1).
Definition add_check `{Env} `{Hashes} (cs : list call) (n : string) : bool :=
  match excel_new None ∅ with
  | Ok x => match calls cs (x, []) with
            | Some s => failed (call_step (CAdd (Some n)) s).2 && negb (existsb (String.eqb n) (names_of s)) && existsb (String.eqb n) (names_of (call_step (CAdd (Some n)) s).1)
            | None => false end
  | _ => false
  end.
Lemma existsb_in n l : existsb (String.eqb n) l = true <-> n ∈ l.
Proof.
  rewrite existsb_exists. split; [intros (y & Hy & ->%String.eqb_eq); by apply elem_of_list_In|]. intros Hn. exists n. split; [by apply elem_of_list_In|apply String.eqb_refl].
Qed.
Theorem C69_opening_refuted : exists (E : Env) (HH : Hashes) (x : excel) (cs : list call) (s s1 : session) (n e : string),
  excel_new None ∅ = Ok x /\ calls cs (x, []) = Some s /\ call_step (CAdd (Some n)) s = (s1, Err e)
  /\ n ∉ list_sheet_names (x_book s.1) /\ n ∈ list_sheet_names (x_book s1.1).
Proof.
  exists (demo_env Wrapping), value_hashes. set (E := demo_env Wrapping). set (HH := value_hashes).
  assert (add_check [CAdd (Some "a"); CAdd (Some "b"); CDelete 0] "c" = true) as K by (vm_compute; reflexivity).
  revert K. generalize [CAdd (Some "a"); CAdd (Some "b"); CDelete 0], "c". intros cs n. unfold add_check.
  destruct (excel_new None ∅) as [x|e|e]; [|done..]. destruct (calls cs (x, [])) as [s|] eqn:Ec; [|done]. rewrite !andb_true_iff. intros [[H1 H2] H3].
  destruct (call_step (CAdd (Some n)) s) as [s1 r] eqn:Es. cbn [fst snd] in *. apply failed_err in H1 as [e ->]. exists x, cs, s, s1, n, e.
  split; [reflexivity|]. split; [exact Ec|]. split; [exact Es|]. split; [|by apply existsb_in]. intros Hn%existsb_in. unfold names_of in H2. by rewrite Hn in H2.
Qed.
(** C69. A sheet is not stored, because of a cell in column 0, and the handle to put that right is gone. *)
Definition flush_check `{Env} `{Hashes} (cs : list call) (h : nat) : bool :=
  match excel_new None ∅ with
  | Ok x => match calls cs (x, []) with
            | Some s => failed (call_step (CFlush h) s).2 && match handle h s, handle h (call_step (CFlush h) s).1 with Some _, None => true | _, _ => false end
            | None => false end
  | _ => false
  end.
Theorem C69_storing_refuted : exists (E : Env) (HH : Hashes) (x : excel) (cs : list call) (s s1 : session) (h : nat) (w : worksheet) (e : string),
  excel_new None ∅ = Ok x /\ calls cs (x, []) = Some s /\ call_step (CFlush h) s = (s1, Err e) /\ handle h s = Some w /\ handle h s1 = None.
Proof.
  exists (demo_env Wrapping), value_hashes. set (E := demo_env Wrapping). set (HH := value_hashes).
  assert (flush_check [CAdd (Some "a"); CRow 0 1 0 [number_cell "1"]] 0 = true) as K by (vm_compute; reflexivity).
  revert K. generalize [CAdd (Some "a"); CRow 0 1 0 [number_cell "1"]]. intros cs. generalize 0%nat. intros h. unfold flush_check.
  destruct (excel_new None ∅) as [x|e|e]; [|done..]. destruct (calls cs (x, [])) as [s|] eqn:Ec; [|done]. rewrite !andb_true_iff. intros [H1 H2].
  destruct (call_step (CFlush h) s) as [s1 r] eqn:Es. cbn [fst snd] in *. apply failed_err in H1 as [e ->].
  destruct (handle h s) as [w|] eqn:E1; [|done]. destruct (handle h s1) eqn:E2; [done|]. exists x, cs, s, s1, h, w, e. split; [reflexivity|]. split; [exact Ec|]. split; [exact Es|]. split; [exact E1|exact E2].
Qed.

(** Two sheets filled at the same time by two programs, the second of which also stores its sheet, renames a sheet and sets
    the window; the first one writes a text. *)
Definition two_programs : list (bool * call) :=
  [(true, CRow 0 1 1 [text_cell "x"]); (false, CRow 1 1 1 [number_cell "1"; number_cell "2"]); (false, CRename "a" "c"); (true, CRowProps 0 2 row_default);
   (false, CRowRef 1 "?" [number_cell "3"]); (false, CFlush 1); (true, CCol 0 2 None); (false, CVisible true); (true, CDrop 0); (false, CRename "a" "d")].
Example C70_ex_independent : forall a b, a ∈ side true two_programs -> b ∈ side false two_programs -> Independent 2 a b.
Proof.
  assert (forallb (fun a => forallb (fun b => separate a b && negb (match a with CAdd _ | CGet _ => true | _ => false end) && negb (match b with CAdd _ | CGet _ => true | _ => false end))
    (side false two_programs)) (side true two_programs) = true) as K by (vm_compute; reflexivity).
  revert K. generalize (side true two_programs), (side false two_programs). intros l k K a b Ha Hb. rewrite forallb_forall in K.
  apply elem_of_list_In in Ha, Hb. specialize (K a Ha). rewrite forallb_forall in K. specialize (K b Hb). rewrite !andb_true_iff in K. destruct K as [[K1 K2] K3].
  split; [done|]. split; [by destruct a|by destruct b].
Qed.
Definition both_ways `{Env} `{Hashes} : option (list bool * list bool * list bool) :=
  match excel_new None ∅ with
  | Ok x => s ← calls [CAdd (Some "a"); CAdd (Some "b")] (x, []);
            Some (map failed (replies (map snd two_programs) s), map failed (replies (side true two_programs) s), map failed (replies (side false two_programs) s))
  | _ => None
  end.
Example C70_ex_answers : both_ways (H := demo_env Wrapping) (H0 := value_hashes)
  = Some ([false; false; false; false; true; false; false; false; false; true], [false; false; false; false], [false; false; true; false; false; true]).
Proof. vm_compute. reflexivity. Qed.

(** C70. Texts do not belong to one sheet: if two sheets are given texts in the other order, the texts are numbered otherwise. *)
Definition table_after `{Env} `{Hashes} (cs : list call) : list string :=
  match excel_new None ∅ with Ok x => match calls cs (x, []) with Some s => ss_strings (wb_sst (x_book s.1)) | None => [] end | _ => [] end.
Theorem C70_texts_refuted : ~ (forall (E : Env) (HH : Hashes) (x : excel) (cs : list call) (h k : nat) (cs1 cs2 : list cell), h <> k -> excel_new None ∅ = Ok x ->
  calls (cs ++ [CRow h 1 1 cs1; CRow k 1 1 cs2]) (x, []) = calls (cs ++ [CRow k 1 1 cs2; CRow h 1 1 cs1]) (x, [])).
Proof.
  intros H. set (E := demo_env Wrapping). set (HH := value_hashes). specialize (H E HH).
  assert (let cs := [CAdd (Some "a"); CAdd (Some "b")] in let c := CRow 0 1 1 [text_cell "x"] in let d := CRow 1 1 1 [text_cell "y"] in
    bool_decide (table_after (cs ++ [c; d]) = table_after (cs ++ [d; c])) = false /\ match excel_new None ∅ with Ok _ => true | _ => false end = true) as [K1 K2] by (split; vm_compute; reflexivity).
  unfold table_after in K1. destruct (excel_new None ∅) as [x|e|e]; [|done..].
  rewrite (H x [CAdd (Some "a"); CAdd (Some "b")] 0%nat 1%nat [text_cell "x"] [text_cell "y"] ltac:(done) eq_refl) in K1. by apply bool_decide_eq_false_1 in K1.
Qed.
(** C70. A call has to wait for the handle it is made through. *)
Definition rows_after `{Env} `{Hashes} (cs : list call) : list (option bool) :=
  match excel_new None ∅ with Ok x => match calls cs (x, []) with Some s => map (fmap (fun w => bool_decide (default ∅ (ws_data w) = ∅))) s.2 | None => [] end | _ => [] end.
Theorem C70_waiting_refuted : ~ (forall (E : Env) (HH : Hashes) (x : excel) (c1 c2 : call), separate c1 c2 = true -> excel_new None ∅ = Ok x ->
  calls [c1; c2] (x, []) = calls [c2; c1] (x, [])).
Proof.
  intros H. set (E := demo_env Wrapping). set (HH := value_hashes). specialize (H E HH).
  assert (let c := CAdd (Some "a") in let d := CRow 0 1 1 [number_cell "1"] in
    bool_decide (rows_after [c; d] = rows_after [d; c]) = false /\ match excel_new None ∅ with Ok _ => true | _ => false end = true) as [K1 K2] by (split; vm_compute; reflexivity).
  unfold rows_after in K1. destruct (excel_new None ∅) as [x|e|e]; [|done..].
  rewrite (H x (CAdd (Some "a")) (CRow 0 1 1 [number_cell "1"]) eq_refl eq_refl) in K1. by apply bool_decide_eq_false_1 in K1.
Qed.
Print Assumptions C69_unchanged.
Print Assumptions C69_skipped.
Print Assumptions C69_never.
Print Assumptions C69_opening.
Print Assumptions C69_storing.
Print Assumptions C69_deleting.
Print Assumptions C69_opening_refuted.
Print Assumptions C69_storing_refuted.
Print Assumptions C70_swapped.
Print Assumptions C70_rearranged.
Print Assumptions C70_mixed.
Print Assumptions C70_alone.
Print Assumptions C70_texts_refuted.
Print Assumptions C70_waiting_refuted.
