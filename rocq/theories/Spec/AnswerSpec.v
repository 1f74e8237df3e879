(** What the calls of a session on a new workbook answer: a machine that knows only names and numbers. *)
From Verif.Model Require Import Excel.
From Verif.Spec Require Import ColumnSpec SheetSpec FlowSpec PanicSpec.
Open Scope N_scope.

(** A sheet in somebody's hands: its name when it was handed out, the number of its part, and whether a cell was put
    into column 0 of it. *)
Record held_sheet := mkHeld { hs_name : string; hs_number : N; hs_spoiled : bool }.
(** The sheets listed, each with the number of its relationship; the relationships, each with the number of the part it
    leads to; the numbers of the parts stored, and of those ever given out; what was handed out. *)
Record desk := mkDesk {
  k_sheets : list (string * N);
  k_links : list (N * N);
  k_stored : gset N;
  k_used : gset N;
  k_handles : list (option held_sheet);
}.
(** A workbook has one sheet when it is created, and nobody works on it. Relationships 1 to 4 are its own. *)
Definition new_desk : desk := mkDesk [("sheet1", 5)] [(5, 1)] {[1]} {[1]} [].
Definition listed (k : desk) : list string := map fst (k_sheets k).
Definition LeastFree (P : N -> Prop) (m n : N) : Prop := m <= n /\ ~ P n /\ forall i, m <= i < n -> P i.
Definition hand (k : desk) (h : nat) : option held_sheet := mjoin (k_handles k !! h).
(** The parts that relationship [j] leads to. *)
Definition linked (k : desk) (j : N) : gset N := list_to_set (map snd (List.filter (fun l => N.eqb (fst l) j) (k_links k))).

(** Cells put from column [c] on reach column 0: they start there, or run over the numbers of a [u16]. *)
Definition reaches_0 (c : N) (cs : list cell) : bool :=
  match cs with [] => false | _ => (c =? 0) || (65535 <? c - 1 + N.of_nat (length cs)) end.
(** The call puts cells from some column on. *)
Inductive Puts (h : nat) : call -> N -> list cell -> Prop :=
| Puts_row r c cs : Puts h (CRow h r c cs) c cs
| Puts_ref w r cs : is_word w -> Puts h (CRowRef h (w +:+ show_N r) cs) (word_value w) cs.
(** A call that can only succeed and that changes no name and no number. *)
Definition plain (c : call) : Prop :=
  match c with CActive _ | CHide _ | CVisible _ | CMinimize _ | CTabs _ | CVScroll _ | CHScroll _ => True | _ => False end.
Definition shapes (h : nat) (c : call) : Prop :=
  match c with CRowProps k _ _ | CCol k _ _ | CColRef k _ _ => k = h | _ => False end.
Definition set_hand (k : desk) (h : nat) (x : option held_sheet) : desk :=
  mkDesk (k_sheets k) (k_links k) (k_stored k) (k_used k) (<[h := x]> (k_handles k)).
(** The part is written and stored, unless it cannot be written. *)
Definition stored_after (k : desk) (x : held_sheet) : gset N := if hs_spoiled x then k_stored k else {[hs_number x]} ∪ k_stored k.
(** One call: whether it succeeds, and what is on the desk afterwards. *)
Inductive Does (k : desk) : call -> bool -> desk -> Prop :=
| Does_known c n j : asks c (Some n) -> First (fun x => fst x = n) (k_sheets k) (n, j) ->
    Does k c false (mkDesk (k_sheets k) (k_links k) (k_stored k ∖ linked k j) (k_used k) (k_handles k))
| Does_new c name n j : asks c name -> (forall x, name = Some x -> x ∉ listed k) ->
    LeastFree (fun i => i ∈ k_stored k) (N.of_nat (length (k_sheets k)) + 1) n ->
    LeastFree (fun i => i ∈ map fst (k_links k)) (N.of_nat (length (k_links k)) + 5) j ->
    n ∉ k_used k -> let nm := default ("sheet" +:+ show_N n) name in
    Does k c true (mkDesk (k_sheets k ++ [(nm, j)]) (k_links k ++ [(j, n)]) (k_stored k) ({[n]} ∪ k_used k)
      (k_handles k ++ [Some (mkHeld nm n false)]))
| Does_taken c name n j : asks c name -> (forall x, name = Some x -> x ∉ listed k) ->
    LeastFree (fun i => i ∈ k_stored k) (N.of_nat (length (k_sheets k)) + 1) n ->
    LeastFree (fun i => i ∈ map fst (k_links k)) (N.of_nat (length (k_links k)) + 5) j ->
    n ∈ k_used k ->
    Does k c false (mkDesk (k_sheets k ++ [(default ("sheet" +:+ show_N n) name, j)]) (k_links k ++ [(j, n)]) (k_stored k) (k_used k) (k_handles k))
| Does_rename old new l1 j l2 : k_sheets k = l1 ++ (old, j) :: l2 -> old ∉ map fst l1 -> new ∉ listed k ->
    Does k (CRename old new) true (mkDesk (l1 ++ (new, j) :: l2) (k_links k) (k_stored k) (k_used k) (k_handles k))
| Does_no_rename old new : old ∉ listed k \/ new ∈ listed k -> Does k (CRename old new) false k
| Does_plain c : plain c -> Does k c true k
| Does_style st : ~ (se_num st = NFCustom /\ se_code st = None) -> Does k (CStyle st) true k
| Does_no_style st : se_num st = NFCustom -> se_code st = None -> Does k (CStyle st) false k
| Does_gone c h : through c = Some h -> hand k h = None -> Does k c true k
| Does_put c h x col cs : Puts h c col cs -> hand k h = Some x ->
    Does k c true (set_hand k h (Some (mkHeld (hs_name x) (hs_number x) (hs_spoiled x || reaches_0 col cs))))
| Does_shape c h x : shapes h c -> hand k h = Some x -> Does k c true k
| Does_drop h x : hand k h = Some x ->
    Does k (CDrop h) true (mkDesk (k_sheets k) (k_links k) (stored_after k x) (k_used k) (<[h := None]> (k_handles k)))
| Does_flush h x : hand k h = Some x ->
    Does k (CFlush h) (negb (hs_spoiled x)) (mkDesk (k_sheets k) (k_links k) (stored_after k x) (k_used k) (<[h := None]> (k_handles k)))
| Does_delete h x : hand k h = Some x ->
    Does k (CDelete h) (negb (hs_spoiled x))
      (mkDesk (List.filter (fun y => negb (String.eqb (fst y) (hs_name x))) (k_sheets k))
         (List.filter (fun l => negb (N.eqb (snd l) (hs_number x))) (k_links k)) (stored_after k x) (k_used k) (<[h := None]> (k_handles k))).
Inductive Goes : desk -> list call -> list bool -> desk -> Prop :=
| Goes_none k : Goes k [] [] k
| Goes_more k c b k1 cs bs k2 : Does k c b k1 -> Goes k1 cs bs k2 -> Goes k (c :: cs) (b :: bs) k2.

(** What the calls answer. *)
Definition succeeds {A} (r : res A) : bool := match r with Ok _ => true | _ => false end.
Fixpoint answers `{Env} `{Hashes} (cs : list call) (s : session) : list bool :=
  match cs with
  | [] => []
  | c :: cs => succeeds (call_step c s).2 :: answers cs (call_step c s).1
  end.
(** The arguments are of the types the functions take; references are letters followed by digits. *)
Definition Given `{Env} (c : call) : Prop :=
  match c with
  | CRow _ r c cs => r <= u32_max /\ c <= u16_max /\ Forall cell_typed cs
  | CRowRef _ ref cs => Forall cell_typed cs /\ exists w r, ref = w +:+ show_N r /\ is_word w /\ word_value w <= u16_max /\ r <= u32_max
  | CRowProps _ r p => r <= u32_max /\ row_typed p
  | CCol _ c p => c <= u16_max /\ col_arg p
  | CColRef _ ref p => col_arg p /\ exists w rest, ref = w +:+ rest /\ is_word w /\ ends_word rest /\ word_value w <= u16_max
  | _ => True
  end.
