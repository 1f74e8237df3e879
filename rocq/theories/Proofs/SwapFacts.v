(** Calls that concern different things can change places. *)
From Verif.Model Require Import Excel.
From Verif.Spec Require Import XmlSpec PackageSpec SessionSpec FlowSpec InventorySpec RepeatSpec SwapSpec.
From Verif.Proofs Require Import BaseFacts PackageFacts BookFacts FrameFacts KeepFacts FlowFacts.
Open Scope N_scope.

(** ** Operations on a package that concern only some parts *)
Definition AgreeOn (K : list string) (o o' : office) : Prop := forall q, q ∈ K -> SameAt o o' q.
(** The operation depends only on the parts [K]. *)
Definition Local {A} (K : list string) (m : M office A) : Prop :=
  forall o o', AgreeOn K o o' -> (m o).2 = (m o').2 /\ AgreeOn K (m o).1 (m o').1.
(** The operation depends on and changes only the parts [K]. *)
Definition Within {A} (K : list string) (m : M office A) : Prop := Local K m /\ forall o q, q ∉ K -> SameAt o (m o).1 q.

Lemma same_sym o o' q : SameAt o o' q -> SameAt o' o q.
Proof. intros [H1 H2]. by split. Qed.
Lemma office_ext o o' : (forall q, SameAt o o' q) -> o = o'.
Proof.
  intros Hs. destruct o as [a b], o' as [a' b']. f_equal; apply map_eq; intros q; destruct (Hs q) as [H1 H2]; cbn in *; done.
Qed.
Lemma within_commute {A B} K1 K2 (m1 : M office A) (m2 : M office B) o : Within K1 m1 -> Within K2 m2 -> (forall q, q ∈ K1 -> q ∉ K2) ->
  (m2 (m1 o).1).1 = (m1 (m2 o).1).1 /\ (m2 (m1 o).1).2 = (m2 o).2 /\ (m1 (m2 o).1).2 = (m1 o).2.
Proof.
  intros [L1 F1] [L2 F2] Hd.
  assert (AgreeOn K2 o (m1 o).1) as A2 by (intros q Hq; apply F1; intros Hq1; by apply (Hd q)).
  assert (AgreeOn K1 o (m2 o).1) as A1 by (intros q Hq; apply F2; by apply Hd).
  destruct (L2 _ _ A2) as [R2 S2]. destruct (L1 _ _ A1) as [R1 S1]. split_and!; [|done|done].
  apply office_ext. intros q. destruct (decide (q ∈ K1)) as [H1|H1].
  - eapply same_trans; [|by apply S1]. apply same_sym, F2. by apply Hd.
  - eapply same_trans; [|by apply F1]. destruct (decide (q ∈ K2)) as [H2|H2]; [by apply same_sym, S2|].
    eapply same_trans; [|by apply F2]. eapply same_trans; [by apply same_sym, F2|]. by apply same_sym, F1.
Qed.

Section with_env.
Context `{E : Env}.
Lemma local_bind {A B} K (m : M office A) (k : A -> M office B) : Local K m -> (forall a, Local K (k a)) -> Local K (bind m k).
Proof.
  intros Hm Hk o o' Ho. unfold bind. destruct (Hm o o' Ho) as [H1 H2]. destruct (m o) as [o1 r], (m o') as [o1' r']. cbn [fst snd] in *. subst r'.
  destruct r as [a|e|e]; [by apply Hk|done|done].
Qed.
Lemma local_fail {A} K e : Local K (fail (A := A) e).
Proof. by intros o o' Ho. Qed.
Lemma local_with_doc {A} K path (m : M doc A) : path ∈ K -> Local K (with_doc path m).
Proof.
  intros Hp o o' Ho. destruct (Ho path Hp) as [H1 H2]. unfold with_doc. rewrite H1. destruct (of_open o !! path) as [p|]; [|done].
  destruct (m (op_doc p)) as [d r]. split; [done|]. intros q Hq. destruct (Ho q Hq) as [H3 H4]. split; cbn; [|done].
  destruct (decide (q = path)) as [->|Hn]; [by rewrite !lookup_insert|by rewrite !lookup_insert_ne].
Qed.
Lemma local_close K path : path ∈ K -> Local K (close_xml_document path).
Proof.
  intros Hp o o' Ho. destruct (Ho path Hp) as [H1 H2]. unfold close_xml_document. rewrite H1. destruct (of_open o !! path) as [p|]; [|done].
  destruct (write_doc (op_doc p)) as [d|e|e]; (split; [done|]); intros q Hq; destruct (Ho q Hq) as [H3 H4]; split; cbn;
    (destruct (decide (q = path)) as [->|Hn]; rewrite ?lookup_insert, ?lookup_delete, ?lookup_insert_ne, ?lookup_delete_ne by done; done).
Qed.
Lemma local_delete K path : path ∈ K -> Local K (delete_document path).
Proof.
  intros Hp o o' Ho. split; [done|]. intros q Hq. destruct (Ho q Hq) as [H3 H4]. split; cbn; [done|].
  destruct (decide (q = path)) as [->|Hn]; rewrite ?lookup_delete, ?lookup_delete_ne by done; done.
Qed.
Lemma local_rels_close K r : rl_path r ∈ K -> Local K (rels_close r).
Proof.
  intros Hp. unfold rels_close. apply local_bind; [by apply local_with_doc|]. intros [[|]|]; [by apply local_close|by apply local_delete|apply local_fail].
Qed.
(** Closing a sheet: also the sheet that is left depends on no other part. *)
Lemma local_ws_close K w o o' : ws_path w ∈ K -> AgreeOn K o o' ->
  (ws_close (w, o)).2 = (ws_close (w, o')).2 /\ (ws_close (w, o)).1.1 = (ws_close (w, o')).1.1 /\ AgreeOn K (ws_close (w, o)).1.2 (ws_close (w, o')).1.2.
Proof.
  intros Hp Ho. destruct (Ho _ Hp) as [H1 H2]. unfold ws_close. rewrite H1. destruct (of_open o !! ws_path w) as [p|]; [|done].
  destruct (ws_save (w, op_doc p)) as [[w1 d] r]. set (p1 := mkOpen d (op_ct p) (op_ext p) (op_ext_type p)).
  assert (AgreeOn K (set_open o (<[ws_path w := p1]> (of_open o))) (set_open o' (<[ws_path w := p1]> (of_open o')))) as Ho1.
  { intros q Hq. destruct (Ho q Hq) as [H3 H4]. split; cbn; [|done]. destruct (decide (q = ws_path w)) as [->|Hn]; [by rewrite !lookup_insert|by rewrite !lookup_insert_ne]. }
  destruct r as [[]|e|e]; [|done|done]. destruct (local_close K (ws_path w) Hp _ _ Ho1) as [H3 H4].
  destruct (close_xml_document (ws_path w) (set_open o _)) as [o2 r2], (close_xml_document (ws_path w) (set_open o' _)) as [o2' r2']. done.
Qed.
Lemma local_ws_drop w o o' : AgreeOn (handle_parts (Some w)) o o' -> AgreeOn (handle_parts (Some w)) (ws_drop w o) (ws_drop w o').
Proof.
  intros Ho. unfold ws_drop. destruct (local_ws_close (handle_parts (Some w)) w o o' ltac:(left) Ho) as (_ & H2 & H3).
  destruct (ws_close_frame w o) as [_ F2]. destruct (ws_close (w, o)) as [[w1 o1] r], (ws_close (w, o')) as [[w1' o1'] r']. cbn [fst snd] in *. subst w1'.
  apply local_rels_close; [|done]. rewrite F2. right. left.
Qed.
Lemma within_ws_drop w : Within (handle_parts (Some w)) (fun o => (ws_drop w o, Ok tt)).
Proof.
  split; [intros o o' Ho; split; [done|by apply local_ws_drop]|]. intros o q Hq. cbn [handle_parts] in Hq. rewrite !not_elem_of_cons in Hq.
  destruct Hq as (H1 & H2 & _). by apply ws_drop_keeps.
Qed.
Lemma within_ws_flush w : Within (handle_parts (Some w)) (ws_flush w).
Proof.
  split.
  - intros o o' Ho. unfold ws_flush. destruct (local_ws_close (handle_parts (Some w)) w o o' ltac:(left) Ho) as (H1 & H2 & H3).
    destruct (ws_close_frame w o) as [F1 F2]. destruct (ws_close (w, o)) as [[w1 o1] r], (ws_close (w, o')) as [[w1' o1'] r']. cbn [fst snd] in *. subst w1'.
    split; [done|]. assert (handle_parts (Some w1) = handle_parts (Some w)) as Hp by (cbn [handle_parts]; by rewrite F1, F2). rewrite <- Hp in H3 |- *. by apply local_ws_drop.
  - intros o q Hq. cbn [handle_parts] in Hq. rewrite !not_elem_of_cons in Hq. destruct Hq as (H1 & H2 & _). by apply ws_flush_keeps.
Qed.
(** What deleting a sheet does to the package. *)
Definition delete_parts (w : worksheet) : M office unit := bind (delete_document (ws_path w)) (fun _ => ws_flush w).
Lemma within_delete w : Within (handle_parts (Some w)) (delete_parts w).
Proof.
  split.
  - apply local_bind; [apply local_delete; left|]. intros _. apply within_ws_flush.
  - intros o q Hq. unfold delete_parts, bind. cbn [handle_parts] in Hq. rewrite !not_elem_of_cons in Hq. destruct Hq as (H1 & H2 & _).
    unfold delete_document at 1, modify. eapply same_trans; [|by apply ws_flush_keeps]. split; cbn; [done|by rewrite lookup_delete_ne].
Qed.

Lemma delete_eq w b o : wb_delete_sheet w (b, o) =
  ((set_wb_rels (set_wb_sheets b (List.filter (fun x => negb (seqb (sh_name x) (ws_name w))) (wb_sheets b))) (delete_relationship (ws_path w) (wb_rels b)), (delete_parts w o).1), (delete_parts w o).2).
Proof.
  unfold wb_delete_sheet, delete_sheet, delete_parts, bind, on_sheets, on_pkg, on_rels, on_office, delete_document, modify. cbn [fst snd].
  destruct (ws_flush w _) as [o1 r]. reflexivity.
Qed.

(** ** The calls by what they act on *)
Context `{Hs : Hashes}.
Inductive act :=
  | ANames (f : list sheet -> list sheet * res unit)
  | AView (f : option book_view -> option book_view)
  | AStyle (f : styles -> styles * res unit)
  | AUse (h : nat) (m : M (worksheet * list string) unit)
  | ASpend (h : nat) (del : bool) (m : worksheet -> M office unit)
  | AGive (m : M book_state worksheet).
(** The state taken apart. *)
Definition whole o root core p calc t sp st stp rels th sheets view hs : session :=
  (mkExcel (mkSuite o root core) (mkBook p calc (mkSst t sp) (mkStylePart st stp) rels th sheets view), hs).
Definition run (a : act) : M session unit := fun s =>
  match s with
  | (mkExcel (mkSuite o root core) (mkBook p calc (mkSst t sp) (mkStylePart st stp) rels th sheets view), hs) =>
      match a with
      | ANames f => (whole o root core p calc t sp st stp rels th (f sheets).1 view hs, (f sheets).2)
      | AView f => (whole o root core p calc t sp st stp rels th sheets (f view) hs, Ok tt)
      | AStyle f => (whole o root core p calc t sp (f st).1 stp rels th sheets view hs, (f st).2)
      | AUse h m =>
          match (hs !! h) ≫= id with
          | None => (s, Ok tt)
          | Some w => (whole o root core p calc (m (w, t)).1.2 sp st stp rels th sheets view (<[h := Some (m (w, t)).1.1]> hs), (m (w, t)).2)
          end
      | ASpend h del m =>
          match (hs !! h) ≫= id with
          | None => (s, Ok tt)
          | Some w =>
              (whole (m w o).1 root core p calc t sp st stp (if del then delete_relationship (ws_path w) rels else rels) th
                 (if del then List.filter (fun x => negb (seqb (sh_name x) (ws_name w))) sheets else sheets) view (<[h := None]> hs), (m w o).2)
          end
      | AGive m =>
          let '((sheets1, (rels1, o1)), r) := m (sheets, (rels, o)) in
          (whole o1 root core p calc t sp st stp rels1 th sheets1 view (match r with Ok w => hs ++ [Some w] | _ => hs end), rmap (fun _ => tt) r)
      end
  end.
Definition rename_act (old new : string) (l : list sheet) : list sheet * res unit :=
  if existsb (fun s => seqb new (sh_name s)) l then (l, Err "New Sheet Name Already exist in the stack")
  else match rename_first old new l with Some l1 => (l1, Ok tt) | None => (l, Err "Old Sheet Name not found in the stack") end.
Definition view_act (f : book_view -> book_view) (v : option book_view) : option book_view := Some (f (default book_view_default v)).
Definition style_act (x : setting) (st : styles) : styles * res unit := let '(st1, r) := get_style_id x st in (st1, rmap (fun _ => tt) r).
Definition act_of (c : call) : act :=
  match c with
  | CAdd n => AGive (ws_new n)
  | CGet n => AGive (ws_new (Some n))
  | CRename old new => ANames (rename_act old new)
  | CActive n => ANames (fun l => (map (fun s => mkSheet (sh_name s) (sh_rel s) (seqb (sh_name s) n) (sh_hidden s)) l, Ok tt))
  | CHide n => ANames (fun l => (map (fun s => mkSheet (sh_name s) (sh_rel s) (sh_active s) (seqb (sh_name s) n)) l, Ok tt))
  | CVisible b => AView (view_act (fun v => mkBookView (bv_active v) (bv_first v) (Some (if b then "visible" else "hidden")) (bv_min v) (bv_no_hscroll v) (bv_no_vscroll v) (bv_no_tabs v) (bv_ratio v) (bv_group v)))
  | CMinimize b => AView (view_act (fun v => mkBookView (bv_active v) (bv_first v) (bv_visibility v) b (bv_no_hscroll v) (bv_no_vscroll v) (bv_no_tabs v) (bv_ratio v) (bv_group v)))
  | CTabs b => AView (view_act (fun v => mkBookView (bv_active v) (bv_first v) (bv_visibility v) (bv_min v) (bv_no_hscroll v) (bv_no_vscroll v) b (bv_ratio v) (bv_group v)))
  | CVScroll b => AView (view_act (fun v => mkBookView (bv_active v) (bv_first v) (bv_visibility v) (bv_min v) (bv_no_hscroll v) b (bv_no_tabs v) (bv_ratio v) (bv_group v)))
  | CHScroll b => AView (view_act (fun v => mkBookView (bv_active v) (bv_first v) (bv_visibility v) (bv_min v) b (bv_no_vscroll v) (bv_no_tabs v) (bv_ratio v) (bv_group v)))
  | CStyle x => AStyle (style_act x)
  | CRow h r c cs => AUse h (set_row_value r c cs)
  | CRowRef h ref cs => AUse h (set_row_value_ref ref cs)
  | CRowProps h r p => AUse h (on_handle (set_row_props r p))
  | CCol h c p => AUse h (on_handle (set_column_index c p))
  | CColRef h ref p => AUse h (on_handle (set_column_ref ref p))
  | CDrop h => ASpend h false (fun w o => (ws_drop w o, Ok tt))
  | CFlush h => ASpend h false ws_flush
  | CDelete h => ASpend h true delete_parts
  end.
Lemma run_call c s : call_step c s = run (act_of c) s.
Proof.
  destruct s as [[[o root core] [p calc [t sp] [st stp] rels th sheets view]] hs].
  destruct c; cbn [call_step act_of run]; unfold give, get_worksheet, on_excel, use, spend, Excel.on_book, pure_book, add_sheet, handle, x_state, set_x, x_office, whole;
    cbn [fst snd x_suite x_book su_office su_root su_core wb_sheets wb_rels wb_sst wb_style wb_view wb_path wb_calc wb_theme ss_strings ss_path].
  - destruct (ws_new name (sheets, (rels, o))) as [[l [r o1]] [w|e|e]]; reflexivity.
  - destruct (ws_new (Some name) (sheets, (rels, o))) as [[l [r o1]] [w|e|e]]; reflexivity.
  - unfold rename_sheet, rename_act. cbn [wb_sheets]. destruct (existsb _ _); [reflexivity|]. destruct (rename_first old new sheets); reflexivity.
  - reflexivity.
  - reflexivity.
  - reflexivity.
  - reflexivity.
  - reflexivity.
  - reflexivity.
  - reflexivity.
  - unfold bind, wb_style_id, style_act, ret. cbn [wb_style sp_styles]. destruct (get_style_id s st) as [st1 [i|e|e]]; reflexivity.
  - destruct ((hs !! h) ≫= id) as [w|]; [|reflexivity]. destruct (set_row_value r c cs (w, t)) as [[w1 t1] x]. reflexivity.
  - destruct ((hs !! h) ≫= id) as [w|]; [|reflexivity]. destruct (set_row_value_ref ref cs (w, t)) as [[w1 t1] x]. reflexivity.
  - destruct ((hs !! h) ≫= id) as [w|]; [|reflexivity]. destruct (on_handle (set_row_props r p0) (w, t)) as [[w1 t1] x]. reflexivity.
  - destruct ((hs !! h) ≫= id) as [w|]; [|reflexivity]. destruct (on_handle (set_column_index c p0) (w, t)) as [[w1 t1] x]. reflexivity.
  - destruct ((hs !! h) ≫= id) as [w|]; [|reflexivity]. destruct (on_handle (set_column_ref ref p0) (w, t)) as [[w1 t1] x]. reflexivity.
  - destruct ((hs !! h) ≫= id) as [w|]; reflexivity.
  - destruct ((hs !! h) ≫= id) as [w|]; [|reflexivity]. unfold on_wb_office. cbn [fst snd]. destruct (ws_flush w o) as [o1 r]. reflexivity.
  - destruct ((hs !! h) ≫= id) as [w|]; [|reflexivity].
    rewrite delete_eq. destruct (delete_parts w o) as [o1 r]. reflexivity.
Qed.

(** ** Changing places *)
Definition Commute (s : session) (a1 a2 : act) : Prop :=
  (run a2 (run a1 s).1).1 = (run a1 (run a2 s).1).1 /\ (run a2 (run a1 s).1).2 = (run a2 s).2 /\ (run a1 (run a2 s).1).2 = (run a1 s).2.
Lemma commute_sym s a1 a2 : Commute s a1 a2 -> Commute s a2 a1.
Proof. intros (H1 & H2 & H3). by split_and!. Qed.
Ltac apart_state s := destruct s as [[[o root core] [p calc [t sp] [st stp] rels th sheets view]] hs]; unfold Commute; cbn [run whole fst snd].
Lemma names_view s f g : Commute s (ANames f) (AView g).
Proof. apart_state s. done. Qed.
Lemma names_style s f g : Commute s (ANames f) (AStyle g).
Proof. apart_state s. done. Qed.
Lemma names_use s f h m : Commute s (ANames f) (AUse h m).
Proof. apart_state s. by destruct ((hs !! h) ≫= id). Qed.
Lemma names_spend s f h m : Commute s (ANames f) (ASpend h false m).
Proof. apart_state s. by destruct ((hs !! h) ≫= id). Qed.
Lemma view_style s f g : Commute s (AView f) (AStyle g).
Proof. apart_state s. done. Qed.
Lemma view_use s f h m : Commute s (AView f) (AUse h m).
Proof. apart_state s. by destruct ((hs !! h) ≫= id). Qed.
Lemma view_spend s f h d m : Commute s (AView f) (ASpend h d m).
Proof. apart_state s. by destruct ((hs !! h) ≫= id). Qed.
Lemma view_give s f m : Commute s (AView f) (AGive m).
Proof. apart_state s. by destruct (m (sheets, (rels, o))) as [[l [r o1]] x]. Qed.
Lemma style_use s f h m : Commute s (AStyle f) (AUse h m).
Proof. apart_state s. by destruct ((hs !! h) ≫= id). Qed.
Lemma style_spend s f h d m : Commute s (AStyle f) (ASpend h d m).
Proof. apart_state s. by destruct ((hs !! h) ≫= id). Qed.
Lemma style_give s f m : Commute s (AStyle f) (AGive m).
Proof. apart_state s. by destruct (m (sheets, (rels, o))) as [[l [r o1]] x]. Qed.
Lemma use_give s h m n : (h < length s.2)%nat -> Commute s (AUse h m) (AGive n).
Proof.
  apart_state s. intros Hh. destruct (hs !! h) as [[w|]|] eqn:Eh; cbn [mbind option_bind id];
    cbn [run whole fst snd]; destruct (n (sheets, (rels, o))) as [[l [r o1]] [x|e|e]]; cbn [run whole fst snd rmap rbind];
    rewrite ?(lookup_app_l _ _ _ Hh), ?Eh; cbn [mbind option_bind id fst snd]; try done.
  by rewrite insert_app_l.
Qed.
Lemma use_spend s h k m d n : h <> k -> Commute s (AUse h m) (ASpend k d n).
Proof.
  apart_state s. intros Hh. destruct ((hs !! h) ≫= id) as [w|] eqn:Eh, ((hs !! k) ≫= id) as [x|] eqn:Ek; cbn [run whole fst snd];
    rewrite ?list_lookup_insert_ne by done; rewrite ?Eh, ?Ek; cbn [fst snd]; try done. by rewrite list_insert_commute.
Qed.
(** The call on a handle does not read or change the texts. *)
Definition Plain (m : M (worksheet * list string) unit) : Prop :=
  forall w t t', (m (w, t)).1.2 = t /\ (m (w, t)).1.1 = (m (w, t')).1.1 /\ (m (w, t)).2 = (m (w, t')).2.
Lemma use_use s h k m n : h <> k -> Plain m -> Commute s (AUse h m) (AUse k n).
Proof.
  apart_state s. intros Hh Hm. destruct ((hs !! h) ≫= id) as [w|] eqn:Eh, ((hs !! k) ≫= id) as [x|] eqn:Ek; cbn [run whole fst snd];
    rewrite ?list_lookup_insert_ne by done; rewrite ?Eh, ?Ek; cbn [fst snd]; try done.
  destruct (Hm w t (n (x, t)).1.2) as (H1 & H2 & H3). destruct (Hm w (n (x, t)).1.2 t) as (H4 & _ & _).
  rewrite H1, H4, <- H2, <- H3. by rewrite list_insert_commute.
Qed.
Lemma spend_spend s h k d e m n : h <> k -> d && e = false -> (forall w, Within (handle_parts (Some w)) (m w)) -> (forall w, Within (handle_parts (Some w)) (n w)) ->
  (forall w x q, handle h s = Some w -> handle k s = Some x -> q ∈ handle_parts (Some w) -> q ∉ handle_parts (Some x)) ->
  Commute s (ASpend h d m) (ASpend k e n).
Proof.
  unfold handle. apart_state s. intros Hh Hde Wm Wn Hd. destruct ((hs !! h) ≫= id) as [w|] eqn:Eh, ((hs !! k) ≫= id) as [x|] eqn:Ek; cbn [run whole fst snd];
    rewrite ?list_lookup_insert_ne by done; rewrite ?Eh, ?Ek; cbn [fst snd]; try done.
  destruct (within_commute _ _ _ _ o (Wm w) (Wn x) (fun q Hq => Hd w x q eq_refl eq_refl Hq)) as (H1 & H2 & H3).
  rewrite H1, H2, H3. rewrite list_insert_commute by done. by destruct d, e.
Qed.

(** ** The calls *)
Lemma store_plain c t t' : shares c = false -> store_cell c t = (t, (store_cell c t').2).
Proof.
  unfold shares, store_cell. destruct (ce_value c) as [v|]; [|done]. destruct (ce_type c); try done.
  destruct (f64_parses v); [done|]. unfold seqb. destruct (String.eqb v "true"); [done|]. by destruct (String.eqb v "false").
Qed.
Lemma store_cells_plain cs t t' : existsb shares cs = false -> store_cells cs t = (t, (store_cells cs t').2).
Proof.
  revert t t'. induction cs as [|c cs IH]; intros t t'; [done|]. cbn [existsb store_cells]. rewrite orb_false_iff. intros [Hc Hcs].
  rewrite (store_plain c t t' Hc), (store_plain c t' t Hc). cbn [snd]. rewrite (IH t t' Hcs), (IH t' t Hcs). cbn [snd].
  by rewrite (store_plain c t t' Hc).
Qed.
Lemma plain_row r c cs : existsb shares cs = false -> Plain (set_row_value r c cs).
Proof.
  intros Hcs w t t'. unfold set_row_value. destruct (u16_sub env_mode c 1) as [c0|e|e]; [|done|done].
  rewrite (store_cells_plain cs t t' Hcs), (store_cells_plain cs t' t Hcs). cbn [snd]. rewrite (store_cells_plain cs t t' Hcs). cbn [snd].
  destruct (place_cells _ _ _ _ _) as [[dim cells] x]. by destruct x.
Qed.
Lemma plain_ref ref cs : existsb shares cs = false -> Plain (set_row_value_ref ref cs).
Proof.
  intros Hcs w t t'. unfold set_row_value_ref, bind, lift. destruct (get_cell_index ref) as [[r c]|e|e]; [|done|done]. by apply plain_row.
Qed.
Lemma plain_on_handle m : Plain (on_handle m).
Proof. intros w t t'. unfold on_handle. cbn [fst snd]. by destruct (m w). Qed.
(** The six kinds of calls. *)
Inductive Class (c : call) : Prop :=
| cl_names f : act_of c = ANames f -> touches c = [TNames] -> Class c
| cl_view f : act_of c = AView f -> touches c = [TWindow] -> Class c
| cl_style f : act_of c = AStyle f -> touches c = [TStyles] -> Class c
| cl_use h m (texts : bool) : act_of c = AUse h m -> touches c = TContent h :: (if texts then [TTexts] else []) -> through c = Some h -> (texts = false -> Plain m) -> Class c
| cl_spend h (d : bool) m : act_of c = ASpend h d m -> touches c = (if d then [TNames] else []) ++ [TContent h; TPart h] -> (forall w, Within (handle_parts (Some w)) (m w)) -> Class c
| cl_give m : act_of c = AGive m -> touches c = [TNames; TParts] -> opens c -> Class c.
Lemma classes c : Class c.
Proof.
  destruct c.
  - by eapply cl_give.
  - by eapply cl_give.
  - by eapply cl_names.
  - by eapply cl_names.
  - by eapply cl_names.
  - by eapply cl_view.
  - by eapply cl_view.
  - by eapply cl_view.
  - by eapply cl_view.
  - by eapply cl_view.
  - by eapply cl_style.
  - eapply (cl_use _ _ _ (existsb shares cs)); [done..|apply plain_row].
  - eapply (cl_use _ _ _ (existsb shares cs)); [done..|apply plain_ref].
  - eapply (cl_use _ _ _ false); [done..|intros _; apply plain_on_handle].
  - eapply (cl_use _ _ _ false); [done..|intros _; apply plain_on_handle].
  - eapply (cl_use _ _ _ false); [done..|intros _; apply plain_on_handle].
  - eapply (cl_spend _ _ false); [done..|apply within_ws_drop].
  - eapply (cl_spend _ _ false); [done..|apply within_ws_flush].
  - eapply (cl_spend _ _ true); [done..|apply within_delete].
Qed.
Lemma forallb_comm {A B} (f : A -> B -> bool) l k : forallb (fun a => forallb (f a) k) l = forallb (fun b => forallb (fun a => f a b) l) k.
Proof.
  apply eq_true_iff_eq. rewrite !forallb_forall. setoid_rewrite forallb_forall. naive_solver.
Qed.
Lemma overlap_sym a b : overlap a b = overlap b a.
Proof. destruct a, b; cbn; try done; apply Nat.eqb_sym. Qed.
Lemma forallb_ext {A} (f g : A -> bool) l : (forall a, f a = g a) -> forallb f l = forallb g l.
Proof. intros Hf. induction l as [|a l IH]; [done|]. cbn. by rewrite Hf, IH. Qed.
Lemma separate_sym c1 c2 : separate c1 c2 = separate c2 c1.
Proof.
  unfold separate. rewrite (forallb_comm (fun a b => negb (overlap a b))). apply forallb_ext. intros b. apply forallb_ext. intros a. by rewrite overlap_sym.
Qed.
Lemma independent_sym n c1 c2 : Independent n c1 c2 -> Independent n c2 c1.
Proof. intros (H1 & H2 & H3). split; [by rewrite separate_sym|done]. Qed.
Lemma independent_more n n' c1 c2 : (n <= n')%nat -> Independent n c1 c2 -> Independent n' c1 c2.
Proof.
  intros Hn (H1 & H2 & H3). split; [done|]. split; intros Ho h Hh; [specialize (H2 Ho h Hh)|specialize (H3 Ho h Hh)]; lia.
Qed.
Lemma independent_commute s c1 c2 : LInv s -> Independent (length s.2) c1 c2 -> Commute s (act_of c1) (act_of c2).
Proof.
  intros I (Hsep & Ho1 & Ho2). unfold separate in Hsep.
  destruct (classes c1) as [f1 A1 T1|f1 A1 T1|f1 A1 T1|h1 m1 x1 A1 T1 U1 P1|h1 d1 m1 A1 T1 W1|m1 A1 T1 O1],
    (classes c2) as [f2 A2 T2|f2 A2 T2|f2 A2 T2|h2 m2 x2 A2 T2 U2 P2|h2 d2 m2 A2 T2 W2|m2 A2 T2 O2];
    rewrite A1, A2; rewrite T1, T2 in Hsep; try discriminate Hsep.
  all: try first [apply names_view|apply names_style|apply names_use|apply view_style|apply view_use|apply view_spend|apply view_give|apply style_use|apply style_spend|apply style_give].
  all: try (apply commute_sym; first [apply names_view|apply names_style|apply names_use|apply view_style|apply view_use|apply view_spend|apply view_give|apply style_use|apply style_spend|apply style_give]).
  - destruct d2; [done|]. apply names_spend.
  - assert (h1 <> h2) as Hne. { intros ->. cbn [forallb app] in Hsep. destruct x1, x2; cbn [forallb overlap] in Hsep; rewrite Nat.eqb_refl in Hsep; done. }
    destruct x1; [destruct x2; [cbn [forallb overlap] in Hsep; rewrite ?andb_false_r in Hsep; cbn in Hsep; by rewrite ?andb_false_r in Hsep|]|].
    + apply commute_sym, use_use; [done|by apply P2].
    + apply use_use; [done|by apply P1].
  - apply use_spend. intros ->. destruct x1, d2; cbn [forallb app overlap] in Hsep; rewrite Nat.eqb_refl in Hsep; done.
  - apply use_give. by apply Ho2.
  - apply commute_sym. destruct d1; [done|]. apply names_spend.
  - apply commute_sym, use_spend. intros ->. destruct d1, x2; cbn [forallb app overlap] in Hsep; rewrite Nat.eqb_refl in Hsep; done.
  - assert (h1 <> h2) as Hne. { intros ->. destruct d1, d2; cbn [forallb app overlap] in Hsep; rewrite Nat.eqb_refl in Hsep; done. }
    apply spend_spend; [done| |done|done|].
    + destruct d1, d2; cbn [forallb app overlap] in Hsep; done.
    + intros w x q Hw Hx. by apply (apart_handle s h1 h2).
  - destruct d1; cbn in Hsep; done.
  - apply commute_sym, use_give. by apply Ho1.
  - destruct d2; cbn in Hsep; done.
Qed.

(** ** Programs *)
Lemma handles_grow c s : (length s.2 <= length (call_step c s).1.2)%nat.
Proof.
  rewrite run_call. destruct s as [[[o root core] [p calc [t sp] [st stp] rels th sheets view]] hs].
  destruct (act_of c); cbn [run whole fst snd]; try done.
  - destruct ((hs !! h) ≫= id); cbn [whole fst snd]; [|done]. by rewrite insert_length.
  - destruct ((hs !! h) ≫= id); cbn [whole fst snd]; [|done]. by rewrite insert_length.
  - destruct (m _) as [[l [r o1]] [w|e|e]]; cbn [whole fst snd]; [|done|done]. rewrite app_length. lia.
Qed.
Definition stops (r : res unit) : bool := match r with Panic _ => true | _ => false end.
Lemma calls_cons c cs s : calls (c :: cs) s = if stops (call_step c s).2 then None else calls cs (call_step c s).1.
Proof. cbn [calls]. by destruct (call_step c s) as [s1 [[]|e|e]]. Qed.
Lemma replies_cons c cs s : replies (c :: cs) s = (call_step c s).2 :: (if stops (call_step c s).2 then [] else replies cs (call_step c s).1).
Proof. cbn [replies]. by destruct (call_step c s) as [s1 [[]|e|e]]. Qed.
Lemma linv_step c s : LInv s -> stops (call_step c s).2 = false -> LInv (call_step c s).1.
Proof. intros I Hn. apply (call_effect c s I). by destruct (call_step c s).2. Qed.
Lemma replies_length cs : forall s s', calls cs s = Some s' -> length (replies cs s) = length cs.
Proof.
  induction cs as [|c cs IH]; intros s s'; [done|]. rewrite calls_cons, replies_cons. destruct (stops _); [done|]. intros Hc. cbn [length]. f_equal. by eapply IH.
Qed.
(** Two neighbours. *)
Lemma swap_step s c1 c2 : LInv s -> Independent (length s.2) c1 c2 ->
  let s1 := (call_step c1 s).1 in let s2 := (call_step c2 s).1 in
  (call_step c2 s1).1 = (call_step c1 s2).1 /\ (call_step c2 s1).2 = (call_step c2 s).2 /\ (call_step c1 s2).2 = (call_step c1 s).2.
Proof. cbv zeta. intros I Hi. rewrite !run_call. by apply independent_commute. Qed.
Lemma swap_calls s c1 c2 cs : LInv s -> Independent (length s.2) c1 c2 -> calls (c1 :: c2 :: cs) s = calls (c2 :: c1 :: cs) s.
Proof.
  intros I Hi. destruct (swap_step s c1 c2 I Hi) as (H1 & H2 & H3). rewrite !calls_cons, H1, H2, H3.
  by destruct (stops (call_step c1 s).2), (stops (call_step c2 s).2).
Qed.
Lemma calls_app cs cs' s : calls (cs ++ cs') s = match calls cs s with Some s1 => calls cs' s1 | None => None end.
Proof.
  revert s. induction cs as [|c cs IH]; intros s; [done|]. cbn [app]. rewrite !calls_cons, IH. by destruct (stops (call_step c s).2).
Qed.
Theorem rearranged_calls s cs cs' : LInv s -> Rearranged s cs cs' -> calls cs s = calls cs' s.
Proof.
  intros I Hr. induction Hr as [cs|cs1 c1 c2 cs2 s1 Hc Hi|cs cs' cs'' _ IH1 _ IH2]; [done| |congruence].
  rewrite !calls_app, Hc. apply swap_calls; [|done]. by apply (calls_effect cs1 s s1 I Hc).
Qed.
Lemma side_cons {A} b (x : bool * A) m : side b (x :: m) = if Bool.eqb x.1 b then x.2 :: side b m else side b m.
Proof. unfold side. cbn [List.filter]. by destruct (Bool.eqb x.1 b). Qed.
(** A call that is independent of all calls of a list can be made before or after them. *)
Lemma move_calls cs : forall s c rest, LInv s -> Forall (fun a => Independent (length s.2) a c) cs ->
  calls (c :: cs ++ rest) s = calls (cs ++ c :: rest) s.
Proof.
  induction cs as [|a cs IH]; intros s c rest I Hf; [done|]. apply Forall_cons in Hf as [Ha Hf]. cbn [app].
  rewrite <- (swap_calls s a c (cs ++ rest) I Ha). rewrite (calls_cons a), (calls_cons a (cs ++ c :: rest)).
  destruct (stops (call_step a s).2) eqn:Ea; [done|]. apply IH; [by apply linv_step|]. eapply Forall_impl; [exact Hf|].
  cbn beta. intros b Hb. eapply independent_more; [apply handles_grow|exact Hb].
Qed.
Lemma move_replies cs : forall s c rest s', LInv s -> Forall (fun a => Independent (length s.2) a c) cs -> calls (c :: cs ++ rest) s = Some s' ->
  exists l, replies (c :: cs ++ rest) s = (call_step c s).2 :: take (length cs) l ++ drop (length cs) l /\ length l = length (cs ++ rest)
    /\ replies (cs ++ c :: rest) s = take (length cs) l ++ (call_step c s).2 :: drop (length cs) l.
Proof.
  induction cs as [|a cs IH]; intros s c rest s' I Hf Hc.
  - rewrite calls_cons in Hc. destruct (stops (call_step c s).2) eqn:Ec; [done|]. exists (replies rest (call_step c s).1).
    cbn [app length take drop]. rewrite replies_cons, Ec. split; [done|]. split; [|done]. by eapply replies_length.
  - apply Forall_cons in Hf as [Ha Hf]. cbn [app] in *. destruct (swap_step s a c I Ha) as (H1 & H2 & H3).
    rewrite calls_cons in Hc. destruct (stops (call_step c s).2) eqn:Ec; [done|]. rewrite calls_cons in Hc. rewrite H3 in Hc. destruct (stops (call_step a s).2) eqn:Ea; [done|].
    rewrite <- H1 in Hc. destruct (IH (call_step a s).1 c rest s') as (l & L1 & L2 & L3).
    + by apply linv_step.
    + eapply Forall_impl; [exact Hf|]. cbn beta. intros b Hb. eapply independent_more; [apply handles_grow|exact Hb].
    + by rewrite calls_cons, H2, Ec.
    + exists ((call_step a s).2 :: l). rewrite H2 in L1, L3. rewrite replies_cons in L1. rewrite H2, Ec in L1. injection L1 as L1.
      cbn [length take drop app]. rewrite replies_cons, Ec, replies_cons, H3, Ea, <- H1, L1. split; [done|]. split; [by rewrite L2|].
      by rewrite replies_cons, Ea, L3.
Qed.
(** Two programs in which each call of the one is independent of each call of the other, mixed in any way. *)
Theorem mixed_calls m : forall s, LInv s -> (forall a b, a ∈ side true m -> b ∈ side false m -> Independent (length s.2) a b) ->
  calls (map snd m) s = calls (side true m ++ side false m) s.
Proof.
  induction m as [|[b c] m IH]; intros s I Hi; [done|]. cbn [map snd]. rewrite calls_cons. rewrite !side_cons in *. cbn [fst snd] in *.
  assert (stops (call_step c s).2 = false -> calls (map snd m) (call_step c s).1 = calls (side true m ++ side false m) (call_step c s).1) as IH'.
  { intros Hn. apply IH; [by apply linv_step|]. intros a1 b1 Ha Hb. eapply independent_more; [apply handles_grow|]. apply Hi; destruct b; cbn [Bool.eqb]; rewrite ?elem_of_cons; auto. }
  destruct b; cbn [Bool.eqb app] in *.
  - rewrite calls_cons. by destruct (stops (call_step c s).2); [|apply IH'].
  - rewrite <- move_calls; [|done|]. { rewrite calls_cons. by destruct (stops (call_step c s).2); [|apply IH']. }
    apply Forall_forall. intros a Ha. apply Hi; [done|left].
Qed.
Lemma side_length {A B} b (m : list (bool * A)) (l : list B) : length l = length m -> length (side b (combine (map fst m) l)) = length (side b m).
Proof.
  revert l. induction m as [|[t x] m IH]; intros [|y l]; [done..|]. cbn [length map combine fst]. intros [= Hl]. rewrite !side_cons. cbn [fst snd].
  destruct (Bool.eqb t b); cbn [length]; by rewrite IH.
Qed.
Lemma replies_app cs cs' s s1 : calls cs s = Some s1 -> replies (cs ++ cs') s = replies cs s ++ replies cs' s1.
Proof.
  revert s. induction cs as [|c cs IH]; intros s; [by intros [= ->]|]. cbn [app]. rewrite calls_cons, !replies_cons. destruct (stops _); [done|].
  intros Hc. by rewrite (IH _ Hc).
Qed.
Theorem mixed_replies m : forall s s', LInv s -> (forall a b, a ∈ side true m -> b ∈ side false m -> Independent (length s.2) a b) ->
  calls (map snd m) s = Some s' ->
  let rs := combine (map fst m) (replies (map snd m) s) in replies (side true m ++ side false m) s = side true rs ++ side false rs.
Proof.
  cbv zeta. induction m as [|[b c] m IH]; intros s s' I Hi Hc; [done|]. cbn [map fst snd] in *. rewrite calls_cons in Hc. rewrite replies_cons. cbn [combine].
  destruct (stops (call_step c s).2) eqn:Ec; [done|]. rewrite !side_cons in *. cbn [fst snd] in *.
  assert (forall a b, a ∈ side true m -> b ∈ side false m -> Independent (length (call_step c s).1.2) a b) as Hi'.
  { intros a1 b1 Ha Hb. eapply independent_more; [apply handles_grow|]. apply Hi; destruct b; cbn [Bool.eqb]; rewrite ?elem_of_cons; auto. }
  pose proof (linv_step c s I Ec) as I1. specialize (IH _ _ I1 Hi' Hc). pose proof (mixed_calls m _ I1 Hi') as Hm. rewrite Hc in Hm.
  destruct b; cbn [Bool.eqb app] in *.
  - by rewrite replies_cons, Ec, IH.
  - destruct (move_replies (side true m) s c (side false m) s' I) as (l & L1 & L2 & L3).
    + apply Forall_forall. intros a Ha. apply Hi; [done|left].
    + by rewrite calls_cons, Ec.
    + rewrite take_drop in L1. rewrite replies_cons, Ec in L1. injection L1 as <-. rewrite L3, IH.
      pose proof (side_length true m (replies (map snd m) (call_step c s).1)) as Hl. rewrite (replies_length _ _ _ Hc), map_length in Hl. specialize (Hl eq_refl).
      by rewrite <- Hl, take_app, drop_app.
Qed.
Definition flip {A} (m : list (bool * A)) : list (bool * A) := map (fun x => (negb x.1, x.2)) m.
Lemma side_flip {A} b (m : list (bool * A)) : side b (flip m) = side (negb b) m.
Proof.
  induction m as [|[t x] m IH]; [done|]. unfold flip in *. cbn [map fst snd]. rewrite !side_cons, IH. cbn [fst snd]. by destruct t, b.
Qed.
Lemma flip_combine {A B} (m : list (bool * A)) (l : list B) : combine (map fst (flip m)) l = flip (combine (map fst m) l).
Proof. revert l. induction m as [|[t x] m IH]; intros [|y l]; [done..|]. cbn. f_equal. apply IH. Qed.
(** Each of the two programs is answered as if it ran alone. *)
Theorem mixed_alone m s s' b : LInv s -> (forall a b, a ∈ side true m -> b ∈ side false m -> Independent (length s.2) a b) ->
  calls (map snd m) s = Some s' -> side b (combine (map fst m) (replies (map snd m) s)) = replies (side b m) s.
Proof.
  assert (forall m, LInv s -> (forall a b, a ∈ side true m -> b ∈ side false m -> Independent (length s.2) a b) ->
    calls (map snd m) s = Some s' -> side true (combine (map fst m) (replies (map snd m) s)) = replies (side true m) s) as G.
  { clear m. intros m I Hi Hc. pose proof (mixed_replies m s s' I Hi Hc) as Hr. cbv zeta in Hr. pose proof (mixed_calls m s I Hi) as Hm. rewrite Hc in Hm.
    rewrite calls_app in Hm. destruct (calls (side true m) s) as [s1|] eqn:E1; [|done]. rewrite (replies_app _ _ _ _ E1) in Hr.
    apply app_inj_1 in Hr as [Hr _]; [done|]. rewrite (replies_length _ _ _ E1). symmetry. apply side_length. by rewrite (replies_length _ _ _ Hc), map_length. }
  intros I Hi Hc. destruct b; [by apply G|].
  assert (map snd (flip m) = map snd m) as Hf by (unfold flip; rewrite map_map; done).
  pose proof (G (flip m) I) as G'. rewrite !side_flip, Hf, flip_combine, side_flip in G'. cbn [negb] in G'. apply G'; [|done].
  intros a b0 Ha Hb. apply independent_sym. by apply Hi.
Qed.
End with_env.
