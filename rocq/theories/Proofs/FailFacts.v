(** What a call that reports an error leaves behind. *)
From Verif.Model Require Import Excel.
From Verif.Spec Require Import XmlSpec PackageSpec SessionSpec FlowSpec InventorySpec RepeatSpec SwapSpec.
From Verif.Proofs Require Import BaseFacts PackageFacts BookFacts FrameFacts KeepFacts FlowFacts SwapFacts.
Open Scope N_scope.

Section with_env.
Context `{E : Env} `{HH : Hashes}.
Lemma place_no_error m col cs dim cells e : (place_cells m col cs dim cells).2 <> Err e.
Proof.
  revert col dim cells. induction cs as [|c cs IH]; intros col dim cells; [done|]. cbn [place_cells].
  unfold u16_add, u16_wrap. repeat case_match; first [done|apply IH|congruence].
Qed.
Lemma row_no_error r c cs s e : (set_row_value r c cs s).2 <> Err e.
Proof.
  destruct s as [w t]. unfold set_row_value. destruct (u16_sub env_mode c 1) as [c0|x|x] eqn:Ec; [| |done].
  - destruct (store_cells cs t) as [t1 cs1]. match goal with |- context [place_cells ?a ?b ?c ?d ?f] => pose proof (place_no_error a b c d f e) as Hp; destruct (place_cells a b c d f) as [[dim cells] x] end.
    cbn [snd] in Hp. by destruct x.
  - exfalso. unfold u16_sub in Ec. destruct (_ <=? _); [done|]. by destruct env_mode.
Qed.
Lemma style_error x st st' e : style_act x st = (st', Err e) -> st' = st.
Proof.
  unfold style_act, get_style_id. destruct (num_for x (st_nums st)) as [[[nums num] on]|m|m]; [|by intros [= <- _]|done].
  destruct (intern hash_font _ _) as [[? ?] ?], (intern hash_fill _ _) as [[? ?] ?], (intern hash_border _ _) as [[? ?] ?].
  repeat match goal with |- context [intern ?a ?b ?c] => destruct (intern a b c) as [[? ?] ?] end. done.
Qed.
Lemma plain_error c s s1 e : plain_call c = true -> call_step c s = (s1, Err e) -> s1 = s.
Proof.
  intros Hp. rewrite run_call. destruct s as [[[o root core] [p calc [t sp] [st stp] rels th sheets view]] hs].
  assert (forall h m w, (hs !! h) ≫= id = Some w -> m (w, t) = ((w, t), Err e) ->
    (whole o root core p calc (m (w, t)).1.2 sp st stp rels th sheets view (<[h := Some (m (w, t)).1.1]> hs), (m (w, t)).2) = (s1, Err (A := unit) e) ->
    s1 = (mkExcel (mkSuite o root core) (mkBook p calc (mkSst t sp) (mkStylePart st stp) rels th sheets view), hs)) as Hu.
  { intros h m w Hw Hm. rewrite Hm. cbn [fst snd]. rewrite list_insert_id; [by intros [= <-]|]. destruct (hs !! h) as [[y|]|]; [|done..]. by injection Hw as ->. }
  destruct c; try discriminate Hp; cbn [act_of run]; try done.
  - unfold rename_act. destruct (existsb _ _); cbn [fst snd]; [by intros [= <- _]|]. destruct (rename_first _ _ _); cbn [fst snd]; [done|by intros [= <- _]].
  - pose proof (style_error s st) as He. destruct (style_act s st) as [st1 r]. cbn [fst snd]. intros [= <- ->]. by rewrite (He st1 e eq_refl).
  - destruct ((hs !! h) ≫= id) as [w|] eqn:Eh; [|done]. intros Hx. apply (f_equal snd) in Hx. cbn [snd] in Hx. by apply row_no_error in Hx.
  - destruct ((hs !! h) ≫= id) as [w|] eqn:Eh; [|done]. intros Hx. apply (Hu h (set_row_value_ref ref cs) w Eh); [|done]. apply (f_equal snd) in Hx. cbn [snd] in Hx.
    revert Hx. unfold set_row_value_ref, bind, lift. destruct (get_cell_index ref) as [[r c]|x|x]; [|by intros [= ->]|done]. intros Hx. by apply row_no_error in Hx.
  - by destruct ((hs !! h) ≫= id).
  - by destruct ((hs !! h) ≫= id).
  - destruct ((hs !! h) ≫= id) as [w|] eqn:Eh; [|done]. intros Hx. apply (Hu h (on_handle (set_column_ref ref p0)) w Eh); [|done]. apply (f_equal snd) in Hx. cbn [snd] in Hx.
    revert Hx. unfold on_handle, set_column_ref, bind, lift. cbn [fst snd]. destruct (get_column_index ref) as [c|x|x]; [done|by intros [= ->]|done].
  - by destruct ((hs !! h) ≫= id).
Qed.
Lemma no_error c s e : never_fails c = true -> (call_step c s).2 <> Err e.
Proof.
  intros Hp. rewrite run_call. destruct s as [[[o root core] [p calc [t sp] [st stp] rels th sheets view]] hs].
  destruct c; try discriminate Hp; cbn [act_of run]; try done; destruct ((hs !! h) ≫= id) as [w|]; try done. cbn [snd]. apply row_no_error.
Qed.
Lemma skip_calls c cs1 cs2 s s1 e : plain_call c = true -> calls cs1 s = Some s1 -> (call_step c s1).2 = Err e ->
  calls (cs1 ++ c :: cs2) s = calls (cs1 ++ cs2) s /\ replies (cs1 ++ c :: cs2) s = replies cs1 s ++ Err e :: replies cs2 s1
  /\ replies (cs1 ++ cs2) s = replies cs1 s ++ replies cs2 s1.
Proof.
  intros Hp Hc He. rewrite !calls_app, Hc, !(replies_app _ _ _ _ Hc), calls_cons, replies_cons, He. cbn [stops].
  assert ((call_step c s1).1 = s1) as ->; [|done]. apply (plain_error c s1 _ e Hp). by rewrite <- He, <- surjective_pairing.
Qed.
(** Opening a sheet. *)
Lemma file_name_cases name l r o : let x := get_sheet_file_name name (l, (r, o)) in
  (x.1 = (l, (r, o)) /\ ((exists n, name = Some n /\ n ∈ map sh_name l) \/ forall a, x.2 <> Ok a))
  \/ (exists nm r1 id, x.1 = (l ++ [mkSheet nm id false false], (r1, o)) /\ forall n, name = Some n -> nm = n /\ n ∉ map sh_name l).
Proof.
  cbv zeta. unfold get_sheet_file_name, bind, get. destruct (name ≫= _) as [x|] eqn:Ef.
  - left. destruct name as [n|]; [|done]. cbn [mbind option_bind] in Ef. apply List.find_some in Ef as [Hin Hx%String.eqb_eq].
    split; [unfold lift; by destruct (get_target_by_id r (sh_rel x)) as [[p|]|e|e]|]. left. exists n. split; [done|]. rewrite <- Hx. apply elem_of_list_In. by apply in_map.
  - unfold lift. destruct (get_relative_path r) as [rp|e|e]; [|left; split; [done|right; done]..].
    destruct (free_number _ _ _ _) as [k|e|e]; [|left; split; [done|right; done]..]. right.
    destruct (set_new_relationship _ _ _ _) as [r1 id]. exists (default (sheet_file k) name), r1, id. split; [done|]. intros n ->. split; [done|].
    cbn [mbind option_bind] in Ef. intros Hin%elem_of_list_In. apply in_map_iff in Hin as (x & Hx & Hin). apply (List.find_none _ _ Ef) in Hin. unfold seqb in Hin. by rewrite Hx, String.eqb_refl in Hin.
Qed.
Definition asked (c : call) : option string := match c with CAdd n => n | CGet n => Some n | _ => None end.
Lemma open_error c s s1 e : opens c -> call_step c s = (s1, Err e) ->
  s1.2 = s.2 /\ (exists p, Aside (p :: match rels_beside p with Ok rp => [rp] | _ => [] end) s s1)
  /\ ((wb_sheets (x_book s1.1) = wb_sheets (x_book s.1) /\ wb_rels (x_book s1.1) = wb_rels (x_book s.1))
      \/ (exists nm id, wb_sheets (x_book s1.1) = wb_sheets (x_book s.1) ++ [mkSheet nm id false false] /\ forall n, asked c = Some n -> nm = n /\ n ∉ list_sheet_names (x_book s.1))).
Proof.
  intros Ho. rewrite run_call. assert (act_of c = AGive (ws_new (asked c))) as -> by (by destruct c).
  destruct s as [[[o root core] [p calc [t sp] [st stp] rels th sheets view]] hs]. cbn [run fst snd x_book wb_sheets wb_rels].
  pose proof (ws_new_list (asked c) (sheets, (rels, o))) as (L1 & L2 & _). pose proof (file_name_cases (asked c) sheets rels o) as Hf. cbv zeta in Hf.
  pose proof (ws_new_keeps (asked c) (sheets, (rels, o))) as K. cbv zeta in K.
  destruct (ws_new (asked c) (sheets, (rels, o))) as [[l1 [r1 o1]] r]. cbn [fst snd] in *. destruct r as [w|x|x]; cbn [rmap rbind]; [done| |done]. intros [= <- _].
  unfold whole. cbn [fst snd x_book wb_sheets wb_rels]. split; [done|]. split.
  - assert (exists p0, SameBut (p0 :: match rels_beside p0 with Ok rp => [rp] | _ => [] end) o o1) as (p0 & Hp0); [|exists p0; constructor; done].
    destruct (get_sheet_file_name (asked c) (sheets, (rels, o))) as [sx [[path nm]|e1|e1]]; cbn [fst snd] in *.
    + exists path. intros q Hq. rewrite not_elem_of_cons in Hq. destruct Hq as [H1 H2]. apply K.
      * intros path' nm' rp [= <- <-] Hrp. rewrite Hrp in H2. rewrite not_elem_of_cons in H2. by destruct H2.
      * by intros path' nm' [= <- <-].
    + exists "". intros q _. apply K; done.
    + exists "". intros q _. apply K; done.
  - destruct Hf as [[Hf _]|(nm & r2 & id & Hf & Hn)]; rewrite Hf in L1, L2; cbn [fst snd] in L1, L2; subst; [by left|right]. by exists nm, id.
Qed.
Lemma flush_error h s s1 e : call_step (CFlush h) s = (s1, Err e) ->
  exists w, handle h s = Some w /\ s1.2 = <[h := None]> s.2 /\ x_book s1.1 = x_book s.1 /\ Aside [ws_path w; rl_path (ws_rels w)] s s1.
Proof.
  rewrite run_call. destruct s as [[[o root core] [p calc [t sp] [st stp] rels th sheets view]] hs]. cbn [act_of run]. unfold handle. cbn [snd].
  destruct ((hs !! h) ≫= id) as [w|]; [|done]. intros [= <- He]. exists w. split_and!; [done..|]. constructor; cbn; [|done..]. intros q Hq. by apply (within_ws_flush w).
Qed.
Lemma delete_error h s s1 e : call_step (CDelete h) s = (s1, Err e) ->
  exists w, handle h s = Some w /\ s1.2 = <[h := None]> s.2 /\ Aside [ws_path w; rl_path (ws_rels w)] s s1
  /\ list_sheet_names (x_book s1.1) = List.filter (fun n => negb (String.eqb n (ws_name w))) (list_sheet_names (x_book s.1)).
Proof.
  rewrite run_call. destruct s as [[[o root core] [p calc [t sp] [st stp] rels th sheets view]] hs]. cbn [act_of run]. unfold handle. cbn [snd].
  destruct ((hs !! h) ≫= id) as [w|]; [|done]. intros [= <- He]. exists w. split; [done|]. split; [done|]. split.
  - constructor; cbn; [|done..]. intros q Hq. by apply (within_delete w).
  - unfold list_sheet_names, whole. cbn [fst x_book wb_sheets]. clear. induction sheets as [|x l IH]; [done|]. cbn [List.filter map].
    unfold seqb in *. destruct (String.eqb (sh_name x) (ws_name w)); cbn [negb map]; [done|by f_equal].
Qed.
End with_env.
