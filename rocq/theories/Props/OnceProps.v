(** C72: a sheet that has no relationships can be had once. *)
From Verif.Model Require Import Excel.
From Verif.Spec Require Import XmlSpec PackageSpec SheetSpec StyleSpec SessionSpec FlowSpec ReopenSpec GrowSpec DemoEnv.
From Verif.Proofs Require Import BaseFacts SaveFacts SheetDocFacts FrameFacts KeepFacts OwnFacts OpenMoreFacts GrowFacts OnceFacts.
From Verif.Props Require Import KeepProps ReopenProps GrowProps.
Open Scope N_scope.

(** C72. A sheet is handed out whose relationships are not in the file opened, the first time it is asked for. Whatever is called then, releasing the sheet
    included, it is not handed out again. *)
Theorem C72_session : forall (E : Env) (HH : Hashes) (fs0 : filesys) (file q : string) (l0 : list (string * string)) (x0 : excel) (cs1 cs2 : list call) (c : call) (s1 s2 : session) (w w' : worksheet),
  Stored fs0 file l0 -> excel_new (Some file) fs0 = Ok x0 -> calls cs1 (x0, []) = Some s1 -> opens c -> call_step c s1 = (s2, Ok tt) -> handle (length s1.2) s2 = Some w ->
  Beside (ws_path w) q -> q ∉ l0.*1 -> (forall p, AskedFor cs1 (x0, []) p -> q <> p /\ ~ Beside p q) ->
  HandedOut cs2 s2 w' -> ws_path w' <> ws_path w.
Proof.
  intros E HH fs0 file q l0 x0 cs1 cs2 c s1 s2 w w' Hst Hn Hc1 Ho Hc Hw Hb Hl Ha. destruct (new_linv _ _ _ Hn) as [I _]. destruct (calls_effect _ _ _ I Hc1) as (I1 & _).
  assert (~ Present (x_office s1.1) q) as Hp.
  { eapply first_absent; [exact Hst|exact Hn|exact Hc1|by eapply beside_types|done| |done]. destruct (call_new _ _ _ _ I1 Ho Hc Hw) as [Op Hr]. apply beside_spec in Hb. apply (op_closed _ _ _ Op). rewrite Hb in Hr. injection Hr as ->. right. by left. }
  destruct (once_start _ _ _ _ _ I1 Ho Hc Hw Hb Hp) as (I2 & _ & p & O). by apply (once_later cs2 s2 q p).
Qed.
(** C72. Nor is it in a session on the file saved after any further calls, unless a sheet is listed there whose part is that of the relationships. *)
Theorem C72_saved : forall (E : Env) (HH : Hashes) (fs0 fs fs' : filesys) (file path q : string) (l0 : list (string * string)) (x0 x1 : excel) (cs1 cs2 cs3 : list call) (c : call) (s1 s2 s3 : session) (w w' : worksheet)
    (t : clock) (f : faults) (tr : list filesys),
  Stored fs0 file l0 -> excel_new (Some file) fs0 = Ok x0 -> calls cs1 (x0, []) = Some s1 -> opens c -> call_step c s1 = (s2, Ok tt) -> handle (length s1.2) s2 = Some w ->
  Beside (ws_path w) q -> q ∉ l0.*1 -> (forall p, AskedFor cs1 (x0, []) p -> q <> p /\ ~ Beside p q) ->
  calls cs2 s2 = Some s3 -> excel_save t f path s3.1 fs = (tr, Ok tt) -> last tr = Some fs' -> excel_new (Some path) fs' = Ok x1 ->
  ~ AskedFor cs3 (x1, []) q -> HandedOut cs3 (x1, []) w' -> ws_path w' <> ws_path w.
Proof.
  intros E HH fs0 fs fs' file path q l0 x0 x1 cs1 cs2 cs3 c s1 s2 s3 w w' t f tr Hst Hn Hc1 Ho Hc Hw Hb Hl Ha Hc2 Hs Hlast Hn1 Ha3. destruct (new_linv _ _ _ Hn) as [I _]. destruct (calls_effect _ _ _ I Hc1) as (I1 & _).
  assert (~ Present (x_office s1.1) q) as Hp.
  { eapply first_absent; [exact Hst|exact Hn|exact Hc1|by eapply beside_types|done| |done]. destruct (call_new _ _ _ _ I1 Ho Hc Hw) as [Op Hr]. pose proof Hb as Hb'. apply beside_spec in Hb'. apply (op_closed _ _ _ Op). rewrite Hb' in Hr. injection Hr as ->. right. by left. }
  destruct (once_start _ _ _ _ _ I1 Ho Hc Hw Hb Hp) as (I2 & Hin & p & O). destruct (once_calls _ _ _ _ _ I2 O Hc2) as [I3 O3].
  assert (q ∉ own_parts (x_book s2.1) /\ q ∉ DocsIn (x_suite s2.1)) as [N1 N2].
  { pose proof (li_nodup _ I2) as Hnd. unfold held in Hnd. apply handle_lookup in Hw. destruct (live_split _ _ _ Hw) as (a & b & L1 & _). rewrite L1 in Hnd.
    apply NoDup_app in Hnd as (_ & D1 & Hnd). apply NoDup_app in Hnd as (_ & D2 & _). split; intros H; [apply (D1 _ H)|apply (D2 _ H)]; rewrite !elem_of_app; tauto. }
  destruct (own_stays _ _ _ I2 Hc2) as [O1 _]. destruct (docs_stay _ _ _ I2 Hc2) as (D1 & D2 & _). destruct (new_linv _ _ _ Hn1) as [J _].
  eapply spoilt_none; [exact J|exact Hb|exact Ha3|]. eapply spoilt_start; [exact I3|exact Hs|exact Hlast|exact Hn1|by eapply beside_types| | |apply O3|apply O3].
  - by rewrite O1.
  - unfold DocsIn. by rewrite D1, D2.
Qed.
(** C72. So asking for it by the name under which that file lists it, and no other sheet, fails. *)
Theorem C72_refused : forall (E : Env) (HH : Hashes) (fs0 fs fs' : filesys) (file path q n : string) (l0 : list (string * string)) (x0 x1 : excel) (cs1 cs2 : list call) (c : call) (s1 s2 s3 : session) (w : worksheet)
    (t : clock) (f : faults) (tr : list filesys),
  Stored fs0 file l0 -> excel_new (Some file) fs0 = Ok x0 -> calls cs1 (x0, []) = Some s1 -> opens c -> call_step c s1 = (s2, Ok tt) -> handle (length s1.2) s2 = Some w ->
  Beside (ws_path w) q -> q ∉ l0.*1 -> (forall p, AskedFor cs1 (x0, []) p -> q <> p /\ ~ Beside p q) ->
  calls cs2 s2 = Some s3 -> excel_save t f path s3.1 fs = (tr, Ok tt) -> last tr = Some fs' -> excel_new (Some path) fs' = Ok x1 ->
  n ∈ list_sheet_names (x_book x1) -> (forall p, LeadsTo (x1, []) n p -> p = ws_path w) ->
  (call_step (CGet n) (x1, [])).2 <> Ok tt.
Proof.
  intros E HH fs0 fs fs' file path q n l0 x0 x1 cs1 cs2 c s1 s2 s3 w t f tr Hst Hn Hc1 Ho Hc Hw Hb Hl Ha Hc2 Hs Hlast Hn1 Hin Hone Hok. destruct (call_step (CGet n) (x1, [])) as [s4 r] eqn:Eg. cbn [snd] in Hok. subst r.
  destruct (get_asked _ _ _ Eg Hin) as (w' & G1 & G2). apply Hone in G2 as G3. revert G3.
  apply (C72_saved E HH fs0 fs fs' file path q l0 x0 x1 cs1 cs2 [CGet n] c s1 s2 s3 w w' t f tr); try done.
  - intros (d1 & d & d2 & s' & Hd & Hd1 & Hd2). destruct d1 as [|y d1]; [|by destruct d1]. injection Hd as <- <-. injection Hd1 as <-. apply get_asks, Hone in Hd2; [|done].
    apply beside_spec, SheetDocFacts.rels_beside_ne in Hb. done.
  - exists [], (CGet n), [], (x1, []), s4. done.
Qed.


(** A file with a sheet "Two" without relationships, and rounds of opening it, asking for that sheet, writing to it, releasing it and saving. The first time
    the sheet is handed out, the second time it is refused. The refused call takes the relationships away, so the third time it can be had again. *)
Definition once_parts `{Env} `{Hashes} : list (string * string) := List.filter (fun nd => negb (seqb nd.1 "xl/worksheets/_rels/sheet2.xml.rels")) sound_parts.
Definition once_round `{Env} `{Hashes} (l0 : list (string * string)) : option (bool * list (string * string)) :=
  match excel_new (Some "in") {["in" := env_zip l0]} with
  | Ok x0 => s ← calls [CGet "Two"; CRow 0 1 1 [mkCell None (Some "v") TInline None None None None]; CDrop 0] (x0, []);
      l ← saved_parts (excel_save demo_clock demo_faults "a.xlsx" s.1 ∅);
      Some (match s.2 with [] => false | _ => true end && existsb (seqb "Two") (list_sheet_names (x_book x0)), l)
  | _ => None end.
Definition once_rounds `{Env} `{Hashes} : option (list (bool * bool)) :=
  let has l := existsb (seqb "xl/worksheets/_rels/sheet2.xml.rels") (names l) in
  a ← once_round once_parts; b ← once_round a.2; c ← once_round b.2; Some [(a.1, has a.2); (b.1, has b.2); (c.1, has c.2)].
Example C72_example : @once_rounds (demo_env Checked) value_hashes = Some [(true, true); (false, false); (true, true)].
Proof. vm_compute. reflexivity. Qed.

Print Assumptions C72_session.
Print Assumptions C72_saved.
Print Assumptions C72_refused.
Print Assumptions C72_example.
