(** C78: parts nobody asks for (pictures, charts and their relationships, macros) go through any number of files byte for byte. *)
From Verif.Model Require Import Excel.
From Verif.Spec Require Import XmlSpec PackageSpec SheetSpec StyleSpec SessionSpec FlowSpec ReopenSpec GrowSpec CarrySpec DemoEnv.
From Verif.Proofs Require Import BaseFacts SheetCycleFacts KeepFacts FlowSaveFacts ReopenFacts GrowFacts CarryFacts.
From Verif.Props Require Import KeepProps FlowProps ReopenProps.
Open Scope N_scope.

(** C78. A file is opened. A part of it is neither one of the eight the workbook is made of nor the content types, and no call asks for a sheet that is this part
    or whose relationships are in it. Whatever else is called, and whether it succeeds: in the file saved this part is once, with the same bytes. *)
Theorem C78_bytes : forall (E : Env) (HH : Hashes) (file path q data : string) (fs0 fs fs' : filesys) (l0 : list (string * string)) (x0 : excel) (cs : list call) (s : session)
    (t : clock) (f : faults) (tr : list filesys),
  Stored fs0 file l0 -> (q, data) ∈ l0 -> excel_new (Some file) fs0 = Ok x0 -> q <> content_types_name -> q ∉ basic_parts x0 ++ other_parts x0 ->
  (forall p, AskedFor cs (x0, []) p -> q <> p /\ ~ Beside p q) ->
  calls cs (x0, []) = Some s -> excel_save t f path s.1 fs = (tr, Ok tt) -> last tr = Some fs' ->
  exists l, Stored fs' path l /\ forall b, (q, b) ∈ l <-> b = data.
Proof.
  intros E HH file path q data fs0 fs fs' l0 x0 cs s t f tr Hst Hin Hx Hct Hq Ha Hc Hs Hl. by eapply (carried_saved file fs0 l0 x0 cs s t f path fs tr fs' q data).
Qed.
(** C78. What it takes that no call asks for the part: the sheets asked for by their names are others, and, if the part holds the relationships of one, that one
    is in the file, too, and not asked for either. New sheets never get in the way. *)
Theorem C78_unasked : forall (E : Env) (HH : Hashes) (file path q data : string) (fs0 fs fs' : filesys) (l0 : list (string * string)) (x0 : excel) (cs : list call) (s : session)
    (t : clock) (f : faults) (tr : list filesys),
  Stored fs0 file l0 -> (q, data) ∈ l0 -> excel_new (Some file) fs0 = Ok x0 -> Foreign x0 q -> ~ Reopens cs (x0, []) q ->
  (forall p, Beside p q -> p ∈ l0.*1 /\ Foreign x0 p /\ ~ rels_name p /\ ~ Reopens cs (x0, []) p) ->
  calls cs (x0, []) = Some s -> excel_save t f path s.1 fs = (tr, Ok tt) -> last tr = Some fs' ->
  exists l, Stored fs' path l /\ forall b, (q, b) ∈ l <-> b = data.
Proof.
  intros E HH file path q data fs0 fs fs' l0 x0 cs s t f tr Hst Hin Hx Hf Hr Hown Hc Hs Hl. destruct (new_linv _ _ _ Hx) as [I _].
  destruct (opened_stored _ _ _ _ _ _ Hst Hx Hin Hf) as (e & He & _). eapply (carried_saved file fs0 l0 x0 cs s t f path fs tr fs' q data); try done.
  eapply apart_unasked; [done..|]. intros p Hb. destruct (Hown p Hb) as (([p' d] & Heq & Hp)%elem_of_list_fmap & H2 & H3 & H4). cbn [fst] in Heq. subst p'. split; [done|]. split; [done|].
  destruct (opened_stored _ _ _ _ _ _ Hst Hx Hp H2) as (e' & He' & _). by exists e'.
Qed.
(** C78. Any number of files, each opened, worked on and saved as the next. *)
Theorem C78_files : forall (E : Env) (HH : Hashes) (q data file file' : string) (fs0 fs' : filesys) (l0 : list (string * string)) (rs : list round),
  Stored fs0 file l0 -> (q, data) ∈ l0 -> Journey q rs (file, fs0) (file', fs') -> rs <> [] ->
  exists l, Stored fs' file' l /\ forall b, (q, b) ∈ l <-> b = data.
Proof.
  intros E HH q data file file' fs0 fs' l0 rs Hst Hin Hj Hne. destruct (journey_carries q data _ _ _ Hj) as [_ H]; [by exists l0|]. by apply H.
Qed.
(** C78. If the first file is in order and has a calculation chain, the parts the workbook is made of are the same in all the files: it is enough that the part
    is none of them in the first. *)
Theorem C78_rounds : forall (E : Env) (HH : Hashes) (q data file : string) (fs0 fs fs1 fs2 : filesys) (l0 : list (string * string)) (x0 x : excel) (rs : list round) (r : round) (s : session),
  Stored fs0 file l0 -> (q, data) ∈ l0 -> excel_new (Some file) fs0 = Ok x0 -> Orderly l0 x0 -> cc_entries (wb_calc (x_book x0)) <> [] ->
  q <> content_types_name -> q ∉ basic_parts x0 ++ other_parts x0 ->
  Rounds rs x0 fs x fs1 -> Worked r x fs1 s fs2 ->
  (forall rs1 r1 rs2 x1 fs', rs ++ [r] = rs1 ++ r1 :: rs2 -> Rounds rs1 x0 fs x1 fs' -> forall p, AskedFor (ro_calls r1) (x1, []) p -> q <> p /\ ~ Beside p q) ->
  exists l, Stored fs2 (ro_path r) l /\ forall b, (q, b) ∈ l <-> b = data.
Proof.
  intros E HH q data file fs0 fs fs1 fs2 l0 x0 x rs r s Hst Hin Hx Ho Hcc Hct Hq Hrs Hw Ha.
  apply (C78_files E HH q data file (ro_path r) fs0 fs2 l0 (rs ++ [r]) Hst Hin); [|by destruct rs].
  eapply rounds_journey; [exact Hx|exact (fit_opened _ _ _ _ Hst Hx Ho)|apply (or_plain _ _ Ho)|exact Hcc|by split|exact Hrs|exact Hw|exact Ha].
Qed.

(** ** Examples *)
(** A file with a picture, a chart with relationships and macros, and three rounds: a sheet is added and one renamed; one is deleted and one added; one is asked for and held
    at the save. *)
Definition bytes_of (n : N) : string := String (ascii_of_N n) (String (ascii_of_N 0) "x<").
Definition carry_new : list (string * string) :=
  [("xl/charts/chart1.xml", "<c:chart> not even"); ("xl/charts/_rels/chart1.xml.rels", "<Relationships/> "); ("xl/vbaProject.bin", bytes_of 208)].
Definition carry_parts `{Env} `{Hashes} : list (string * string) := sound_parts ++ carry_new.
Definition carry_names : list string := ["xl/media/image1.png"; "xl/charts/chart1.xml"; "xl/charts/_rels/chart1.xml.rels"; "xl/vbaProject.bin"].
(** Names of parts without [w], which the names of sheets have: in the folder [worksheets]. *)
Definition no_w (q : string) : bool := sforall (fun a => negb (aeqb a "w")) q.
Lemma no_w_apart p q : no_w p = false -> no_w q = true -> q <> p /\ ~ Beside p q.
Proof.
  intros Hp Hq. split; [intros ->; congruence|]. intros (dir & f & -> & _ & ->). unfold no_w in *. rewrite !sforall_app in *. rewrite !andb_true_iff in Hq. destruct Hq as (H1 & _ & H2 & _).
  by rewrite H1, H2 in Hp.
Qed.
Fixpoint left_out `{Env} `{Hashes} (cs : list call) (s : session) : bool :=
  match cs with
  | [] => true
  | c :: cs => forallb (fun x => match get_target_by_id (wb_rels (x_book s.1)) (sh_rel x) with Ok (Some p) => negb (no_w p) | _ => true end) (wb_sheets (x_book s.1)) && left_out cs (call_step c s).1
  end.
Lemma left_out_ok `{Env} `{Hashes} cs q : forall s, left_out cs s = true -> no_w q = true -> LeftOut cs s q.
Proof.
  induction cs as [|c cs IH]; intros s Hl Hq p (cs1 & c1 & cs2 & s1 & Heq & H1 & H2); [by destruct cs1|]. cbn [left_out] in Hl. apply andb_true_iff in Hl as [L1 L2]. destruct cs1 as [|c0 cs1].
  - injection Heq as <- <-. injection H1 as <-. apply no_w_apart; [|done]. destruct H2 as [(n & _ & y & Y1 & _ & Y3)|(name & dir & m & _ & _ & -> & _)].
    + rewrite forallb_forall in L1. apply elem_of_list_In in Y1. specialize (L1 y Y1). rewrite Y3 in L1. by apply negb_true_iff in L1.
    + unfold no_w. rewrite sforall_app. apply andb_false_iff. by right.
  - injection Heq as <- ->. apply calls_cons in H1 as [_ H1]. apply (IH _ L2 Hq). by exists cs1, c1, cs2, s1.
Qed.
Fixpoint rounds_out `{Env} `{Hashes} (rs : list round) (x : excel) (fs : filesys) : bool :=
  match rs with
  | [] => true
  | r :: rs => left_out (ro_calls r) (x, []) &&
    match calls (ro_calls r) (x, []) with
    | Some s => match excel_save (ro_clock r) (ro_faults r) (ro_path r) s.1 fs with
      | (tr, Ok tt) => match last tr with
        | Some fs1 => match excel_new (Some (ro_path r)) fs1 with Ok x1 => rounds_out rs x1 fs1 | _ => true end
        | None => true end
      | _ => true end
    | None => true end
  end.
Lemma rounds_out_ok `{Env} `{Hashes} q rs : no_w q = true -> forall x fs, rounds_out rs x fs = true -> forall rs1 r1 rs2 x1 fs', rs = rs1 ++ r1 :: rs2 -> Rounds rs1 x fs x1 fs' -> LeftOut (ro_calls r1) (x1, []) q.
Proof.
  intros Hq. induction rs as [|r rs IH]; intros x fs Hr rs1 r1 rs2 x1 fs' Heq HR; [by destruct rs1|]. cbn [rounds_out] in Hr. apply andb_true_iff in Hr as [R1 R2]. destruct rs1 as [|r0 rs1].
  - injection Heq as <- <-. inversion HR; subst. by apply left_out_ok.
  - injection Heq as <- ->. inversion HR as [|? ? ? ? s fs1 y ? ? (W1 & tr & W2 & W3) W4 W5 W6]; subst. rewrite W1, W2, W3, W5 in R2. by eapply (IH _ _ R2).
Qed.
Definition carry_check `{Env} `{Hashes} (rs : list round) (r : round) (l0 : list (string * string)) : bool :=
  match env_unzip (env_zip l0) with
  | Some l1 =>
    match excel_new (Some "in") {["in" := env_zip l0]} with
    | Ok x0 => orderlyb l1 x0 && match cc_entries (wb_calc (x_book x0)) with [] => false | _ => true end
      && forallb (fun q => no_w q && negb (seqb q content_types_name) && negb (existsb (seqb q) (basic_parts x0 ++ other_parts x0)) && existsb (seqb q) (map fst l1)) carry_names
      && rounds_out (rs ++ [r]) x0 ∅
      && match run_rounds rs x0 ∅ with
         | Some (x, fs1) => match calls (ro_calls r) (x, []) with
           | Some s => match excel_save (ro_clock r) (ro_faults r) (ro_path r) s.1 fs1 with
             | (tr, Ok tt) => match last tr with Some _ => true | None => false end
             | _ => false end
           | None => false end
         | None => false end
    | _ => false end
  | None => false end.
(** All the hypotheses of [C78_rounds], for each of the parts. *)
Definition Carrying `{Env} `{Hashes} (rs : list round) (r : round) (names : list string) : Prop :=
  exists (fs0 fs fs1 fs2 : filesys) (file : string) (l0 : list (string * string)) (x0 x : excel) (s : session),
  Stored fs0 file l0 /\ excel_new (Some file) fs0 = Ok x0 /\ Orderly l0 x0 /\ cc_entries (wb_calc (x_book x0)) <> [] /\ Rounds rs x0 fs x fs1 /\ Worked r x fs1 s fs2
  /\ forall q, q ∈ names -> (exists data, (q, data) ∈ l0) /\ q <> content_types_name /\ q ∉ basic_parts x0 ++ other_parts x0
     /\ forall rs1 r1 rs2 x1 fs', rs ++ [r] = rs1 ++ r1 :: rs2 -> Rounds rs1 x0 fs x1 fs' -> forall p, AskedFor (ro_calls r1) (x1, []) p -> q <> p /\ ~ Beside p q.
Lemma carry_found `{Env} `{Hashes} rs r l0 : carry_check rs r l0 = true -> Carrying rs r carry_names.
Proof.
  unfold carry_check. destruct (env_unzip (env_zip l0)) as [l1|] eqn:Eu; [|done]. destruct (excel_new _ _) as [x0| |] eqn:En; [|done..]. rewrite !andb_true_iff. intros [[[[H1 H2] H3] H4] H5].
  destruct (run_rounds rs x0 ∅) as [[x fs1]|] eqn:Er; [|done]. destruct (calls _ (x, [])) as [s|] eqn:Ec; [|done]. destruct (excel_save _ _ _ s.1 fs1) as [tr [[]|e|e]] eqn:Es; [|done..].
  destruct (last tr) as [fs2|] eqn:El; [|done]. exists {["in" := env_zip l0]}, ∅, fs1, fs2, "in", l1, x0, x, s.
  split. { exists (env_zip l0). by rewrite lookup_singleton. } split; [done|]. split; [by apply orderlyb_ok|]. split; [by destruct (cc_entries _)|]. split; [by apply run_rounds_ok|].
  split. { split; [done|]. by exists tr. } intros q Hq. rewrite forallb_forall in H3. apply elem_of_list_In in Hq. specialize (H3 q Hq). rewrite !andb_true_iff, !negb_true_iff in H3. destruct H3 as [[[N1 N2] N3] N4].
  split. { apply existsb_elem in N4. change (map fst l1) with (l1.*1) in N4. apply elem_of_list_fmap in N4 as ([q' d] & -> & Hin). by exists d. }
  split. { intros ->. by vm_compute in N2. } split. { intros Hin. apply existsb_elem in Hin. by rewrite Hin in N3. }
  intros rs1 r1 rs2 x1 fs' Heq HR. by eapply (rounds_out_ok q (rs ++ [r])).
Qed.
Definition carry_rounds : list round := take 2 three_rounds.
Example C78_meets : @Carrying (demo_env Checked) value_hashes carry_rounds (mkRound [CGet "Second"] demo_clock demo_faults "a.xlsx") carry_names.
Proof.
  assert (@carry_check (demo_env Checked) value_hashes carry_rounds (mkRound [CGet "Second"] demo_clock demo_faults "a.xlsx") (@carry_parts (demo_env Checked) value_hashes) = true) as Hc by (vm_compute; reflexivity).
  exact (@carry_found (demo_env Checked) value_hashes _ _ _ Hc).
Qed.

Print Assumptions C78_bytes.
Print Assumptions C78_unasked.
Print Assumptions C78_files.
Print Assumptions C78_rounds.
Print Assumptions C78_meets.
