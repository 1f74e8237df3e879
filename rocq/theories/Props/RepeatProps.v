(** C68: two runs of the same program. *)
From Verif.Model Require Import Excel.
From Verif.Spec Require Import XmlSpec XmlRepr PackageSpec StyleSpec SessionSpec WellSpec RepeatSpec DemoEnv.
From Verif.Proofs Require Import BaseFacts SessionFacts RepeatFacts.
Open Scope N_scope.

(** C68, new workbooks. Two runs that make the same calls get the same answers, call for call; one panics if and
    only if the other does; then they hold the same handles and list the same sheets; a save ends in the same way;
    and the files written are the same but for the order of things, the dates and the time in the first comment. *)
Theorem C68_new : forall (A B : Env) (HH : Hashes) (fs0 : filesys), SameMachine A B ->
  match @excel_new A None fs0, @excel_new B None fs0 with
  | Ok x, Ok x' => forall cs : list call, @replies A HH cs (x, []) = @replies B HH cs (x', []) /\
      match @calls A HH cs (x, []), @calls B HH cs (x', []) with
      | Some s, Some s' => s.2 = s'.2 /\ list_sheet_names (x_book s.1) = list_sheet_names (x_book s'.1) /\
          forall (t t' : clock) (f : faults) (path : string) (fs : filesys) (tr tr' : list filesys) (r r' : res unit),
            @excel_save A t f path s.1 fs = (tr, r) -> @excel_save B t' f path s'.1 fs = (tr', r') ->
            r = r' /\ (r = Ok tt -> exists fs1 fs1' l l', last tr = Some fs1 /\ last tr' = Some fs1' /\
              @Stored A fs1 path l /\ @Stored B fs1' path l' /\ SamePackage A B "docProps/core.xml" l l')
      | None, None => True
      | _, _ => False
      end
  | Err e, Err e' | Panic e, Panic e' => e = e'
  | _, _ => False
  end.
Proof.
  intros A B HH fs0 HS. pose proof (runs_excel A B HS HH None fs0 I) as H. destruct (@excel_new A None fs0) as [x|e|e] eqn:Ex, (@excel_new B None fs0) as [x'|e'|e']; try done.
  intros cs. destruct (H cs) as [H1 H2]. split; [done|]. destruct (@calls A HH cs (x, [])) as [s|] eqn:Ec, (@calls B HH cs (x', [])) as [s'|]; try done.
  destruct H2 as (H3 & H4 & H5). split; [done|]. split; [by rewrite H4|]. intros t t' f path fs tr tr' r r' S1 S2. pose proof (H5 t t' f path fs) as [K1 K2].
  rewrite S1, S2 in K1, K2. cbn [fst snd] in K1, K2. rewrite (core_kept A HH cs _ _ Ec) in K2. destruct (@new_session A fs0 x Ex) as [_ SI]. rewrite (si_core _ _ SI) in K2. done.
Qed.
(** C68, opened workbooks: the same, if both runs make the same of every part of the file they may read. *)
Theorem C68_opened : forall (A B : Env) (HH : Hashes) (fs0 : filesys) (file : string) (l0 : list (string * string)),
  SameMachine A B -> @Stored A fs0 file l0 -> Forall (fun nd => ReadAlike A B nd.2) l0 ->
  match @excel_new A (Some file) fs0, @excel_new B (Some file) fs0 with
  | Ok x, Ok x' => forall cs : list call, @replies A HH cs (x, []) = @replies B HH cs (x', []) /\
      match @calls A HH cs (x, []), @calls B HH cs (x', []) with
      | Some s, Some s' => s.2 = s'.2 /\ list_sheet_names (x_book s.1) = list_sheet_names (x_book s'.1) /\
          forall (t t' : clock) (f : faults) (path : string) (fs : filesys) (tr tr' : list filesys) (r r' : res unit),
            @excel_save A t f path s.1 fs = (tr, r) -> @excel_save B t' f path s'.1 fs = (tr', r') ->
            r = r' /\ (r = Ok tt -> exists fs1 fs1' l l', last tr = Some fs1 /\ last tr' = Some fs1' /\
              @Stored A fs1 path l /\ @Stored B fs1' path l' /\ SamePackage A B (su_core (x_suite x)) l l')
      | None, None => True
      | _, _ => False
      end
  | Err e, Err e' | Panic e, Panic e' => e = e'
  | _, _ => False
  end.
Proof.
  intros A B HH fs0 file l0 HS Hst Hf. assert (source_alike A B (Some file) fs0) as Hsrc.
  { intros l (b & Hb & Hu). destruct Hst as (b0 & Hb0 & Hu0). rewrite Hb in Hb0. injection Hb0 as <-. rewrite Hu in Hu0. by injection Hu0 as ->. }
  pose proof (runs_excel A B HS HH (Some file) fs0 Hsrc) as H. destruct (@excel_new A (Some file) fs0) as [x|e|e] eqn:Ex, (@excel_new B (Some file) fs0) as [x'|e'|e']; try done.
  intros cs. destruct (H cs) as [H1 H2]. split; [done|]. destruct (@calls A HH cs (x, [])) as [s|] eqn:Ec, (@calls B HH cs (x', [])) as [s'|]; try done.
  destruct H2 as (H3 & H4 & H5). split; [done|]. split; [by rewrite H4|]. intros t t' f path fs tr tr' r r' S1 S2. pose proof (H5 t t' f path fs) as [K1 K2].
  rewrite S1, S2 in K1, K2. cbn [fst snd] in K1, K2. by rewrite (core_kept A HH cs _ _ Ec) in K2.
Qed.
(** C68, documents and presentations, new and opened. *)
Theorem C68_document : forall (A B : Env) (fs0 : filesys) (file : option string) (l0 : list (string * string)),
  SameMachine A B -> match file with Some p => @Stored A fs0 p l0 | None => True end -> Forall (fun nd => ReadAlike A B nd.2) l0 ->
  match @suite_new A file fs0, @suite_new B file fs0 with
  | Ok x, Ok x' =>
      forall (t t' : clock) (f : faults) (path : string) (fs : filesys) (tr tr' : list filesys) (r r' : res unit),
        @suite_save A t f path x fs = (tr, r) -> @suite_save B t' f path x' fs = (tr', r') ->
        r = r' /\ (r = Ok tt -> exists fs1 fs1' l l', last tr = Some fs1 /\ last tr' = Some fs1' /\
          @Stored A fs1 path l /\ @Stored B fs1' path l' /\ SamePackage A B (su_core x) l l')
  | Err e, Err e' | Panic e, Panic e' => e = e'
  | _, _ => False
  end.
Proof.
  intros A B fs0 file l0 HS Hst Hf. assert (source_alike A B file fs0) as Hsrc.
  { destruct file as [p|]; [|done]. intros l (b & Hb & Hu). destruct Hst as (b0 & Hb0 & Hu0). rewrite Hb in Hb0. injection Hb0 as <-. rewrite Hu in Hu0. by injection Hu0 as ->. }
  pose proof (runs_suite A B HS file fs0 Hsrc) as H. destruct (@suite_new A file fs0) as [x|e|e], (@suite_new B file fs0) as [x'|e'|e']; try done.
  intros t t' f path fs tr tr' r r' S1 S2. pose proof (H t t' f path fs) as [K1 K2]. by rewrite S1, S2 in K1, K2.
Qed.
(** C68. Both runs read a part alike if no tag in it declares a prefix twice. *)
Theorem C68_read : forall (A B : Env) (data : string), SameMachine A B -> clear data = true -> @read_doc A data = @read_doc B data.
Proof. intros A B data HS. by apply clear_read. Qed.

(** A later run, with another order of the hash tables. *)
Definition late_env (m : mode) : Env := {|
  env_mode := m; env_alpha := @env_alpha (demo_env m); env_now := "2026-06-30T12:00:00Z"; env_now_chars := eq_refl;
  env_order := fun l => rev l; env_order_perm := fun l => Permutation_sym (Permutation_rev l);
  env_gzip := @env_gzip (demo_env m); env_gunzip := @env_gunzip (demo_env m); env_gunzip_gzip := @env_gunzip_gzip (demo_env m);
  env_order2 := fun l => rev l; env_order2_perm := fun l => Permutation_sym (Permutation_rev l);
  env_zip := @env_zip (demo_env m); env_unzip := @env_unzip (demo_env m); env_unzip_zip := @env_unzip_zip (demo_env m);
  env_unzip_nodup := @env_unzip_nodup (demo_env m);
  env_f32 := @env_f32 (demo_env m); env_f32_idem := @env_f32_idem (demo_env m); env_f32_bytes := @env_f32_bytes (demo_env m) |}.
Lemma late_same m : SameMachine (demo_env m) (late_env m).
Proof. by constructor. Qed.
Definition repeat_calls : list call :=
  [CAdd (Some "a"); CAdd (Some "a"); CGet "Sheet1"; CRow 0 1 1 [mkCell None (Some "x") TAuto None None None None]; CRename "a" "b"; CHide "nosuch"; CDelete 0; CActive "b"].
Definition succeeds {A} (r : res A) : bool := match r with Ok _ => true | _ => false end.
(** The answers of both runs: the second call repeats a name. *)
Example C68_ex_replies :
  map (fun E => match @excel_new E None ∅ with Ok x => map succeeds (@replies E value_hashes repeat_calls (x, [])) | _ => [] end) [demo_env Checked; late_env Checked]
  = let r := [true; false; true; true; true; true; true; true] in [r; r].
Proof. vm_compute. reflexivity. Qed.
(** The bytes of a saved document. *)
Definition doc_bytes (E : Env) (t : clock) : option string :=
  match @suite_new E None ∅ with
  | Ok x => match @suite_save E t (mkFaults false false None []) "a.docx" x ∅ with (tr, Ok _) => fs ← last tr; fs !! "a.docx" | _ => None end
  | _ => None
  end.
Definition first_clock : clock := mkClock "2025-01-01T00:00:00Z" "2025-01-01T00:00:01Z" "2025-01-01T00:00:02Z" "2025-01-01T00:00:03Z".
(** Both runs save a document; the files are not the same. So "the same program writes the same file" is false,
    even if the clock stands still. *)
Definition differ (a b : option string) : bool := match a, b with Some a, Some b => negb (seqb a b) | _, _ => false end.
Lemma differ_some a b : differ a b = true -> exists x y, a = Some x /\ b = Some y /\ x <> y.
Proof. destruct a as [x|], b as [y|]; [|done..]. cbn. intros H. exists x, y. split; [done|]. split; [done|]. intros <-. by rewrite seqb_refl in H. Qed.
Theorem C68_bytes_refuted : ~ (forall (A B : Env) (t : clock) (b b' : string), SameMachine A B -> doc_bytes A t = Some b -> doc_bytes B t = Some b' -> b = b').
Proof.
  intros H. assert (differ (doc_bytes (demo_env Checked) first_clock) (doc_bytes (late_env Checked) first_clock) = true) as K by (vm_compute; reflexivity).
  apply differ_some in K as (x & y & E1 & E2 & Hne). exact (Hne (H _ _ _ x y (late_same _) E1 E2)).
Qed.
(** A tag that declares a prefix twice is read in one way or the other, depending on the order of a hash table. *)
Definition twice : string := "<a xmlns=""urn:1"" xmlnsx=""urn:2""></a>".
Definition one_default (v : string) (r : res doc) : bool :=
  match r with Ok d => match d_elems d !! 0 with Some _ => true | None => false end && bool_decide (d_ns d = {[ default_ns_key := v ]}) | _ => false end.
Theorem C68_read_refuted : ~ (forall (A B : Env) (data : string), SameMachine A B -> @Ordinary A data -> @read_doc A data = @read_doc B data).
Proof.
  intros H. assert (one_default "urn:2" (@read_doc (demo_env Checked) twice) && one_default "urn:1" (@read_doc (late_env Checked) twice) = true) as K by (vm_compute; reflexivity).
  apply andb_true_iff in K as [K1 K2]. specialize (H (demo_env Checked) (late_env Checked) twice (late_same _)). unfold Ordinary in H.
  revert H K1 K2. generalize (@read_doc (demo_env Checked) twice) (@read_doc (late_env Checked) twice). intros r r' H K1 K2.
  assert (forall v r, one_default v r = true -> exists d, r = Ok d /\ is_Some (d_elems d !! 0) /\ d_ns d = {[ default_ns_key := v ]}) as Hd.
  { clear. intros v r. unfold one_default. destruct r as [d|e|e]; [|done..]. intros [H1 H2]%andb_true_iff. exists d. split; [done|]. split; [by destruct (d_elems d !! 0)|by apply bool_decide_eq_true in H2]. }
  destruct (Hd _ _ K1) as (d & -> & H1 & H2), (Hd _ _ K2) as (d' & -> & H3 & H4).
  assert (Ok d = Ok d') as [= <-].
  { apply H. intros d0 [= <-]. split; [done|]. rewrite H2. intros k v Hk. apply lookup_singleton_Some in Hk as [<- <-]. split; [|by left]. cbn. repeat (apply Safe_plain; [done|]). apply Safe_nil. }
  rewrite H2 in H4. apply (f_equal (fun m : gmap string string => m !! default_ns_key)) in H4. by rewrite !lookup_singleton in H4.
Qed.
(** What the library writes itself, and what it starts from, declares no prefix twice. *)
Example C68_ex_clear : clear twice = false /\ clear "<?xml version=""1.0""?><a xmlns=""urn:1"" xmlns:x=""urn:2""><x:b/></a>" = true.
Proof. by vm_compute. Qed.

Print Assumptions C68_new.
Print Assumptions C68_opened.
Print Assumptions C68_document.
Print Assumptions C68_read.
Print Assumptions C68_bytes_refuted.
Print Assumptions C68_read_refuted.
