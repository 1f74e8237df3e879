(** The C interface. *)
From Coq Require Import ZArith.
From Verif.Model Require Import Ffi.
From Verif.Spec Require Import PackageSpec BookSpec StyleSpec FfiSpec.
From Verif.Proofs Require Import BaseFacts BookFacts StyleFacts.
Open Scope N_scope.

Lemma text_no_nul e : text_ok e -> has_nul e = false.
Proof.
  induction e as [|a e IH]; [done|]. intros H. cbn. destruct (Ascii.eqb a "000") eqn:Ea.
  - apply Ascii.eqb_eq in Ea as ->. by destruct (H "" e).
  - apply IH. intros b c ->. by apply (H (String a b) c).
Qed.
Lemma no_nul_text e : has_nul e = false -> text_ok e.
Proof.
  intros H a b ->. induction a as [|c a IH]; cbn in H; [done|]. apply orb_false_iff in H as [_ H]. by apply IH.
Qed.
Lemma has_nul_app a b : has_nul (a +:+ b) = has_nul a || has_nul b.
Proof. induction a as [|c a IH]; [done|]. cbn. rewrite IH. by destruct (Ascii.eqb c "000"). Qed.
Lemma text_prefix e : text_ok e -> text_ok ("Flat Buffer Parse Error. " +:+ e).
Proof. intros H. apply no_nul_text. rewrite has_nul_app, (text_no_nul e H). done. Qed.

(** ** Answers *)
Lemma reply_faithful {A B} (bad : status) (out : A -> option B) r : code_of bad <> 0%Z -> Faithful True r out (reply_of bad out r).
Proof.
  intros Hbad. destruct r as [a|e|e]; cbn.
  - left. split; [done|]. split_and!; [split; eauto| |done|done].
    intros b. split; [intros Hb; eauto|]. intros (_ & a' & [= <-] & Hb). done.
  - left. split; [done|]. unfold failure. destruct (has_nul _); cbn.
    + split_and!; [|intros b; split; [done|by intros (_ & a' & ? & _)]|done|done]. split; [done|]. by intros (_ & a & ?).
    + split_and!; [|intros b; split; [done|by intros (_ & a' & ? & _)]|done|done]. split; [done|]. by intros (_ & a & ?).
  - eauto.
Qed.
Lemma on_ptr_faithful {A B} (bad : status) (out : A -> option B) m x : code_of bad <> 0%Z ->
  Faithful True (m x).2 out (on_ptr bad out m (Some x)).2 /\ (on_ptr bad out m (Some x)).1 = Some (m x).1.
Proof. intros H. unfold on_ptr. destruct (m x) as [x1 r]. cbn [fst snd]. split; [by apply reply_faithful|done]. Qed.
Lemma reply_explains {A B} (bad : status) (out : A -> option B) e : text_ok e -> Explains "Flat Buffer Parse Error. " e (reply_of bad out (Err e)).
Proof. intros H. cbn [reply_of]. unfold failure. rewrite (text_no_nul _ (text_prefix e H)). eexists. done. Qed.
Lemma on_ptr_explains {A B} (bad : status) (out : A -> option B) m x e : text_ok e -> (m x).2 = Err e ->
  Explains "Flat Buffer Parse Error. " e (on_ptr bad out m (Some x)).2.
Proof. intros H Hm. unfold on_ptr. destruct (m x) as [x1 r]. cbn [snd] in *. subst r. by apply reply_explains. Qed.
Lemma create_faithful {A} (r : res A) (b : buffer unit) : Faithful (exists p, b = Some (inr p)) r Some (create r b).
Proof.
  destruct b as [[e|p]|]; cbn.
  - right. split; [by intros [p Hp]|done].
  - destruct r as [a|e|e]; cbn; [| |eauto].
    + left. split; [eauto|]. split_and!; [split; eauto| |done|done]. intros b. split; [intros Hb; eauto|]. by intros (_ & a' & [= <-] & Hb).
    + left. split; [eauto|]. split_and!; [|intros b; split; [done|by intros (_ & a' & ? & _)]|done|done]. split; [done|]. by intros (_ & a & ?).
  - right. split; [by intros [p Hp]|done].
Qed.

(** ** Renaming *)
Lemma rename_fails old new b : old ∉ list_sheet_names b \/ new ∈ list_sheet_names b ->
  exists e, rename_sheet old new b = (b, Err e) /\ text_ok ("Flat Buffer Parse Error. " +:+ e).
Proof.
  intros Hor. destruct (rename_sheet_spec old new b) as [[_ [e He]]|(l1 & x & l2 & H1 & H2 & H3 & H4 & _)].
  - exists e. split; [done|]. apply text_prefix, no_nul_text. unfold rename_sheet in He. destruct (existsb _ _); [by injection He as <-|].
    destruct (rename_first _ _ _); [done|by injection He as <-].
  - exfalso. destruct Hor as [Hor|Hor]; [|done]. apply Hor. unfold list_sheet_names. rewrite H1, map_app, elem_of_app. right. cbn. rewrite H2. by left.
Qed.
Lemma rename_works old new b : old ∈ list_sheet_names b -> new ∉ list_sheet_names b ->
  exists b', rename_sheet old new b = (b', Ok tt)
    /\ old ∈ list_sheet_names b /\ new ∉ list_sheet_names b /\ new ∈ list_sheet_names b'.
Proof.
  intros H1 H2. destruct (rename_sheet_spec old new b) as [[[Hor|Hor] _]|(l1 & x & l2 & _ & _ & _ & _ & ->)]; [done|done|].
  eexists. split; [done|]. split; [done|]. split; [done|]. unfold list_sheet_names. cbn [wb_sheets set_wb_sheets]. rewrite map_app, elem_of_app. right. by left.
Qed.

(** ** Styles *)
Lemma num_enum_show n : num_enum (show_N n) = if bool_decide (n <= 22 \/ 37 <= n <= 49) then NFBuiltin n else NFCustom.
Proof.
  unfold num_enum. destruct (List.find _ builtin_ids) as [m|] eqn:Ef.
  - apply find_some in Ef as [Hin Hm]. apply seqb_true in Hm. apply show_N_inj in Hm as <-.
    rewrite bool_decide_true; [done|]. cbn in Hin. lia.
  - case_bool_decide as Hd; [|done]. exfalso. assert (In n builtin_ids) as Hin by (cbn; lia).
    pose proof (find_none _ _ Ef n Hin) as Hn. cbn beta in Hn. by rewrite (proj2 (seqb_true _ _) eq_refl) in Hn.
Qed.
Lemma number_given_ffi f : number_given (ffi_setting f) <-> fb_num f <= 22 \/ 37 <= fb_num f <= 49 \/ is_Some (fb_code f).
Proof.
  unfold number_given, ffi_setting. cbn [se_num se_code]. rewrite num_enum_show. case_bool_decide as Hd.
  - split; [|done]. intros _. destruct Hd; [by left|by right; left].
  - destruct (fb_code f); split; try done; [right; right; eauto|]. intros [H|[H|[? H]]]; [by apply Hd; left|by apply Hd; right|done].
Qed.
Lemma survives_eq f : Survives f -> ffi_setting f = wanted f.
Proof.
  intros (H1 & H2 & H3 & H4 & H5 & H6 & H7 & H8 & H9 & H10 & H11). unfold ffi_setting, wanted. by rewrite num_enum_show, H1, H2, H3, H4, H5, H6, H7, H8, H9, H10, H11.
Qed.
Lemma survives_shows st f id : Survives f -> Shows st (ffi_setting f) id -> Shows st (wanted f) id.
Proof. intros H. by rewrite (survives_eq f H). Qed.
Lemma shows_survives st f id : Shows st (ffi_setting f) id -> Shows st (wanted f) id -> Survives f.
Proof.
  intros (x & y & X1 & (A1 & A2 & A3 & A4) & _) (x' & y' & X2 & (B1 & B2 & B3 & B4) & _).
  rewrite X1 in X2. injection X2 as <-.
  destruct A1 as (fo & F1 & F2 & _), B1 as (fo' & F1' & F2' & _). rewrite F1 in F1'. injection F1' as <-.
  destruct A2 as (fi & G1 & G2 & _), B2 as (fi' & G1' & G2' & _). rewrite G1 in G1'. injection G1' as <-.
  destruct A3 as (bo & K1 & K2 & _), B3 as (bo' & K1' & K2' & _). rewrite K1 in K1'. injection K1' as <-.
  destruct F2 as (_ & _ & a1 & a2 & a3 & a4 & a5), F2' as (_ & _ & b1 & b2 & b3 & b4 & b5).
  destruct G2 as (c1 & _), G2' as (d1 & _). destruct K2 as (_ & e1 & e2 & e3 & e4), K2' as (_ & h1 & h2 & h3 & h4).
  destruct A4 as (_ & i1 & i2 & _), B4 as (_ & j1 & j2 & _). unfold ffi_setting, wanted in *. cbn in *.
  unfold Survives. split_and!; congruence.
Qed.
