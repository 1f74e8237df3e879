(** Programs that use a workbook through the C interface. *)
From Coq Require Import ZArith.
From Verif.Model Require Import Ffi.
From Verif.Spec Require Import PackageSpec SessionSpec CSpec.
From Verif.Proofs Require Import BaseFacts FfiFacts.
Open Scope N_scope.

Section with_env.
Context `{E : Env} `{HH : Hashes}.
(** The session of the library that a C program amounts to. *)
Definition lib (s : c_state) : session := (s.1, Some <$> s.2).
(** What the code says. *)
Definition Coded {A} (zero : Prop) (r : res A) (z : option Z) : Prop :=
  match z with Some z => (forall e, r <> Panic e) /\ (z = 0%Z <-> zero) | None => exists e, r = Panic e end.
Lemma failed_code {A} bad e : bad <> Success -> rp_code (failure (A := A) bad e) <> 0%Z.
Proof. unfold failure. destruct (has_nul _); cbn; [done|]. destruct bad; done. Qed.
Lemma coded {A B} bad (out : A -> option B) r : bad <> Success -> Coded (exists a, r = Ok a) r (rp_code <$> reply_of bad out r).
Proof.
  intros Hb. destruct r as [a|e|e]; cbn [reply_of fmap option_fmap option_map Coded]; [|split; [done|]|by eexists].
  - split; [done|]. cbn. split; [by eexists|done].
  - split; [|by intros [? ?]]. intros H. by apply failed_code in H.
Qed.
Lemma step_lib k s : match stands_for k with
  | Some c => lib (c_step k s).1 = (call_step c (lib s)).1 /\ Coded ((call_step c (lib s)).2 = Ok tt \/ renames k) (call_step c (lib s)).2 (c_step k s).2
  | None => (c_step k s).1 = s /\ exists z, (c_step k s).2 = Some z /\ z <> 0%Z end.
Proof.
  destruct s as [x ws].
  assert (forall m : M excel worksheet, let '(y, r) := on_ptr IoError Some m (Some x) in
    lib (default x y, ws ++ given r) = (give m (lib (x, ws))).1 /\ Coded ((give m (lib (x, ws))).2 = Ok tt \/ False) (give m (lib (x, ws))).2 (rp_code <$> r)) as Hgive.
  { intros m. cbn [on_ptr]. unfold give, lib. cbn [fst snd]. destruct (m x) as [y r]. pose proof (coded IoError Some r) as Hc. specialize (Hc ltac:(done)).
    destruct r as [w|e|e]; cbn [reply_of fmap option_fmap option_map Coded] in *; cbn [given rp_out answer default fst snd from_option].
    - split; [by rewrite fmap_app|]. split; [done|]. destruct Hc as [_ Hc]. rewrite Hc. split; [by left|by eexists].
    - split. { unfold failure. destruct (has_nul _); cbn; by rewrite app_nil_r. } split; [done|]. destruct Hc as [_ Hc]. rewrite Hc. split; [by intros [? ?]|by intros [?|?]].
    - split; [by rewrite app_nil_r|]. by eexists. }
  destruct k as [n|[old|] [new|]|[n|]|[n|]|[[e|f]|]]; cbn [stands_for]; try (by split; [cbn; by rewrite ?app_nil_r|exists 1%Z]).
  - cbn [c_step fst snd]. unfold ffi_add_sheet. specialize (Hgive (on_book (add_sheet n))). destruct (on_ptr _ _ _ _) as [y r]. exact Hgive.
  - cbn [c_step fst snd]. unfold ffi_rename_sheet. cbn [on_ptr call_step]. unfold on_excel, lib. cbn [fst snd]. unfold on_book, pure_book, x_state. cbn [fst snd].
    destruct (decide (old ∉ list_sheet_names (x_book x) \/ new ∈ list_sheet_names (x_book x))) as [Hor|Hor].
    + destruct (rename_fails old new (x_book x) Hor) as (e & -> & He). cbn [fst snd reply_of]. unfold failure. rewrite (text_no_nul _ He). split; [done|]. cbn. split; [done|]. split; [by right|done].
    + destruct (rename_works old new (x_book x)) as (b & -> & _); [destruct (decide (old ∈ list_sheet_names (x_book x))) as [|H]; [done|]; exfalso; apply Hor; by left|intros H; apply Hor; by right|]. split; [done|]. cbn. split; [done|]. split; [by right|done].
  - cbn [c_step fst snd]. unfold ffi_get_sheet. specialize (Hgive (on_book (get_worksheet n))). destruct (on_ptr _ _ _ _) as [y r]. exact Hgive.
  - cbn [c_step fst snd]. unfold ffi_hide_sheet. cbn [on_ptr call_step]. unfold on_excel, lib. cbn [fst snd]. destruct (on_book (pure_book (hide_sheet n)) x) as [y r].
    cbn [fst snd default from_option]. split; [done|]. pose proof (coded IoError (no_out (B := unit)) r ltac:(done)) as Hc. destruct (rp_code <$> _); [|done]. destruct Hc as [H1 H2]. split; [done|]. rewrite H2.
    split; [intros [[] ->]; by left|intros [->|[]]; by eexists].
  - split; [done|]. by exists 2%Z.
  - cbn [c_step fst snd]. cbn [ffi_style_id on_ptr call_step]. unfold on_excel, lib. cbn [fst snd]. unfold on_book, pure_book, x_state, bind, ret. cbn [fst snd]. destruct (wb_style_id (ffi_setting f) (x_book x)) as [b r].
    pose proof (coded IoError Some r ltac:(done)) as Hc. destruct r as [i|e|e]; cbn [fst snd default from_option reply_of] in *.
    + split; [done|]. destruct Hc as [H1 H2]. split; [done|]. rewrite H2. split; [by left|by eexists].
    + split; [done|]. destruct Hc as [H1 H2]. split; [done|]. rewrite H2. split; [by intros [? ?]|by intros [?|[]]].
    + split; [done|]. by eexists.
Qed.
Lemma run_lib ks : forall s, match c_run ks s with
  | Some (s', codes) => calls (omap stands_for ks) (lib s) = Some (lib s') /\ length codes = length ks
  | None => calls (omap stands_for ks) (lib s) = None end.
Proof.
  induction ks as [|k ks IH]; intros s; [done|]. cbn [c_run omap list_omap]. pose proof (step_lib k s) as Hs. destruct (c_step k s) as [s1 z]. cbn [fst snd] in Hs. specialize (IH s1).
  destruct (stands_for k) as [c|] eqn:Ek; cbn.
  - destruct Hs as [H1 H2]. destruct z as [z|]; cbn [mbind option_bind Coded] in *.
    + destruct H2 as [H2 _]. destruct (call_step c (lib s)) as [y [[]|e|e]]; cbn [fst snd] in *; [subst y; destruct (c_run ks s1) as [[s' codes]|]; cbn; [destruct IH as [-> <-]; done|done]..|]. by destruct (H2 e).
    + destruct H2 as [e He]. by destruct (call_step c (lib s)) as [y [[]|e'|e']]; cbn [snd] in He.
  - destruct Hs as [-> (z' & -> & _)]. cbn. destruct (c_run ks s) as [[s' codes]|]; cbn; [destruct IH as [-> <-]; done|done].
Qed.
Lemma run_codes ks1 : forall k ks2 s s' codes, c_run (ks1 ++ k :: ks2) s = Some (s', codes) ->
  exists s1 cs1 z, c_run ks1 s = Some (s1, cs1) /\ codes !! length ks1 = Some z /\ (c_step k s1).2 = Some z.
Proof.
  induction ks1 as [|a ks1 IH]; intros k ks2 s s' codes; cbn [app c_run].
  - destruct (c_step k s) as [s1 z] eqn:Es. destruct z as [z|]; cbn; [|done]. destruct (c_run ks2 s1) as [r|]; cbn; [|done]. intros [= <- <-]. exists s, [], z. by rewrite Es.
  - destruct (c_step a s) as [s1 [z|]]; cbn; [|done]. destruct (c_run (ks1 ++ k :: ks2) s1) as [[s2 cs]|] eqn:Er; cbn; [|done]. intros [= <- <-]. destruct (IH _ _ _ _ _ Er) as (s3 & cs1 & z' & H1 & H2 & H3).
    exists s3, (z :: cs1), z'. rewrite H1. done.
Qed.
End with_env.
