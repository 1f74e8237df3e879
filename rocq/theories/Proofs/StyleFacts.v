(** Facts about style requests. *)
From Verif.Model Require Import Style.
From Verif.Spec Require Import StyleSpec.
From Verif.Proofs Require Import BaseFacts.
From Coq Require Import Lia ZifyBool ZifyN.
Open Scope N_scope.

(** ** Looking an entry up *)
Section intern.
Context {A : Type}.
Implicit Types (h : A -> N) (l : list A).

Lemma position_spec (f : A -> bool) l :
  match position f l with
  | Some i => exists y, l !! N.to_nat i = Some y /\ f y = true /\ (forall j z, (j < N.to_nat i)%nat -> l !! j = Some z -> f z = false)
  | None => forall y, y ∈ l -> f y = false
  end.
Proof.
  induction l as [|x l IH]; cbn [position].
  { intros y Hy. by apply elem_of_nil in Hy. }
  destruct (f x) eqn:Hx.
  { exists x. split; [done|]. split; [done|]. intros j z Hj. lia. }
  destruct (position f l) as [i|].
  - destruct IH as (y & Hy & Hf & Hb). exists y. replace (N.to_nat (i + 1)) with (S (N.to_nat i)) by lia.
    split; [done|]. split; [done|]. intros [|j] z Hj Hz; [by injection Hz as <-|]. apply (Hb j); [lia|done].
  - intros y [->|Hy]%elem_of_cons; [done|]. by apply IH.
Qed.
Lemma position_ext_in (f g : A -> bool) l : (forall x, x ∈ l -> f x = g x) -> position f l = position g l.
Proof.
  induction l as [|x l IH]; intros H; [done|]. cbn [position]. rewrite <- (H x) by left.
  rewrite IH; [done|]. intros y Hy. apply H. by right.
Qed.
Lemma position_prefix (f : A -> bool) l l' i : position f l = Some i -> l `prefix_of` l' -> position f l' = Some i.
Proof.
  intros H [k ->]. revert i H. induction l as [|x l IH]; intros i; [done|]. cbn [position app].
  destruct (f x); [done|]. destruct (position f l) as [j|]; [|done]. intros [= <-]. by rewrite (IH j).
Qed.
Lemma position_snoc (f : A -> bool) l x : position f l = None -> f x = true -> position f (l ++ [x]) = Some (N.of_nat (length l)).
Proof.
  intros H Hx. induction l as [|y l IH]; cbn [position app length] in *; [by rewrite Hx|].
  destruct (f y); [done|]. destruct (position f l); [done|]. rewrite IH by done. f_equal. lia.
Qed.
(** Two ways of comparing that agree on the entries in play. *)
Lemma intern_ext h g x l : (forall y, y ∈ l -> (h y =? h x) = (g y =? g x)) -> intern h x l = intern g x l.
Proof. intros H. unfold intern. by rewrite (position_ext_in _ _ _ H). Qed.
Lemma intern_spec h x l l' i new : (forall y, y ∈ l -> h y = h x -> y = x) -> intern h x l = (l', i, new) ->
  position (fun y => h y =? h x) l' = Some i /\ l' !! N.to_nat i = Some x /\ l `prefix_of` l' /\ x ∈ l'
  /\ i < N.of_nat (length l') /\ (if new then l' = l ++ [x] /\ i = N.of_nat (length l) /\ x ∉ l else l' = l).
Proof.
  intros Hs. unfold intern. pose proof (position_spec (fun y => h y =? h x) l) as Hp.
  destruct (position _ l) as [k|] eqn:Hk; intros [= <- <- <-].
  - destruct Hp as (y & Hy & Hf & _). apply N.eqb_eq in Hf. assert (y = x) as -> by (apply Hs; [by eapply elem_of_list_lookup_2|done]).
    split; [done|]. split; [done|]. split; [done|]. split; [by eapply elem_of_list_lookup_2|].
    split; [|done]. apply lookup_lt_Some in Hy. lia.
  - split; [apply position_snoc; [done|apply N.eqb_refl]|]. rewrite Nat2N.id.
    split; [by apply list_lookup_middle|]. split; [by eexists|]. split; [apply elem_of_app; right; by left|].
    split; [rewrite app_length; cbn; lia|]. split; [done|]. split; [done|].
    intros Hx. specialize (Hp x Hx). cbn in Hp. by rewrite N.eqb_refl in Hp.
Qed.
Lemma intern_again h x l i : position (fun y => h y =? h x) l = Some i -> intern h x l = (l, i, false).
Proof. intros H. unfold intern. by rewrite H. Qed.
Lemma intern_prefix h x l : l `prefix_of` (intern h x l).1.1.
Proof. unfold intern. destruct (position _ l); cbn; [done|]. by eexists. Qed.
End intern.

Lemma value_inj {A} `{Countable A} (x y : A) : N.pos (encode x) = N.pos (encode y) -> x = y.
Proof. intros [= E]. by apply (inj encode). Qed.
Lemma prefix_elem {A} (l l' : list A) x : l `prefix_of` l' -> x ∈ l -> x ∈ l'.
Proof. intros [k ->] Hx. apply elem_of_app. by left. Qed.
Lemma prefix_at {A} (l l' : list A) i x : l `prefix_of` l' -> l !! i = Some x -> l' !! i = Some x.
Proof. intros [k ->] Hx. by apply lookup_app_l_Some. Qed.
Lemma Separates_prefix {A} (h : A -> N) l l' : l `prefix_of` l' -> Separates h l' -> Separates h l.
Proof. intros Hp Hs x y Hx Hy. apply Hs; by eapply prefix_elem. Qed.
(** An entry interned by value is interned the same way by a hash that separates the result. *)
Lemma intern_value {A} `{Countable A} (h : A -> N) x l : Separates h (intern (fun y => N.pos (encode y)) x l).1.1 ->
  intern h x l = intern (fun y => N.pos (encode y)) x l.
Proof.
  intros Hs. apply intern_ext. intros y Hy.
  destruct (intern (fun y => N.pos (encode y)) x l) as [[l' i] new] eqn:E.
  destruct (intern_spec _ _ _ _ _ _ (fun y _ => value_inj y x) E) as (_ & _ & Hp & Hx & _).
  destruct (N.eqb_spec (h y) (h x)) as [Hh|Hh].
  - assert (y = x) as ->; [|by rewrite N.eqb_refl]. apply Hs; [by eapply prefix_elem|done|done].
  - symmetry. apply N.eqb_neq. intros ->%value_inj. done.
Qed.

Section with_env.
Context `{E : Env}.

Lemma Extends_refl st : Extends st st. Proof. done. Qed.
Lemma Extends_trans a b c : Extends a b -> Extends b c -> Extends a c.
Proof. intros (?&?&?&?&?&?) (?&?&?&?&?&?). unfold Extends. split_and!; by etrans. Qed.
Lemma NoCollision_mono H st st' : Extends st st' -> NoCollision H st' -> NoCollision H st.
Proof. intros (?&?&?&?&?&?) (?&?&?&?&?&?). unfold NoCollision. split_and!; by eapply Separates_prefix. Qed.
Lemma below_mono {A} (l l' : list A) n : l `prefix_of` l' -> below_len l' n -> below_len l n.
Proof. unfold below_len. intros H%prefix_length. lia. Qed.
Lemma Small_mono st st' : Extends st st' -> Small st' -> Small st.
Proof. intros (?&?&?&?&?&?) (?&?&?&?&?&?). unfold Small. split_and!; by eapply below_mono. Qed.

Section any_hash.
Context `{H : Hashes}.
Lemma num_for_prefix s l : match num_for s l with Ok (l', _, _) => l `prefix_of` l' | _ => True end.
Proof.
  unfold num_for. destruct (se_num s); [done|]. destruct (se_code s) as [code|]; [|done].
  pose proof (intern_prefix hash_num (mkNum 0 NFCustom code) l). destruct (intern _ _ l) as [[l1 i] []]; [done|].
  by destruct (u16_add _ _ _).
Qed.
Lemma get_style_extends s st : Extends st (get_style_id s st).1.
Proof.
  unfold get_style_id. pose proof (num_for_prefix s (st_nums st)) as Hn.
  destruct (num_for s (st_nums st)) as [[[nums num] on]| |]; [|done|done].
  pose proof (intern_prefix hash_font (font_for s) (st_fonts st)). destruct (intern hash_font _ _) as [[? ?] ?].
  pose proof (intern_prefix hash_fill (fill_for s) (st_fills st)). destruct (intern hash_fill _ _) as [[? ?] ?].
  pose proof (intern_prefix hash_border (border_for s) (st_borders st)). destruct (intern hash_border _ _) as [[? ?] ?].
  match goal with |- context [intern hash_xf ?x (st_style_xfs st)] => pose proof (intern_prefix hash_xf x (st_style_xfs st)); destruct (intern hash_xf x (st_style_xfs st)) as [[? ?] ?] end.
  match goal with |- context [intern hash_xf ?x (st_cell_xfs st)] => pose proof (intern_prefix hash_xf x (st_cell_xfs st)); destruct (intern hash_xf x (st_cell_xfs st)) as [[? ?] ?] end.
  done.
Qed.
Lemma style_run_extends reqs : forall st, Extends st (style_run reqs st).1.
Proof.
  induction reqs as [|s reqs IH]; intros st; cbn [style_run]; [apply Extends_refl|].
  pose proof (get_style_extends s st) as H1. destruct (get_style_id s st) as [st1 r]. specialize (IH st1).
  destruct (style_run reqs st1) as [st2 rs]. by eapply Extends_trans.
Qed.
End any_hash.

(** ** Without collisions the hashes do not matter *)
Lemma at_0 {A} (x : A) l : (x :: l) !! 0%nat = Some x. Proof. done. Qed.
Lemma at_S {A} (x : A) l n : (x :: l) !! S n = l !! n. Proof. done. Qed.
Lemma style_run_cons `{Hashes} s reqs st : style_run (s :: reqs) st
  = ((style_run reqs (get_style_id s st).1).1, (get_style_id s st).2 :: (style_run reqs (get_style_id s st).1).2).
Proof. cbn [style_run]. destruct (get_style_id s st) as [st1 r]. cbn [fst snd]. by destruct (style_run reqs st1). Qed.
Lemma style_run_app `{Hashes} reqs1 reqs2 : forall st, style_run (reqs1 ++ reqs2) st
  = ((style_run reqs2 (style_run reqs1 st).1).1, (style_run reqs1 st).2 ++ (style_run reqs2 (style_run reqs1 st).1).2).
Proof.
  induction reqs1 as [|s reqs1 IH]; intros st; [by cbn; destruct (style_run reqs2 st)|].
  cbn [app]. rewrite !style_run_cons, IH. done.
Qed.
Lemma style_run_length `{Hashes} reqs : forall st, length (style_run reqs st).2 = length reqs.
Proof. induction reqs as [|s reqs IH]; intros st; [done|]. rewrite style_run_cons. cbn. by rewrite IH. Qed.
Lemma Collisionless_prefix (H : Hashes) reqs1 reqs2 st : Collisionless H (reqs1 ++ reqs2) st -> Collisionless H reqs1 st.
Proof. apply NoCollision_mono. rewrite style_run_app. apply style_run_extends. Qed.
Lemma get_style_ideal (H : Hashes) s st : NoCollision H (get_style_id (H0 := value_hashes) s st).1 ->
  get_style_id (H0 := H) s st = get_style_id (H0 := value_hashes) s st.
Proof.
  intros Hc. 
  assert (num_for (H0 := H) s (st_nums st) = num_for (H0 := value_hashes) s (st_nums st)) as Hnum.
  { unfold num_for. destruct (se_num s) eqn:Hs; [done|]. destruct (se_code s) as [code|] eqn:Hcode; [|done].
    rewrite (intern_value (@hash_num H)); [done|]. destruct Hc as (Hc & _).
    unfold get_style_id, num_for in Hc. rewrite Hs, Hcode in Hc. cbn [hash_num value_hashes] in Hc.
    destruct (intern _ _ (st_nums st)) as [[l1 i] []] eqn:Ei; cbn [rmap rbind] in Hc.
    - repeat (match type of Hc with context [intern ?a ?b ?c] => destruct (intern a b c) as [[? ?] ?] end). done.
    - destruct (intern_spec _ _ _ _ _ _ (fun y _ => value_inj y _) Ei) as (_ & _ & _ & _ & _ & ->).
      destruct (u16_add _ _ _); cbn [rmap rbind] in Hc; try done.
      repeat (match type of Hc with context [intern ?a ?b ?c] => destruct (intern a b c) as [[? ?] ?] end). done. }
  unfold get_style_id in *. rewrite Hnum. destruct (num_for _ _) as [[[nums num] on]| |]; [|done|done].
  change (@hash_font value_hashes) with (fun x : font => N.pos (encode x)) in *.
  change (@hash_fill value_hashes) with (fun x : fill => N.pos (encode x)) in *.
  change (@hash_border value_hashes) with (fun x : border => N.pos (encode x)) in *.
  change (@hash_xf value_hashes) with (fun x : xf => N.pos (encode x)) in *.
  destruct (intern _ (font_for s) (st_fonts st)) as [[fonts fo] fon] eqn:E1 in Hc.
  destruct (intern _ (fill_for s) (st_fills st)) as [[fills fi] fin] eqn:E2 in Hc.
  destruct (intern _ (border_for s) (st_borders st)) as [[borders bo] bon] eqn:E3 in Hc.
  set (x := mkXf 0 num _ _ _ _ _ _ _ _ _ _ _ _) in Hc.
  destruct (intern _ x (st_style_xfs st)) as [[sxfs sx] sxn] eqn:E4 in Hc.
  destruct (intern _ (set_format x (as_u16 sx)) (st_cell_xfs st)) as [[xfs id] idn] eqn:E5 in Hc.
  cbn in Hc. destruct Hc as (_ & H1 & H2 & H3 & H4 & H5).
  rewrite (intern_value (@hash_font H)) by (by rewrite E1). rewrite E1.
  rewrite (intern_value (@hash_fill H)) by (by rewrite E2). rewrite E2.
  rewrite (intern_value (@hash_border H)) by (by rewrite E3). rewrite E3. fold x.
  rewrite (intern_value (@hash_xf H) x) by (by rewrite E4). rewrite E4.
  rewrite (intern_value (@hash_xf H)) by (by rewrite E5). by rewrite E5.
Qed.
Lemma style_run_ideal (H : Hashes) reqs : forall st, Collisionless H reqs st ->
  style_run (H0 := H) reqs st = style_run (H0 := value_hashes) reqs st.
Proof.
  induction reqs as [|s reqs IH]; intros st Hc; [done|]. cbn [style_run]. unfold Collisionless in Hc. cbn [style_run] in Hc.
  destruct (get_style_id (H0 := value_hashes) s st) as [st1 r] eqn:E1.
  pose proof (style_run_extends (H := value_hashes) reqs st1) as Hx.
  destruct (style_run (H0 := value_hashes) reqs st1) as [st2 rs] eqn:E2. cbn [fst] in Hc, Hx.
  rewrite get_style_ideal by (rewrite E1; by eapply NoCollision_mono). rewrite E1.
  rewrite IH by (unfold Collisionless; by rewrite E2). by rewrite E2.
Qed.

Lemma one_ideal (H : Hashes) s st : Collisionless H [s] st -> get_style_id (H0 := H) s st = get_style_id (H0 := value_hashes) s st.
Proof. intros Hc. apply get_style_ideal. unfold Collisionless in Hc. rewrite style_run_cons in Hc. exact Hc. Qed.

(** ** One request, entries compared by value *)
#[local] Existing Instance value_hashes.
Definition xf_for (s : setting) (num fo fi bo : N) (on fon fin bon : bool) : xf :=
  mkXf 0 num (as_u16 fo) (as_u16 fi) (as_u16 bo) (applies fo fon)
    (not_vnone (se_valign s) || not_hnone (se_halign s) || se_wrap s)
    (applies fi fin) (applies bo bon) on false (se_wrap s) (se_halign s) (se_valign s).
Lemma get_style_inv s st st' id : get_style_id s st = (st', Ok id) ->
  exists num on fo fon fi fin bo bon sx sxn ix ixn,
    let x := xf_for s num fo fi bo on fon fin bon in
    num_for s (st_nums st) = Ok (st_nums st', num, on)
    /\ intern hash_font (font_for s) (st_fonts st) = (st_fonts st', fo, fon)
    /\ intern hash_fill (fill_for s) (st_fills st) = (st_fills st', fi, fin)
    /\ intern hash_border (border_for s) (st_borders st) = (st_borders st', bo, bon)
    /\ intern hash_xf x (st_style_xfs st) = (st_style_xfs st', sx, sxn)
    /\ intern hash_xf (set_format x (as_u16 sx)) (st_cell_xfs st) = (st_cell_xfs st', ix, ixn)
    /\ id = as_u32 ix.
Proof.
  unfold get_style_id. destruct (num_for s (st_nums st)) as [[[nums num] on]| |]; [|done|done].
  destruct (intern hash_font _ _) as [[fonts fo] fon] eqn:E1.
  destruct (intern hash_fill _ _) as [[fills fi] fin] eqn:E2.
  destruct (intern hash_border _ _) as [[borders bo] bon] eqn:E3.
  fold (xf_for s num fo fi bo on fon fin bon).
  destruct (intern hash_xf _ (st_style_xfs st)) as [[sxfs sx] sxn] eqn:E4.
  destruct (intern hash_xf _ (st_cell_xfs st)) as [[xfs ix] ixn] eqn:E5.
  intros [= <- <-]. by exists num, on, fo, fon, fi, fin, bo, bon, sx, sxn, ix, ixn.
Qed.
Lemma get_style_eq s st num on fo fon fi fin bo bon sx sxn ix ixn nums fonts fills borders sxfs xfs :
  let x := xf_for s num fo fi bo on fon fin bon in
  num_for s (st_nums st) = Ok (nums, num, on) ->
  intern hash_font (font_for s) (st_fonts st) = (fonts, fo, fon) ->
  intern hash_fill (fill_for s) (st_fills st) = (fills, fi, fin) ->
  intern hash_border (border_for s) (st_borders st) = (borders, bo, bon) ->
  intern hash_xf x (st_style_xfs st) = (sxfs, sx, sxn) ->
  intern hash_xf (set_format x (as_u16 sx)) (st_cell_xfs st) = (xfs, ix, ixn) ->
  get_style_id s st = (mkStyles nums fonts fills borders sxfs xfs, Ok (as_u32 ix)).
Proof.
  intros x H0 H1 H2 H3 H4 H5. unfold get_style_id. rewrite H0, H1, H2, H3.
  fold (xf_for s num fo fi bo on fon fin bon). fold x. by rewrite H4, H5.
Qed.
Lemma as_u16_small {A} (l : list A) i : i < N.of_nat (length l) -> below_len l 65536 -> as_u16 i = i.
Proof. unfold below_len, as_u16. intros. apply N.mod_small. lia. Qed.
Lemma as_u32_small {A} (l : list A) i : i < N.of_nat (length l) -> below_len l 65536 -> as_u32 i = i.
Proof. unfold below_len, as_u32. intros. apply N.mod_small. lia. Qed.
Lemma intern_value_spec {A} `{Countable A} (x : A) l l' i new : intern (fun y => N.pos (encode y)) x l = (l', i, new) ->
  position (fun y => N.pos (encode y) =? N.pos (encode x)) l' = Some i /\ l' !! N.to_nat i = Some x /\ l `prefix_of` l' /\ x ∈ l'
  /\ i < N.of_nat (length l') /\ (if new then l' = l ++ [x] /\ i = N.of_nat (length l) /\ x ∉ l else l' = l).
Proof. apply (intern_spec (fun y => N.pos (encode y))). intros y _. apply value_inj. Qed.
Lemma FontFor_own s : FontFor s (font_for s). Proof. done. Qed.
Lemma FillFor_own s : FillFor s (fill_for s).
Proof. unfold FillFor, RgbColor. cbn. by destruct (se_bg s), (se_fg s). Qed.
Lemma BorderFor_own s : BorderFor s (border_for s). Proof. done. Qed.
Lemma AlignFor_own s num fo fi bo on a b c n : AlignFor s (set_format (xf_for s num fo fi bo on a b c) n).
Proof.
  unfold AlignFor. cbn. split_and!; [done..|]. rewrite !orb_true_iff.
  assert (not_vnone (se_valign s) = true <-> se_valign s <> VNone) as -> by (by destruct (se_valign s)).
  assert (not_hnone (se_halign s) = true <-> se_halign s <> HNone) as -> by (by destruct (se_halign s)). tauto.
Qed.
Lemma get_style_shows s st st' id : get_style_id s st = (st', Ok id) -> Small st' -> Shows st' s id.
Proof.
  intros Hg (_ & S1 & S2 & S3 & S4 & S5).
  apply get_style_inv in Hg as (num & on & fo & fon & fi & fin & bo & bon & sx & sxn & ix & ixn & _ & H1 & H2 & H3 & H4 & H5 & ->).
  set (x := xf_for _ _ _ _ _ _ _ _ _) in *.
  apply intern_value_spec in H1 as (_ & L1 & _ & _ & I1 & _), H2 as (_ & L2 & _ & _ & I2 & _), H3 as (_ & L3 & _ & _ & I3 & _),
    H4 as (_ & L4 & _ & _ & I4 & _), H5 as (_ & L5 & _ & _ & I5 & _).
  assert (forall n, FormatFor st' s (set_format x n)) as Hff.
  { intros n. unfold FormatFor, x. cbn [xf_font xf_fill xf_border set_format xf_for xf_app_font xf_app_fill xf_app_border].
    split_and!; [exists (font_for s)|exists (fill_for s)|exists (border_for s)|apply AlignFor_own].
    - rewrite (as_u16_small _ _ I1 S1). split; [done|]. split; [apply FontFor_own|].
      intros Hz. unfold applies. apply orb_true_iff. right. lia.
    - rewrite (as_u16_small _ _ I2 S2). split; [done|]. split; [apply FillFor_own|].
      intros Hz. unfold applies. apply orb_true_iff. right. lia.
    - rewrite (as_u16_small _ _ I3 S3). split; [done|]. split; [apply BorderFor_own|].
      intros Hz. unfold applies. apply orb_true_iff. right. lia. }
  rewrite (as_u32_small _ _ I5 S5). exists (set_format x (as_u16 sx)), (set_format x 0).
  split; [done|]. split; [apply Hff|]. split; [|apply Hff]. cbn [xf_format set_format]. by rewrite (as_u16_small _ _ I4 S4).
Qed.
Lemma FormatFor_mono s st st' x : Extends st st' -> FormatFor st s x -> FormatFor st' s x.
Proof.
  intros (_ & P1 & P2 & P3 & _ & _) ((f & Hf & Hf') & (g & Hg & Hg') & (b & Hb & Hb') & Ha). unfold FormatFor.
  split_and!; [exists f|exists g|exists b|done]; (split; [by eapply prefix_at|done]).
Qed.
Lemma Shows_mono s st st' id : Extends st st' -> Shows st s id -> Shows st' s id.
Proof.
  intros He (x & y & Hx & Fx & Hy & Fy). pose proof He as (_ & _ & _ & _ & P4 & P5). exists x, y.
  split; [by eapply prefix_at|]. split; [by eapply FormatFor_mono|].
  split; [by eapply prefix_at|by eapply FormatFor_mono].
Qed.
Lemma u16_add_small a b : a + b <= 65535 -> u16_add env_mode a b = Ok (a + b).
Proof. unfold u16_add, u16_wrap. intros Hs. destruct (N.ltb_spec (a + b) 65536) as [_|Hb]; [done|]. lia. Qed.
Lemma get_style_total s st : below_len (st_nums st) 65000 ->
  (number_given s -> exists st' id, get_style_id s st = (st', Ok id))
  /\ (~ number_given s -> exists e, get_style_id s st = (st, Err e)).
Proof.
  intros Hl. unfold get_style_id. split.
  - intros Hn. assert (exists l num on, num_for s (st_nums st) = Ok (l, num, on)) as (l & num & on & ->).
    { unfold num_for, number_given in *. destruct (se_num s); [by eauto|]. destruct (se_code s) as [code|]; [|done].
      destruct (intern hash_num _ _) as [[l1 i] new] eqn:Ei. apply intern_value_spec in Ei as (_ & _ & _ & _ & Hi & Hnew).
      destruct new; [by eauto|]. subst l1. unfold below_len in Hl.
      rewrite u16_add_small by (unfold as_u16; rewrite N.mod_small by lia; lia). by eauto. }
    repeat (match goal with |- context [intern ?a ?b ?c] => destruct (intern a b c) as [[? ?] ?] end). by eauto.
  - intros Hn. unfold num_for, number_given in *. destruct (se_num s); [done|]. destruct (se_code s); [done|]. by eauto.
Qed.
(** ** The same request again *)
Lemma num_for_again s l l1 l2 num on :
  match se_num s, se_code s with NFCustom, Some code => custom code ∈ l | _, _ => True end ->
  num_for s l = Ok (l1, num, on) -> l1 `prefix_of` l2 -> num_for s l2 = Ok (l2, num, on) /\ l1 = l.
Proof.
  unfold num_for. destruct (se_num s); [by intros _ [= <- <- <-]|]. destruct (se_code s) as [code|]; [|done].
  intros Hin. destruct (intern hash_num _ l) as [[l' i] new] eqn:Ei. apply intern_value_spec in Ei as (Hp & _ & _ & _ & _ & Hnew).
  destruct new; [by destruct Hnew as (_ & _ & Hnot)|]. subst l'. intros Hu Hpre.
  destruct (u16_add env_mode (as_u16 i) 163) as [k| |] eqn:Hk; cbn [rmap rbind] in Hu; [|done|done]. injection Hu as <- <- <-.
  change hash_num with (fun x : num_format => N.pos (encode x)).
  rewrite (intern_again _ _ l2 i) by (by eapply position_prefix). by rewrite Hk.
Qed.
Lemma get_style_again s st st1 id st2 : get_style_id s st = (st1, Ok id) -> settled s st ->
  st_fonts st <> [] -> st_fills st <> [] -> st_borders st <> [] -> Extends st1 st2 -> get_style_id s st2 = (st2, Ok id).
Proof.
  intros Hg Hs N1 N2 N3 (P0 & P1 & P2 & P3 & P4 & P5).
  apply get_style_inv in Hg as (num & on & fo & fon & fi & fin & bo & bon & sx & sxn & ix & ixn & H0 & H1 & H2 & H3 & H4 & H5 & ->).
  destruct (num_for_again _ _ _ _ _ _ Hs H0 P0) as [K0 _].
  assert (forall A (l l' : list A) i (new : bool) x, l <> [] -> (if new then l' = l ++ [x] /\ i = N.of_nat (length l) /\ x ∉ l else l' = l) ->
    applies i new = applies i false) as Hap.
  { intros A l l' i [] x Hl; [|done]. intros (_ & -> & _). unfold applies. by destruct l. }
  apply intern_value_spec in H1 as (Q1 & _ & _ & _ & _ & W1), H2 as (Q2 & _ & _ & _ & _ & W2), H3 as (Q3 & _ & _ & _ & _ & W3).
  assert (xf_for s num fo fi bo on fon fin bon = xf_for s num fo fi bo on false false false) as Ex.
  { unfold xf_for. by rewrite (Hap _ _ _ _ _ _ N1 W1), (Hap _ _ _ _ _ _ N2 W2), (Hap _ _ _ _ _ _ N3 W3). }
  rewrite Ex in H4, H5. apply intern_value_spec in H4 as (Q4 & _), H5 as (Q5 & _).
  rewrite (get_style_eq s st2 num on fo false fi false bo false sx false ix false _ _ _ _ _ _ K0
    (intern_again _ _ _ _ (position_prefix _ _ _ _ Q1 P1)) (intern_again _ _ _ _ (position_prefix _ _ _ _ Q2 P2))
    (intern_again _ _ _ _ (position_prefix _ _ _ _ Q3 P3)) (intern_again _ _ _ _ (position_prefix _ _ _ _ Q4 P4))
    (intern_again _ _ _ _ (position_prefix _ _ _ _ Q5 P5))).
  by destruct st2.
Qed.
(** What the answer says about the number format. *)
Lemma get_style_format s st st' id : get_style_id s st = (st', Ok id) -> Small st' ->
  exists x, st_cell_xfs st' !! N.to_nat id = Some x
  /\ match se_num s, se_code s with
     | NFCustom, Some code =>
         custom code ∈ st_nums st' /\ xf_app_num x = true /\
         (custom code ∉ st_nums st /\ st_nums st' = st_nums st ++ [custom code] /\ xf_num x = N.of_nat (length (st_nums st))
          \/ st_nums st' = st_nums st /\ exists i, xf_num x = i + 163 /\ st_nums st !! N.to_nat i = Some (custom code)
              /\ position (fun y => N.pos (encode y) =? N.pos (encode (custom code))) (st_nums st) = Some i)
     | _, _ => st_nums st' = st_nums st /\ xf_num x = 0 /\ xf_app_num x = false
     end.
Proof.
  intros Hg (S0 & _ & _ & _ & _ & S5).
  apply get_style_inv in Hg as (num & on & fo & fon & fi & fin & bo & bon & sx & sxn & ix & ixn & H0 & _ & _ & _ & _ & H5 & ->).
  apply intern_value_spec in H5 as (_ & L5 & _ & _ & I5 & _). rewrite (as_u32_small _ _ I5 S5). eexists. split; [exact L5|].
  cbn [xf_num xf_app_num set_format xf_for]. unfold num_for in H0. destruct (se_num s); [by injection H0 as <- <- <-|].
  destruct (se_code s) as [code|]; [|done]. destruct (intern hash_num _ _) as [[l1 i] new] eqn:Ei.
  apply intern_value_spec in Ei as (Q & L & _ & Hin & Hi & Hnew). fold (custom code) in *. unfold below_len in S0.
  destruct new.
  - injection H0 as H0 <- <-. rewrite <- H0 in *. split; [done|]. split; [done|]. left. destruct Hnew as (E1 & -> & Hnot). split; [done|]. split; [done|].
    unfold as_u16. apply N.mod_small. rewrite E1, app_length in S0. cbn in S0. lia.
  - subst l1. destruct (u16_add env_mode (as_u16 i) 163) as [k| |] eqn:Hk; cbn [rmap rbind] in H0; [|done|done].
    injection H0 as H0 <- <-. rewrite <- H0 in *.
    rewrite u16_add_small in Hk by (unfold as_u16; rewrite N.mod_small by lia; lia).
    injection Hk as <-. split; [done|]. split; [done|]. right. split; [done|]. exists i.
    unfold as_u16. by rewrite N.mod_small by lia.
Qed.
(** ** Histories, entries compared by value *)
Lemma run_same_id s reqs st id : settled s st -> st_fonts st <> [] -> st_fills st <> [] -> st_borders st <> [] ->
  (style_run (s :: reqs ++ [s]) st).2 !! 0%nat = Some (Ok id) ->
  (style_run (s :: reqs ++ [s]) st).2 !! S (length reqs) = Some (Ok id)
  /\ (style_run (s :: reqs ++ [s]) st).1 = (style_run (s :: reqs) st).1.
Proof.
  intros Hse N1 N2 N3.
  rewrite !style_run_cons, style_run_app, style_run_cons. cbn [fst snd style_run]. rewrite at_0, at_S.
  destruct (get_style_id s st) as [st1 r] eqn:Hg. cbn [fst snd]. intros [= ->].
  rewrite (get_style_again _ _ _ _ (style_run reqs st1).1 Hg Hse N1 N2 N3 (style_run_extends _ _)). cbn [fst snd]. split; [|done].
  rewrite lookup_app_r by (by rewrite style_run_length). by rewrite style_run_length, Nat.sub_diag.
Qed.
Lemma run_custom_twice s code st id1 id2 : se_num s = NFCustom -> se_code s = Some code -> custom code ∉ st_nums st ->
  Small (style_run [s; s] st).1 -> (style_run [s; s] st).2 = [Ok id1; Ok id2] -> id1 <> id2.
Proof.
  intros Hn Hco Hnot Hs Hr.
  rewrite !style_run_cons in *. cbn [fst snd style_run] in *.
  destruct (get_style_id s st) as [st1 r1] eqn:G1. cbn [fst snd] in *. destruct (get_style_id s st1) as [st2 r2] eqn:G2. cbn [fst snd] in *.
  injection Hr as -> ->. assert (Extends st1 st2) as Hx by (replace st2 with (get_style_id s st1).1 by (by rewrite G2); apply get_style_extends).
  destruct (get_style_format _ _ _ _ G1 (Small_mono _ _ Hx Hs)) as (x1 & X1 & F1). rewrite Hn, Hco in F1.
  destruct (get_style_format _ _ _ _ G2 Hs) as (x2 & X2 & F2). rewrite Hn, Hco in F2.
  destruct F1 as (I1 & _ & [(_ & L1 & M1)|(L1 & _)]); [|by rewrite L1 in I1].
  destruct F2 as (_ & _ & [(J & _)|(_ & i & M2 & K & _)]); [done|]. intros <-.
  assert (x1 = x2) as <- by (apply (prefix_at _ _ _ _ (proj2 (proj2 (proj2 (proj2 (proj2 Hx)))))) in X1; congruence).
  rewrite L1 in K. rewrite M1 in M2. destruct (decide (N.to_nat i < length (st_nums st))%nat) as [Hi|Hi]; [|lia].
  rewrite lookup_app_l in K by done. apply Hnot. by eapply elem_of_list_lookup_2.
Qed.
Lemma run_settles s reqs1 reqs2 st id : number_given s ->
  st_fonts st <> [] -> st_fills st <> [] -> st_borders st <> [] -> Small (style_run (s :: reqs1 ++ s :: reqs2 ++ [s]) st).1 ->
  (style_run (s :: reqs1 ++ s :: reqs2 ++ [s]) st).2 !! S (length reqs1) = Some (Ok id) ->
  (style_run (s :: reqs1 ++ s :: reqs2 ++ [s]) st).2 !! S (length reqs1 + S (length reqs2)) = Some (Ok id)
  /\ (style_run (s :: reqs1 ++ s :: reqs2 ++ [s]) st).1 = (style_run (s :: reqs1 ++ s :: reqs2) st).1.
Proof.
  intros Hng N1 N2 N3 Hs.
  rewrite !style_run_cons, !style_run_app, !style_run_cons, !style_run_app in *. cbn [fst snd] in *.
  set (st1 := (get_style_id s st).1) in *. set (st2 := (style_run reqs1 st1).1) in *.
  assert (Extends st st2) as X02.
  { eapply Extends_trans; [apply get_style_extends|]. apply style_run_extends. }
  rewrite !at_S. rewrite !lookup_app_r by (rewrite style_run_length; lia). rewrite style_run_length, Nat.sub_diag.
  replace (length reqs1 + S (length reqs2) - length reqs1)%nat with (S (length reqs2)) by lia.
  rewrite at_0, at_S. destruct (get_style_id s st2) as [st3 r] eqn:G2. cbn [fst snd]. intros [= ->].
  assert (Extends st2 (style_run [s] (style_run reqs2 st3).1).1) as X2f.
  { eapply Extends_trans; [apply (get_style_extends s st2)|]. rewrite G2. eapply Extends_trans; [apply (style_run_extends reqs2)|apply (style_run_extends [s])]. }
  cbn [fst] in Hs. pose proof (Small_mono _ _ X2f Hs) as Hs2.
  assert (settled s st2) as Hset.
  { unfold settled. destruct (se_num s) eqn:Hn; [done|]. destruct (se_code s) as [code|] eqn:Hco; [|done].
    assert (below_len (st_nums st) 65000) as Hb by (by apply (Small_mono _ _ X02)).
    destruct (get_style_total s st Hb) as [(st1' & id1 & G1) _]; [done|].
    assert (st1' = st1) as -> by (unfold st1; by rewrite G1).
    assert (Small st1) as Hs1 by (eapply Small_mono; [apply (style_run_extends reqs1)|exact Hs2]).
    destruct (get_style_format _ _ _ _ G1 Hs1) as (x1 & _ & F1). rewrite Hn, Hco in F1. destruct F1 as [F1 _].
    eapply prefix_elem; [|exact F1]. apply (style_run_extends reqs1 st1). }
  assert (st_fonts st2 <> [] /\ st_fills st2 <> [] /\ st_borders st2 <> []) as (M1 & M2 & M3).
  { destruct X02 as (_ & [k1 ->] & [k2 ->] & [k3 ->] & _). split_and!; [by destruct (st_fonts st)|by destruct (st_fills st)|by destruct (st_borders st)]. }
  rewrite style_run_cons. rewrite (get_style_again _ _ _ _ (style_run reqs2 st3).1 G2 Hset M1 M2 M3 (style_run_extends _ _)). cbn [fst snd style_run]. split; [|done].
  rewrite lookup_app_r by (by rewrite style_run_length). by rewrite style_run_length, Nat.sub_diag.
Qed.
(** ** Values keep fitting their types *)
Lemma intern_forall {A} (P : A -> Prop) (h : A -> N) x l l' i new : intern h x l = (l', i, new) -> P x -> Forall P l -> Forall P l'.
Proof.
  unfold intern. destruct (position _ l); intros [= <- <- <-] Hx Hl; [done|]. apply Forall_app. split; [done|]. by apply Forall_singleton.
Qed.
Lemma as_u16_max i : as_u16 i <= u16_max.
Proof. unfold as_u16. pose proof (N.mod_lt i 65536). unfold u16_max. lia. Qed.
Lemma u16_add_max m a b k : u16_add m a b = Ok k -> k <= u16_max.
Proof.
  unfold u16_add, u16_wrap, u16_max. destruct (N.ltb_spec (a + b) 65536); [intros [= <-]; lia|].
  destruct m; [done|]. intros [= <-]. pose proof (N.mod_lt (a + b) 65536). lia.
Qed.
Lemma num_for_typed s l l' num on : num_for s l = Ok (l', num, on) -> Forall (fun n => nf_id n <= usize_max) l ->
  num <= u16_max /\ Forall (fun n => nf_id n <= usize_max) l'.
Proof.
  unfold num_for. destruct (se_num s); [intros [= <- <- <-] Hl; split; [unfold u16_max; lia|done]|]. destruct (se_code s); [|done].
  destruct (intern _ _ l) as [[l1 i] new] eqn:Ei. intros Hn Hl.
  assert (Forall (fun n => nf_id n <= usize_max) l1) as Hl1.
  { eapply intern_forall; [exact Ei| |done]. cbn. unfold usize_max. lia. }
  destruct new; [injection Hn as <- <- <-; split; [apply as_u16_max|done]|].
  destruct (u16_add env_mode (as_u16 i) 163) as [k| |] eqn:Hk; cbn [rmap rbind] in Hn; [|done|done]. injection Hn as <- <- <-.
  split; [by eapply u16_add_max|done].
Qed.
Lemma get_style_typed s st : se_size s <= u8_max -> styles_typed st -> styles_typed (get_style_id s st).1.
Proof.
  intros Hs Hty. destruct (get_style_id s st) as [st' r] eqn:Hg. cbn [fst].
  destruct (num_for s (st_nums st)) as [[[l num] on]|e|e] eqn:Hn; unfold get_style_id in Hg; rewrite Hn in Hg; [|by injection Hg as <- <-..].
  destruct Hty as (Y1 & Y2 & Y3 & Y4). destruct (num_for_typed _ _ _ _ _ Hn Y1) as [Hnum Yl].
  destruct (intern hash_font _ _) as [[fonts fo] fon] eqn:E1. destruct (intern hash_fill _ _) as [[fills fi] fin] eqn:E2.
  destruct (intern hash_border _ _) as [[borders bo] bon] eqn:E3.
  match type of Hg with context [intern hash_xf ?x (st_style_xfs st)] => destruct (intern hash_xf x (st_style_xfs st)) as [[sxfs sx] sxn] eqn:E4 end.
  match type of Hg with context [intern hash_xf ?x (st_cell_xfs st)] => destruct (intern hash_xf x (st_cell_xfs st)) as [[xfs ix] ixn] eqn:E5 end.
  injection Hg as <- <-. unfold styles_typed. cbn [st_nums st_fonts st_style_xfs st_cell_xfs]. split_and!.
  - done.
  - eapply intern_forall; [exact E1| |done]. split; [done|]. cbn. unfold u32_max. lia.
  - eapply intern_forall; [exact E4| |done]. unfold xf_typed. cbn. pose proof as_u16_max. split_and!; auto; unfold u16_max; lia.
  - eapply intern_forall; [exact E5| |done]. unfold xf_typed. cbn. pose proof as_u16_max. split_and!; auto; unfold u16_max; lia.
Qed.
Lemma style_run_typed reqs : forall st, Forall (fun s => se_size s <= u8_max) reqs -> styles_typed st -> styles_typed (style_run reqs st).1.
Proof.
  induction reqs as [|s reqs IH]; intros st Hf Hty; [done|]. rewrite style_run_cons. cbn [fst]. inversion_clear Hf. apply IH; [done|]. by apply get_style_typed.
Qed.
Lemma decide_number s : {number_given s} + {~ number_given s}.
Proof. unfold number_given. destruct (se_num s), (se_code s); auto. Qed.
Lemma NoCollision_value st : NoCollision value_hashes st.
Proof. by split_and!; intros ? ? _ _ ?%value_inj. Qed.
End with_env.
