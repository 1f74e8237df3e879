(** General facts about the base definitions. *)
From Verif.Model Require Import Base.
From Coq Require Export ZifyBool ZifyN ZifyNat.
Ltac Zify.zify_post_hook ::= Z.to_euclidean_division_equations.

(** ** strings *)
Lemma app_nil_r_s (s : string) : s +:+ "" = s.
Proof. induction s as [|a s IH]; cbn; [done|]. by rewrite IH. Qed.
Lemma app_assoc_s (a b c : string) : a +:+ (b +:+ c) = (a +:+ b) +:+ c.
Proof. induction a as [|x a IH]; cbn; [done|]. by rewrite IH. Qed.
Lemma sforall_app p a b : sforall p (a +:+ b) = sforall p a && sforall p b.
Proof. induction a as [|x a IH]; cbn; [done|]. rewrite IH. by destruct (p x). Qed.
Lemma sforall_impl (p q : ascii -> bool) s :
  (forall a, p a = true -> q a = true) -> sforall p s = true -> sforall q s = true.
Proof.
  intros Hpq. induction s as [|a s IH]; cbn; [done|].
  rewrite !andb_true_iff. intros [? ?]. auto.
Qed.
Lemma srev_app_spec s acc : srev_app s acc = srev s +:+ acc.
Proof.
  unfold srev. revert acc. induction s as [|a s IH]; intros acc; cbn; [done|].
  rewrite IH. rewrite (IH (String a "")). rewrite <- app_assoc_s. done.
Qed.
Lemma srev_cons a s : srev (String a s) = srev s +:+ String a "".
Proof. unfold srev at 1. cbn. by rewrite srev_app_spec. Qed.
Lemma srev_app_dist a b : srev (a +:+ b) = srev b +:+ srev a.
Proof.
  induction a as [|x a IH]; cbn [String.append].
  - by rewrite app_nil_r_s.
  - rewrite !srev_cons, IH. by rewrite app_assoc_s.
Qed.
Lemma srev_involutive s : srev (srev s) = s.
Proof.
  induction s as [|a s IH]; [done|]. rewrite srev_cons, srev_app_dist, IH. done.
Qed.
Lemma byteN_lt a : byteN a < 256.
Proof. unfold byteN. apply N_ascii_bounded. Qed.
Lemma ascii_byteN a : ascii_of_N (byteN a) = a.
Proof. apply ascii_N_embedding. Qed.
Lemma byteN_ascii n : n < 256 -> byteN (ascii_of_N n) = n.
Proof. apply N_ascii_embedding. Qed.
Lemma byteN_inj a b : byteN a = byteN b -> a = b.
Proof. intros H. rewrite <- (ascii_byteN a), <- (ascii_byteN b). by rewrite H. Qed.
Lemma aeqb_true a b : aeqb a b = true <-> a = b.
Proof. apply Ascii.eqb_eq. Qed.
Lemma aeqb_false a b : aeqb a b = false <-> a <> b.
Proof. apply Ascii.eqb_neq. Qed.
Lemma aeqb_refl a : aeqb a a = true.
Proof. apply Ascii.eqb_refl. Qed.
Lemma aeqb_byteN a b : aeqb a b = (byteN a =? byteN b).
Proof.
  destruct (aeqb a b) eqn:E.
  - apply aeqb_true in E as ->. by rewrite N.eqb_refl.
  - apply aeqb_false in E. symmetry. apply N.eqb_neq. intros H. by apply byteN_inj in H.
Qed.
Lemma seqb_true a b : seqb a b = true <-> a = b.
Proof. apply String.eqb_eq. Qed.
Lemma seqb_false a b : seqb a b = false <-> a <> b.
Proof. apply String.eqb_neq. Qed.
Lemma seqb_refl a : seqb a a = true.
Proof. apply String.eqb_refl. Qed.
Lemma strip_prefix_app p s : strip_prefix p (p +:+ s) = Some s.
Proof. induction p as [|a p IH]; cbn; [done|]. by rewrite aeqb_refl. Qed.
Lemma strip_prefix_Some p s r : strip_prefix p s = Some r <-> s = p +:+ r.
Proof.
  split.
  - revert s. induction p as [|a p IH]; intros s; cbn; [by intros [= ->]|].
    destruct s as [|b s]; [done|]. destruct (aeqb a b) eqn:E; [|done].
    apply aeqb_true in E as ->. intros H. by rewrite (IH _ H).
  - intros ->. apply strip_prefix_app.
Qed.
Lemma app_inj_l a b c : a +:+ b = a +:+ c -> b = c.
Proof. induction a as [|x a IH]; cbn; [done|]. intros [= H]. auto. Qed.
Lemma app_inj_r a b c : b +:+ a = c +:+ a -> b = c.
Proof.
  intros H. apply (f_equal srev) in H. rewrite !srev_app_dist in H. apply app_inj_l in H.
  by rewrite <- (srev_involutive b), H, srev_involutive.
Qed.
Lemma strip_suffix_Some p s r : strip_suffix p s = Some r <-> s = r +:+ p.
Proof.
  unfold strip_suffix. split.
  - destruct (strip_prefix _ _) as [t|] eqn:E; [|done]. intros [= <-].
    apply strip_prefix_Some in E.
    rewrite <- (srev_involutive s), E, srev_app_dist, srev_involutive. done.
  - intros ->. rewrite srev_app_dist, strip_prefix_app, srev_involutive. done.
Qed.

Lemma slength_app a b : String.length (a +:+ b) = (String.length a + String.length b)%nat.
Proof. induction a as [|x a IH]; cbn; [done|]. by rewrite IH. Qed.

(** ** decimal printing and parsing *)
Lemma digits_val_app acc a b : digits_val acc (a +:+ b) = digits_val (digits_val acc a) b.
Proof. revert acc. induction a as [|x a IH]; intros acc; cbn; [done|]. apply IH. Qed.
Lemma digit_char_val d : d < 10 -> byteN (digit_char d) = 48 + d.
Proof. intros. unfold digit_char. apply byteN_ascii. lia. Qed.

Lemma show_aux_app f n acc : show_aux f n acc = show_aux f n "" +:+ acc.
Proof.
  revert n acc. induction f as [|f IH]; intros n acc; cbn; [done|].
  destruct (n / 10 =? 0); [done|].
  rewrite IH. rewrite (IH _ (String _ "")). by rewrite <- app_assoc_s.
Qed.
Lemma log2_div10 n : n / 10 <> 0 -> N.log2 (n / 10) < N.log2 n.
Proof.
  intros H. destruct (decide (n = 0)) as [->|Hn]; [done|].
  pose proof (N.log2_spec n ltac:(lia)) as [H1 H2].
  pose proof (N.log2_spec (n / 10) ltac:(lia)) as [H3 H4].
  destruct (N.lt_ge_cases (N.log2 (n/10)) (N.log2 n)) as [|Hge]; [done|].
  exfalso.
  assert (2 ^ N.log2 n <= 2 ^ N.log2 (n / 10)) by (apply N.pow_le_mono_r; lia).
  assert (n < 2 * 2 ^ N.log2 n) by (rewrite <- N.pow_succ_r'; done).
  lia.
Qed.
Lemma show_aux_val f n :
  (N.to_nat (N.log2 n) < f)%nat ->
  digits_val 0 (show_aux f n "") = n /\ sforall is_digit_byte (show_aux f n "") = true
  /\ show_aux f n "" <> "".
Proof.
  revert n. induction f as [|f IH]; intros n Hf; [lia|]. cbn [show_aux].
  destruct (n / 10 =? 0) eqn:E.
  - apply N.eqb_eq in E. cbn [digits_val sforall]. rewrite digit_char_val by lia.
    split; [lia|]. split; [|done].
    unfold is_digit_byte, is_ascii_digit. rewrite digit_char_val by lia. lia.
  - apply N.eqb_neq in E. rewrite show_aux_app.
    pose proof (log2_div10 n E).
    destruct (IH (n / 10)) as (IH1 & IH2 & IH3); [lia|].
    rewrite digits_val_app, IH1, sforall_app, IH2. cbn [digits_val sforall].
    rewrite digit_char_val by lia. split; [lia|]. split.
    + unfold is_digit_byte, is_ascii_digit. rewrite digit_char_val by lia. lia.
    + destruct (show_aux f (n / 10) ""); done.
Qed.
Lemma show_N_digits n : sforall is_digit_byte (show_N n) = true.
Proof. unfold show_N. eapply show_aux_val. lia. Qed.
Lemma show_N_val n : digits_val 0 (show_N n) = n.
Proof. unfold show_N. eapply show_aux_val. lia. Qed.
Lemma show_N_nonempty n : show_N n <> "".
Proof. unfold show_N. eapply show_aux_val. lia. Qed.
Lemma show_N_inj n m : show_N n = show_N m -> n = m.
Proof. intros H. by rewrite <- (show_N_val n), H, show_N_val. Qed.
Lemma parse_digits_show max n : n <= max -> parse_digits max (show_N n) = Some n.
Proof.
  intros H. unfold parse_digits. rewrite show_N_digits, show_N_val.
  pose proof (show_N_nonempty n). destruct (show_N n); [done|].
  apply N.leb_le in H. by rewrite H.
Qed.
Lemma parse_uint_show max n : n <= max -> parse_uint max (show_N n) = Some n.
Proof.
  intros H. unfold parse_uint. pose proof (show_N_nonempty n) as Hn.
  pose proof (show_N_digits n) as Hd. pose proof (parse_digits_show max n H) as Hp.
  destruct (show_N n) as [|a s]; [done|]. cbn in Hd. apply andb_true_iff in Hd as [Ha _].
  destruct (aeqb a "+") eqn:E; [|done]. apply aeqb_true in E. subst. done.
Qed.

(** ** order on strings *)
Lemma str_leb_refl a : str_leb a a = true.
Proof. induction a as [|x a IH]; cbn; [done|]. by rewrite N.ltb_irrefl. Qed.
Lemma str_leb_total a b : str_leb a b = true \/ str_leb b a = true.
Proof.
  revert b. induction a as [|x a IH]; intros [|y b]; cbn; auto.
  destruct (byteN x <? byteN y) eqn:E1; destruct (byteN y <? byteN x) eqn:E2; auto.
Qed.
Lemma str_leb_trans a b c : str_leb a b = true -> str_leb b c = true -> str_leb a c = true.
Proof.
  revert b c. induction a as [|x a IH]; intros [|y b] [|z c]; cbn; try done.
  repeat match goal with |- context [?p <? ?q] => destruct (N.ltb_spec p q) end; try done; try lia.
  apply IH.
Qed.
Lemma str_leb_antisym a b : str_leb a b = true -> str_leb b a = true -> a = b.
Proof.
  revert b. induction a as [|x a IH]; intros [|y b]; cbn; try done.
  repeat match goal with |- context [?p <? ?q] => destruct (N.ltb_spec p q) end; try done; try lia.
  intros H1 H2. f_equal; [apply byteN_inj; lia|auto].
Qed.
Global Instance key_le_total V : Total (@key_le V).
Proof. intros x y. unfold key_le, str_le. apply str_leb_total. Qed.
Global Instance key_le_trans V : Transitive (@key_le V).
Proof. intros x y z. unfold key_le, str_le. apply str_leb_trans. Qed.
Global Instance nkey_le_total V : Total (@nkey_le V).
Proof. intros x y. unfold nkey_le. lia. Qed.
Global Instance nkey_le_trans V : Transitive (@nkey_le V).
Proof. intros x y z. unfold nkey_le. lia. Qed.

(** ** sorted entries of maps *)
Lemma sorted_entries_perm {V} (m : gmap string V) : Permutation (sorted_entries m) (map_to_list m).
Proof. apply merge_sort_Permutation. Qed.
Lemma sorted_entries_sorted {V} (m : gmap string V) : StronglySorted key_le (sorted_entries m).
Proof. apply StronglySorted_merge_sort; apply _. Qed.
Lemma sorted_entries_lookup {V} (m : gmap string V) k v :
  (k, v) ∈ sorted_entries m <-> m !! k = Some v.
Proof. rewrite sorted_entries_perm. apply elem_of_map_to_list. Qed.
Lemma sorted_entries_NoDup {V} (m : gmap string V) : NoDup (sorted_entries m).*1.
Proof. rewrite sorted_entries_perm. apply NoDup_fst_map_to_list. Qed.
Lemma list_to_map_sorted_entries {V} (m : gmap string V) : list_to_map (sorted_entries m) = m.
Proof.
  rewrite (list_to_map_proper _ (map_to_list m)).
  - apply list_to_map_to_list.
  - apply sorted_entries_NoDup.
  - apply sorted_entries_perm.
Qed.
Lemma btree_entries_perm {V} (m : gmap N V) : Permutation (btree_entries m) (map_to_list m).
Proof. apply merge_sort_Permutation. Qed.
Lemma btree_entries_sorted {V} (m : gmap N V) : StronglySorted nkey_le (btree_entries m).
Proof. apply StronglySorted_merge_sort; apply _. Qed.
Lemma btree_entries_lookup {V} (m : gmap N V) k v :
  (k, v) ∈ btree_entries m <-> m !! k = Some v.
Proof. rewrite btree_entries_perm. apply elem_of_map_to_list. Qed.
Lemma btree_entries_NoDup {V} (m : gmap N V) : NoDup (btree_entries m).*1.
Proof. rewrite btree_entries_perm. apply NoDup_fst_map_to_list. Qed.
Lemma list_to_map_btree_entries {V} (m : gmap N V) : list_to_map (btree_entries m) = m.
Proof.
  rewrite (list_to_map_proper _ (map_to_list m)).
  - apply list_to_map_to_list.
  - apply btree_entries_NoDup.
  - apply btree_entries_perm.
Qed.

Lemma omap_lookup_keys {V} (m : gmap string V) (l : list (string * V)) :
  (forall k v, (k, v) ∈ l -> m !! k = Some v) ->
  omap (fun k => (fun v => (k, v)) <$> m !! k) l.*1 = l.
Proof.
  induction l as [|[k v] l IH]; intros H; [done|]. cbn [fmap list_fmap fst].
  simpl. rewrite (H k v) by left. cbn. f_equal. apply IH. intros. apply H. by right.
Qed.
Lemma omap_Permutation {A B} (f : A -> option B) l k :
  Permutation l k -> Permutation (omap f l) (omap f k).
Proof.
  induction 1; simpl.
  - done.
  - destruct (f x); [by constructor|done].
  - destruct (f x), (f y); try done. constructor.
  - by etrans.
Qed.
Lemma hash_entries_perm `{Env} {V} (m : gmap string V) :
  Permutation (hash_entries m) (map_to_list m).
Proof.
  unfold hash_entries.
  rewrite (omap_Permutation _ _ _ (env_order_perm (map_keys m))).
  unfold map_keys. rewrite omap_lookup_keys; [done|].
  intros k v. apply elem_of_map_to_list.
Qed.
