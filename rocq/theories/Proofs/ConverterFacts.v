From Verif.Model Require Import Converters.
From Verif.Spec Require Import ColumnSpec.
From Verif.Proofs Require Import BaseFacts.

(** value of a reversed digit list, least significant first, from position [i] *)
Fixpoint rsum (i : N) (ds : list N) : N :=
  match ds with [] => 0 | d :: ds => d * 26 ^ i + rsum (i + 1) ds end.

Lemma chars_ascii s : sforall (fun a => byteN a <? 128) s = true ->
  forall rest, chars (s +:+ rest) = map byteN (bytes s) ++ chars rest.
Proof.
  induction s as [|a s IH]; intros Hs rest; [done|].
  cbn [sforall] in Hs. apply andb_true_iff in Hs as [Ha Hs].
  cbn [String.append bytes map]. rewrite <- app_comm_cons, <- (IH Hs rest).
  cbn [chars]. by rewrite Ha.
Qed.
Lemma is_letter_ascii a : is_letter a = true -> (byteN a <? 128) = true.
Proof. unfold is_letter. lia. Qed.
Lemma is_letter_alpha `{Env} a : is_letter a = true -> is_alphabetic (byteN a) = true.
Proof.
  intros Ha. pose proof (is_letter_ascii a Ha) as H1. unfold is_alphabetic. rewrite H1.
  unfold is_letter, is_ascii_alpha in *. lia.
Qed.
Lemma take_while_word `{Env} s rest :
  sforall is_letter s = true -> ends_word rest ->
  take_while is_alphabetic (chars (s +:+ rest)) = map byteN (bytes s).
Proof.
  intros Hs Hr. rewrite chars_ascii; [|eapply sforall_impl; [|done]; apply is_letter_ascii].
  induction s as [|a s IH]; cbn [bytes map app].
  - unfold ends_word in Hr. destruct (chars rest) as [|c cs]; [done|]. cbn. by rewrite Hr.
  - cbn in Hs. apply andb_true_iff in Hs as [Ha Hs]. cbn.
    rewrite is_letter_alpha by done. by rewrite (IH Hs).
Qed.

Lemma upper_code a : is_letter a = true ->
  to_ascii_uppercase (byteN a) = letter_value a + 64 /\ 1 <= letter_value a <= 26.
Proof.
  intros Ha. unfold is_letter in Ha. unfold letter_value, upper_letter, to_ascii_uppercase.
  destruct ((97 <=? byteN a) && (byteN a <=? 122)) eqn:E.
  - rewrite byteN_ascii by lia. lia.
  - lia.
Qed.
Lemma u16_wrap_ok m n : n < 65536 -> u16_wrap m n = Ok n.
Proof. intros H. unfold u16_wrap. apply N.ltb_lt in H. by rewrite H. Qed.

(** the four exact positions *)
Lemma pow26_small i : i <= 3 -> 26 ^ i <= 17576 /\ 1 <= 26 ^ i.
Proof.
  intros H. assert (i = 0 \/ i = 1 \/ i = 2 \/ i = 3) as [->|[->|[->| ->]]] by lia;
    vm_compute; split; congruence.
Qed.
Lemma step_small m i a index : i <= 3 -> is_letter a = true ->
  column_step m i (byteN a) index =
  rbind (u16_mul m (letter_value a) (26 ^ i)) (fun t => u16_add m index t).
Proof.
  intros Hi Ha. unfold column_step. destruct (upper_code a Ha) as [-> Hv].
  rewrite N.mod_small by lia. unfold u16_sub.
  destruct (65 <=? letter_value a + 64) eqn:E; [|lia]. cbn [rbind].
  unfold u16_add at 1. rewrite u16_wrap_ok by lia. cbn [rbind].
  destruct (pow26_small i Hi) as [Hp1 Hp2].
  unfold usize_pow. destruct (26 ^ i <=? usize_max) eqn:E2; [|unfold usize_max in *; lia].
  cbn [rbind]. rewrite N.mod_small by lia.
  replace (letter_value a + 64 - 65 + 1) with (letter_value a) by lia. done.
Qed.

Lemma rsum_ge i ds : Forall (fun d => 1 <= d <= 26) ds -> ds <> [] -> 26 ^ i <= rsum i ds.
Proof. intros Hf Hn. destruct ds; [done|]. inversion Hf; subst. cbn. nia. Qed.

Lemma loop_exact m l i index :
  Forall (fun a => is_letter a = true) l ->
  index + rsum i (map letter_value l) <= 65535 ->
  column_loop m i (map byteN l) index = Ok (index + rsum i (map letter_value l)).
Proof.
  revert i index. induction l as [|a l IH]; intros i index Hl Hsum; cbn [map column_loop rsum].
  - f_equal. lia.
  - inversion Hl as [|? ? Ha Hl']; subst. cbn [map rsum] in Hsum.
    destruct (upper_code a Ha) as [_ Hv].
    assert (26 ^ i <= 65535) as Hp by nia.
    assert (i <= 3) as Hi.
    { destruct (N.le_gt_cases i 3); [done|]. exfalso.
      assert (26 ^ 4 <= 26 ^ i) by (apply N.pow_le_mono_r; lia).
      assert (26 ^ 4 = 456976) by (by vm_compute). lia. }
    rewrite step_small by done.
    unfold u16_mul. rewrite u16_wrap_ok by lia. cbn [rbind].
    unfold u16_add. rewrite u16_wrap_ok by lia. cbn [rbind].
    rewrite IH; [|done|lia]. f_equal. lia.
Qed.

Lemma pow26_4 : 26 ^ 4 = 456976. Proof. by vm_compute. Qed.
(** position 4 always overflows once the four lower positions have been summed *)
Lemma step_four a index : is_letter a = true -> 18279 <= index -> index < 65536 ->
  exists e, column_step Checked 4 (byteN a) index = Panic e.
Proof.
  intros Ha Hi1 Hi2. unfold column_step. destruct (upper_code a Ha) as [-> Hv].
  rewrite N.mod_small by lia. unfold u16_sub.
  destruct (65 <=? letter_value a + 64) eqn:E; [|lia]. cbn [rbind].
  unfold u16_add at 1. rewrite u16_wrap_ok by lia. cbn [rbind].
  unfold usize_pow. rewrite pow26_4. cbn [N.leb N.compare usize_max].
  change (456976 <=? usize_max) with true. cbv iota. cbn [rbind].
  change (456976 mod 65536) with 63760.
  replace (letter_value a + 64 - 65 + 1) with (letter_value a) by lia.
  unfold u16_mul, u16_add, u16_wrap.
  destruct (letter_value a * 63760 <? 65536) eqn:E3; cbn [rbind]; [|eauto].
  destruct (index + letter_value a * 63760 <? 65536) eqn:E4; [lia|]. eauto.
Qed.

Lemma loop_overflow l i index :
  Forall (fun a => is_letter a = true) l -> i <= 4 -> index < 65536 ->
  (i = 0 \/ (i = 1 /\ 1 <= index) \/ (i = 2 /\ 27 <= index) \/ (i = 3 /\ 703 <= index)
    \/ (i = 4 /\ 18279 <= index)) ->
  65535 < index + rsum i (map letter_value l) ->
  exists e, column_loop Checked i (map byteN l) index = Panic e.
Proof.
  revert i index. induction l as [|a l IH]; intros i index Hl Hi Hidx Hinv Hsum;
    cbn [map column_loop rsum] in *; [lia|].
  inversion Hl as [|? ? Ha Hl']; subst. destruct (upper_code a Ha) as [_ Hv].
  destruct (decide (i = 4)) as [->|Hi4].
  - destruct (step_four a index) as [e ->]; [done|lia|lia|]. cbn. eauto.
  - rewrite step_small by (done || lia).
    unfold u16_mul, u16_add, u16_wrap.
    destruct (letter_value a * 26 ^ i <? 65536) eqn:E1; cbn [rbind]; [|eauto].
    destruct (index + letter_value a * 26 ^ i <? 65536) eqn:E2; cbn [rbind]; [|eauto].
    apply IH; [done|lia|lia| |lia].
    assert (26 ^ 0 = 1) by done. assert (26 ^ 1 = 26) by done.
    assert (26 ^ 2 = 676) by done. assert (26 ^ 3 = 17576) by done.
    destruct Hinv as [->|[[-> ?]|[[-> ?]|[[-> ?]|[-> ?]]]]]; try lia.
Qed.

Lemma rsum_app i a b : rsum i (a ++ b) = rsum i a + rsum (i + N.of_nat (length a)) b.
Proof.
  revert i. induction a as [|d a IH]; intros i; cbn [app rsum length].
  - rewrite N.add_0_r. lia.
  - rewrite IH. replace (i + 1 + N.of_nat (length a)) with (i + N.of_nat (S (length a))) by lia.
    lia.
Qed.
Lemma word_value_from_spec acc s :
  word_value_from acc s = acc * 26 ^ N.of_nat (String.length s)
                          + rsum 0 (map letter_value (rev (bytes s))).
Proof.
  revert acc. induction s as [|a s IH]; intros acc; cbn [word_value_from bytes rev String.length].
  - cbn. lia.
  - rewrite IH, map_app, rsum_app. cbn [map rsum].
    rewrite map_length, rev_length.
    assert (length (bytes s) = String.length s) as ->.
    { clear. induction s; cbn; congruence. }
    replace (N.of_nat (S (String.length s))) with (N.succ (N.of_nat (String.length s))) by lia.
    rewrite N.pow_succ_r'. rewrite N.add_0_l. lia.
Qed.
Lemma word_value_rsum s : word_value s = rsum 0 (map letter_value (rev (bytes s))).
Proof. unfold word_value. rewrite word_value_from_spec. lia. Qed.
Lemma sforall_Forall p s : sforall p s = true -> Forall (fun a => p a = true) (bytes s).
Proof.
  induction s as [|a s IH]; cbn; [constructor|]. rewrite andb_true_iff. intros [??].
  constructor; auto.
Qed.

Lemma get_column_index_word `{Env} s rest :
  is_word s -> ends_word rest ->
  get_column_index (s +:+ rest) = column_loop env_mode 0 (map byteN (rev (bytes s))) 0.
Proof.
  intros [Hn Hs] Hr. unfold get_column_index. rewrite take_while_word by done.
  destruct s as [|a s]; [done|]. rewrite map_rev. done.
Qed.

Lemma get_column_index_exact `{Env} s rest :
  is_word s -> ends_word rest -> word_value s <= 65535 ->
  get_column_index (s +:+ rest) = Ok (word_value s).
Proof.
  intros Hw Hr Hv. rewrite get_column_index_word by done.
  rewrite word_value_rsum in *. rewrite loop_exact.
  - f_equal.
  - destruct Hw as [_ Hs]. apply sforall_Forall in Hs. by apply Forall_rev.
  - lia.
Qed.
Lemma get_column_index_overflow `{Env} s rest :
  env_mode = Checked -> is_word s -> ends_word rest -> 65535 < word_value s ->
  exists e, get_column_index (s +:+ rest) = Panic e.
Proof.
  intros Hm Hw Hr Hv. rewrite get_column_index_word by done. rewrite Hm.
  rewrite word_value_rsum in *. apply loop_overflow; [|lia|lia|lia|lia].
  destruct Hw as [_ Hs]. apply sforall_Forall in Hs. by apply Forall_rev.
Qed.

(** ** column names *)
Lemma word_value_from_app acc a b :
  word_value_from acc (a +:+ b) = word_value_from (word_value_from acc a) b.
Proof. revert acc. induction a as [|x a IH]; intros acc; cbn; [done|]. apply IH. Qed.
Lemma col_char i : is_upper (ascii_of_N (i mod 26 + 65)) = true
  /\ letter_value (ascii_of_N (i mod 26 + 65)) = i mod 26 + 1.
Proof.
  unfold is_upper, letter_value, upper_letter.
  assert (i mod 26 < 26) by lia.
  rewrite !byteN_ascii by lia.
  destruct ((97 <=? i mod 26 + 65) && (i mod 26 + 65 <=? 122)) eqn:E; [lia|].
  rewrite byteN_ascii by lia. lia.
Qed.
Lemma log2_half n k : k <= n / 2 -> k <> 0 -> N.log2 k < N.log2 n.
Proof.
  intros H Hk.
  pose proof (N.log2_spec n ltac:(lia)) as [H1 H2].
  pose proof (N.log2_spec k ltac:(lia)) as [H3 H4].
  destruct (N.lt_ge_cases (N.log2 k) (N.log2 n)) as [|Hge]; [done|].
  exfalso.
  assert (2 ^ N.log2 n <= 2 ^ N.log2 k) by (apply N.pow_le_mono_r; lia).
  assert (n < 2 * 2 ^ N.log2 n) by (rewrite <- N.pow_succ_r'; done).
  lia.
Qed.
Lemma column_ref_loop_app f n acc : column_ref_loop f n acc = column_ref_loop f n "" +:+ acc.
Proof.
  revert n acc. induction f as [|f IH]; intros n acc; cbn [column_ref_loop]; [done|].
  destruct (n =? 0); [done|]. rewrite IH. rewrite (IH _ (String _ "")).
  by rewrite <- app_assoc_s.
Qed.
Lemma column_ref_loop_spec f n :
  (n = 0 \/ (N.to_nat (N.log2 n) < f)%nat) ->
  sforall is_upper (column_ref_loop f n "") = true
  /\ word_value (column_ref_loop f n "") = n.
Proof.
  revert n. induction f as [|f IH]; intros n Hf.
  - destruct Hf as [->|?]; [done|lia].
  - cbn [column_ref_loop]. destruct (N.eqb_spec n 0) as [->|Hn]; [done|].
    destruct Hf as [?|Hf]; [done|].
    assert ((n - 1) / 26 = 0 \/ (N.to_nat (N.log2 ((n-1)/26)) < f)%nat) as Hf'.
    { destruct (decide ((n-1)/26 = 0)); [by left|right].
      pose proof (log2_half n ((n-1)/26)). lia. }
    destruct (IH _ Hf') as [IH1 IH2]. rewrite column_ref_loop_app.
    destruct (col_char (n - 1)) as [H1 H2].
    split.
    + rewrite sforall_app, IH1. cbn [sforall]. by rewrite H1.
    + unfold word_value in *. rewrite word_value_from_app, IH2. cbn [word_value_from].
      rewrite H2. lia.
Qed.
Lemma is_upper_letter a : is_upper a = true -> is_letter a = true.
Proof. unfold is_upper, is_letter. intros ->. done. Qed.
Lemma get_column_ref_spec n : 0 < n ->
  exists s, get_column_ref n = Ok s /\ sforall is_upper s = true /\ is_word s /\ word_value s = n.
Proof.
  intros Hn. unfold get_column_ref. destruct (N.eqb_spec n 0) as [->|_]; [lia|].
  destruct (column_ref_loop_spec (S (N.to_nat (N.log2 n))) n) as [H1 H2]; [lia|].
  eexists. split; [done|]. split; [done|]. split; [|done]. split.
  - intros Hs. rewrite Hs in H2. change (word_value "") with 0 in H2. lia.
  - eapply sforall_impl; [apply is_upper_letter|done].
Qed.

(** uniqueness of bijective base-26 numerals *)
Lemma letter_value_range a : is_letter a = true -> 1 <= letter_value a <= 26.
Proof. intros H. by apply upper_code. Qed.
Lemma letter_value_inj a b : is_upper a = true -> is_upper b = true ->
  letter_value a = letter_value b -> a = b.
Proof.
  unfold is_upper, letter_value, upper_letter. intros Ha Hb.
  destruct ((97 <=? byteN a) && _) eqn:E1; [lia|].
  destruct ((97 <=? byteN b) && _) eqn:E2; [lia|].
  intros H. apply byteN_inj. lia.
Qed.
Lemma rsum_scale i ds : rsum (i + 1) ds = 26 * rsum i ds.
Proof.
  revert i. induction ds as [|d ds IH]; intros i; cbn [rsum]; [lia|].
  rewrite IH. replace (i + 1) with (N.succ i) by lia. rewrite N.pow_succ_r'. lia.
Qed.
Lemma rsum_inj l k :
  Forall (fun a => is_upper a = true) l -> Forall (fun a => is_upper a = true) k ->
  rsum 0 (map letter_value l) = rsum 0 (map letter_value k) -> l = k.
Proof.
  revert k. induction l as [|a l IH]; intros [|b k] Hl Hk; cbn [map rsum]; try done.
  - inversion Hk as [|? ? Hb _]; subst. pose proof (letter_value_range b (is_upper_letter _ Hb)).
    change (26 ^ 0) with 1. intros. lia.
  - inversion Hl as [|? ? Ha _]; subst. pose proof (letter_value_range a (is_upper_letter _ Ha)).
    change (26 ^ 0) with 1. intros. lia.
  - inversion Hl as [|? ? Ha Hl']; inversion Hk as [|? ? Hb Hk']; subst.
    pose proof (letter_value_range a (is_upper_letter _ Ha)).
    pose proof (letter_value_range b (is_upper_letter _ Hb)).
    rewrite !(rsum_scale 0). change (26 ^ 0) with 1. intros Hs.
    assert (letter_value a = letter_value b) by lia.
    f_equal; [by apply letter_value_inj|]. apply IH; [done..|lia].
Qed.
Lemma bytes_inj s t : bytes s = bytes t -> s = t.
Proof. revert t. induction s as [|a s IH]; intros [|b t]; cbn; try done. intros [= -> H]. f_equal; auto. Qed.
Lemma word_value_inj s t : sforall is_upper s = true -> sforall is_upper t = true ->
  word_value s = word_value t -> s = t.
Proof.
  intros Hs Ht. rewrite !word_value_rsum. intros H.
  apply rsum_inj in H; [|by apply Forall_rev, sforall_Forall..].
  apply (f_equal (@rev _)) in H. rewrite !rev_involutive in H. by apply bytes_inj.
Qed.
Lemma upper_is_upper a : is_letter a = true -> is_upper (upper_letter a) = true.
Proof.
  unfold is_letter, is_upper, upper_letter. intros H.
  destruct ((97 <=? byteN a) && _) eqn:E; [rewrite byteN_ascii by lia|]; lia.
Qed.
Lemma upper_idem a : is_letter a = true -> upper_letter (upper_letter a) = upper_letter a.
Proof.
  intros H. apply upper_is_upper in H. unfold is_upper in H. unfold upper_letter at 1.
  destruct ((97 <=? byteN (upper_letter a)) && _) eqn:E; [lia|done].
Qed.
Lemma upper_facts s : sforall is_letter s = true ->
  sforall is_upper (upper s) = true /\ forall acc, word_value_from acc (upper s) = word_value_from acc s.
Proof.
  induction s as [|a s IH]; [done|]. cbn [sforall upper]. rewrite andb_true_iff. intros [Ha Hs].
  destruct (IH Hs) as [IH1 IH2]. split.
  - by rewrite upper_is_upper, IH1.
  - intros acc. cbn [word_value_from]. rewrite IH2. unfold letter_value.
    by rewrite upper_idem.
Qed.
Lemma get_column_ref_of_word s : is_word s -> get_column_ref (word_value s) = Ok (upper s).
Proof.
  intros [Hn Hs]. assert (0 < word_value s) as Hpos.
  { destruct s as [|a s]; [done|]. cbn in Hs. apply andb_true_iff in Hs as [Ha Hs].
    rewrite word_value_rsum. cbn [bytes rev]. rewrite map_app, rsum_app. cbn [map rsum].
    pose proof (letter_value_range a Ha).
    assert (0 < 26 ^ (0 + N.of_nat (length (map letter_value (rev (bytes s))))))
      by (apply N.neq_0_lt_0, N.pow_nonzero; done). nia. }
  destruct (get_column_ref_spec _ Hpos) as (t & -> & Ht & _ & Hv). f_equal.
  destruct (upper_facts s Hs) as [Hu1 Hu2]. apply word_value_inj; [done|done|].
  rewrite Hv. unfold word_value. by rewrite Hu2.
Qed.

(** ** cell references *)
Lemma filter_digits_app a b : filter_digits (a +:+ b) = filter_digits a +:+ filter_digits b.
Proof. induction a as [|x a IH]; cbn; [done|]. rewrite IH. by destruct (is_digit_byte x). Qed.
Lemma filter_digits_letters s : sforall is_letter s = true -> filter_digits s = "".
Proof.
  induction s as [|a s IH]; cbn; [done|]. rewrite andb_true_iff. intros [Ha Hs].
  destruct (is_digit_byte a) eqn:E; [|auto].
  unfold is_letter, is_digit_byte, is_ascii_digit in *. lia.
Qed.
Lemma filter_digits_digits s : sforall is_digit_byte s = true -> filter_digits s = s.
Proof. induction s as [|a s IH]; cbn; [done|]. rewrite andb_true_iff. intros [-> Hs]. by rewrite IH. Qed.
Lemma ends_word_digits `{Env} s : sforall is_digit_byte s = true -> ends_word s.
Proof.
  unfold ends_word. destruct s as [|a s]; [done|]. cbn [sforall]. rewrite andb_true_iff.
  intros [Ha _]. cbn [chars]. unfold is_digit_byte, is_ascii_digit in Ha.
  destruct (byteN a <? 128) eqn:E; [|lia]. unfold is_alphabetic. rewrite E.
  unfold is_ascii_alpha. lia.
Qed.
Lemma get_cell_index_word `{Env} s r :
  is_word s -> word_value s <= 65535 -> r <= u32_max ->
  get_cell_index (s +:+ show_N r) = Ok (r, word_value s).
Proof.
  intros Hw Hv Hr. unfold get_cell_index, extract_digits.
  rewrite filter_digits_app, filter_digits_letters by apply Hw.
  rewrite filter_digits_digits by apply show_N_digits. cbn [String.append].
  rewrite parse_uint_show by done. cbn [of_option rbind].
  rewrite get_column_index_exact; [done|done| |done].
  apply ends_word_digits, show_N_digits.
Qed.
