(** C01 - C04: column numbers, column letters, cell references. C45: boolean attributes. *)
From Verif.Model Require Import Converters.
From Verif.Spec Require Import ColumnSpec DemoEnv.
From Verif.Proofs Require Import BaseFacts ConverterFacts FlagFacts.

(** C01: number -> letters -> number is the identity on 1..65535, the letters are upper-case,
    distinct columns have distinct letters, and 0 is refused. *)
Theorem C01_column_roundtrip : forall (E : Env) (n : N), 1 <= n <= 65535 ->
  exists s, get_column_ref n = Ok s /\ sforall is_upper s = true /\ s <> ""
            /\ word_value s = n /\ get_column_index s = Ok n.
Proof.
  intros E n Hn. destruct (get_column_ref_spec n) as (s & H1 & H2 & H3 & H4); [lia|].
  exists s. split; [done|]. split; [done|]. split; [apply H3|]. split; [done|].
  rewrite <- (app_nil_r_s s). rewrite get_column_index_exact; [by rewrite H4|done|done|lia].
Qed.
Theorem C01_column_letters_injective : forall (n m : N) (s : string),
  get_column_ref n = Ok s -> get_column_ref m = Ok s -> n = m.
Proof.
  intros n m s Hn Hm.
  destruct (N.eq_0_gt_0_cases n) as [->|Hn0]; [done|].
  destruct (N.eq_0_gt_0_cases m) as [->|Hm0]; [done|].
  destruct (get_column_ref_spec n Hn0) as (a & Ha & _ & _ & Hv).
  destruct (get_column_ref_spec m Hm0) as (b & Hb & _ & _ & Hw).
  congruence.
Qed.
Theorem C01_column_zero_refused : exists e, get_column_ref 0 = Err e.
Proof. by eexists. Qed.
Example C01_example : get_column_ref 16384 = Ok "XFD"
  /\ @get_column_index (demo_env Checked) "XFD" = Ok 16384.
Proof. split; by vm_compute. Qed.

(** C02: letters (either case) denote the bijective base-26 number; converting back gives the
    upper-cased letters. *)
Theorem C02_column_letters_value : forall (E : Env) (s rest : string),
  is_word s -> ends_word rest -> word_value s <= 65535 ->
  get_column_index (s +:+ rest) = Ok (word_value s)
  /\ get_column_ref (word_value s) = Ok (upper s).
Proof.
  intros E s rest Hw Hr Hv. split; [by apply get_column_index_exact|by apply get_column_ref_of_word].
Qed.
(** No letters at the front: refused. *)
Theorem C02_no_letters_refused : forall (E : Env) (s : string),
  ends_word s -> exists e, get_column_index s = Err e.
Proof.
  intros E s. unfold ends_word, get_column_index.
  destruct (chars s) as [|c cs]; cbn [take_while]; [eauto|]. intros ->. eauto.
Qed.
Example C02_example : is_word "aBc" /\ word_value "aBc" = 731
  /\ @get_column_index (demo_env Wrapping) "aBc17" = Ok 731 /\ get_column_ref 731 = Ok "ABC".
Proof. repeat split; by vm_compute. Qed.

(** C03: letters followed by a decimal row parse to exactly that row and column. *)
Theorem C03_cell_reference : forall (E : Env) (row col : N),
  row <= u32_max -> 1 <= col <= 65535 ->
  exists s, get_column_ref col = Ok s /\ get_cell_index (s +:+ show_N row) = Ok (row, col).
Proof.
  intros E row col Hr Hc. destruct (get_column_ref_spec col) as (s & H1 & _ & H3 & H4); [lia|].
  exists s. split; [done|]. rewrite get_cell_index_word; [by rewrite H4|done|lia|done].
Qed.
(** The reverse direction is not strict: a text that is no reference at all is accepted. *)
Theorem C03_malformed_reference_accepted_refuted :
  exists s, @get_cell_index (demo_env Checked) s = Ok (12, 1)
            /\ s = "A1-B2".
Proof. exists "A1-B2". split; by vm_compute. Qed.
Example C03_example : @get_cell_index (demo_env Checked) "XFD1048576" = Ok (1048576, 16384).
Proof. by vm_compute. Qed.

(** C45: an attribute is read as true exactly if it is the word true or the digit 1, with white space
    around it at most; whatever flag the library writes it reads back. *)
Theorem C45_flag_read : forall s : string,
  normalize_bool s = true <->
  exists a b core, chars s = a ++ chars core ++ b /\ (core = "true" \/ core = "1")
    /\ Forall (fun c => is_uni_space c = true) a /\ Forall (fun c => is_uni_space c = true) b.
Proof.
  intros s. unfold normalize_bool. split.
  - intros Hs. destruct (trim_chars_split (chars s)) as (a & b & Hc & Ha & Hb). apply orb_true_iff in Hs as [Hs|Hs]; apply bool_decide_eq_true in Hs; rewrite Hs in Hc.
    + exists a, b, "true". eauto.
    + exists a, b, "1". eauto.
  - intros (a & b & core & -> & [-> | ->] & Ha & Hb).
    + change (chars "true") with (116 :: [114; 117] ++ [101]). rewrite (trim_chars_core a 116 [114; 117] 101 b) by done. done.
    + change (chars "1") with [49]. rewrite (trim_chars_one a 49 b) by done. done.
Qed.
Theorem C45_flag_roundtrip : forall b : bool, normalize_bool (bool_xml_flag b) = b /\ normalize_bool_u8 (bool_xml_flag b) = if b then 1 else 0.
Proof. by intros []. Qed.
(** The texts the format has for a flag. *)
Definition FlagText (b : bool) (s : string) : Prop := if b then s = "1" \/ s = "true" else s = "0" \/ s = "false".
Theorem C45_flag_text : forall b : bool, FlagText b (bool_xml_flag b).
Proof. intros []; by left. Qed.
Example C45_example : normalize_bool " true" = true /\ normalize_bool "1" = true /\ normalize_bool "TRUE" = false /\ normalize_bool "11" = false /\ normalize_bool "" = false.
Proof. by vm_compute. Qed.

(** C04: in a checked build a reference beyond 65535 panics, whatever follows it ... *)
Theorem C04_overflow_detected : forall (E : Env) (s rest : string),
  env_mode = Checked -> is_word s -> ends_word rest -> 65535 < word_value s ->
  exists e, get_column_index (s +:+ rest) = Panic e.
Proof. intros E s rest. apply get_column_index_overflow. Qed.
(** ... in a wrapping build it can denote another column. *)
Theorem C04_wrapping_build_refuted :
  exists s t, s <> t /\ is_word s /\ is_word t
    /\ @get_column_index (demo_env Wrapping) s = @get_column_index (demo_env Wrapping) t
    /\ @get_column_index (demo_env Wrapping) t = Ok 1.
Proof. exists "CRXQ", "A". repeat split; by vm_compute. Qed.
Example C04_example : is_word "ZZZZ" /\ 65535 < word_value "ZZZZ"
  /\ @get_column_index (demo_env Checked) "ZZZZ1" = Panic "attempt to overflow u16".
Proof. repeat split; by vm_compute. Qed.

Print Assumptions C01_column_roundtrip.
Print Assumptions C01_column_letters_injective.
Print Assumptions C02_column_letters_value.
Print Assumptions C03_cell_reference.
Print Assumptions C04_overflow_detected.
Print Assumptions C04_wrapping_build_refuted.
Print Assumptions C45_flag_read.
Print Assumptions C45_flag_roundtrip.
Print Assumptions C45_flag_text.
