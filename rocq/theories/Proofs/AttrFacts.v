(** Optional attributes: looking them up in the element that was built, and after a save and reopen. *)
From Verif.Model Require Import Worksheet.
From Verif.Spec Require Import XmlSpec XmlRepr PackageSpec PartSpec ColumnSpec.
From Verif.Proofs Require Import BaseFacts XmlNsFacts DocBuild PartFacts TypesFacts.

(** ** Text without special characters *)
Lemma plain_forall (f : ascii -> bool) s : (forall a, f a = true -> is_special a = false) -> sforall f s = true -> plain_text s.
Proof.
  unfold plain_text. intros Hf. induction s as [|a s IH]; [done|]. cbn [sforall sexists]. intros [Ha Hs]%andb_true_iff.
  rewrite (Hf a Ha). by apply IH.
Qed.
Lemma plain_app a b : plain_text a -> plain_text b -> plain_text (a +:+ b).
Proof.
  unfold plain_text. induction a as [|x a IH]; [done|]. cbn [sexists String.append]. intros Ha Hb.
  apply orb_false_iff in Ha as [Hx Ha]. by rewrite Hx, IH.
Qed.
Lemma plain_show_N n : plain_text (show_N n).
Proof. eapply plain_forall; [|apply show_N_digits]. intros [[] [] [] [] [] [] [] []]; by vm_compute. Qed.
Lemma escape_show_N n : spec_escape (show_N n) = show_N n.
Proof. apply spec_escape_fixed, plain_show_N. Qed.
Lemma plain_upper s : sforall is_upper s = true -> plain_text s.
Proof. apply plain_forall. intros [[] [] [] [] [] [] [] []]; by vm_compute. Qed.
Lemma plain_show_Z z : plain_text (show_Z z).
Proof. destruct z as [|p|p]; cbn [show_Z]; [apply plain_show_N|apply plain_show_N|]. apply (plain_app "-"); [done|apply plain_show_N]. Qed.
Lemma escape_show_Z z : spec_escape (show_Z z) = show_Z z.
Proof. apply spec_escape_fixed, plain_show_Z. Qed.
Lemma escape_flag b : spec_escape (bool_xml_flag b) = bool_xml_flag b.
Proof. by destruct b. Qed.
Lemma normalize_flag b : normalize_bool (bool_xml_flag b) = b.
Proof. by destruct b. Qed.
Lemma show_N_head n : exists a s, show_N n = String a s /\ is_digit_byte a = true.
Proof.
  pose proof (show_N_nonempty n) as Hn. pose proof (show_N_digits n) as Hd. destruct (show_N n) as [|a s]; [done|].
  cbn in Hd. apply andb_true_iff in Hd as [Hd _]. eauto.
Qed.
Lemma digit_not_minus a : is_digit_byte a = true -> aeqb a "-" = false.
Proof. destruct a as [[] [] [] [] [] [] [] []]; by vm_compute. Qed.
Lemma parse_i16_show z : (-32768 <= z <= 32767)%Z -> parse_i16 (show_Z z) = Some z.
Proof.
  intros Hz. assert (forall n, n <= 32767 -> parse_i16 (show_N n) = Some (Z.of_N n)) as Hp.
  { intros n Hn. pose proof (parse_uint_show 32767 n Hn) as Hx. destruct (show_N_head n) as (a & s & Es & Ha). rewrite Es in *.
    cbn [parse_i16]. rewrite digit_not_minus by done. by rewrite Hx. }
  destruct z as [|p|p]; cbn [show_Z].
  - by apply Hp.
  - rewrite Hp by lia. done.
  - cbn [parse_i16]. change (aeqb "-" "-") with true. cbv iota. rewrite parse_digits_show by lia. done.
Qed.

(** ** Optional attributes *)
Definition find_attr (l : list (string * option string)) (k : string) : option string :=
  match List.find (fun kv : string * option string => String.eqb kv.1 k) l with Some kv => kv.2 | None => None end.
Fixpoint fresh_keys (l : list (string * option string)) : bool :=
  match l with
  | [] => true
  | kv :: l => negb (existsb (fun x : string * option string => String.eqb x.1 kv.1) l) && fresh_keys l
  end.
Lemma attrs_of_lookup l : forall k (m : gmap string string), foldl (fun (m : gmap string string) (kv : string * string) => <[kv.1 := kv.2]> m) m l !! k
  = match foldl (fun (m : gmap string string) (kv : string * string) => <[kv.1 := kv.2]> m) (∅ : gmap string string) l !! k with Some v => Some v | None => m !! k end.
Proof.
  induction l as [|[k0 v0] l IH]; intros k m; cbn [foldl fst snd].
  - by rewrite lookup_empty.
  - rewrite IH. rewrite (IH k (<[k0:=v0]> ∅)). destruct (foldl _ ∅ l !! k); [done|]. destruct (decide (k0 = k)) as [->|Hk].
    + by rewrite !lookup_insert. + rewrite !lookup_insert_ne by done. by rewrite lookup_empty.
Qed.
Lemma opt_attrs_lookup l k : fresh_keys l = true -> opt_attrs l !! k = find_attr l k.
Proof.
  unfold opt_attrs, attrs_of, find_attr. induction l as [|[k0 v0] l IH]; [done|].
  cbn [fresh_keys List.find fst snd]. intros [Hk Hl]%andb_true_iff. cbn [omap list_omap fst snd].
  assert (find_attr l k0 = None) as Hn.
  { unfold find_attr. clear -Hk. induction l as [|[k1 v1] l IH]; [done|]. cbn [existsb List.find fst] in *.
    destruct (String.eqb k1 k0); [done|]. by apply IH. }
  destruct v0 as [v0|]; cbn [fmap option_fmap option_map].
  - cbn [foldl fst snd]. rewrite attrs_of_lookup. specialize (IH Hl). destruct (String.eqb_spec k0 k) as [->|Hne].
    + unfold find_attr in Hn. rewrite IH, Hn. by rewrite lookup_insert.
    + rewrite IH. destruct (match List.find _ l with Some _ => _ | None => _ end); [done|]. rewrite lookup_insert_ne by done. apply lookup_empty.
  - destruct (String.eqb_spec k0 k) as [->|Hne]; [|by apply IH]. rewrite (IH Hl). exact Hn.
Qed.
Lemma opt_attrs_escaped l k : fresh_keys l = true -> (spec_escape <$> opt_attrs l) !! k = spec_escape <$> find_attr l k.
Proof. intros Hl. by rewrite lookup_fmap, opt_attrs_lookup. Qed.
Section with_env.
Context `{E : Env}.
Lemma opt_attrs_ok l : forallb (fun kv : string * option string => key_ok kv.1) l = true -> attrs_ok (Some (opt_attrs l)).
Proof.
  intros Hl. unfold opt_attrs. apply attrs_of_ok. induction l as [|[k v] l IH]; [done|]. cbn [forallb fst] in Hl.
  apply andb_true_iff in Hl as [Hk Hl]. cbn [omap list_omap fst snd]. destruct v; [|by apply IH].
  cbn [fmap option_fmap option_map forallb fst]. by rewrite Hk, IH.
Qed.
(** Reading back what [opt_attrs] wrote. *)
Lemma parse_attr_back {A} (f : string -> option A) (g : A -> string) l k (o : option A) : fresh_keys l = true ->
  find_attr l k = g <$> o -> (forall x, o = Some x -> f (spec_escape (g x)) = Some x) ->
  parse_attr f (spec_escape <$> opt_attrs l) k = Ok o.
Proof.
  intros Hl Hf Hg. unfold parse_attr. rewrite opt_attrs_escaped by done. rewrite Hf. destruct o as [x|]; [|done].
  cbn. by rewrite (Hg x eq_refl).
Qed.
Lemma one_attr_back {A} l k (o : option A) : fresh_keys l = true -> find_attr l k = one_if o ->
  one_attr (spec_escape <$> opt_attrs l) k = (match o with Some _ => Some true | None => None end).
Proof. intros Hl Hf. unfold one_attr. rewrite opt_attrs_escaped by done. rewrite Hf. by destruct o. Qed.
Lemma bool_attr_back l k (o : option bool) : fresh_keys l = true -> find_attr l k = bool_xml_flag <$> o ->
  bool_attr (spec_escape <$> opt_attrs l) k = o.
Proof.
  intros Hl Hf. unfold bool_attr. rewrite opt_attrs_escaped by done. rewrite Hf. destruct o as [b|]; [|done]. cbn.
  by rewrite escape_flag, normalize_flag.
Qed.
End with_env.
