(** Facts about the tokenizer: it inverts the pieces the writer emits. *)
From Verif.Model Require Import XmlTree XmlWrite XmlRead.
From Verif.Spec Require Import XmlSpec XmlRepr.
From Verif.Proofs Require Import BaseFacts XmlWriteFacts.

(** Simplify comparisons of a byte against constants. *)
Ltac bytes_norm :=
  repeat match goal with
  | H : context [aeqb ?a ?b] |- _ => rewrite (aeqb_byteN a b) in H
  | |- context [aeqb ?a ?b] => rewrite (aeqb_byteN a b)
  end;
  repeat match goal with
  | H : context [byteN (Ascii ?a ?b ?c ?d ?e ?f ?g ?h)] |- _ =>
      let v := eval compute in (byteN (Ascii a b c d e f g h)) in
      change (byteN (Ascii a b c d e f g h)) with v in H
  | |- context [byteN (Ascii ?a ?b ?c ?d ?e ?f ?g ?h)] =>
      let v := eval compute in (byteN (Ascii a b c d e f g h)) in
      change (byteN (Ascii a b c d e f g h)) with v
  end.

(** ** names *)
Definition name_byte (a : ascii) : bool :=
  let c := byteN a in
  is_ascii_alpha c || is_ascii_digit c || (c =? 95) || (c =? 45) || (c =? 46) || (c =? 58)
  || (128 <=? c).

Lemma string_len_ind (P : string -> Prop) :
  (forall s, (forall t, (String.length t < String.length s)%nat -> P t) -> P s) -> forall s, P s.
Proof.
  intros Hs s. remember (String.length s) as n eqn:Hn. revert s Hn.
  induction n as [n IH] using lt_wf_ind. intros s ->. apply Hs. intros t Ht. by eapply IH.
Qed.

Section names.
Context `{Env}.
Lemma name_char_ascii c : c < 128 -> is_name_char c = true ->
  is_ascii_alpha c || is_ascii_digit c || (c =? 95) || (c =? 45) || (c =? 46) || (c =? 58) = true.
Proof.
  intros Hc. unfold is_name_char, is_name_start_char, is_alphabetic.
  rewrite (proj2 (N.ltb_lt c 128)) by lia. unfold is_ascii_alpha, is_ascii_digit. lia.
Qed.
Lemma name_bytes_of_chars s :
  forallb (fun c => (is_name_char c || (c =? 65533))) (chars s) = true -> sforall name_byte s = true.
Proof.
  induction s as [s IH] using string_len_ind.
  destruct s as [|a s1]; [done|]. cbn [chars sforall].
  assert (forall t, (String.length t < String.length (String a s1))%nat ->
    forallb (fun c => (is_name_char c || (c =? 65533))) (chars t) = true ->
    sforall name_byte t = true) as IH' by exact IH.
  assert (128 <= byteN a -> name_byte a = true) as Hbig.
  { intros. unfold name_byte. rewrite (proj2 (N.leb_le 128 _)) by lia. apply orb_true_r. }
  assert (128 <= byteN a -> forallb (fun c => (is_name_char c || (c =? 65533))) (65533 :: chars s1) = true ->
    name_byte a && sforall name_byte s1 = true) as Hbad.
  { intros Hb. cbn [forallb]. rewrite !andb_true_iff. intros [_ Hr]. split; [auto|].
    apply IH'; [cbn; lia|done]. }
  assert (forall b, is_cont b = true -> name_byte b = true) as Hcont.
  { intros b. unfold is_cont, name_byte. rewrite andb_true_iff. intros [Hb _]. rewrite Hb. apply orb_true_r. }
  destruct (byteN a <? 128) eqn:E1.
  { cbn [forallb]. rewrite !andb_true_iff. intros [Hc Hr]. split.
    - apply orb_true_iff in Hc as [Hc|Hc]; [|lia].
      apply name_char_ascii in Hc; [|lia]. unfold name_byte. by rewrite Hc.
    - apply IH'; [cbn; lia|done]. }
  apply N.ltb_ge in E1.
  destruct ((192 <=? byteN a) && (byteN a <? 224)).
  { destruct s1 as [|b s2]; [auto|]. destruct (is_cont b) eqn:Eb; [|auto].
    cbn [forallb sforall]. rewrite !andb_true_iff. intros [_ Hr]. repeat split; auto.
    apply IH'; [cbn; lia|done]. }
  destruct ((224 <=? byteN a) && (byteN a <? 240)).
  { destruct s1 as [|b [|c s3]]; [auto|auto|]. destruct (is_cont b && is_cont c) eqn:Eb; [|auto].
    apply andb_true_iff in Eb as [??].
    cbn [forallb sforall]. rewrite !andb_true_iff. intros [_ Hr]. repeat split; auto.
    apply IH'; [cbn; lia|done]. }
  destruct ((240 <=? byteN a) && (byteN a <? 248)).
  { destruct s1 as [|b [|c [|e s4]]]; [auto|auto|auto|].
    destruct (is_cont b && is_cont c && is_cont e) eqn:Eb; [|auto].
    rewrite !andb_true_iff in Eb. destruct Eb as [[??]?].
    cbn [forallb sforall]. rewrite !andb_true_iff. intros [_ Hr]. repeat split; auto.
    apply IH'; [cbn; lia|done]. }
  auto.
Qed.
Lemma name_tail_chars n cs : name_tail_ok n cs = true -> forallb is_name_char cs = true.
Proof.
  revert n. induction cs as [|c cs IH]; intros n; cbn; [done|].
  destruct (c =? 58) eqn:E.
  - destruct (1 <? n + 1); [done|]. intros Hn. apply IH in Hn. rewrite Hn, andb_true_r.
    unfold is_name_char. rewrite E. apply orb_true_r.
  - destruct (is_name_char c); [|done]. cbn. apply IH.
Qed.
Lemma valid_name_chars s : is_valid_xml_name s = true -> forallb is_name_char (chars s) = true.
Proof.
  unfold is_valid_xml_name. destruct (chars s) as [|c cs]; [done|].
  rewrite andb_true_iff. intros [Hc Hcs]. cbn. rewrite (name_tail_chars _ _ Hcs), andb_true_r.
  unfold is_name_char. by rewrite Hc.
Qed.
Lemma valid_name_bytes s : is_valid_xml_name s = true -> sforall name_byte s = true.
Proof.
  intros Hv. apply name_bytes_of_chars. apply valid_name_chars in Hv.
  induction (chars s) as [|c cs IH]; [done|]. cbn in *.
  apply andb_true_iff in Hv as [-> ?]. cbn. auto.
Qed.
Lemma valid_name_nonempty s : is_valid_xml_name s = true -> exists a t, s = String a t.
Proof. destruct s as [|a t]; [done|]. intros _. by exists a, t. Qed.
End names.

(** What a name byte is not. *)
Lemma name_byte_not a : name_byte a = true ->
  is_ws a = false /\ aeqb a "<" = false /\ aeqb a ">" = false /\ aeqb a "/" = false
  /\ aeqb a "=" = false /\ aeqb a """" = false /\ aeqb a "'" = false
  /\ aeqb a "!" = false /\ aeqb a "?" = false.
Proof.
  unfold name_byte, is_ascii_alpha, is_ascii_digit, is_ws. bytes_norm. lia.
Qed.

(** ** white space *)
Lemma is_ws_spec a : is_ws a = xml_space a.
Proof.
  unfold is_ws, xml_space. change (Ascii.eqb a ?b) with (aeqb a b).
  change (Ascii.eqb) with aeqb. bytes_norm. lia.
Qed.
Lemma skip_ws_spec s : skip_ws s = trim_left s.
Proof. induction s as [|a s IH]; [done|]. cbn. rewrite is_ws_spec. by rewrite IH. Qed.
Lemma trim_end_spec s : trim_end s = trim_right s.
Proof.
  induction s as [|a s IH]; [done|]. cbn [trim_end trim_right]. rewrite IH, is_ws_spec.
  cbn [all_space].
  assert (forall s, trim_right s = "" <-> all_space s = true) as Hall.
  { clear. induction s as [|a s IH]; [done|]. cbn [trim_right all_space].
    destruct (xml_space a && all_space s); split; done. }
  destruct (trim_right s) eqn:E.
  - assert (all_space s = true) as -> by (by apply Hall). rewrite andb_true_r. done.
  - assert (all_space s = false) as ->.
    { destruct (all_space s) eqn:Ea; [|done]. apply Hall in Ea. congruence. }
    by rewrite andb_false_r.
Qed.

(** ** escaping *)
Lemma escape_nil_inv s : spec_escape s = "" -> s = "".
Proof.
  destruct s as [|a s]; [done|]. cbn [spec_escape]. unfold entity_of.
  repeat case_match; simplify_eq/=; done.
Qed.
Lemma entity_space a e : entity_of a = Some e -> xml_space a = false.
Proof.
  unfold entity_of, xml_space. change Ascii.eqb with aeqb. bytes_norm.
  repeat case_match; intros [= <-]; lia.
Qed.
Lemma entity_head a e : entity_of a = Some e -> exists t, e = String "&" t.
Proof. unfold entity_of. repeat case_match; intros [= <-]; eauto. Qed.
Lemma trim_left_escape s r : trim_left (spec_escape s +:+ String "<" r)
  = spec_escape (trim_left s) +:+ String "<" r.
Proof.
  induction s as [|a s IH]; [done|]. cbn [spec_escape trim_left].
  destruct (entity_of a) as [e|] eqn:E.
  - rewrite (entity_space _ _ E). cbn [spec_escape]. rewrite E.
    destruct (entity_head _ _ E) as [t ->]. done.
  - cbn [String.append trim_left]. destruct (xml_space a); [apply IH|].
    cbn [spec_escape]. by rewrite E.
Qed.
Lemma all_space_escape s : all_space (spec_escape s) = all_space s.
Proof.
  induction s as [|a s IH]; [done|]. cbn [spec_escape all_space].
  destruct (entity_of a) as [e|] eqn:E.
  - rewrite (entity_space _ _ E). destruct (entity_head _ _ E) as [t ->]. done.
  - cbn. by rewrite IH.
Qed.
Lemma all_space_app a b : all_space (a +:+ b) = all_space a && all_space b.
Proof. induction a as [|x a IH]; cbn; [done|]. rewrite IH. by rewrite andb_assoc. Qed.
Lemma all_space_not_entity e s a : entity_of a = Some e -> all_space (e +:+ s) = false.
Proof. intros E. destruct (entity_head _ _ E) as [t ->]. done. Qed.
Lemma trim_right_app_nonspace e s :
  (forall t a, e = t +:+ String a "" -> xml_space a = false) -> e <> "" ->
  trim_right (e +:+ s) = e +:+ trim_right s.
Proof.
  induction e as [|a e IH]; [done|]. intros Hlast _. cbn [String.append trim_right].
  destruct e as [|b e].
  - assert (xml_space a = false) as Ha by (by apply (Hlast "")).
    cbn [String.append all_space]. by rewrite Ha.
  - assert (all_space (String a (String b e +:+ s)) = false) as ->.
    { change (String a (String b e +:+ s)) with (String a (String b e) +:+ s).
      rewrite all_space_app.
      assert (exists t c, String a (String b e) = t +:+ String c "") as (t & c & Et).
      { exists (srev (match srev (String a (String b e)) with String _ r => r | _ => "" end)).
        destruct (srev (String a (String b e))) as [|c r] eqn:Er.
        - apply (f_equal srev) in Er. rewrite srev_involutive in Er. done.
        - exists c. rewrite <- (srev_involutive (String a (String b e))), Er. apply srev_cons. }
      rewrite Et, all_space_app. cbn. rewrite (Hlast _ _ Et). by rewrite !andb_false_r. }
    rewrite IH; [done| |done]. intros t c Et. apply (Hlast (String a t)). by rewrite Et.
Qed.
Lemma entity_last a e : entity_of a = Some e -> forall t b, e = t +:+ String b "" -> xml_space b = false.
Proof.
  intros E t b Heq. apply (f_equal srev) in Heq. rewrite srev_app_dist in Heq. cbn in Heq.
  unfold entity_of in E. repeat case_match; simplify_eq; cbn in Heq; simplify_eq; done.
Qed.
Lemma trim_right_escape s : trim_right (spec_escape s) = spec_escape (trim_right s).
Proof.
  induction s as [|a s IH]; [done|]. cbn [spec_escape].
  destruct (entity_of a) as [e|] eqn:E.
  - rewrite trim_right_app_nonspace.
    + cbn [trim_right all_space]. rewrite (entity_space _ _ E). cbn [andb spec_escape]. by rewrite E, IH.
    + by apply (entity_last a).
    + destruct (entity_head _ _ E) as [t ->]. done.
  - cbn [trim_right all_space]. rewrite all_space_escape.
    destruct (xml_space a && all_space s); [done|]. cbn [spec_escape]. by rewrite E, IH.
Qed.
Lemma unescape_escape s : unescape (escape s) = Some s.
Proof.
  unfold unescape. induction s as [|a s IH]; [done|]. cbn [escape]. unfold escape_byte.
  destruct (aeqb a "<") eqn:E1; [apply aeqb_true in E1 as ->; cbn; by rewrite IH|].
  destruct (aeqb a ">") eqn:E2; [apply aeqb_true in E2 as ->; cbn; by rewrite IH|].
  destruct (aeqb a "'") eqn:E3; [apply aeqb_true in E3 as ->; cbn; by rewrite IH|].
  destruct (aeqb a "&") eqn:E4; [apply aeqb_true in E4 as ->; cbn; by rewrite IH|].
  destruct (aeqb a """") eqn:E5; [apply aeqb_true in E5 as ->; cbn; by rewrite IH|].
  cbn [String.append unescape_from]. rewrite E4, IH. done.
Qed.
Lemma escape_no_lt s : sforall (fun a => negb (aeqb a "<")) (escape s) = true.
Proof.
  induction s as [|a s IH]; [done|]. cbn [escape]. rewrite sforall_app, IH, andb_true_r.
  unfold escape_byte. repeat case_match; try done. cbn. by rewrite H.
Qed.
Lemma escape_no_dquote s : has_no_dquote (escape s) = true.
Proof.
  unfold has_no_dquote. induction s as [|a s IH]; [done|]. cbn [escape].
  assert (forall p x y, sexists p (x +:+ y) = sexists p x || sexists p y) as Happ.
  { clear. intros p x y. induction x as [|c x IHx]; cbn; [done|]. by rewrite IHx, orb_assoc. }
  rewrite Happ, negb_orb, IH, andb_true_r. unfold escape_byte. repeat case_match; try done.
  cbn. by rewrite H3.
Qed.

(** ** text *)
Lemma span_text_app t r : sforall (fun a => negb (aeqb a "<")) t = true ->
  span_text (t +:+ String "<" r) = (t, String "<" r).
Proof.
  induction t as [|a t IH]; [done|]. cbn [sforall String.append span_text].
  rewrite andb_true_iff, negb_true_iff. intros [-> Ht]. by rewrite (IH Ht).
Qed.
Lemma read_event_text v r : trim_left v <> "" ->
  read_event (escape v +:+ String "<" r) = Ok (EvText (escape (trim v)), String "<" r).
Proof.
  intros Hv. unfold read_event. rewrite skip_ws_spec, escape_spec, trim_left_escape.
  rewrite <- !escape_spec.
  assert (exists a t, escape (trim_left v) = String a t) as (a & t & Et).
  { destruct (escape (trim_left v)) as [|a t] eqn:E; [|eauto].
    rewrite escape_spec in E. by apply escape_nil_inv in E. }
  pose proof (escape_no_lt (trim_left v)) as Hlt. rewrite Et in Hlt |- *.
  cbn [String.append]. cbn [sforall] in Hlt. apply andb_true_iff in Hlt as [Ha Ht].
  apply negb_true_iff in Ha as Ha'. rewrite Ha'. change (String a (t +:+ String "<" r)) with (String a t +:+ String "<" r).
  rewrite span_text_app by (cbn; by rewrite Ha, Ht).
  rewrite <- Et. rewrite trim_end_spec, escape_spec, trim_right_escape. by rewrite <- escape_spec.
Qed.
Lemma read_event_blank v r : trim_left v = "" ->
  read_event (escape v +:+ String "<" r) = read_markup r.
Proof.
  intros Hv. unfold read_event. by rewrite skip_ws_spec, escape_spec, trim_left_escape, Hv.
Qed.

(** ** tags *)
Fixpoint qrun (q : option ascii) (c : string) : option (option ascii) :=
  match c with
  | EmptyString => Some q
  | String a c =>
      match q with
      | None => if aeqb a ">" then None
                else if aeqb a """" || aeqb a "'" then qrun (Some a) c else qrun None c
      | Some b => if aeqb a b then qrun None c else qrun (Some b) c
      end
  end.
Lemma qrun_app q a b : qrun q (a +:+ b) = match qrun q a with Some q' => qrun q' b | None => None end.
Proof.
  revert q. induction a as [|x a IH]; intros q; [done|]. cbn [String.append qrun].
  destruct q as [c|]; [destruct (aeqb x c); apply IH|].
  destruct (aeqb x ">"); [done|]. destruct (_ || _); apply IH.
Qed.
Lemma scan_tag_qrun q c q' r : qrun q c = Some q' ->
  scan_tag q (c +:+ r) = match scan_tag q' r with Some (x, y) => Some (c +:+ x, y) | None => None end.
Proof.
  revert q. induction c as [|a c IH]; intros q; cbn [qrun String.append].
  - intros [= <-]. by destruct (scan_tag q r) as [[??]|].
  - cbn [scan_tag]. destruct q as [b|].
    + destruct (aeqb a b); intros Hq; rewrite (IH _ Hq); by destruct (scan_tag q' r) as [[??]|].
    + destruct (aeqb a ">"); [done|].
      destruct (aeqb a """" || aeqb a "'"); intros Hq; rewrite (IH _ Hq); by destruct (scan_tag q' r) as [[??]|].
Qed.
Lemma qrun_name g : sforall name_byte g = true -> qrun None g = Some None.
Proof.
  induction g as [|a g IH]; [done|]. cbn. rewrite andb_true_iff. intros [Ha Hg].
  apply name_byte_not in Ha as (_ & _ & -> & _ & _ & -> & -> & _). by apply IH.
Qed.
Lemma qrun_quoted v : has_no_dquote v = true -> qrun (Some """"%char) v = Some (Some """"%char).
Proof.
  unfold has_no_dquote. induction v as [|a v IH]; [done|]. cbn [sexists qrun].
  rewrite negb_orb, andb_true_iff, negb_true_iff. intros [-> Hv]. by apply IH.
Qed.

(** Raw attributes: key and quoted text. *)
Definition raw_attr (kv : string * string) : string := kv.1 +:+ "=" +:+ dquote +:+ kv.2 +:+ dquote.
Definition raw_ok (kv : string * string) : Prop :=
  (exists a t, kv.1 = String a t) /\ sforall name_byte kv.1 = true /\ has_no_dquote kv.2 = true.
Lemma qrun_raw_attr kv : raw_ok kv -> qrun None (raw_attr kv) = Some None.
Proof.
  intros (_ & Hk & Hv). unfold raw_attr. rewrite qrun_app, (qrun_name _ Hk).
  cbn [String.append]. unfold dquote. cbn. rewrite qrun_app, (qrun_quoted _ Hv). done.
Qed.
Lemma qrun_spaced l : Forall raw_ok l -> qrun None (spaced (map raw_attr l)) = Some None.
Proof.
  induction 1 as [|kv l Hkv Hl IH]; [done|]. cbn [map spaced].
  destruct l as [|kv' l]; [by apply qrun_raw_attr|]. cbn [map] in *.
  rewrite qrun_app, (qrun_raw_attr _ Hkv). cbn. exact IH.
Qed.
Lemma split_name_app g r : sforall name_byte g = true -> split_name (g +:+ String " " r) = (g, String " " r).
Proof.
  induction g as [|a g IH]; [done|]. cbn. rewrite andb_true_iff. intros [Ha Hg].
  apply name_byte_not in Ha as (-> & _). by rewrite (IH Hg).
Qed.

Lemma existsb_key_false {V} k (l : list (string * V)) :
  k ∉ l.*1 -> existsb (fun kv => seqb kv.1 k) l = false.
Proof.
  induction l as [|[k' v] l IH]; [done|]. cbn. rewrite not_elem_of_cons. intros [Hk Hl].
  rewrite IH by done. rewrite orb_false_r. by apply seqb_false.
Qed.
Lemma parse_attrs_key k seen r pre : sforall name_byte k = true -> pre +:+ k <> "" ->
  srev pre +:+ k ∉ seen.*1 ->
  parse_attrs_from (AKey pre) seen (k +:+ String "=" r)
  = parse_attrs_from (AAfterEq (srev pre +:+ k)) seen r.
Proof.
  revert pre. induction k as [|a k IH]; intros pre; cbn [sforall String.append].
  - intros _ _ Hn. rewrite app_nil_r_s in *. cbn [parse_attrs_from]. rewrite aeqb_refl.
    by rewrite existsb_key_false.
  - rewrite andb_true_iff. intros [Ha Hk] _ Hn. apply name_byte_not in Ha as (Hw & _ & _ & _ & He & _).
    cbn [parse_attrs_from]. rewrite He, Hw. rewrite IH; [|done|done|].
    + rewrite srev_cons, <- app_assoc_s. done.
    + rewrite srev_cons, <- app_assoc_s. done.
Qed.
Lemma parse_attrs_value k v seen r pre : has_no_dquote v = true ->
  parse_attrs_from (AValue """" k pre) seen (v +:+ String """" r)
  = parse_attrs_from ABefore (seen ++ [(k, srev pre +:+ v)]) r.
Proof.
  revert pre. unfold has_no_dquote. induction v as [|a v IH]; intros pre; cbn [sexists String.append].
  - intros _. by rewrite app_nil_r_s.
  - rewrite negb_orb, andb_true_iff, negb_true_iff. intros [Ha Hv]. cbn [parse_attrs_from]. rewrite Ha.
    rewrite IH by done. by rewrite srev_cons, <- app_assoc_s.
Qed.
Lemma parse_attrs_one kv seen r : raw_ok kv -> kv.1 ∉ seen.*1 ->
  parse_attrs_from ABefore seen (raw_attr kv +:+ r) = parse_attrs_from ABefore (seen ++ [kv]) r.
Proof.
  destruct kv as [k v]. intros ((a & t & Hk) & Hn & Hv). cbn in Hk, Hn, Hv |- *. intros Hs. subst k.
  unfold raw_attr. cbn [fst snd]. rewrite <- !app_assoc_s.
  cbn [String.append parse_attrs_from]. cbn [sforall] in Hn. apply andb_true_iff in Hn as [Ha Ht].
  apply name_byte_not in Ha as (-> & _).
  change ("=" +:+ (dquote +:+ (v +:+ (dquote +:+ r)))) with (String "=" (String """" (v +:+ String """" r))).
  rewrite parse_attrs_key; [|done|done|done].
  cbn [parse_attrs_from]. change (is_ws """") with false. cbv iota. change (aeqb """" """" || _) with true. cbv iota.
  rewrite <- app_assoc_s. change (dquote +:+ r) with (String """" r).
  rewrite parse_attrs_value by done. done.
Qed.
Lemma parse_attrs_spaced l seen r : Forall raw_ok l -> NoDup (seen ++ l).*1 ->
  parse_attrs_from ABefore seen (spaced (map raw_attr l) +:+ r) = parse_attrs_from ABefore (seen ++ l) r.
Proof.
  intros Hl. revert seen. induction Hl as [|kv l Hkv Hl IH]; intros seen Hnd.
  { by rewrite app_nil_r. }
  assert (kv.1 ∉ seen.*1) as Hni.
  { rewrite fmap_app in Hnd. apply NoDup_app in Hnd as (_ & Hd & _).
    intros Hin. apply (Hd _ Hin). rewrite fmap_cons. left. }
  replace (seen ++ kv :: l) with ((seen ++ [kv]) ++ l) in * by (by rewrite <- app_assoc).
  cbn [map spaced]. destruct l as [|kv' l].
  - cbn [map]. rewrite parse_attrs_one by done. by rewrite app_nil_r.
  - cbn [map] in *. rewrite <- !app_assoc_s. rewrite parse_attrs_one by done.
    cbn [String.append parse_attrs_from]. change (is_ws " ") with true. cbv iota. by apply IH.
Qed.

Lemma attrs_of_list_to_map l : NoDup l.*1 -> attrs_of l = list_to_map l.
Proof.
  unfold attrs_of. assert (forall m : gmap string string, NoDup l.*1 -> (forall k, k ∈ l.*1 -> m !! k = None) ->
    foldl (fun m kv => <[kv.1 := kv.2]> m) m l = list_to_map l ∪ m) as Hgen.
  { induction l as [|[k v] l IH]; intros m Hnd Hm.
    - cbn. by rewrite (left_id_L ∅ _).
    - rewrite fmap_cons in Hnd, Hm. apply NoDup_cons in Hnd as [Hk Hnd]. cbn [foldl fst snd].
      rewrite IH; [|done|].
      + cbn. rewrite <- insert_union_r, <- insert_union_l; [done|].
        by apply not_elem_of_list_to_map.
      + intros k' Hk'. rewrite lookup_insert_ne by (intros ->; done). apply Hm. by right. }
  intros Hnd. rewrite Hgen; [|done|intros; apply lookup_empty]. by rewrite (right_id_L ∅ _).
Qed.

(** A whole tag: [g], a blank and the raw attributes, as written by [open_tag]. *)
Definition raw_tail (ls : list (list (string * string))) : string :=
  sconcat (map (fun l => " " +:+ spaced (map raw_attr l)) ls).
Lemma qrun_raw_tail ls : Forall (Forall raw_ok) ls -> qrun None (raw_tail ls) = Some None.
Proof.
  induction 1 as [|l ls Hl Hls IH]; [done|]. unfold raw_tail in *. cbn [map].
  rewrite sconcat_cons, qrun_app. cbn. by rewrite (qrun_spaced _ Hl).
Qed.
Lemma parse_attrs_raw_tail ls seen r : Forall (Forall raw_ok) ls -> NoDup (seen ++ concat ls).*1 ->
  parse_attrs_from ABefore seen (raw_tail ls +:+ r) = parse_attrs_from ABefore (seen ++ concat ls) r.
Proof.
  intros Hls. revert seen. induction Hls as [|l ls Hl Hls IH]; intros seen Hnd.
  { cbn. by rewrite app_nil_r. }
  unfold raw_tail in *. cbn [map concat] in *. rewrite sconcat_cons, <- !app_assoc_s.
  cbn [String.append parse_attrs_from]. change (is_ws " ") with true. cbv iota.
  rewrite app_assoc in Hnd.
  rewrite parse_attrs_spaced; [|done|].
  - rewrite IH by done. by rewrite app_assoc.
  - rewrite fmap_app in Hnd. by apply NoDup_app in Hnd as (? & _).
Qed.
Lemma raw_tail_space ls r : exists t, raw_tail ls +:+ String " " r = String " " t.
Proof.
  destruct ls as [|l ls]; [by exists r|]. eexists. unfold raw_tail. cbn [map].
  rewrite sconcat_cons, <- !app_assoc_s. cbn. done.
Qed.
Lemma get_attributes_raw_tail ls r : Forall (Forall raw_ok) ls -> NoDup (concat ls).*1 ->
  (r = "" \/ r = " ") ->
  get_attributes (raw_tail ls +:+ r) = Ok (list_to_map (concat ls)).
Proof.
  intros Hls Hnd Hr. unfold get_attributes.
  rewrite (parse_attrs_raw_tail ls []) by done. cbn [app].
  destruct Hr as [->| ->]; cbn [parse_attrs_from]; [|change (is_ws " ") with true; cbv iota];
    by rewrite attrs_of_list_to_map.
Qed.

Lemma read_markup_tag g ls (close : bool) rest :
  sforall name_byte g = true -> g <> "" -> Forall (Forall raw_ok) ls ->
  read_markup (g +:+ raw_tail ls +:+ (if close then " />" else " >") +:+ rest)
  = Ok ((if close then EvEmpty g (raw_tail ls +:+ " ") else EvStart g (raw_tail ls +:+ " ")), rest).
Proof.
  intros Hg Hne Hls. destruct g as [|c g1]; [done|].
  cbn [String.append]. unfold read_markup.
  cbn [sforall] in Hg. apply andb_true_iff in Hg as [Hc Hg1].
  pose proof (name_byte_not _ Hc) as (_ & _ & _ & Hsl & _ & _ & _ & Hb & Hq).
  rewrite Hb, Hq, Hsl.
  set (content := String c g1 +:+ raw_tail ls).
  assert (qrun None content = Some None) as Hrun.
  { unfold content. rewrite qrun_app, qrun_name by (cbn; by rewrite Hc, Hg1). by apply qrun_raw_tail. }
  assert (sforall name_byte (String c g1) = true) as Hg by (cbn; by rewrite Hc, Hg1).
  change (String c (g1 +:+ (raw_tail ls +:+ ((if close then " />" else " >") +:+ rest))))
    with (String c g1 +:+ (raw_tail ls +:+ ((if close then " />" else " >") +:+ rest))).
  rewrite app_assoc_s. fold content.
  rewrite (scan_tag_qrun _ _ _ _ Hrun).
  assert (split_name (content +:+ " ") = (String c g1, raw_tail ls +:+ " ")) as Hsn.
  { unfold content. rewrite <- app_assoc_s. destruct (raw_tail_space ls "") as [t Ht].
    change (String " " "") with " " in Ht. rewrite Ht. by apply split_name_app. }
  destruct close; cbn [String.append scan_tag];
    repeat match goal with |- context [aeqb ?a ?b] =>
      lazymatch a with Ascii _ _ _ _ _ _ _ _ =>
        let v := eval compute in (aeqb a b) in change (aeqb a b) with v end end; cbv iota.
  - cbn [orb]. assert (strip_suffix "/" (content +:+ " /") = Some (content +:+ " ")) as ->.
    { apply strip_suffix_Some. by rewrite <- app_assoc_s. }
    by rewrite Hsn.
  - cbn [orb]. assert (strip_suffix "/" (content +:+ " ") = None) as ->.
    { destruct (strip_suffix _ _) as [x|] eqn:Ex; [|done]. apply strip_suffix_Some in Ex.
      apply (f_equal srev) in Ex. rewrite !srev_app_dist in Ex. cbn in Ex. done. }
    by rewrite Hsn.
Qed.
Lemma read_markup_end g rest : sforall name_byte g = true ->
  read_markup (String "/" (g +:+ String ">" rest)) = Ok (EvEnd g, rest).
Proof.
  intros Hg. unfold read_markup.
  change (aeqb "/" "!") with false. change (aeqb "/" "?") with false. change (aeqb "/" "/") with true.
  cbv iota.
  assert (forall g, sforall name_byte g = true ->
    split_at_byte (fun a => aeqb a ">") (g +:+ String ">" rest) = Some (g, ">"%char, rest)) as Hsplit.
  { clear. induction g as [|a g IH]; [done|]. cbn. rewrite andb_true_iff. intros [Ha Hg].
    apply name_byte_not in Ha as (_ & _ & -> & _). by rewrite (IH Hg). }
  rewrite (Hsplit _ Hg). do 3 f_equal.
  clear -Hg. induction g as [|a g IH]; [done|]. cbn in *. apply andb_true_iff in Hg as [Ha Hg].
  rewrite (IH Hg). apply name_byte_not in Ha as (-> & _). by destruct g.
Qed.

(** ** comments *)
Fixpoint clean_comment (c : string) : bool :=
  match c with
  | EmptyString => true
  | String _ c' => negb (starts_with "-->" (c +:+ "--")) && clean_comment c'
  end.
Lemma starts_with_comment_ext c r : c <> "" ->
  starts_with "-->" (c +:+ "-->" +:+ r) = starts_with "-->" (c +:+ "--").
Proof.
  intros Hc. destruct c as [|x [|y [|z c]]]; [done| | |]; unfold starts_with; cbn [strip_prefix String.append];
    repeat case_match; done.
Qed.
Lemma split_comment c r : clean_comment c = true ->
  split_at_sub "-->" (c +:+ "-->" +:+ r) = Some (c, r).
Proof.
  induction c as [|a c IH]; intros Hc.
  { done. }
  cbn [clean_comment] in Hc. apply andb_true_iff in Hc as [Ha Hc]. apply negb_true_iff in Ha.
  rewrite <- (starts_with_comment_ext _ r) in Ha by done.
  cbn [String.append] in Ha |- *. cbn [split_at_sub]. unfold starts_with in Ha.
  cbn [String.append] in Ha.
  destruct (strip_prefix "-->" _); [done|]. cbn [String.append] in IH. by rewrite (IH Hc).
Qed.
