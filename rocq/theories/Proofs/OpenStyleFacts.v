(** The styles of a workbook, from the opened file to the saved one. *)
From Verif.Model Require Import Excel.
From Verif.Spec Require Import RelSpec XmlSpec XmlRepr PackageSpec PartSpec SheetSpec StyleSpec SessionSpec FlowSpec.
From Verif.Proofs Require Import BaseFacts PackageFacts XmlTreeFacts XmlWriteFacts DocBuild XmlReadFacts RelDocFacts SmallPartFacts AttrFacts StyleFacts StyleDocFacts SheetDocFacts
  BookFacts FrameFacts SaveFacts SessionFacts RelFacts ExcelFacts XmlHistFacts SoundFacts KeepFacts ReadAnyFacts FlowFacts FlowSaveFacts FlowOpenFacts OwnFacts OpenBookFacts OpenRelFacts.
From Verif.Spec Require Import OpenSpec OpenStyleSpec.
Open Scope N_scope.

(** ** What is read *)
Lemma num_said n t : NumSays n t -> nf_id n <= usize_max -> num_of_tree t = Ok (Some (taken_num n)).
Proof.
  intros [H1 H2] Hn. unfold child_attr in *. unfold num_of_tree. destruct (t_attrs t) as [a|]; [|done]. rewrite H1, H2. cbn [of_option rbind].
  rewrite parse_uint_show by done. done.
Qed.
Lemma color_said c t : ColorSays c t -> color_of_tree t = Some c.
Proof.
  intros (k & Hk & Hv & Ho). unfold child_attr in *. unfold color_of_tree. destruct (t_attrs t) as [a|]; [|done]. unfold color_of_attrs, color_names in *.
  assert (forall k', k' ∈ ["theme"; "rgb"; "indexed"] -> k' <> k -> a !! k' = None) as Ho' by exact Ho. clear Ho. destruct c as [ty v]. cbn [cl_type cl_value] in *.
  rewrite !elem_of_cons in Hk. destruct Hk as [Hk|[Hk|[Hk|Hk]]]; [..|by apply elem_of_nil in Hk]; injection Hk as -> ->.
  - by rewrite Hv.
  - rewrite (Ho' "theme") by (try set_solver; done). by rewrite Hv.
  - rewrite (Ho' "theme") by (try set_solver; done). rewrite (Ho' "rgb") by (try set_solver; done). by rewrite Hv.
Qed.
Lemma color_unsaid t : no_color t -> color_of_tree t = None.
Proof.
  intros Hn. unfold no_color, child_attr in Hn. unfold color_of_tree. destruct (t_attrs t) as [a|]; [|done]. unfold color_of_attrs.
  assert (forall k, k ∈ ["theme"; "rgb"; "indexed"] -> a !! k = None) as Hn' by exact Hn. rewrite !Hn' by set_solver. done.
Qed.
Lemma attr_child t k : attr_of t k = child_attr t k.
Proof. done. Qed.
(** The font that the child elements [cs] make of the font [f0]. *)
Definition from (tag : string) (cs : list tree) (same : Prop) (v : tree -> Prop) : Prop :=
  match List.filter (fun x => String.eqb (t_tag x) tag) cs with [] => same | [c] => v c | _ => False end.
Definition val_is (v : string -> Prop) (c : tree) : Prop := exists s, child_attr c "val" = Some s /\ v s.
Record FontFrom (f0 : font) (cs : list tree) (f : font) : Prop := {
  ff_tags : Forall (fun c => t_tag c ∈ ["b"; "i"; "u"; "sz"; "color"; "name"; "family"; "scheme"]) cs;
  ff_bold : fo_bold f = true <-> fo_bold f0 = true \/ exists c, c ∈ cs /\ t_tag c = "b";
  ff_double : fo_double f = true <-> fo_double f0 = true \/ exists c, c ∈ cs /\ t_tag c = "u" /\ child_attr c "val" = Some "double";
  ff_plain : fo_italic f = false /\ fo_italic f0 = false /\ fo_underline f = false /\ fo_underline f0 = false;
  ff_size : from "sz" cs (fo_size f = fo_size f0) (val_is (fun s => s = show_N (fo_size f)));
  ff_color : from "color" cs (fo_color f = fo_color f0) (ColorSays (fo_color f));
  ff_name : from "name" cs (fo_name f = fo_name f0) (val_is (fun s => s = fo_name f));
  ff_family : from "family" cs (fo_family f = fo_family f0) (val_is (fun s => s = show_N (fo_family f)));
  ff_scheme : from "scheme" cs (fo_scheme f = fo_scheme f0) (val_is (fun s => (s, fo_scheme f) ∈ scheme_names));
}.
Lemma exists_cons {A} (P : A -> Prop) x l : (exists c, c ∈ x :: l /\ P c) <-> P x \/ exists c, c ∈ l /\ P c.
Proof.
  split.
  - intros (c & [->|Hc]%elem_of_cons & Hp); [by left|right; eauto].
  - intros [Hp|(c & Hc & Hp)]; [exists x; split; [by left|done]|exists c; split; [by right|done]].
Qed.
Lemma scheme_said s x : (s, x) ∈ scheme_names -> scheme_enum s = x.
Proof. unfold scheme_names. rewrite !elem_of_cons. intros [[= -> ->]|[[= -> ->]|[[= -> ->]|Hn]]]; [done..|by apply elem_of_nil in Hn]. Qed.
Ltac tags H := let g := fresh in set (g := String.eqb) in H; cbn [List.filter t_tag] in H; subst g; cbn [String.eqb Ascii.eqb Bool.eqb] in H.
Lemma bool_iff (a b : bool) : (a = true <-> b = true) -> a = b.
Proof. destruct a, b; intros [H1 H2]; try done; [by rewrite H1|by rewrite H2]. Qed.
Lemma from_skip tag c cs same v : t_tag c <> tag -> from tag (c :: cs) same v <-> from tag cs same v.
Proof. intros Hc. unfold from. cbn [List.filter]. by rewrite (proj2 (String.eqb_neq _ _) Hc). Qed.
Lemma from_here tag c cs same v : t_tag c = tag -> from tag (c :: cs) same v -> v c /\ forall (s' : Prop) v', s' -> from tag cs s' v'.
Proof.
  intros Hc. unfold from. cbn [List.filter]. rewrite Hc, String.eqb_refl. destruct (List.filter _ cs); [|done]. intros Hv. split; [done|]. by intros.
Qed.
Lemma iff_skip {A} (a : A) (l : list A) (P : A -> Prop) (b b' c : Prop) : (b <-> c \/ exists x, x ∈ a :: l /\ P x) -> (b' <-> c \/ P a) -> (b <-> b' \/ exists x, x ∈ l /\ P x).
Proof. rewrite exists_cons. tauto. Qed.
Ltac skips c Ht :=
  repeat match goal with H : from ?tag (c :: _) _ _ |- _ => rewrite from_skip in H by (rewrite Ht; discriminate) end; constructor; [assumption| | | |try assumption..].
Lemma font_from cs : forall f0 f, FontFrom f0 cs f -> fo_size f <= u8_max -> fo_family f <= u32_max -> font_children f0 cs = Ok f.
Proof.
  induction cs as [|c cs IH]; intros f0 f [H1 H2 H3 H4 H5 H6 H7 H8 H9] Hsz Hfam.
  - assert (forall P : tree -> Prop, ~ exists c, c ∈ [] /\ P c) as Hn by (intros P (c & Hc & _); by apply elem_of_nil in Hc).
    assert (fo_bold f = fo_bold f0) as B1. { apply bool_iff. pose proof (Hn (fun c => t_tag c = "b")). tauto. }
    assert (fo_double f = fo_double f0) as B2. { apply bool_iff. pose proof (Hn (fun c => t_tag c = "u" /\ child_attr c "val" = Some "double")). tauto. }
    destruct H4 as (I1 & I2 & U1 & U2). cbn in H5, H6, H7, H8, H9. destruct f, f0. cbn in *. by subst.
  - pose proof (proj1 (Forall_cons _ _ _) H1) as [Ht Htags]. cbn [font_children].
    assert (forall f1, font_child f0 c = Ok f1 -> FontFrom f1 cs f -> rbind (font_child f0 c) (fun f' => font_children f' cs) = Ok f) as Hgo.
    { intros f1 -> Hf. cbn [rbind]. by apply IH. }
    unfold font_child in *. rewrite attr_child in *.
    rewrite !elem_of_cons in Ht. destruct Ht as [Ht|[Ht|[Ht|[Ht|[Ht|[Ht|[Ht|[Ht|Ht]]]]]]]]; [..|by apply elem_of_nil in Ht].
    + apply (Hgo (set_font_bold f0)); [by rewrite Ht|]. skips c Ht.
      * apply (iff_skip _ _ _ _ _ _ H2). cbn. tauto.
      * apply (iff_skip _ _ _ _ _ _ H3). cbn. rewrite Ht. split; [tauto|]. by intros [?|[? _]].
      * exact H4.
    + apply (Hgo (set_font_i f0)); [by rewrite Ht|]. skips c Ht.
      * apply (iff_skip _ _ _ _ _ _ H2). cbn. rewrite Ht. split; [tauto|]. by intros [?|?].
      * apply (iff_skip _ _ _ _ _ _ H3). cbn. rewrite Ht. split; [tauto|]. by intros [?|[? _]].
      * cbn. tauto.
    + eapply Hgo; [by rewrite Ht|]. skips c Ht.
      * apply (iff_skip _ _ _ _ _ _ H2). cbn. rewrite Ht. split; [tauto|]. by intros [?|?].
      * apply (iff_skip _ _ _ _ _ _ H3). cbn. rewrite Ht. destruct (child_attr c "val") as [v|]; [|split; [tauto|]; by intros [?|[_ ?]]].
        rewrite orb_true_iff. unfold seqb. rewrite String.eqb_eq. split; [intros [->|?]; [by right|by left]|]. intros [?|[_ [= ->]]]; [by right|by left].
      * cbn. tauto.
    + destruct (from_here _ _ _ _ _ Ht H5) as [(s & Hs & ->) H5']. apply (Hgo (set_font_size f0 (fo_size f))).
      { rewrite Ht, Hs. cbn [seqb String.eqb Ascii.eqb Bool.eqb opt_set]. by rewrite parse_uint_show by done. }
      clear H5. skips c Ht; [..|by apply H5'].
      * apply (iff_skip _ _ _ _ _ _ H2). cbn. rewrite Ht. split; [tauto|]. by intros [?|?].
      * apply (iff_skip _ _ _ _ _ _ H3). cbn. rewrite Ht. split; [tauto|]. by intros [?|[? _]].
      * exact H4.
    + destruct (from_here _ _ _ _ _ Ht H6) as [Hc H6']. apply (Hgo (set_font_color f0 (fo_color f))).
      { rewrite Ht. cbn. by rewrite (color_said _ _ Hc). }
      clear H6. skips c Ht; [..|by apply H6'].
      * apply (iff_skip _ _ _ _ _ _ H2). cbn. rewrite Ht. split; [tauto|]. by intros [?|?].
      * apply (iff_skip _ _ _ _ _ _ H3). cbn. rewrite Ht. split; [tauto|]. by intros [?|[? _]].
      * exact H4.
    + destruct (from_here _ _ _ _ _ Ht H7) as [(s & Hs & ->) H7']. apply (Hgo (set_font_name f0 (fo_name f))).
      { rewrite Ht. cbn. by rewrite Hs. }
      clear H7. skips c Ht; [..|by apply H7'].
      * apply (iff_skip _ _ _ _ _ _ H2). cbn. rewrite Ht. split; [tauto|]. by intros [?|?].
      * apply (iff_skip _ _ _ _ _ _ H3). cbn. rewrite Ht. split; [tauto|]. by intros [?|[? _]].
      * exact H4.
    + destruct (from_here _ _ _ _ _ Ht H8) as [(s & Hs & ->) H8']. apply (Hgo (set_font_family f0 (fo_family f))).
      { rewrite Ht, Hs. cbn [seqb String.eqb Ascii.eqb Bool.eqb opt_set]. by rewrite parse_uint_show by done. }
      clear H8. skips c Ht; [..|by apply H8'].
      * apply (iff_skip _ _ _ _ _ _ H2). cbn. rewrite Ht. split; [tauto|]. by intros [?|?].
      * apply (iff_skip _ _ _ _ _ _ H3). cbn. rewrite Ht. split; [tauto|]. by intros [?|[? _]].
      * exact H4.
    + destruct (from_here _ _ _ _ _ Ht H9) as [(s & Hs & Hn) H9']. apply (Hgo (set_font_scheme f0 (fo_scheme f))).
      { rewrite Ht. cbn. rewrite Hs. cbn. by rewrite (scheme_said _ _ Hn). }
      clear H9. skips c Ht; [..|by apply H9'].
      * apply (iff_skip _ _ _ _ _ _ H2). cbn. rewrite Ht. split; [tauto|]. by intros [?|?].
      * apply (iff_skip _ _ _ _ _ _ H3). cbn. rewrite Ht. split; [tauto|]. by intros [?|[? _]].
      * exact H4.
Qed.
Lemma from_child tag t o (same : Prop) (v : tree -> Prop) : Child tag t o -> match o with None => same | Some c => v c end -> from tag (t_children t) same v.
Proof. unfold Child, from, no_child, only_child. destruct o as [c|]; by intros ->. Qed.
Lemma from_valued tag t (same : Prop) v : Valued tag t same v -> from tag (t_children t) same (val_is v).
Proof. intros (o & H1 & H2). by eapply from_child. Qed.
Lemma font_said f t : FontSays f t -> fo_size f <= u8_max -> fo_family f <= u32_max -> font_of_tree t = Ok (taken_font f).
Proof.
  intros [H1 [_ H2] [_ H3] H4 H5 H6 H7 (oc & H8 & H8') H9 H10 H11] Hs Hf. unfold font_of_tree. apply font_from; [|done..].
  constructor; cbn [taken_font font_default fo_bold fo_double fo_italic fo_underline fo_size fo_color fo_name fo_family fo_scheme]; try by apply from_valued.
  - exact H1.
  - rewrite H2. split; [by right|]. by intros [?|?].
  - rewrite H6. split; [by right|]. by intros [?|?].
  - done.
  - by apply (from_child _ _ oc).
Qed.
Lemma pattern_said s x : (s, x) ∈ pattern_names -> pattern_enum s = x.
Proof. unfold pattern_names. rewrite !elem_of_cons. intros [[= -> ->]|[[= -> ->]|[[= -> ->]|Hn]]]; [done..|by apply elem_of_nil in Hn]. Qed.
Lemma line_said s x : (s, x) ∈ line_names -> line_enum s = x /\ is_none_line x = false.
Proof.
  unfold line_names. rewrite !elem_of_cons.
  intros H. repeat (destruct H as [[= -> ->]|H]; [by vm_compute|]). by apply elem_of_nil in H.
Qed.
Lemma halign_said o x : Named halign_names o HNone x -> default HNone (halign_enum <$> o) = x.
Proof.
  destruct o as [s|]; [|by intros ->]. unfold Named, halign_names. rewrite !elem_of_cons.
  intros H. repeat (destruct H as [[= -> ->]|H]; [by vm_compute|]). by apply elem_of_nil in H.
Qed.
Lemma valign_said o x : Named valign_names o VNone x -> default VNone (valign_enum <$> o) = x.
Proof.
  destruct o as [s|]; [|by intros ->]. unfold Named, valign_names. rewrite !elem_of_cons.
  intros H. repeat (destruct H as [[= -> ->]|H]; [by vm_compute|]). by apply elem_of_nil in H.
Qed.
(** The one colour among child elements. *)
Definition color_from (tag : string) (cs : list tree) (c0 c : option color) : Prop :=
  from tag cs (c = c0) (fun t => match c with Some k => ColorSays k t | None => no_color t /\ c0 = None end).
Lemma color_opt tag t o : OptColor tag t o -> color_from tag (t_children t) None o.
Proof.
  intros (c & H1 & H2). unfold color_from. eapply from_child; [exact H1|]. by destruct c, o.
Qed.
Lemma fill_from cs : forall f0 f, Forall (fun c => t_tag c ∈ ["fgColor"; "bgColor"]) cs -> fi_pattern f = fi_pattern f0 ->
  color_from "fgColor" cs (fi_fg f0) (fi_fg f) -> color_from "bgColor" cs (fi_bg f0) (fi_bg f) -> fill_children f0 cs = Ok f.
Proof.
  induction cs as [|c cs IH]; intros f0 f H1 H2 H3 H4.
  - cbn in H3, H4. destruct f, f0. cbn in *. by subst.
  - pose proof (proj1 (Forall_cons _ _ _) H1) as [Ht Htags]. cbn [fill_children].
    assert (forall f1, fill_child f0 c = Ok f1 -> fi_pattern f = fi_pattern f1 -> color_from "fgColor" cs (fi_fg f1) (fi_fg f) -> color_from "bgColor" cs (fi_bg f1) (fi_bg f) ->
      rbind (fill_child f0 c) (fun f' => fill_children f' cs) = Ok f) as Hgo.
    { intros f1 -> ???. cbn [rbind]. by apply IH. }
    rewrite !elem_of_cons in Ht. unfold color_from in *. destruct Ht as [Ht|[Ht|Ht]]; [..|by apply elem_of_nil in Ht].
    + destruct (from_here _ _ _ _ _ Ht H3) as [Hc H3']. rewrite from_skip in H4 by (rewrite Ht; discriminate). destruct (fi_fg f) as [k|] eqn:Ek.
      * pose proof (color_said _ _ Hc) as Hcs. unfold color_of_tree in Hcs. apply (Hgo (mkFill (fi_pattern f0) (fi_bg f0) (Some k))); [|done|by apply H3'|done].
        unfold fill_child. destruct (t_attrs c) as [a|]; [|done]. rewrite Hcs, Ht. done.
      * destruct Hc as [Hc H0]. pose proof (color_unsaid _ Hc) as Hcs. unfold color_of_tree in Hcs. apply (Hgo f0); [|done|by apply H3'|done].
        unfold fill_child. destruct (t_attrs c) as [a|]; [|done]. rewrite Hcs, Ht. done.
    + destruct (from_here _ _ _ _ _ Ht H4) as [Hc H4']. rewrite from_skip in H3 by (rewrite Ht; discriminate). destruct (fi_bg f) as [k|] eqn:Ek.
      * pose proof (color_said _ _ Hc) as Hcs. unfold color_of_tree in Hcs. apply (Hgo (mkFill (fi_pattern f0) (Some k) (fi_fg f0))); [|done|done|by apply H4'].
        unfold fill_child. destruct (t_attrs c) as [a|]; [|done]. rewrite Hcs, Ht. done.
      * destruct Hc as [Hc H0]. pose proof (color_unsaid _ Hc) as Hcs. unfold color_of_tree in Hcs. apply (Hgo f0); [|done|done|by apply H4'].
        unfold fill_child. destruct (t_attrs c) as [a|]; [|done]. rewrite Hcs, Ht. done.
Qed.
Lemma fill_said f t : FillSays f t -> fill_of_tree t = Ok f.
Proof.
  intros (p & s & H1 & H2 & H3 & H4 & H5 & H6 & H7). unfold fill_of_tree, first_child. rewrite H1, attr_child, H3. rewrite (pattern_said _ _ H4).
  apply fill_from; [exact H5|done|by apply color_opt..].
Qed.
Lemma side_said b t : SideSays b t -> side_of_tree side_default t = taken_side b.
Proof.
  intros [[H1 H2]|(s & H1 & H2 & H3 & H4)]; unfold side_of_tree; rewrite attr_child.
  - unfold taken_side. rewrite H2. destruct H1 as [->| ->]; done.
  - rewrite H1. destruct (line_said _ _ H2) as [-> Hl]. unfold taken_side. rewrite Hl.
    assert (match bd_line b with LNone => mkSide None LNone | _ => b end = b) as -> by (by destruct (bd_line b)).
    assert (first_child t ≫= color_of_tree = bd_color b) as ->; [|by destruct b as [[]]].
    destruct H4 as (o & Ho & Hc). unfold only_tags in H3. unfold first_child.
    assert (List.filter (fun x => String.eqb (t_tag x) "color") (t_children t) = t_children t) as Hall.
    { clear -H3. induction H3 as [|c cs Hc _ IH]; [done|]. apply elem_of_list_singleton in Hc. cbn [List.filter]. rewrite Hc, String.eqb_refl. by rewrite IH. }
    destruct o as [c|]; cbn in Ho; unfold only_child, no_child in Ho; rewrite Hall in Ho; rewrite Ho.
    + cbn. destruct (bd_color b); [by apply color_said|by apply color_unsaid].
    + by destruct (bd_color b).
Qed.
Definition side_from (tag : string) (cs : list tree) (b0 b : border_side) : Prop :=
  from tag cs (b = b0) (fun t => side_of_tree side_default t = b /\ b0 = side_default).
Record BorderFrom (b0 : border) (cs : list tree) (b : border) : Prop := {
  bf_tags : Forall (fun c => t_tag c ∈ ["left"; "right"; "top"; "bottom"; "diagonal"]) cs;
  bf_left : side_from "left" cs (bo_left b0) (bo_left b);
  bf_right : side_from "right" cs (bo_right b0) (bo_right b);
  bf_top : side_from "top" cs (bo_top b0) (bo_top b);
  bf_bottom : side_from "bottom" cs (bo_bottom b0) (bo_bottom b);
  bf_diagonal : side_from "diagonal" cs (bo_diagonal b0) (bo_diagonal b);
}.
Lemma border_from cs : forall b0 b, BorderFrom b0 cs b -> border_children b0 cs = Ok b.
Proof.
  induction cs as [|c cs IH]; intros b0 b [H1 H2 H3 H4 H5 H6].
  - cbn in *. destruct b, b0. cbn in *. by subst.
  - pose proof (proj1 (Forall_cons _ _ _) H1) as [Ht Htags]. cbn [border_children].
    assert (forall b1, border_child b0 c = Ok b1 -> BorderFrom b1 cs b -> rbind (border_child b0 c) (fun b' => border_children b' cs) = Ok b) as Hgo.
    { intros b1 -> ?. cbn [rbind]. by apply IH. }
    unfold side_from in *. unfold border_child in *. rewrite !elem_of_cons in Ht. destruct Ht as [Ht|[Ht|[Ht|[Ht|[Ht|Ht]]]]]; [..|by apply elem_of_nil in Ht];
    match goal with H : from ?tag (c :: cs) _ _ |- _ => match type of Ht with _ = tag => destruct (from_here _ _ _ _ _ Ht H) as [[Hc Hd] H'] end end;
    eapply Hgo; try (rewrite Ht; cbn [seqb String.eqb Ascii.eqb Bool.eqb]; rewrite Hd; reflexivity);
    repeat match goal with H : from ?tag (c :: _) _ _ |- _ => rewrite from_skip in H by (rewrite Ht; discriminate) end;
    constructor; cbn [bo_left bo_right bo_top bo_bottom bo_diagonal]; try assumption; apply H'; by rewrite Hc.
Qed.
Lemma side_at tag t b : SideAt tag t b -> side_from tag (t_children t) side_default (taken_side b).
Proof.
  intros (o & H1 & H2). unfold side_from. eapply from_child; [exact H1|]. destruct o as [c|]; [split; [by apply side_said|done]|]. unfold taken_side. by rewrite H2.
Qed.
Lemma border_said b t : BorderSays b t -> border_of_tree t = Ok (taken_border b).
Proof. intros [H1 H2 H3 H4 H5 H6]. apply border_from. constructor; [exact H1|by apply side_at..]. Qed.
Lemma number_said t (a : gmap string string) k n : t_attrs t = Some a -> NumberAt t k n -> n <= u16_max -> rmap (default 0) (num_attr u16_max a k) = Ok n.
Proof.
  intros Ha Hn Hm. unfold NumberAt, child_attr in Hn. rewrite Ha in Hn. unfold num_attr, parse_attr. destruct Hn as [[-> ->]| ->]; [done|]. by rewrite parse_uint_show.
Qed.
Lemma xf_said x t : XfSays true x t -> xf_typed x -> is_Some (t_attrs t) -> xf_of_tree t = Ok x.
Proof.
  intros [H1 H2 H3 H4 H5 H6 H7 H8 H9 H10 H11 H12] (T1 & T2 & T3 & T4 & T5) [a Ha]. unfold xf_of_tree. rewrite Ha. specialize (H5 eq_refl).
  rewrite (number_said _ _ _ _ Ha H1), (number_said _ _ _ _ Ha H2), (number_said _ _ _ _ Ha H3), (number_said _ _ _ _ Ha H4), (number_said _ _ _ _ Ha H5) by done. cbn [rbind].
  assert (forall k, child_attr t k = a !! k) as Hk by (intros k; unfold child_attr; by rewrite Ha). rewrite Hk in *.
  assert (forall k b, Switch false (a !! k) b -> flag_attr a k = b) as Hsw by (intros k b; apply switch_read).
  rewrite (Hsw _ _ H6), (Hsw _ _ H7), (Hsw _ _ H8), (Hsw _ _ H9), (Hsw _ _ H10), (Hsw _ _ H11). clear Hsw.
  assert (forall al : gmap string string, al = default ∅ (first_child t ≫= t_attrs) -> flag_attr al "wrapText" = xf_wrap x
    /\ default HNone (halign_enum <$> al !! "horizontal") = xf_halign x /\ default VNone (valign_enum <$> al !! "vertical") = xf_valign x) as Hal.
  { intros al ->. unfold first_child. destruct H12 as [(-> & -> & -> & ->)|(c & -> & _ & W1 & W2 & W3)]; [done|]. cbn [mbind option_bind].
    assert (forall k, child_attr c k = (default ∅ (t_attrs c) : gmap string string) !! k) as Hc. { intros k. unfold child_attr. destruct (t_attrs c); [done|]. cbn. by rewrite lookup_empty. }
    rewrite Hc in *. split; [by apply switch_read|]. split; [by apply halign_said|by apply valign_said]. }
  destruct (Hal _ eq_refl) as (-> & -> & ->). by destruct x.
Qed.

(** ** Tables *)
Lemma rmapM_said {A} (says : A -> tree -> Prop) (f : tree -> res A) (g : A -> A) l ts : Forall2 says l ts ->
  (forall x t, x ∈ l -> t ∈ ts -> says x t -> f t = Ok (g x)) -> rmapM f ts = Ok (map g l).
Proof.
  induction 1 as [|x t l ts H1 _ IH]; intros Hf; [done|]. cbn [map rmapM]. rewrite (Hf x t) by (try apply elem_of_cons; tauto). cbn [rbind].
  rewrite IH; [done|]. intros x' t' Hx Ht. apply Hf; by right.
Qed.
Lemma table_said {A} tag (says : A -> tree -> Prop) (f : tree -> res A) (g : A -> A) root l : Table tag says root l -> attrs_present root ->
  (forall x t, x ∈ l -> is_Some (t_attrs t) -> says x t -> f t = Ok (g x)) -> table_of f (some_list (tagged tag (t_children root))) = Ok (map g l).
Proof.
  intros Ht Hap Hf. unfold tagged, seqb, table_of. destruct Ht as [[Hn ->]|(ts & Ho & Hl)]; unfold no_child, only_child in *; [by rewrite Hn|].
  rewrite Ho. cbn [some_list last_of last]. eapply rmapM_said; [exact Hl|]. intros x t Hx Hin. apply Hf; [done|].
  assert (ts ∈ t_children root) as Hts. { apply elem_of_list_In. apply (filter_In (fun x => String.eqb (t_tag x) tag)). rewrite Ho. by left. }
  destruct root as [g0 a0 v0 cs0]. cbn [t_children] in *. apply attrs_present_node in Hap as [_ Hap]. rewrite Forall_forall in Hap. specialize (Hap _ Hts).
  destruct ts as [g1 a1 v1 cs1]. apply attrs_present_node in Hap as [_ Hap]. cbn in Hin. rewrite Forall_forall in Hap. specialize (Hap _ Hin).
  destruct t as [g2 a2 v2 cs2]. apply attrs_present_node in Hap as [Hap _]. cbn. destruct a2 as [a'|]; [by exists a'|done].
Qed.
Lemma table_said_opt {A} tag (says : A -> tree -> Prop) (f : tree -> res (option A)) (g : A -> A) root l : Table tag says root l ->
  (forall x t, x ∈ l -> says x t -> f t = Ok (Some (g x))) -> rmap (omap id) (table_of f (some_list (tagged tag (t_children root)))) = Ok (map g l).
Proof.
  intros Ht Hf. unfold tagged, seqb, table_of. destruct Ht as [[Hn ->]|(ts & Ho & Hl)]; unfold no_child, only_child in *; [by rewrite Hn|].
  rewrite Ho. cbn [some_list last_of last].
  assert (rmapM f (t_children ts) = Ok (map (fun x => Some (g x)) l)) as ->.
  { clear -Hl Hf. induction Hl as [|x t l ts' H1 _ IH]; [done|]. cbn [map rmapM]. rewrite (Hf x t) by (try apply elem_of_cons; tauto). cbn [rbind].
    rewrite IH; [done|]. intros x' t' Hx. apply Hf; by right. }
  cbn [rmap rbind]. f_equal. by apply omap_map_some.
Qed.
Lemma out_cons tag tags cs : filter (fun t => t_tag t ∉ tag :: tags) cs = filter (fun t => t_tag t ∉ tags) (untagged tag cs).
Proof.
  induction cs as [|t cs IH]; [done|]. unfold untagged in *. rewrite filter_cons. cbn [List.filter]. destruct (seqb (t_tag t) tag) eqn:Et; cbn [negb].
  - apply seqb_true in Et. rewrite decide_False; [done|]. rewrite elem_of_cons. tauto.
  - apply seqb_false in Et. rewrite filter_cons. rewrite IH. destruct (decide (t_tag t ∉ tag :: tags)) as [Hn|Hn]; destruct (decide (t_tag t ∉ tags)) as [Hm|Hm]; try done; exfalso.
    + apply Hm. intros Hin. apply Hn. by right.
    + apply Hn. intros [?|?]%elem_of_cons; done.
Qed.
Lemma others_styles root : others style_tags root = style_rest (t_children root).
Proof.
  unfold others, style_tags, style_rest. rewrite !out_cons. set (l := untagged "cellXfs" _). clearbody l.
  induction l as [|t l IH]; [done|]. rewrite filter_cons_True by (by apply not_elem_of_nil). by rewrite IH.
Qed.
Lemma others_out tags root : Forall (fun t => t_tag t ∉ tags) (others tags root).
Proof. apply Forall_forall. intros t Ht. by apply elem_of_list_filter in Ht as [? _]. Qed.
Lemma styles_said d root st : Doc d root -> attrs_present root -> StylesSay true root st -> styles_typed st ->
  exists d', load_styles d = (d', Ok (taken st)) /\ Doc d' (Node (t_tag root) (t_attrs root) (t_value root) (others style_tags root)) /\ d_ns d' = d_ns d.
Proof.
  intros Hd Hap [H1 H2 H3 H4 H5 H6] (Y1 & Y2 & Y3 & Y4). rewrite others_styles.
  assert (exists nums, table_of num_of_tree (some_list (tagged "numFmts" (t_children root))) = Ok nums /\ omap id nums = map taken_num (st_nums st)) as (nums & N1 & N2).
  { pose proof (table_said_opt _ _ num_of_tree taken_num _ _ H1) as Hn. rewrite Forall_forall in Y1.
    destruct (table_of num_of_tree _) as [nums| |]; cbn [rmap rbind] in Hn; [|by (specialize (Hn ltac:(intros ? ? ? [? ?]; apply num_said; auto))).. ].
    exists nums. split; [done|]. specialize (Hn ltac:(intros ? ? ? [? ?]; apply num_said; auto)). by injection Hn. }
  unfold taken. rewrite <- N2. rewrite <- (map_id (st_fills st)), <- (map_id (st_style_xfs st)), <- (map_id (st_cell_xfs st)).
  destruct root as [g a v cs]. cbn [t_tag t_attrs t_value t_children] in *. rewrite Forall_forall in Y2. rewrite Forall_forall in Y3. rewrite Forall_forall in Y4. apply style_load_doc; [done|done|..].
  - apply (table_said _ _ _ _ _ _ H2 Hap). intros x t Hx _ [_ Hs]. destruct (Y2 _ Hx). by apply font_said.
  - apply (table_said _ _ _ _ _ _ H3 Hap). intros x t Hx _ [_ Hs]. by apply fill_said.
  - apply (table_said _ _ _ _ _ _ H4 Hap). intros x t Hx _ [_ Hs]. by apply border_said.
  - apply (table_said _ _ _ _ _ _ H5 Hap). intros x t Hx Ha [_ Hs]. apply xf_said; auto.
  - apply (table_said _ _ _ _ _ _ H6 Hap). intros x t Hx Ha [_ Hs]. apply xf_said; auto.
Qed.

(** ** What is written *)
Lemma num_shown n : NumSays n (num_tree n).
Proof. split; by vm_compute. Qed.
Lemma color_shown tag c : ColorSays c (color_tree tag c).
Proof.
  destruct c as [ty v]. exists (color_key ty). cbn [cl_type cl_value]. unfold color_tree, leaf, child_attr. cbn [t_attrs cl_type cl_value].
  assert (attrs_of [(color_key ty, v)] = {[color_key ty := v]}) as -> by (by destruct ty; vm_compute).
  split; [destruct ty; unfold color_names; cbn; rewrite !elem_of_cons; tauto|]. split; [by rewrite lookup_singleton|].
  intros k' _ Hk. by rewrite lookup_singleton_ne.
Qed.
Ltac keys := lazy; reflexivity.
Ltac found := lazy [find_attr List.find String.eqb Ascii.eqb Bool.eqb fst snd]; reflexivity.
Lemma scheme_shown s : (scheme_string s, s) ∈ scheme_names.
Proof. unfold scheme_names. rewrite !elem_of_cons. destruct s; cbn; tauto. Qed.
Lemma val_shown tag v : child_attr (val_tree tag v) "val" = Some v.
Proof. by vm_compute. Qed.
Lemma font_shown f : FontSays f (font_tree f).
Proof.
  set (base := [val_tree "sz" (show_N (fo_size f)); color_tree "color" (fo_color f); val_tree "name" (fo_name f);
         val_tree "family" (show_N (fo_family f)); val_tree "scheme" (scheme_string (fo_scheme f))]).
  set (marks := when (fo_bold f) (Node "b" None None []) ++ when (fo_italic f) (Node "i" None None []) ++ when (fo_underline f) (Node "u" None None []) ++ when (fo_double f) (val_tree "u" "double")).
  assert (t_children (font_tree f) = marks ++ base) as Hc. { unfold marks. rewrite <- !app_assoc. reflexivity. }
  assert (Forall (fun c => t_tag c ∈ ["sz"; "color"; "name"; "family"; "scheme"]) base) as Hb. { repeat constructor; cbn; set_solver. }
  assert (forall c, c ∈ marks <-> (fo_bold f = true /\ c = Node "b" None None []) \/ (fo_italic f = true /\ c = Node "i" None None [])
    \/ (fo_underline f = true /\ c = Node "u" None None []) \/ (fo_double f = true /\ c = val_tree "u" "double")) as Hm.
  { intros c. unfold marks. rewrite !elem_of_app. assert (forall b t, c ∈ when b t <-> b = true /\ c = t) as Hw.
    { intros [] t; cbn; rewrite ?elem_of_list_singleton, ?elem_of_nil; naive_solver. } rewrite !Hw. tauto. }
  assert (forall tag, tag ∈ ["sz"; "color"; "name"; "family"; "scheme"] -> List.filter (fun x => String.eqb (t_tag x) tag) (t_children (font_tree f)) = List.filter (fun x => String.eqb (t_tag x) tag) base) as Hfil.
  { intros tag Ht. rewrite Hc, List.filter_app. rewrite filter_none; [done|]. intros c Hin. apply Hm in Hin. apply String.eqb_neq. intros He. rewrite <- He in Ht.
    destruct Hin as [[_ ->]|[[_ ->]|[[_ ->]|[_ ->]]]]; cbn in Ht; set_solver. }
  assert (forall c, c ∈ t_children (font_tree f) -> t_tag c ∉ ["sz"; "color"; "name"; "family"; "scheme"] -> c ∈ marks) as Hin.
  { intros c. rewrite Hc, elem_of_app. intros [?|H] Hn; [done|]. rewrite Forall_forall in Hb. by specialize (Hb _ H). }
  assert (forall tag same (v : string -> Prop) s, tag ∈ ["sz"; "color"; "name"; "family"; "scheme"] -> List.filter (fun x => String.eqb (t_tag x) tag) base = [val_tree tag s] -> v s -> Valued tag (font_tree f) same v) as Hval.
  { intros tag same v s Ht He Hv. exists (Some (val_tree tag s)). split; [cbn; unfold only_child; by rewrite Hfil|]. exists s. split; [apply val_shown|done]. }
  assert (forall c, child_attr (Node c None None []) "val" = None) as Hbare by done.
  constructor.
  - unfold only_tags. rewrite Hc. apply Forall_app. split.
    + apply Forall_forall. intros c Hm'%Hm. destruct Hm' as [[_ ->]|[[_ ->]|[[_ ->]|[_ ->]]]]; cbn; set_solver.
    + eapply Forall_impl; [exact Hb|]. cbn beta. intros c. rewrite !elem_of_cons. tauto.
  - split.
    + intros c Hx Ht. apply Hin in Hx; [|rewrite Ht; set_solver]. apply Hm in Hx. destruct Hx as [[_ ->]|[[_ ->]|[[_ ->]|[_ ->]]]]; done.
    + split; [intros Hf; eexists; rewrite Hc, elem_of_app, Hm; split; [left; left; split; [done|reflexivity]|done]|].
      intros (c & Hx & Ht). apply Hin in Hx; [|rewrite Ht; set_solver]. apply Hm in Hx. destruct Hx as [[? ->]|[[_ ->]|[[_ ->]|[_ ->]]]]; done.
  - split.
    + intros c Hx Ht. apply Hin in Hx; [|rewrite Ht; set_solver]. apply Hm in Hx. destruct Hx as [[_ ->]|[[_ ->]|[[_ ->]|[_ ->]]]]; done.
    + split; [intros Hf; eexists; rewrite Hc, elem_of_app, Hm; split; [left; right; left; split; [done|reflexivity]|done]|].
      intros (c & Hx & Ht). apply Hin in Hx; [|rewrite Ht; set_solver]. apply Hm in Hx. destruct Hx as [[_ ->]|[[? ->]|[[_ ->]|[_ ->]]]]; done.
  - intros c Hx Ht. apply Hin in Hx; [|rewrite Ht; set_solver]. apply Hm in Hx. destruct Hx as [[_ ->]|[[_ ->]|[[_ ->]|[_ ->]]]]; [by left..|]. right. right. by rewrite val_shown.
  - split; [intros Hf; eexists; rewrite Hc, elem_of_app, Hm; split; [left; right; right; left; split; [done|reflexivity]|done]|].
    intros (c & Hx & Ht & Hv). apply Hin in Hx; [|rewrite Ht; set_solver]. apply Hm in Hx. destruct Hx as [[_ ->]|[[_ ->]|[[? ->]|[_ ->]]]]; done.
  - split; [intros Hf; eexists; rewrite Hc, elem_of_app, Hm; split; [left; right; right; right; split; [done|reflexivity]|done]|].
    intros (c & Hx & Ht & Hv). apply Hin in Hx; [|rewrite Ht; set_solver]. apply Hm in Hx. destruct Hx as [[_ ->]|[[_ ->]|[[_ ->]|[? ->]]]]; done.
  - apply (Hval "sz" _ _ (show_N (fo_size f))); [set_solver|reflexivity|done].
  - exists (Some (color_tree "color" (fo_color f))). split; [cbn; unfold only_child; rewrite Hfil by set_solver; reflexivity|apply color_shown].
  - apply (Hval "name" _ _ (fo_name f)); [set_solver|reflexivity|done].
  - apply (Hval "family" _ _ (show_N (fo_family f))); [set_solver|reflexivity|done].
  - apply (Hval "scheme" _ _ (scheme_string (fo_scheme f))); [set_solver|reflexivity|apply scheme_shown].
Qed.
Lemma opt_color_shown tag cs t o : t_children t = cs ++ color_trees tag o \/ t_children t = color_trees tag o ++ cs -> Forall (fun c => t_tag c <> tag) cs -> OptColor tag t o.
Proof.
  intros Hc Hf. assert (List.filter (fun x => String.eqb (t_tag x) tag) cs = []) as Hn.
  { apply filter_none. intros c Hin. apply String.eqb_neq. rewrite Forall_forall in Hf. by apply Hf. }
  assert (List.filter (fun x => String.eqb (t_tag x) tag) (t_children t) = color_trees tag o) as Hfil.
  { assert (List.filter (fun x => String.eqb (t_tag x) tag) (color_trees tag o) = color_trees tag o) as He. { destruct o; [|done]. cbn. by rewrite String.eqb_refl. }
    destruct Hc as [-> | ->]; rewrite List.filter_app, Hn, He; [done|apply app_nil_r]. }
  destruct o as [c|].
  - exists (Some (color_tree tag c)). split; [exact Hfil|apply color_shown].
  - exists None. split; [exact Hfil|done].
Qed.
Lemma color_trees_tag tag o tag' : tag <> tag' -> Forall (fun c => t_tag c <> tag') (color_trees tag o).
Proof. intros Hn. destruct o; repeat constructor. done. Qed.
Lemma color_trees_in tag o (tags : list string) : tag ∈ tags -> Forall (fun c => t_tag c ∈ tags) (color_trees tag o).
Proof. intros Hn. destruct o; repeat constructor. done. Qed.
Lemma fill_shown f : FillSays f (fill_tree f).
Proof.
  eexists _, (pattern_string (fi_pattern f)). split; [reflexivity|]. split; [done|]. split; [by vm_compute|].
  split; [unfold pattern_names; rewrite !elem_of_cons; destruct (fi_pattern f); cbn; tauto|]. split; [|split].
  - apply Forall_app. split; apply color_trees_in; set_solver.
  - eapply opt_color_shown; [by right|by apply color_trees_tag].
  - eapply opt_color_shown; [by left|by apply color_trees_tag].
Qed.
Lemma side_shown tag b : SideSays b (side_tree tag b).
Proof.
  unfold side_tree. destruct (is_none_line (bd_line b)) eqn:Hl.
  - left. split; [by left|]. by destruct (bd_line b).
  - right. exists (line_string (bd_line b)). split; [by vm_compute|]. split; [|split].
    + unfold line_names. rewrite !elem_of_cons. destruct (bd_line b); try done; cbn; tauto.
    + apply color_trees_in. set_solver.
    + apply (opt_color_shown _ []); [by left|constructor].
Qed.
Lemma side_at_shown b tag x : only_child tag (border_tree b) (side_tree tag x) -> SideAt tag (border_tree b) x.
Proof. intros Ho. exists (Some (side_tree tag x)). split; [done|apply side_shown]. Qed.
Lemma border_shown b : BorderSays b (border_tree b).
Proof.
  assert (forall tag x, t_tag (side_tree tag x) = tag) as Ht by (intros tag x; unfold side_tree; by destruct (is_none_line _)).
  constructor; [unfold only_tags; cbn [border_tree t_children]; do 5 (apply List.Forall_cons; [rewrite Ht; set_solver|]); constructor|..];
    apply side_at_shown; unfold only_child; cbn [border_tree t_children List.filter]; rewrite !Ht; reflexivity.
Qed.
Lemma flag_shown l k b : fresh_keys l = true -> find_attr l k = flag_if b -> Switch false (opt_attrs l !! k) b.
Proof. intros Hl Hf. rewrite opt_attrs_lookup, Hf by done. destruct b; [right; left; by split; [left|]|by left]. Qed.
Lemma xf_shown w x : XfSays w x (xf_tree w x).
Proof.
  unfold xf_tree. set (l := [("numFmtId", _); _; _; _; _; _; _; _; _; _; _]). assert (fresh_keys l = true) as Hl by keys.
  assert (forall k, child_attr (Node "xf" (Some (opt_attrs l)) None (when (xf_wrap x || not_vnone (xf_valign x) || not_hnone (xf_halign x)) (align_tree x))) k = opt_attrs l !! k) as Hk by done.
  assert (forall k n, find_attr l k = Some (show_N n) -> NumberAt (Node "xf" (Some (opt_attrs l)) None (when (xf_wrap x || not_vnone (xf_valign x) || not_hnone (xf_halign x)) (align_tree x))) k n) as Hn.
  { intros k n Hf. right. by rewrite Hk, opt_attrs_lookup, Hf. }
  constructor; rewrite ?Hk; try (apply flag_shown; [done|found]); try (apply Hn; found).
  - intros ->. apply Hn. found.
  - cbn [t_children]. destruct (xf_wrap x || not_vnone (xf_valign x) || not_hnone (xf_halign x)) eqn:Hw; cbn [when].
    + right. eexists. split; [reflexivity|]. split; [done|]. clear. unfold align_tree. set (l := [("wrapText", _); _; _]). assert (fresh_keys l = true) as Hl by keys.
      assert (forall k, child_attr (Node "alignment" (Some (opt_attrs l)) None []) k = opt_attrs l !! k) as Hk by done. unfold AlignSays. rewrite !Hk. split; [apply flag_shown; [done|found]|].
      rewrite !opt_attrs_lookup by done. split.
      * assert (find_attr l "horizontal" = if not_hnone (xf_halign x) then Some (halign_string (xf_halign x)) else None) as -> by found.
        unfold Named, halign_names. destruct (xf_halign x); cbn; rewrite ?elem_of_cons; tauto.
      * assert (find_attr l "vertical" = if not_vnone (xf_valign x) then Some (valign_string (xf_valign x)) else None) as -> by found.
        unfold Named, valign_names. destruct (xf_valign x); cbn; rewrite ?elem_of_cons; tauto.
    + left. apply orb_false_iff in Hw as [[Hw Hv]%orb_false_iff Hh]. split; [done|]. split; [done|]. by destruct (xf_valign x), (xf_halign x).
Qed.
Lemma forall2_map {A} (says : A -> tree -> Prop) (f : A -> tree) l : (forall x, says x (f x)) -> Forall2 says l (map f l).
Proof. intros H. induction l; constructor; auto. Qed.
Lemma styles_shown g a st cs : Forall (fun t => t_tag t ∉ style_tags) cs -> StylesSay false (Node g a None (style_trees st ++ cs)) st.
Proof.
  intros Hcs. assert (forall tag, tag ∈ style_tags -> List.filter (fun x => String.eqb (t_tag x) tag) cs = []) as Hn.
  { intros tag Ht. apply filter_none. intros t Hin. apply String.eqb_neq. pose proof (not_style_tag _ _ Hcs Ht) as Hf. rewrite Forall_forall in Hf. by apply Hf. }
  assert (forall tag ts, tag ∈ style_tags -> List.filter (fun x => String.eqb (t_tag x) tag) (style_trees st) = [ts] -> only_child tag (Node g a None (style_trees st ++ cs)) ts) as Ho.
  { intros tag ts Ht He. unfold only_child. cbn [t_children]. by rewrite List.filter_app, He, Hn. }
  constructor; right; (eexists; split; [apply Ho; [unfold style_tags; rewrite !elem_of_cons; tauto|reflexivity]|]); cbn [nums_tree fonts_tree fills_tree borders_tree xfs_tree t_children]; apply forall2_map; intros x; (split; [done|]).
  - apply num_shown.
  - apply font_shown.
  - apply fill_shown.
  - apply border_shown.
  - apply xf_shown.
  - apply xf_shown.
Qed.
Lemma styles_counted g a st cs : Forall (fun t => t_tag t ∉ style_tags) cs -> Counted (Node g a None (style_trees st ++ cs)).
Proof.
  intros Hcs tag Htag. assert (List.filter (fun x => String.eqb (t_tag x) tag) cs = []) as Hn.
  { apply filter_none. intros t Hin. apply String.eqb_neq. assert (tag ∈ style_tags) as Ht by (unfold style_order in Htag; unfold style_tags; rewrite !elem_of_cons in *; tauto).
    pose proof (not_style_tag _ _ Hcs Ht) as Hf. rewrite Forall_forall in Hf. by apply Hf. }
  unfold only_child. cbn [t_children]. rewrite List.filter_app, Hn, app_nil_r. unfold style_order in Htag. rewrite !elem_of_cons, elem_of_nil in Htag.
  destruct_or! Htag; subst tag; (eexists; split; [reflexivity|]); unfold nums_tree, fonts_tree, fills_tree, borders_tree, xfs_tree, count_attr; cbn [t_children child_attr t_attrs]; by rewrite map_length.
Qed.
Section with_env.
Context `{E : Env} `{Hs : Hashes}.
Lemma style_written st path o o' p root : of_open o !! path = Some p -> Doc (op_doc p) root -> t_value root = None -> Forall (fun t => t_tag t ∉ style_tags) (t_children root) ->
  style_close (mkStylePart st path) o = (o', Ok tt) -> of_open o' !! path = None /\ exists e text root' nsl, of_archive o' !! path = Some e /\ part_bytes e = Ok (prolog +:+ text)
  /\ Renders (Some nsl) root' text /\ NsKept (d_ns (op_doc p)) nsl /\ t_tag root' = t_tag root /\ t_attrs root' = t_attrs root /\ StylesSay false root' st
  /\ others style_tags root' = t_children root /\ Counted root' /\ map t_tag (t_children root') = style_order ++ map t_tag (t_children root).
Proof.
  intros Hp Hd Hv Hf Hc. destruct root as [g a v cs]. cbn [t_value t_children t_tag t_attrs] in *. subst v.
  destruct (save_styles_doc (op_doc p) _ _ _ _ st Hd Hf) as (d1 & Hsv & Hd1 & Hns1).
  pose proof (with_doc_spec path (save_styles st) o p d1 (Ok tt) Hp Hsv) as Hw. set (o1 := mkOffice _ _) in Hw.
  destruct (close_doc o1 path (mkOpen d1 (op_ct p) (op_ext p) (op_ext_type p)) (Node g a None (style_trees st ++ cs))) as (e & Hcl & He1 & He2 & He3 & Hb).
  { unfold o1. cbn. by rewrite lookup_insert. } { done. }
  unfold style_close, bind in Hc. cbn [sp_path sp_styles] in Hc. rewrite Hw in Hc. cbn [rmap rbind] in Hc. rewrite Hcl in Hc. injection Hc as <-. split; [cbn; apply lookup_delete|].
  exists e. eexists. exists (Node g a None (style_trees st ++ cs)). eexists. split; [cbn; apply lookup_insert|]. split; [exact Hb|]. split; [apply render_renders_mut|].
  split; [cbn [op_doc]; rewrite Hns1; apply ns_kept|]. split; [done|]. split; [done|]. split; [by apply styles_shown|].
  split; [|split; [by apply styles_counted|cbn [t_children]; by rewrite map_app]].
  unfold others. cbn [t_children]. rewrite filter_app. assert (filter (fun t => t_tag t ∉ style_tags) (style_trees st) = []) as ->.
  { unfold style_trees. rewrite !filter_cons_False; [done|..]; cbn; intros Hn; apply Hn; unfold style_tags; rewrite !elem_of_cons; tauto. }
  cbn [app]. clear -Hf. induction Hf as [|x cs Hx _ IH]; [done|]. rewrite filter_cons_True by done. by rewrite IH.
Qed.

(** ** The styles in a session *)
Lemma add_style name s : wb_style (add_sheet name s).1.1 = wb_style s.1.
Proof. unfold add_sheet. by destruct (ws_new name _) as [[l [r o]] x]. Qed.
Lemma delete_style w s : wb_style (wb_delete_sheet w s).1.1 = wb_style s.1.
Proof. unfold wb_delete_sheet. by destruct (delete_sheet w _) as [[l [r o]] x]. Qed.
Lemma call_styles c s : let b := x_book (call_step c s).1.1 in sp_styles (wb_style b) = (style_run (option_list (request c)) (sp_styles (wb_style (x_book s.1)))).1.
Proof.
  cbn zeta. assert (forall b', wb_style b' = wb_style (x_book s.1) -> sp_styles (wb_style b') = (style_run (option_list None) (sp_styles (wb_style (x_book s.1)))).1) as H0 by (by intros b' ->).
  assert (forall h m, wb_style (x_book (use h m s).1.1) = wb_style (x_book s.1)) as Hu. { intros h m. unfold use. destruct (handle h s) as [w|]; [|done]. by destruct (m _) as [[w1 t1] r]. }
  destruct c; cbn [call_step request]; try (apply H0, Hu); unfold get_worksheet; rewrite ?book_give, ?book_pure, ?book_spend; try (by apply H0); try (by apply H0, (add_style _ (x_book s.1, x_office s.1))).
  - apply H0. unfold rename_sheet. destruct (existsb _ _); [done|]. by destruct (rename_first _ _ _).
  - change (option_list (Some s0)) with [s0]. cbn [style_run]. unfold bind, wb_style_id. by destruct (get_style_id _ _) as [st [r|r|r]].
  - apply H0. by destruct (handle h s).
  - apply H0. destruct (handle h s) as [w|]; [|done]. unfold on_wb_office. cbn [fst snd]. by destruct (ws_flush w _).
  - apply H0. destruct (handle h s) as [w|]; [|done]. apply (delete_style w (x_book s.1, x_office s.1)).
Qed.
Lemma style_run_app l1 l2 st : style_run (l1 ++ l2) st = ((style_run l2 (style_run l1 st).1).1, (style_run l1 st).2 ++ (style_run l2 (style_run l1 st).1).2).
Proof.
  revert st. induction l1 as [|x l1 IH]; intros st; [cbn [app style_run fst snd]; by destruct (style_run l2 st)|]. cbn [app style_run]. destruct (get_style_id x st) as [st1 r]. rewrite IH.
  by destruct (style_run l1 st1) as [st2 rs].
Qed.
Lemma calls_styles cs : forall s s', calls cs s = Some s' -> sp_styles (wb_style (x_book s'.1)) = (style_run (omap request cs) (sp_styles (wb_style (x_book s.1)))).1.
Proof.
  induction cs as [|c cs IH]; intros s s' Hc; [by injection Hc as <-|]. apply calls_cons in Hc as [_ Hc]. rewrite (IH _ _ Hc), call_styles.
  change (omap request (c :: cs)) with (match request c with Some y => y :: omap request cs | None => omap request cs end).
  destruct (request c) as [q|]; [|done]. change (option_list (Some q)) with [q]. cbn [style_run]. destruct (get_style_id q _) as [st1 r]. cbn [fst]. by destruct (style_run (omap request cs) st1).
Qed.

(** ** From file to file *)
Lemma own_style b : sp_path (wb_style b) ∈ own_parts b.
Proof. unfold own_parts. rewrite !elem_of_cons. tauto. Qed.
Theorem style_flow file fs0 l0 data root ns st x0 cs s t f path fs tr fs' :
  Stored fs0 file l0 -> excel_new (Some file) fs0 = Ok x0 -> (sp_path (wb_style (x_book x0)), data) ∈ l0 -> sp_path (wb_style (x_book x0)) <> content_types_name ->
  ReadsIn data root ns -> t_value root = None -> StylesSay true root st -> styles_typed st ->
  sp_styles (wb_style (x_book x0)) = taken st
  /\ (calls cs (x0, []) = Some s -> excel_save t f path s.1 fs = (tr, Ok tt) -> last tr = Some fs' ->
    exists l, Stored fs' path l /\ StylesShown l (sp_path (wb_style (x_book x0))) ns root (style_run (omap request cs) (taken st)).1).
Proof.
  intros Hst Hx Hin Hct Hr Hv Hsay Hty. destruct (sources_opened _ _ _ Hx) as (o & Ho & S). destruct (reopened_file _ _ _ _ Hst Ho) as (_ & Hparts & _).
  destruct (Hparts _ _ Hct Hin) as (e & He & Hb). destruct (so_style _ _ _ S) as (p0 & d' & Hsrc & Hload & Hop).
  destruct (reads_in _ _ _ Hr) as (d & Hrd & Hd & Hn & Ha & Hns & Hdn). pose proof (source_read _ _ _ _ _ _ _ Hsrc He Hb Hrd) as Hp0.
  destruct (styles_said d root st Hd Ha Hsay Hty) as (d1 & Hl1 & Hd1 & Hns1). rewrite Hp0, Hl1 in Hload. injection Hload as <- Hstyles. split; [by rewrite <- Hstyles|].
  intros Hcs Hsave Hlast. destruct (new_linv _ _ _ Hx) as [I0 _]. destruct (own_stays _ _ _ I0 Hcs) as [Hown Hopen]. destruct (calls_effect _ _ _ I0 Hcs) as [I _]. cbn [fst] in *.
  destruct (own_saved t f path s fs tr fs' I Hsave Hlast) as (o' & l & Hfl & Hstored & Hbytes). exists l. split; [done|].
  assert (sp_path (wb_style (x_book s.1)) = sp_path (wb_style (x_book x0))) as Hpath. { pose proof Hown as Hq. unfold own_parts in Hq. by injection Hq. }
  destruct (fl_style _ _ _ Hfl) as (o1 & o2 & W1 & W2 & W3). rewrite Hpath in *. rewrite (Hopen _ (own_style _)), Hop in W1.
  pose proof (calls_styles _ _ _ Hcs) as Hrun. cbn [fst] in Hrun. rewrite <- Hstyles in Hrun. rewrite <- Hrun.
  assert (wb_style (x_book s.1) = mkStylePart (sp_styles (wb_style (x_book s.1))) (sp_path (wb_style (x_book x0)))) as Hsp. { rewrite <- Hpath. by destruct (wb_style (x_book s.1)). }
  rewrite Hsp in W2.
  destruct (style_written _ _ _ _ _ _ W1 Hd1 Hv (others_out _ _) W2) as (C1 & e2 & text & root' & nsl & C2 & C3 & C4 & CN & C5 & C6 & C7 & C8 & C9 & C10).
  destruct (W3 C1) as [F1 F2]. exists text, root', nsl. split.
  { eapply Hbytes; [rewrite Hown; apply own_style|done|by rewrite F2|done]. }
  split; [done|]. cbn [op_doc] in CN. rewrite Hns1, Hdn in CN. split; [done|]. split; [done|]. split; [done|]. split; [done|]. split; [by rewrite C8|]. split; [done|]. exact C10.
Qed.
End with_env.
