(** What saving leaves of the elements the library does not manage, and their order. *)
From Verif.Model Require Import Excel.
From Verif.Spec Require Import XmlSpec XmlRepr XmlHistory SheetSpec BookSpec OpenSpec.
From Verif.Proofs Require Import BaseFacts XmlReadFacts XmlHistFacts SheetDocFacts.
Open Scope N_scope.

Lemma filter_dec {A} (P : A -> Prop) `{!forall x, Decision (P x)} (p : A -> bool) l : (forall x, p x = true <-> P x) -> filter P l = List.filter p l.
Proof.
  intros Hp. induction l as [|x l IH]; [done|]. rewrite filter_cons, IH. cbn [List.filter]. specialize (Hp x).
  destruct (decide (P x)), (p x); try done; [by assert (false = true) by (by apply Hp)|exfalso; by apply n, Hp].
Qed.
(** [order] has the names of [schema] that are not among [late], in the same order. *)
Definition listed (order : list string) (t : tree) : bool := existsb (String.eqb (t_tag t)) order.
Definition subset_of (schema late order tags : list string) : bool :=
  forallb (fun x => existsb (String.eqb x) schema && negb (existsb (String.eqb x) late)) order
  && forallb (fun x => existsb (String.eqb x) late || existsb (String.eqb x) order) schema
  && forallb (fun x => forallb (fun y => negb (order_index order x <=? order_index order y) || (order_index schema x <=? order_index schema y)) order) order
  && forallb (fun x => order_index order x <? usize_max) order
  && forallb (fun x => existsb (String.eqb x) order) tags && (N.of_nat (length schema) <=? usize_max).
Lemma existsb_elem x l : existsb (String.eqb x) l = true <-> x ∈ l.
Proof.
  rewrite existsb_exists. split.
  - intros (y & Hy & ->%String.eqb_eq). by apply elem_of_list_In.
  - intros Hx. exists x. split; [by apply elem_of_list_In|apply String.eqb_refl].
Qed.
Lemma existsb_not_elem x l : existsb (String.eqb x) l = false <-> x ∉ l.
Proof. rewrite <- not_true_iff_false. by rewrite existsb_elem. Qed.
Lemma forallb_elem {A} (f : A -> bool) l x : forallb f l = true -> x ∈ l -> f x = true.
Proof. rewrite forallb_forall. intros Hf Hx. apply Hf. by apply elem_of_list_In. Qed.
Lemma sorted_split {A} (key : A -> N) (p : A -> bool) m l : StronglySorted (fun x y => key x <= key y) l -> (forall x, x ∈ l -> p x = true -> key x < m) ->
  (forall x, x ∈ l -> p x = false -> key x = m) -> l = List.filter p l ++ List.filter (fun x => negb (p x)) l.
Proof.
  intros Hs. induction Hs as [|x l Hl IH Hx]; intros H1 H2; [done|]. cbn [List.filter].
  assert (l = List.filter p l ++ List.filter (fun x => negb (p x)) l) as E0.
  { apply IH; intros y Hy; [apply H1|apply H2]; by right. }
  destruct (p x) eqn:Ep; cbn [negb app]; [by f_equal|].
  assert (List.filter p l = []) as Hn.
  { apply filter_none. intros y Hy. destruct (p y) eqn:Ey; [|done]. exfalso. rewrite Forall_forall in Hx. specialize (Hx y Hy).
    pose proof (H1 y ltac:(by right) Ey). pose proof (H2 x ltac:(by left) Ep). lia. }
  rewrite Hn in *. cbn [app] in *. by f_equal.
Qed.
Lemma sorted_filter {A} (R : A -> A -> Prop) (p : A -> bool) l : StronglySorted R l -> StronglySorted R (List.filter p l).
Proof.
  induction 1 as [|x l Hl IH Hx]; [constructor|]. cbn. destruct (p x); [|done]. constructor; [done|]. rewrite Forall_forall in Hx. apply Forall_forall.
  intros y Hy. apply Hx. apply elem_of_list_In in Hy. apply filter_In in Hy as [Hy _]. by apply elem_of_list_In.
Qed.
Lemma sorted_weaken {A} (R Q : A -> A -> Prop) l : (forall x y, x ∈ l -> y ∈ l -> R x y -> Q x y) -> StronglySorted R l -> StronglySorted Q l.
Proof.
  intros Hrq Hs. induction Hs as [|x l Hl IH Hx]; [constructor|]. constructor.
  - apply IH. intros y z Hy Hz. apply Hrq; by right.
  - rewrite Forall_forall in Hx. apply Forall_forall. intros y Hy. apply Hrq; [by left|by right|by apply Hx].
Qed.
Lemma ordered schema late order tags root root' : subset_of schema late order tags = true ->
  left_alone order tags (others tags root) (t_children root') ->
  StronglySorted (fun x y => order_index order (t_tag x) <= order_index order (t_tag y)) (t_children root') -> Ordered schema late root root'.
Proof.
  intros Hsub Hla Hs. unfold subset_of in Hsub. rewrite !andb_true_iff in Hsub. destruct Hsub as (((((S1 & S2) & S3) & S4) & S5) & S6).
  assert (forall t, listed order t = true <-> placed schema late t) as Hp.
  { intros t. unfold listed, placed. rewrite existsb_elem. split.
    - intros Ht. pose proof (forallb_elem _ _ _ S1 Ht) as Hx. apply andb_true_iff in Hx as [H1%existsb_elem H2%negb_true_iff]. by apply existsb_not_elem in H2.
    - intros [H1 H2]. pose proof (forallb_elem _ _ _ S2 H1) as Hx. apply orb_true_iff in Hx as [Hx%existsb_elem|Hx%existsb_elem]; done. }
  assert (forall t, listed order t = false -> order_index order (t_tag t) = usize_max) as Hun.
  { intros t Ht. unfold order_index. by rewrite order_index_from_none. }
  exists (List.filter (listed order) (t_children root')). split; [|split].
  - rewrite (sorted_split (fun t => order_index order (t_tag t)) (listed order) usize_max (t_children root')) at 1; [|done| |].
    + f_equal. rewrite Hla.
      * rewrite (filter_dec _ (fun t => negb (listed order t))).
        -- unfold others. rewrite (filter_dec _ (fun t => negb (existsb (String.eqb (t_tag t)) tags))).
           ++ induction (t_children root) as [|t cs IH]; [done|]. cbn [List.filter]. destruct (existsb (String.eqb (t_tag t)) tags) eqn:Et; cbn [negb List.filter]; rewrite IH; [|done].
              apply existsb_elem in Et. pose proof (forallb_elem _ _ _ S5 Et) as Hx. unfold listed. by rewrite Hx.
           ++ intros t. rewrite negb_true_iff. apply existsb_not_elem.
        -- intros t. rewrite negb_true_iff, <- not_true_iff_false. by rewrite Hp.
      * intros x y Hx%negb_true_iff Hy%negb_true_iff. by rewrite !Hun.
      * intros t Ht. apply negb_false_iff. unfold listed. exact (forallb_elem _ _ _ S5 Ht).
    + intros t _ Ht. apply existsb_elem in Ht. pose proof (forallb_elem _ _ _ S4 Ht). by apply N.ltb_lt.
    + intros t _ Ht. by apply Hun.
  - apply Forall_forall. intros t Ht. apply Hp. apply elem_of_list_In in Ht. by apply filter_In in Ht as [_ Ht].
  - eapply sorted_weaken; [|apply sorted_filter; exact Hs]. cbn beta. intros x y Hx Hy Hle. apply order_key_precede; [by apply N.leb_le|].
    apply elem_of_list_In in Hx. apply filter_In in Hx as [_ Hx%existsb_elem]. apply elem_of_list_In in Hy. apply filter_In in Hy as [_ Hy%existsb_elem].
    pose proof (forallb_elem _ _ _ S3 Hx) as Hxy. cbn beta in Hxy. pose proof (forallb_elem _ _ _ Hxy Hy) as Hz. cbn beta in Hz.
    apply orb_true_iff in Hz as [Hz%negb_true_iff%N.leb_gt|Hz%N.leb_le]; lia.
Qed.
Lemma rest_kept order tags trees root root' : left_alone order tags (others tags root) (t_children root') -> Permutation (t_children root') (trees ++ others tags root) ->
  Forall (fun t => t_tag t ∈ tags) trees -> RestKept tags root root'.
Proof.
  intros Hla Hp Ht. split.
  - unfold others at 1. rewrite Hp, filter_app. assert (filter (fun t => t_tag t ∉ tags) trees = []) as ->.
    { clear Hp. induction Ht as [|t l H1 _ IH]; [done|]. rewrite filter_cons_False; [exact IH|]. intros Hn. by apply Hn. }
    cbn [app]. unfold others. clear. induction (t_children root) as [|t cs IH]; [done|]. destruct (decide (t_tag t ∉ tags)).
    + rewrite filter_cons_True by done. rewrite filter_cons_True by done. by rewrite IH.
    + by rewrite filter_cons_False by done.
  - intros tag Htag. rewrite Hla.
    + unfold others. induction (t_children root) as [|t cs IH]; [done|]. rewrite filter_cons. cbn [List.filter]. destruct (decide (t_tag t ∉ tags)) as [Hn|Hn]; [cbn [List.filter]; by rewrite IH|].
      rewrite IH. apply dec_stable in Hn. destruct (String.eqb_spec (t_tag t) tag) as [E0|]; [|done]. by rewrite E0 in Hn.
    + intros x y Hx%String.eqb_eq Hy%String.eqb_eq. congruence.
    + intros t Hin. apply String.eqb_neq. by intros <-.
Qed.
