(** Facts about relationship lists. *)
From Verif.Model Require Import Relations.
From Verif.Spec Require Import RelSpec.
From Verif.Proofs Require Import BaseFacts.

Lemma rid_inj n m : rid n = rid m -> n = m.
Proof. unfold rid. cbn. intros [= H]. by apply show_N_inj. Qed.

Lemma existsb_rid l n : existsb (fun x => seqb (r_id x) (rid n)) l = true <-> rid n ∈ map r_id l.
Proof.
  rewrite existsb_exists, elem_of_list_fmap. split.
  - intros (x & Hx & E). exists x. split; [symmetry; by apply String.eqb_eq|by apply elem_of_list_In].
  - intros (x & E & Hx). exists x. split; [by apply elem_of_list_In|]. apply String.eqb_eq. done.
Qed.

Lemma next_rid_spec f l n : exists j, next_rid f l n = n + N.of_nat j /\ (j <= f)%nat
  /\ (forall i, (i < j)%nat -> rid (n + N.of_nat i) ∈ map r_id l)
  /\ ((j < f)%nat -> rid (n + N.of_nat j) ∉ map r_id l).
Proof.
  revert n. induction f as [|f IH]; intros n; cbn [next_rid].
  - exists 0%nat. split; [lia|]. split; [lia|]. split; [lia|lia].
  - destruct (existsb _ l) eqn:E.
    + apply existsb_rid in E. destruct (IH (n + 1)) as (j & -> & Hj & Hlt & Hnot).
      exists (S j). split; [lia|]. split; [lia|]. split.
      * intros [|i] Hi; [by rewrite N.add_0_r|]. replace (n + N.of_nat (S i)) with (n + 1 + N.of_nat i) by lia.
        apply Hlt. lia.
      * intros Hl. replace (n + N.of_nat (S j)) with (n + 1 + N.of_nat j) by lia. apply Hnot. lia.
    + exists 0%nat. split; [lia|]. split; [lia|]. split; [lia|]. intros _.
      rewrite N.add_0_r, <- existsb_rid, E. done.
Qed.

Lemma get_next_spec r : exists k, get_next_relationship_id r = rid k
  /\ N.of_nat (length (rl_rels r)) < k <= 2 * N.of_nat (length (rl_rels r)) + 1
  /\ rid k ∉ rel_ids r
  /\ (forall j, N.of_nat (length (rl_rels r)) < j < k -> rid j ∈ rel_ids r).
Proof.
  unfold get_next_relationship_id, rel_ids. set (l := rl_rels r).
  destruct (next_rid_spec (length l) l (N.of_nat (length l) + 1)) as (j & E & Hj & Hlt & Hnot).
  exists (N.of_nat (length l) + 1 + N.of_nat j). rewrite E. split; [done|]. split; [lia|]. split.
  - destruct (decide (j = length l)) as [->|Hne]; [|apply Hnot; lia].
    (* all of rid (len+1) .. rid (2 len) are used: they are all the ids there are *)
    intros Hin.
    set (cand := map (fun i => rid (N.of_nat (length l) + 1 + N.of_nat i)) (seq 0 (S (length l)))).
    assert (NoDup cand) as Hnd.
    { apply NoDup_fmap_2_strong; [|apply NoDup_seq]. intros a b _ _ H. apply rid_inj in H. lia. }
    assert (incl cand (map r_id l)) as Hincl.
    { intros x Hx. apply in_map_iff in Hx as (i & <- & Hi). apply in_seq in Hi.
      apply elem_of_list_In. destruct (decide (i = length l)) as [->|]; [done|]. apply Hlt. lia. }
    apply NoDup_ListNoDup in Hnd. pose proof (NoDup_incl_length Hnd Hincl) as Hlen.
    unfold cand in Hlen. rewrite !map_length, seq_length in Hlen. lia.
  - intros i Hi. replace i with (N.of_nat (length l) + 1 + N.of_nat (N.to_nat (i - N.of_nat (length l) - 1))) by lia.
    apply Hlt. lia.
Qed.

Lemma add_ids c p n r : rel_ids (set_new_relationship c p n r).1 = rel_ids r ++ [get_next_relationship_id r].
Proof. unfold rel_ids, set_new_relationship. cbn. by rewrite map_app. Qed.
Lemma add_nodup c p n r : NoDup (rel_ids r) -> NoDup (rel_ids (set_new_relationship c p n r).1).
Proof.
  intros H. rewrite add_ids. apply NoDup_app. split; [done|]. split; [|apply NoDup_singleton].
  intros x Hx. rewrite elem_of_list_singleton. intros ->.
  destruct (get_next_spec r) as (k & E & _ & Hn & _). rewrite E in Hx. done.
Qed.
Lemma filter_sublist {A} (f : A -> bool) l : sublist (List.filter f l) l.
Proof. induction l as [|a l IH]; cbn; [constructor|]. destruct (f a); by constructor. Qed.
Lemma NoDup_sublist {A} (l k : list A) : sublist l k -> NoDup k -> NoDup l.
Proof.
  induction 1 as [|x l k Hs IH|x l k Hs IH]; [done| |]; rewrite NoDup_cons; intros [Hx Hk]; [|by apply IH].
  apply NoDup_cons. split; [|by apply IH]. intros Hin. apply Hx. eapply elem_of_submseteq; [exact Hin|].
  by apply sublist_submseteq.
Qed.
Lemma sublist_map {A B} (f : A -> B) l k : sublist l k -> sublist (map f l) (map f k).
Proof. induction 1; cbn; by constructor. Qed.
Lemma run_rel_nodup o r : NoDup (rel_ids r) -> NoDup (rel_ids (run_rel o r)).
Proof.
  destruct o as [c p n|ty c p n|p]; cbn [run_rel]; intros H.
  - by apply add_nodup.
  - unfold get_target_by_type. destruct (List.find _ _); [done|]. by apply add_nodup.
  - unfold rel_ids, delete_relationship, set_rels. cbn.
    eapply NoDup_sublist; [|exact H]. apply sublist_map, filter_sublist.
Qed.
Lemma run_rels_nodup os r : NoDup (rel_ids r) -> NoDup (rel_ids (run_rels os r)).
Proof. revert r. induction os as [|o os IH]; intros r H; [done|]. cbn. by apply IH, run_rel_nodup. Qed.

(** ** Paths *)
Lemma strip_slash t : match strip_prefix "/" t with Some p => t = String "/" p | None => forall p, t <> String "/" p end.
Proof.
  destruct t as [|a t]; cbn [strip_prefix]; [by intros p|]. unfold aeqb. destruct (Ascii.eqb_spec "/" a) as [<-|Hn]; [done|].
  intros p [= E _]. by apply Hn.
Qed.
Lemma Resolves_strip folder t : Resolves folder t
  match strip_prefix "/" t with Some p => p | None => folder +:+ t end.
Proof.
  pose proof (strip_slash t) as H. destruct (strip_prefix "/" t) as [p|] eqn:E; [subst; constructor|].
  destruct t as [|a t]; [rewrite app_nil_r_s; constructor|]. constructor. intros ->. by apply (H t).
Qed.
Lemma Resolves_det folder t p q : Resolves folder t p -> Resolves folder t q -> p = q.
Proof. intros H1 H2. inversion H1; subst; inversion H2; subst; done. Qed.

Lemma strip_prefix_inv p s r : strip_prefix p s = Some r -> s = p +:+ r.
Proof.
  revert s. induction p as [|a p IH]; intros s; cbn [strip_prefix]; [by intros [= ->]|].
  destruct s as [|b s]; [done|]. unfold aeqb. destruct (Ascii.eqb_spec a b) as [<-|]; [|done].
  intros H. cbn. by rewrite <- (IH _ H).
Qed.
Lemma split_at_sub_cons pat a s : split_at_sub pat (String a s)
  = match strip_prefix pat (String a s) with
    | Some r => Some ("", r)
    | None => match split_at_sub pat s with Some (l, r) => Some (String a l, r) | None => None end
    end.
Proof. done. Qed.
Lemma split_rels dir rest : no_rels dir ->
  split_at_sub "_rels" (dir +:+ "/_rels" +:+ rest) = Some (dir +:+ "/", rest).
Proof.
  induction dir as [|a dir IH]; intros Hn; [by cbn|].
  change (String a dir +:+ ?x) with (String a (dir +:+ x)). rewrite split_at_sub_cons.
  destruct (strip_prefix "_rels" (String a (dir +:+ "/_rels" +:+ rest))) as [r|] eqn:E.
  - exfalso. cbn [strip_prefix] in E.
    assert (forall (x y : string), x +:+ String "/" y = x +:+ "/" +:+ y) as _ by done.
    unfold aeqb in E.
    repeat match type of E with
    | context [Ascii.eqb ?c ?x] => destruct (Ascii.eqb_spec c x) as [?|]; [subst|done]
    | context [match ?d +:+ _ with _ => _ end] => is_var d; destruct d as [|? ?]; cbn [String.append strip_prefix] in E; [done|]
    end.
    eapply (Hn "" _). cbn. done.
  - rewrite IH; [done|]. intros x y ->. apply (Hn (String a x) y). done.
Qed.
Lemma split_last_app s a : split_last (s +:+ String a "") = Some (s, a).
Proof. induction s as [|b s IH]; [done|]. cbn [String.append split_last]. by rewrite IH. Qed.
Lemma relative_path r folder : OwnerFolder (rl_path r) folder -> get_relative_path r = Ok folder.
Proof.
  unfold get_relative_path. intros H. destruct H as [rest|dir rest Hn].
  - by cbn.
  - rewrite split_rels by done. rewrite split_last_app. done.
Qed.
Lemma resolve_spec r folder t : OwnerFolder (rl_path r) folder ->
  exists p, resolve_target r t = Ok p /\ Resolves folder t p.
Proof.
  intros H. unfold resolve_target. rewrite (relative_path _ _ H). cbn [rbind].
  exists match strip_prefix "/" t with Some p => p | None => folder +:+ t end.
  split; [by destruct (strip_prefix "/" t)|apply Resolves_strip].
Qed.
Lemma resolve_set_rels r l t : resolve_target (set_rels r l) t = resolve_target r t.
Proof. done. Qed.

(** ** First match *)
Lemma find_split {A} (f : A -> bool) l :
  match List.find f l with
  | Some x => exists l1 l2, l = l1 ++ x :: l2 /\ f x = true /\ Forall (fun y => f y = false) l1
  | None => Forall (fun y => f y = false) l
  end.
Proof.
  induction l as [|a l IH]; cbn; [constructor|]. destruct (f a) eqn:E.
  - exists [], l. split; [done|]. split; [done|constructor].
  - destruct (List.find f l) as [x|].
    + destruct IH as (l1 & l2 & -> & Hx & Hl). exists (a :: l1), l2. split; [done|]. split; [done|].
      by apply List.Forall_cons.
    + by apply List.Forall_cons.
Qed.
Lemma find_first {A} (f : A -> bool) l1 x l2 : f x = true -> Forall (fun y => f y = false) l1 ->
  List.find f (l1 ++ x :: l2) = Some x.
Proof. intros Hx. induction 1 as [|y l1 Hy _ IH]; cbn; [by rewrite Hx|by rewrite Hy]. Qed.

Lemma starts_slash p : (if starts_with "/" p then p else "/" +:+ p) = absolute p.
Proof.
  unfold starts_with, absolute. destruct p as [|a p]; [done|]. cbn [strip_prefix]. unfold aeqb.
  rewrite (Ascii.eqb_sym a "/"). by destruct (Ascii.eqb "/" a).
Qed.
Lemma delete_rels p r : rl_rels (delete_relationship p r)
  = List.filter (fun x => negb (seqb (r_target x) (absolute p))) (rl_rels r).
Proof. unfold delete_relationship. by rewrite starts_slash. Qed.

(** The first relationship of a type stays the first one. *)
Definition first_of (ty : string) (x : rel) (r : relations) : Prop :=
  exists l1 l2, rl_rels r = l1 ++ x :: l2 /\ r_type x = ty /\ Forall (fun y => r_type y <> ty) l1.
Lemma Forall_type ty l : Forall (fun y => seqb (r_type y) ty = false) l <-> Forall (fun y => r_type y <> ty) l.
Proof.
  assert (forall y, seqb (r_type y) ty = false <-> r_type y <> ty) as Hx by (intros y; apply String.eqb_neq).
  split; apply List.Forall_impl; intros y; apply Hx.
Qed.
Lemma find_first_of ty r : match List.find (fun x => seqb (r_type x) ty) (rl_rels r) with
  | Some x => first_of ty x r | None => Forall (fun y => r_type y <> ty) (rl_rels r) end.
Proof.
  pose proof (find_split (fun x => seqb (r_type x) ty) (rl_rels r)) as H.
  destruct (List.find _ _) as [x|]; [|by apply Forall_type].
  destruct H as (l1 & l2 & H1 & H2 & H3). exists l1, l2. split; [done|]. split; [by apply String.eqb_eq|].
  by apply Forall_type.
Qed.
Lemma first_of_find ty x r : first_of ty x r -> List.find (fun y => seqb (r_type y) ty) (rl_rels r) = Some x.
Proof.
  intros (l1 & l2 & -> & Ht & Hf). apply find_first; [by apply String.eqb_eq|by apply Forall_type].
Qed.
Lemma run_rel_path o r : rl_path (run_rel o r) = rl_path r.
Proof. destruct o; cbn [run_rel]; try done. unfold get_target_by_type. by destruct (List.find _ _). Qed.
Lemma run_rels_path os r : rl_path (run_rels os r) = rl_path r.
Proof. revert r. induction os as [|o os IH]; intros r; [done|]. cbn. by rewrite IH, run_rel_path. Qed.
Lemma first_of_app ty x r l : first_of ty x r -> first_of ty x (set_rels r (rl_rels r ++ l)).
Proof.
  intros (l1 & l2 & E & Ht & Hf). exists l1, (l2 ++ l). split; [|done]. cbn. by rewrite E, <- app_assoc.
Qed.
Lemma first_of_run ty x o r : first_of ty x r ->
  (forall q, o = RDelete q -> absolute q <> r_target x) -> first_of ty x (run_rel o r).
Proof.
  intros H Hd. destruct o as [c p n|ty' c p n|q]; cbn [run_rel].
  - by apply first_of_app.
  - unfold get_target_by_type. destruct (List.find _ _); [done|]. by apply first_of_app.
  - destruct H as (l1 & l2 & E & Ht & Hf). unfold first_of. rewrite delete_rels, E, List.filter_app. cbn [List.filter].
    assert (seqb (r_target x) (absolute q) = false) as ->.
    { apply String.eqb_neq. intros Hx. by apply (Hd q). }
    eexists _, _. split; [done|]. split; [done|].
    apply Forall_forall. intros y Hy. eapply Forall_forall in Hf; [exact Hf|].
    eapply elem_of_submseteq; [exact Hy|]. apply sublist_submseteq, filter_sublist.
Qed.
Lemma first_of_runs ty x os r : first_of ty x r ->
  (forall q, RDelete q ∈ os -> absolute q <> r_target x) -> first_of ty x (run_rels os r).
Proof.
  revert r. induction os as [|o os IH]; intros r H Hd; [done|]. cbn. apply IH.
  - apply first_of_run; [done|]. intros q ->. apply Hd. left.
  - intros q Hq. apply Hd. by right.
Qed.
Lemma absolute_slash q : exists s, absolute q = String "/" s.
Proof. destruct q as [|a s]; cbn; [eauto|]. unfold aeqb. destruct (Ascii.eqb_spec a "/") as [->|]; eauto. Qed.
