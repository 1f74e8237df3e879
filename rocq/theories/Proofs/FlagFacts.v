(** Boolean attributes. *)
From Verif.Model Require Import Converters.
Open Scope N_scope.

Lemma drop_while_split {A} (p : A -> bool) l : exists a, l = a ++ drop_while p l /\ Forall (fun x => p x = true) a.
Proof.
  induction l as [|x l (a & IH & Ha)]; [by exists []|]. cbn [drop_while]. destruct (p x) eqn:Hp; [|by exists []].
  exists (x :: a). split; [cbn; by f_equal|]. by constructor.
Qed.
Lemma drop_while_all {A} (p : A -> bool) a l : Forall (fun x => p x = true) a -> drop_while p (a ++ l) = drop_while p l.
Proof. induction 1 as [|x a Hx _ IH]; [done|]. cbn. by rewrite Hx. Qed.
Lemma drop_while_stop {A} (p : A -> bool) x l : p x = false -> drop_while p (x :: l) = x :: l.
Proof. cbn. by intros ->. Qed.
Lemma trim_chars_split l : exists a b, l = a ++ trim_chars l ++ b /\ Forall (fun x => is_uni_space x = true) a /\ Forall (fun x => is_uni_space x = true) b.
Proof.
  unfold trim_chars. destruct (drop_while_split is_uni_space l) as (a & Ha & Fa).
  destruct (drop_while_split is_uni_space (rev (drop_while is_uni_space l))) as (b & Hb & Fb).
  exists a, (rev b). split; [|split; [done|]].
  - rewrite Ha at 1. f_equal. apply (f_equal (@rev N)) in Hb. rewrite rev_involutive, rev_app_distr in Hb. done.
  - apply Forall_rev. done.
Qed.
Lemma trim_chars_core a x m y b : Forall (fun x => is_uni_space x = true) a -> Forall (fun x => is_uni_space x = true) b ->
  is_uni_space x = false -> is_uni_space y = false ->
  trim_chars (a ++ (x :: m ++ [y]) ++ b) = x :: m ++ [y].
Proof.
  intros Ha Hb Hx Hy. unfold trim_chars. rewrite drop_while_all by done. cbn [app]. rewrite drop_while_stop by done.
  rewrite app_comm_cons, rev_app_distr, drop_while_all by (by apply Forall_rev).
  assert (rev (x :: m ++ [y]) = y :: rev (x :: m)) as -> by (by rewrite app_comm_cons, rev_app_distr).
  rewrite drop_while_stop by done. change (rev (y :: rev (x :: m))) with (rev (rev (x :: m)) ++ [y]). by rewrite rev_involutive.
Qed.
Lemma trim_chars_one a x b : Forall (fun x => is_uni_space x = true) a -> Forall (fun x => is_uni_space x = true) b ->
  is_uni_space x = false -> trim_chars (a ++ [x] ++ b) = [x].
Proof.
  intros Ha Hb Hx. unfold trim_chars. rewrite drop_while_all by done. cbn [app]. rewrite drop_while_stop by done.
  change (x :: b) with ([x] ++ b). rewrite rev_app_distr, drop_while_all by (by apply Forall_rev). cbn. by rewrite Hx.
Qed.
