(** Every call keeps the open documents sound, so that no part gets lost by closing it. *)
From Verif.Model Require Import Excel.
From Verif.Spec Require Import XmlSpec XmlRepr XmlHistory PackageSpec.
From Verif.Proofs Require Import BaseFacts PackageFacts XmlHistFacts FrameFacts SaveFacts.
Open Scope N_scope.

(** ** Documents *)
Section with_env.
Context `{E : Env}.
Definition Stable {A} (m : M doc A) : Prop := forall d, HInv d -> HInv (m d).1.
Lemma stable_bind {A B} (m : M doc A) (k : A -> M doc B) : Stable m -> (forall a, Stable (k a)) -> Stable (bind m k).
Proof. intros Hm Hk d Hd. unfold bind. specialize (Hm d Hd). destruct (m d) as [d1 [a|e|e]]; [by apply Hk|done|done]. Qed.
Lemma stable_ret {A} (a : A) : Stable (ret a).
Proof. by intros d. Qed.
Lemma stable_fail {A} e : Stable (fail (A := A) e).
Proof. by intros d. Qed.
Lemma stable_lift {A} (r : res A) : Stable (lift r).
Proof. by intros d. Qed.
Lemma stable_get : Stable get.
Proof. by intros d. Qed.
Lemma stable_iter {A} (f : A -> M doc unit) l : (forall a, Stable (f a)) -> Stable (iterM f l).
Proof. intros Hf. induction l as [|a l IH]; cbn [iterM]; [apply stable_ret|]. apply stable_bind; [apply Hf|by intros _]. Qed.
Lemma stable_root tag : Stable (create_root tag).
Proof. intros d Hd. exact (proj1 (apply_op_inv (OpRoot tag) d Hd)). Qed.
Lemma stable_append tag p : Stable (append_child tag p).
Proof. intros d Hd. exact (proj1 (apply_op_inv (OpAppend tag p) d Hd)). Qed.
Lemma stable_before tag f p : Stable (insert_before tag f p).
Proof. intros d Hd. exact (proj1 (apply_op_inv (OpBefore tag f p) d Hd)). Qed.
Lemma stable_after tag f p : Stable (insert_after tag f p).
Proof. intros d Hd. exact (proj1 (apply_op_inv (OpAfter tag f p) d Hd)). Qed.
Lemma stable_at tag i p : Stable (insert_at tag i p).
Proof. intros d Hd. exact (proj1 (apply_op_inv (OpAt tag i p) d Hd)). Qed.
Lemma stable_attrs i a : Stable (set_attributes i a).
Proof. intros d Hd. exact (proj1 (apply_op_inv (OpAttrs i a) d Hd)). Qed.
Lemma stable_attr i k v : Stable (insert_attribute i k v).
Proof. intros d Hd. exact (proj1 (apply_op_inv (OpAttr i k v) d Hd)). Qed.
Lemma stable_value i v : Stable (set_value i v).
Proof. intros d Hd. exact (proj1 (apply_op_inv (OpValue i v) d Hd)). Qed.
Lemma stable_pop tag p : Stable (pop_elements_by_tag tag p).
Proof. intros d Hd. exact (proj1 (apply_op_inv (OpPopTag tag p) d Hd)). Qed.
Lemma stable_order sk i : Stable (order_child sk i).
Proof. intros d Hd. exact (proj1 (apply_op_inv (OpOrder sk i) d Hd)). Qed.

Lemma stable_take tag : Stable (take_subtrees tag).
Proof.
  unfold take_subtrees. apply stable_bind; [apply stable_pop|]. intros [es|]; [|apply stable_ret].
  apply stable_bind; [apply stable_get|]. intros d. apply stable_lift.
Qed.
Lemma stable_fill t : forall id, Stable (XmlView.fill id t).
Proof.
  induction t as [tag a v cs IH] using tree_rect'; intros id. cbn [XmlView.fill].
  apply stable_bind; [destruct a; [apply stable_attrs|apply stable_ret]|intros _].
  apply stable_bind; [destruct v; [apply stable_value|apply stable_ret]|intros _].
  induction IH as [|c cs Hc _ IH]; [apply stable_ret|].
  apply stable_bind; [|intros _; exact IH]. apply stable_bind; [apply stable_append|intros i; apply Hc].
Qed.
Lemma stable_add p t : Stable (add_tree p t).
Proof. apply stable_bind; [apply stable_append|intros i; apply stable_fill]. Qed.
Lemma stable_adds p l : Stable (add_trees p l).
Proof. apply stable_iter. intros t. apply stable_add. Qed.
Lemma stable_tree_after f t : Stable (insert_tree_after f t).
Proof. apply stable_bind; [apply stable_after|intros i; apply stable_fill]. Qed.
Lemma stable_tree_first t : Stable (insert_tree_first t).
Proof. apply stable_bind; [apply stable_at|intros i; apply stable_fill]. Qed.
Lemma stable_with_ns tag uri : Stable (create_with_ns tag uri).
Proof. apply stable_bind; [apply stable_root|intros i; apply stable_attrs]. Qed.

(** ** Reading and writing the parts *)
Ltac stable := repeat first
  [ apply stable_ret | apply stable_fail | apply stable_lift | apply stable_get | apply stable_append
  | apply stable_after | apply stable_attrs | apply stable_attr | apply stable_value | apply stable_pop | apply stable_order | apply stable_take
  | apply stable_fill | apply stable_add | apply stable_adds | apply stable_tree_after | apply stable_tree_first | apply stable_with_ns
  | apply stable_iter; intros ? | apply stable_bind; [|intros ?] ].
Lemma stable_load_rels : Stable load_relations.
Proof. unfold load_relations. stable. destruct a; stable. Qed.
Lemma stable_save_rels l : Stable (save_relationships l).
Proof. unfold save_relationships. stable. destruct (get_root a); stable. Qed.
Lemma stable_load_calc : Stable load_calc.
Proof. unfold load_calc. stable. Qed.
Lemma stable_load_strings : Stable load_strings.
Proof. unfold load_strings. stable. Qed.
Lemma stable_save_strings l : Stable (save_strings l).
Proof. unfold save_strings. stable. Qed.
Lemma stable_stamp b tag now : Stable (stamp b tag now).
Proof.
  intros d Hd. unfold stamp. destruct (first_element_id d _ 0) as [[i|]|m|m]; [|done..]. destruct (d_elems d !! i) as [e|]; [|done].
  destruct (b && has_value e); [done|]. by apply stable_value.
Qed.
Lemma stable_stamps a b : Stable (core_stamps a b).
Proof. unfold core_stamps. apply stable_bind; [apply stable_stamp|intros _; apply stable_stamp]. Qed.
Lemma stable_load_styles : Stable load_styles.
Proof. unfold load_styles. stable. Qed.
Lemma stable_save_styles s : Stable (save_styles s).
Proof. unfold save_styles. stable. Qed.
Lemma stable_load_book : Stable load_book.
Proof. unfold load_book. stable. Qed.
Lemma stable_save_book v l : Stable (save_book v l).
Proof. unfold save_book. destruct v; stable. Qed.
Lemma stable_ws_load : Stable ws_load.
Proof. unfold ws_load. stable. match goal with x : _ * _ |- _ => destruct x end. stable. Qed.
Lemma stable_save_cols c : Stable (save_cols c).
Proof. unfold save_cols. destruct c as [[|? ?]|]; stable. Qed.
Lemma stable_save_data m : Stable (save_data m).
Proof.
  unfold save_data. destruct m as [m|]; [|stable]. stable. unfold save_row. stable. destruct (rd_cells _); [|stable]. unfold save_cell. stable.
Qed.
Lemma stable_ws_save w d : HInv d -> HInv (ws_save (w, d)).1.2.
Proof.
  pose (G := fun A (m : M (worksheet * doc) A) => forall s, HInv s.2 -> HInv (m s).1.2).
  assert (forall A B (m : M (worksheet * doc) A) (k : A -> M (worksheet * doc) B), G A m -> (forall a, G B (k a)) -> G B (bind m k)) as Gb.
  { intros A B m k Hm Hk s Hs. unfold bind. specialize (Hm s Hs). destruct (m s) as [s1 [a|e|e]]; [by apply Hk|done|done]. }
  assert (forall A (m : M doc A), Stable m -> G A (on_doc m)) as Gd.
  { intros A m Hm [w0 d0] H0. unfold on_doc. cbn in *. specialize (Hm d0 H0). by destruct (m d0). }
  assert (G unit ws_save) as Gs; [|apply (Gs (w, d))].
  unfold ws_save. apply Gb; [intros s; done|intros s]. apply Gb; [intros s'; done|intros ref].
  repeat (apply Gb; [first [apply Gd; first [apply stable_save_cols|apply stable_save_data|stable]|intros s'; done]|intros _]). apply Gd. stable.
Qed.
(** The documents parts start from. *)
Definition InitOk (r : res open_part) : Prop := match r with Ok p => HInv (op_doc p) | Err _ => True | Panic _ => True end.
Lemma init_ns c tag : InitOk (init_with_ns c tag).
Proof.
  unfold init_with_ns, doc_of_m. pose proof (stable_with_ns tag (c_namespace c) new_doc HInv_new) as H0.
  destruct (create_with_ns tag (c_namespace c) new_doc) as [d [x|e|e]]; done.
Qed.
Lemma init_rels : InitOk rels_init.
Proof.
  unfold rels_init, doc_of_m. pose proof (stable_with_ns "Relationships" (c_namespace c_rels) new_doc HInv_new) as H0.
  destruct (create_with_ns _ _ new_doc) as [d [x|e|e]]; done.
Qed.
Lemma init_text c s : InitOk (rmap (fun d => mkOpen d (Some (c_content_type c)) (c_ext c) (c_ext_type c)) (read_doc s)).
Proof. pose proof (read_doc_inv s) as H0. by destruct (read_doc s). Qed.
End with_env.
