(** Which calls panic. *)
From Verif.Model Require Import Excel.
From Verif.Spec Require Import XmlSpec XmlRepr PackageSpec ColumnSpec RelSpec SheetSpec SessionSpec WellSpec SaveOkSpec PanicSpec.
From Verif.Proofs Require Import BaseFacts ConverterFacts RelFacts OwnFacts FlowOpenFacts FrameFacts FlowFacts SessionFacts XmlTreeFacts XmlHistFacts XmlWriteFacts DocBuild PackageFacts PartFacts RelDocFacts SmallPartFacts BookFacts ReadAnyFacts SheetDocFacts SheetCycleFacts
  KeepFacts WellFacts.
Open Scope N_scope.

(** ** Results *)
Lemma np_bind {A B} (r : res A) (k : A -> res B) : NoPanic r -> (forall a, r = Ok a -> NoPanic (k a)) -> NoPanic (rbind r k).
Proof. destruct r; cbn; auto. Qed.
Lemma np_map {A B} (f : A -> B) (r : res A) : NoPanic r -> NoPanic (rmap f r).
Proof. by destruct r. Qed.
Lemma np_mapM {A B} (f : A -> res B) l : Forall (fun a => NoPanic (f a)) l -> NoPanic (rmapM f l).
Proof. induction 1 as [|a l Ha _ IH]; [done|]. cbn. apply np_bind; [done|]. intros b _. apply np_bind; [done|]. done. Qed.
Lemma np_option {A} e (o : option A) : NoPanic (of_option e o).
Proof. by destruct o. Qed.
Lemma np_attr {A} (f : string -> option A) a k : NoPanic (parse_attr f a k).
Proof. unfold parse_attr. destruct (a !! k); [|done]. apply np_map, np_option. Qed.
Lemma np_panic {A} (r : res A) : ~ NoPanic r -> exists e, r = Panic e.
Proof. destruct r; cbn; [tauto|tauto|eauto]. Qed.

(** ** Operations that never panic *)
Definition Quiet {S A} (m : M S A) : Prop := forall s, NoPanic (m s).2.
Lemma q_bind {S A B} (m : M S A) (k : A -> M S B) : Quiet m -> (forall a, Quiet (k a)) -> Quiet (bind m k).
Proof. intros Hm Hk s. unfold bind. specialize (Hm s). destruct (m s) as [s1 [a|e|e]]; [by apply Hk|done|done]. Qed.
Lemma q_ret {S A} (a : A) : Quiet (S := S) (ret a).
Proof. by intros s. Qed.
Lemma q_fail {S A} e : Quiet (S := S) (fail (A := A) e).
Proof. by intros s. Qed.
Lemma q_get {S} : Quiet (S := S) get.
Proof. by intros s. Qed.
Lemma q_modify {S} (f : S -> S) : Quiet (modify f).
Proof. by intros s. Qed.
Lemma q_lift {S A} (r : res A) : NoPanic r -> Quiet (S := S) (lift r).
Proof. by intros Hr s. Qed.
Lemma q_iter {S A} (f : A -> M S unit) l : (forall a, Quiet (f a)) -> Quiet (iterM f l).
Proof. intros Hf. induction l as [|a l IH]; cbn [iterM]; [apply q_ret|]. by apply q_bind. Qed.

Section with_env.
Context `{E : Env}.
(** *** Documents *)
Definition Keys (d d' : doc) : Prop := forall k, is_Some (d_elems d !! k) -> is_Some (d_elems d' !! k).
Lemma keys_insert d i e k : is_Some (d_elems d !! k) -> is_Some (<[i := e]> (d_elems d) !! k).
Proof. intros H. destruct (decide (i = k)) as [->|]; [rewrite lookup_insert; eauto|by rewrite lookup_insert_ne]. Qed.
(** On a document that holds the element [i]: no panic, and the elements stay. *)
Definition Calm {A} (i : N) (m : M doc A) : Prop := forall d, is_Some (d_elems d !! i) -> NoPanic (m d).2 /\ Keys d (m d).1.
Lemma c_bind {A B} i (m : M doc A) (k : A -> M doc B) : Calm i m -> (forall a, Calm i (k a)) -> Calm i (bind m k).
Proof.
  intros Hm Hk d Hd. unfold bind. destruct (Hm d Hd) as [H1 H2]. destruct (m d) as [d1 [a|e|e]]; cbn [fst snd] in *; [|done|done].
  destruct (Hk a d1 (H2 i Hd)) as [H3 H4]. split; [done|]. intros x Hx. by apply H4, H2.
Qed.
Lemma c_ret {A} i (a : A) : Calm i (ret a).
Proof. intros d Hd. split; [done|]. by intros k. Qed.
Lemma c_attrs i a : Calm i (set_attributes i a).
Proof.
  intros d [e He]. unfold set_attributes. destruct (negb _); [split; [done|by intros k]|]. rewrite He. split; [done|]. intros k Hk. cbn. by apply keys_insert.
Qed.
Lemma c_value i v : Calm i (set_value i v).
Proof. intros d [e He]. unfold set_value. rewrite He. split; [done|]. intros k Hk. cbn. by apply keys_insert. Qed.
(** A child is added and worked on. *)
Lemma insert_quiet {A} place tag p (k : N -> M doc A) : (forall id cs, NoPanic (place id cs)) -> (forall i, Calm i (k i)) ->
  forall d, NoPanic (bind (insert_with place tag p) k d).2 /\ Keys d (bind (insert_with place tag p) k d).1.
Proof.
  intros Hp Hk d. unfold bind, insert_with. cbv zeta. assert (forall r : res A, NoPanic r -> NoPanic (d, r).2 /\ Keys d (d, r).1) as Hn. { intros r Hr. split; [done|by intros k']. }
  destruct (d_elems d !! default 0 p) as [e|]; [|by apply Hn]. unfold new_elem. destruct (is_valid_xml_name tag); [|by apply Hn].
  pose proof (Hp (d_running d + 1) (e_children e)) as H1. destruct (place _ _) as [cs|m|m]; [|by apply Hn|done].
  set (d1 := mkDoc _ _ _). destruct (Hk (d_running d + 1) d1) as [H2 H3]; [cbn; rewrite lookup_insert; eauto|]. split; [done|].
  intros x Hx. apply H3. cbn. destruct (decide (d_running d + 1 = x)) as [->|]; [rewrite lookup_insert; eauto|]. rewrite lookup_insert_ne by done. by apply keys_insert.
Qed.
Lemma fill_calm t : forall i, Calm i (XmlView.fill i t).
Proof.
  induction t as [tag a v cs IH] using tree_rect'; intros i. cbn [XmlView.fill].
  apply c_bind; [destruct a; [apply c_attrs|apply c_ret]|intros _]. apply c_bind; [destruct v; [apply c_value|apply c_ret]|intros _].
  induction IH as [|c cs Hc _ IH]; [apply c_ret|]. apply c_bind; [|intros _; exact IH]. intros d _. unfold append_child. apply insert_quiet; [done|exact Hc].
Qed.
Lemma q_insert place tag p t : (forall id cs, NoPanic (place id cs)) -> Quiet (bind (insert_with place tag p) (fun i => XmlView.fill i t)).
Proof. intros Hp d. apply insert_quiet; [done|]. apply fill_calm. Qed.
Lemma q_add p t : Quiet (add_tree p t).
Proof. by apply q_insert. Qed.
Lemma q_adds p l : Quiet (add_trees p l).
Proof. apply q_iter. intros t. apply q_add. Qed.
Lemma q_after f t : Quiet (insert_tree_after f t).
Proof. by apply q_insert. Qed.
Lemma q_order sk i : Quiet (order_child sk i).
Proof. intros d. unfold order_child. destruct (d_elems d !! i) as [e|]; [|done]. destruct (e_children e), sk; done. Qed.
Lemma q_pop tag p : Quiet (pop_elements_by_tag tag p).
Proof.
  intros d. unfold pop_elements_by_tag. cbv zeta. destruct (d_elems d !! default 0 p); [|done]. destruct (ids_by_tag d tag p); [|done]. by destruct (remove_elems _ _).
Qed.
Lemma np_subtree fuel m : forall e, NoPanic (subtree fuel m e).
Proof.
  induction fuel as [|fuel IH]; intros e; [done|]. cbn [subtree]. apply np_bind; [|done]. apply np_mapM, Forall_forall. intros c _. destruct (m !! c.1); [apply IH|done].
Qed.
Lemma q_take tag : Quiet (take_subtrees tag).
Proof.
  apply q_bind; [apply q_pop|]. intros [es|]; [|apply q_ret]. apply q_bind; [apply q_get|]. intros d. apply q_lift, np_map, np_mapM, Forall_forall. intros e _. apply np_subtree.
Qed.
Lemma np_ref c : NoPanic (get_column_ref c).
Proof. unfold get_column_ref. by destruct (c =? 0). Qed.
Lemma np_dim d m : NoPanic (dim_ref d m).
Proof. unfold dim_ref. destruct m as [m|]; [|done]. destruct (btree_entries m); [done|]. apply np_bind; [apply np_ref|]. intros s _. apply np_bind; [apply np_ref|]. done. Qed.
Lemma c_cell i r ic : Calm i (save_cell i r ic).
Proof.
  intros d _. unfold save_cell, append_child. apply insert_quiet; [done|]. intros j. apply c_bind; [|intros col; apply fill_calm].
  intros d1 _. split; [apply np_ref|]. by intros k.
Qed.
Lemma c_iter {A} i (f : A -> M doc unit) l : (forall a, Calm i (f a)) -> Calm i (iterM f l).
Proof. intros Hf. induction l as [|a l IH]; cbn [iterM]; [apply c_ret|]. apply c_bind; [apply Hf|by intros _]. Qed.
Lemma c_row i ir : Calm i (save_row i ir).
Proof.
  intros d _. unfold save_row, append_child. apply insert_quiet; [done|]. intros j. apply c_bind; [apply c_attrs|intros _].
  destruct (rd_cells ir.2); [|apply c_ret]. apply c_iter. intros ic. apply c_cell.
Qed.
Lemma q_data m : Quiet (save_data m).
Proof.
  unfold save_data. destruct m as [m|]; [|apply q_ret]. intros d. unfold insert_after. apply insert_quiet; [done|]. intros i. apply c_iter. intros ir. apply c_row.
Qed.
Lemma q_on_doc {A} (m : M doc A) : Quiet m -> Quiet (on_doc m).
Proof. intros Hm [w d]. unfold on_doc. cbn [fst snd]. specialize (Hm d). by destruct (m d). Qed.
Lemma q_on_ws f : Quiet (on_ws f).
Proof. by intros s. Qed.
Lemma q_cols c : Quiet (save_cols c).
Proof. unfold save_cols. destruct c as [[|? ?]|]; [apply q_ret|apply q_after|apply q_ret]. Qed.
Lemma q_ws_save : Quiet ws_save.
Proof.
  unfold ws_save. apply q_bind; [apply q_get|intros s]. apply q_bind; [apply q_lift, np_dim|intros ref].
  repeat (apply q_bind; [first [apply q_on_ws|apply q_on_doc; first [apply q_cols|apply q_data|apply q_add|apply q_after]]|intros _]).
  apply q_on_doc, q_order.
Qed.

(** *** Packages *)
Lemma np_write_loop n : forall d p out, NoPanic (write_loop n d p out).
Proof.
  induction n as [|n IH]; intros d p out; [done|]. cbn [write_loop]. destruct (d_elems d !! p) as [c|]; [|done]. destruct (e_children c) as [|[cid g] cs]; [by destruct (p =? 0)|].
  cbv zeta. destruct (d_elems _ !! cid) as [e|]; [|done]. destruct (is_empty_tag e); [apply IH|]. destruct (e_value e); apply IH.
Qed.
Lemma np_write d : NoPanic (write_doc d).
Proof.
  unfold write_doc, build_xml_tree. destruct (get_root d) as [e|]; [|done]. destruct (is_empty_tag e); [done|]. destruct (e_value e); [done|].
  apply np_bind; [apply np_write_loop|done].
Qed.
Lemma np_read s : NoPanic (read_doc s).
Proof. pose proof (read_doc_inv s) as H. by destruct (read_doc s). Qed.
Lemma q_close q : Quiet (close_xml_document q).
Proof. intros o. unfold close_xml_document. destruct (of_open o !! q) as [p|]; [|done]. cbv zeta. pose proof (np_write (op_doc p)) as H. by destruct (write_doc (op_doc p)). Qed.
Lemma q_with {A} q (m : M doc A) : Quiet m -> Quiet (with_doc q m).
Proof. intros Hm o. unfold with_doc. destruct (of_open o !! q) as [p|]; [|done]. specialize (Hm (op_doc p)). destruct (m (op_doc p)) as [d r]. by apply np_map. Qed.
Lemma q_get_doc init q : NoPanic init -> Quiet (get_xml_document init q).
Proof.
  intros Hi. unfold get_xml_document. apply q_bind.
  - intros o. unfold get_xml_tree. destruct (of_open o !! q); [done|]. destruct (of_archive o !! q) as [e|]; [|done]. cbn [snd].
    apply np_bind; [apply np_option|]. intros c _. apply np_bind; [apply np_option|]. intros data _. apply np_bind; [apply np_read|]. done.
  - intros p. apply q_bind; [destruct p; [apply q_ret|by apply q_lift]|]. intros p'. apply q_modify.
Qed.
Lemma np_with_ns tag uri : NoPanic (doc_of_m (create_with_ns tag uri)).
Proof.
  assert (NoPanic (create_with_ns tag uri new_doc).2) as H.
  { unfold create_with_ns, bind, create_root, new_elem. destruct (is_valid_xml_name tag); [|done]. unfold set_attributes. destruct (negb _); [done|].
    cbn [with_elems d_elems]. by rewrite lookup_insert. }
  unfold doc_of_m. destruct (create_with_ns tag uri new_doc) as [d [x|e|e]]; done.
Qed.
Lemma q_rels_new q : Quiet (rels_new q).
Proof.
  unfold rels_new. apply q_bind; [apply q_get_doc, np_map, np_with_ns|intros _]. apply q_bind; [apply q_with|intros l; apply q_ret].
  unfold load_relations. apply q_bind; [apply q_pop|]. intros [es|]; [|apply q_ret]. apply q_lift, np_mapM, Forall_forall. intros a _. unfold rel_of_attrs, need_attr.
  destruct a as [a|]; [|done]. repeat (apply np_bind; [apply np_option|intros ? _]). done.
Qed.
Lemma q_rels_close r : Quiet (rels_close r).
Proof.
  unfold rels_close. apply q_bind; [apply q_with|].
  - unfold save_relationships. apply q_bind; [apply q_get|]. intros d. destruct (get_root d); [|apply q_fail]. apply q_bind; [apply q_adds|intros _; apply q_ret].
  - intros [[]|]; [apply q_close|apply q_modify|apply q_fail].
Qed.
Lemma np_ws_close w o : NoPanic (ws_close (w, o)).2.
Proof.
  unfold ws_close. destruct (of_open o !! ws_path w) as [p|]; [|done]. pose proof (q_ws_save (w, op_doc p)) as H. destruct (ws_save (w, op_doc p)) as [[w1 d] r]. cbn [snd] in H.
  destruct r as [x|e|e]; [|done|done]. match goal with |- context [close_xml_document ?q ?o] => pose proof (q_close q o) as H2; destruct (close_xml_document q o) end. done.
Qed.
Lemma q_ws_flush w : Quiet (ws_flush w).
Proof. intros o. unfold ws_flush. pose proof (np_ws_close w o) as H. by destruct (ws_close (w, o)) as [[w1 o1] r]. Qed.
Lemma np_delete w s : NoPanic (wb_delete_sheet w s).2.
Proof.
  unfold wb_delete_sheet. assert (Quiet (delete_sheet w)) as H; [|specialize (H (wb_sheets s.1, (wb_rels s.1, s.2))); by destruct (delete_sheet w _) as [[l [r o]] x]].
  assert (forall A (m : M pkg_state A), Quiet m -> Quiet (on_pkg m)) as H1. { intros A m Hm x. unfold on_pkg. specialize (Hm x.2). by destruct (m x.2). }
  assert (forall A (m : M office A), Quiet m -> Quiet (on_office m)) as H2. { intros A m Hm x. unfold on_office. specialize (Hm x.2). by destruct (m x.2). }
  unfold delete_sheet. apply q_bind; [by intros s'|intros _]. apply q_bind; [by intros s'|intros _]. apply q_bind; [by intros s'|intros _]. apply H1, H2, q_ws_flush.
Qed.
End with_env.

(** ** Loading a sheet *)
(** Every set of attributes in a document, and in a tree. *)
Definition AttrsIn (P : gmap string string -> Prop) (d : doc) : Prop := forall k e a, d_elems d !! k = Some e -> e_attrs e = Some a -> P a.
Fixpoint TreeIn (P : gmap string string -> Prop) (t : tree) : Prop :=
  match t with Node _ a _ cs => match a with Some a => P a | None => True end
    /\ (fix all (cs : list tree) : Prop := match cs with [] => True | c :: cs => TreeIn P c /\ all cs end) cs end.
Lemma tree_in P tag a v cs : TreeIn P (Node tag a v cs) <-> match a with Some a => P a | None => True end /\ Forall (TreeIn P) cs.
Proof.
  cbn [TreeIn]. apply and_iff_compat_l. induction cs as [|c cs IH]; [by split|]. rewrite Forall_cons, IH. done.
Qed.
Lemma tree_children P t : TreeIn P t -> Forall (TreeIn P) (t_children t).
Proof. destruct t. rewrite tree_in. by intros [_ H]. Qed.
Lemma tree_attrs P t a : TreeIn P t -> t_attrs t = Some a -> P a.
Proof. destruct t. rewrite tree_in. cbn. intros [H _] ->. done. Qed.
Lemma mapM_all {A B} (f : A -> res B) (P : A -> Prop) (Q : B -> Prop) l : (forall a b, P a -> f a = Ok b -> Q b) -> Forall P l -> forall bs, rmapM f l = Ok bs -> Forall Q bs.
Proof.
  intros Hf. induction 1 as [|a l Ha _ IH]; intros bs; cbn [rmapM]; [by intros [= <-]|]. destruct (f a) as [b|e|e] eqn:Eb; cbn [rbind]; [|done..].
  destruct (rmapM f l) as [bs'|e|e]; cbn [rbind]; [|done..]. intros [= <-]. constructor; [by eapply Hf|by apply IH].
Qed.
Lemma subtree_in (P : gmap string string -> Prop) m n : (forall k e a, m !! k = Some e -> e_attrs e = Some a -> P a) -> forall e t, (forall a, e_attrs e = Some a -> P a) -> subtree n m e = Ok t -> TreeIn P t.
Proof.
  intros Hm. induction n as [|n IH]; intros e t He; [done|]. cbn [subtree]. destruct (rmapM _ (e_children e)) as [cs|x|x] eqn:Em; cbn [rbind]; [|done..]. intros [= <-].
  apply tree_in. split; [destruct (e_attrs e) as [a|] eqn:Ea; [by apply He|done]|]. eapply (mapM_all _ (fun _ => True)); [| |exact Em]; [|apply Forall_forall; done].
  intros c b _. cbv beta. destruct (m !! c.1) as [x|] eqn:Ex; [|done]. apply IH. intros a. by apply (Hm c.1 x a).
Qed.
Lemma remove_attrs (P : gmap string string -> Prop) l : forall m, (forall k e a, m !! k = Some e -> e_attrs e = Some a -> P a) ->
  Forall (fun e => forall a, e_attrs e = Some a -> P a) (remove_elems l m).1 /\ forall k e a, (remove_elems l m).2 !! k = Some e -> e_attrs e = Some a -> P a.
Proof.
  induction l as [|i l IH]; intros m Hm; cbn [remove_elems]; [split; [constructor|exact Hm]|]. destruct (m !! i) as [x|] eqn:Ex; [|by apply IH].
  destruct (IH (delete i m)) as [H1 H2]. { intros k e a Hk. apply lookup_delete_Some in Hk as [_ Hk]. by apply (Hm k). }
  destruct (remove_elems l (delete i m)). cbn [fst snd] in *. split; [|done]. constructor; [|done]. intros a. by apply (Hm i).
Qed.
Lemma pop_in P tag p d : AttrsIn P d -> AttrsIn P (pop_elements_by_tag tag p d).1
  /\ forall es, (pop_elements_by_tag tag p d).2 = Ok (Some es) -> Forall (fun e => forall a, e_attrs e = Some a -> P a) es.
Proof.
  intros Hd. unfold pop_elements_by_tag. cbv zeta. destruct (d_elems d !! default 0 p) as [e|] eqn:Ee; [|by split]. destruct (ids_by_tag d tag p) as [l|]; [|by split].
  set (m0 := <[_ := _]> (d_elems d)). destruct (remove_attrs P l m0) as [H1 H2].
  { intros k x a. subst m0. rewrite lookup_insert_Some. intros [[_ <-]|[_ Hk]]; [cbn; by apply (Hd _ _ _ Ee)|by apply (Hd k)]. }
  destruct (remove_elems l m0) as [es m]. cbn [fst snd] in *. split; [done|]. intros es' [= He]. destruct es; [done|]. by injection He as <-.
Qed.
Lemma take_in P tag d : AttrsIn P d -> AttrsIn P (take_subtrees tag d).1 /\ forall ts, (take_subtrees tag d).2 = Ok (Some ts) -> Forall (TreeIn P) ts.
Proof.
  intros Hd. unfold take_subtrees, bind. destruct (pop_in P tag None d Hd) as [H1 H2]. destruct (pop_elements_by_tag tag None d) as [d1 [[es|]|e|e]]; [|by split..].
  cbn [fst snd get lift] in *. split; [done|]. intros ts. specialize (H2 es eq_refl). destruct (rmapM _ es) as [ts'|e|e] eqn:Em; cbn [rmap rbind]; [|done..]. intros [= <-].
  eapply mapM_all; [|exact H2|exact Em]. cbv beta. intros e t He. by apply subtree_in.
Qed.
Lemma last_in {A} (Q : A -> Prop) l x : Forall Q l -> last l = Some x -> Q x.
Proof. intros Hl Hx. apply (proj1 (Forall_forall Q l) Hl). apply last_Some in Hx as [l' ->]. apply elem_of_app. right. by left. Qed.

Section loading.
Context `{E : Env}.
(** The reference among some attributes does not run over. *)
Definition Sound (a : gmap string string) : Prop := forall r, a !! "r" = Some r -> NoPanic (get_column_index r).
Lemma np_cols ts : NoPanic (load_cols ts).
Proof.
  unfold load_cols. destruct (last_of ts) as [t|]; [|done]. apply np_map, np_mapM, Forall_forall. intros c _. unfold col_of_tree.
  apply np_bind; [apply np_option|intros a _]. repeat (apply np_bind; [apply np_attr|intros ? _]). apply np_bind; [|done].
  destruct (a !! "customWidth") as [w|]; [|done]. destruct (seqb w "1"); [|done]. apply np_bind; [apply np_option|]. intros ? _. apply np_map, np_option.
Qed.
Lemma np_views ts : NoPanic (load_views ts).
Proof.
  unfold load_views. destruct (last_of ts) as [t|]; [|done]. apply np_map, np_mapM, Forall_forall. intros c _. unfold view_of_tree. destruct (seqb _ _); [|done].
  apply np_bind; [apply np_option|]. intros a _. unfold view_of_attrs. apply np_bind; [apply np_option|intros ? _]. repeat (apply np_bind; [apply np_attr|intros ? _]). done.
Qed.
Lemma np_cell t : TreeIn Sound t -> NoPanic (cell_of_tree t).
Proof.
  intros Ht. unfold cell_of_tree. apply np_bind; [apply np_option|]. intros a Ha. assert (t_attrs t = Some a) as Ha'. { unfold attrs_req in Ha. destruct (t_attrs t); cbn in Ha; congruence. }
  apply np_bind.
  - unfold cell_of_attrs. apply np_bind; [apply np_option|]. intros r Hr. apply np_bind; [|intros ? _; repeat (apply np_bind; [apply np_attr|intros ? _]); done].
    apply (tree_attrs _ _ _ Ht Ha'). destruct (a !! "r"); cbn in Hr; congruence.
  - intros [i c] _. apply np_map. clear. revert c. induction (t_children t) as [|x l IH]; intros c; [done|]. cbn [cell_children]. apply np_bind; [|intros ? _; apply IH].
    unfold cell_child. cbv zeta. destruct (seqb _ "v"); [done|]. destruct (seqb _ "f"); [done|]. destruct (seqb _ "is"); [|done]. by destruct (t_children x).
Qed.
Lemma np_data ts : (forall l, ts = Some l -> Forall (TreeIn Sound) l) -> NoPanic (load_data ts).
Proof.
  intros Hts. unfold load_data. destruct (last_of ts) as [t|] eqn:El; [|done]. apply np_map, np_mapM.
  assert (TreeIn Sound t) as Ht. { destruct ts as [l|]; [|done]. eapply last_in; [by apply Hts|exact El]. }
  eapply Forall_impl; [exact (tree_children _ _ Ht)|]. intros row Hrow. unfold row_of_tree. apply np_bind; [apply np_option|intros a _]. apply np_bind.
  - unfold row_of_attrs. apply np_bind; [apply np_option|intros r _]. apply np_bind; [apply np_option|intros i _].
    apply np_bind; [destruct (a !! "s"), (a !! "customFormat"); try done; destruct (seqb _ _); [apply np_map, np_option|done]|intros st _].
    apply np_bind; [destruct (a !! "ht"), (a !! "customHeight"); try done; destruct (seqb _ _); [apply np_map, np_option|done]|intros ht _].
    apply np_bind; [apply np_attr|done].
  - intros [i rp] _. apply np_bind; [|done]. apply np_mapM. eapply Forall_impl; [exact (tree_children _ _ Hrow)|]. apply np_cell.
Qed.
Lemma np_load d : AttrsIn Sound d -> NoPanic (ws_load d).2.
Proof.
  intros Hd. unfold ws_load. destruct (take_in Sound "dimension" d Hd) as [H1 _]. unfold bind at 1. pose proof (q_take "dimension" d) as Q1. destruct (take_subtrees "dimension" d) as [d1 [t1|e|e]]; [|done|done].
  cbn [fst snd] in *. destruct (take_in Sound "cols" d1 H1) as [H2 _]. unfold bind at 1. pose proof (q_take "cols" d1) as Q2. destruct (take_subtrees "cols" d1) as [d2 [t2|e|e]]; [|done|done].
  cbn [fst snd] in *. unfold bind at 1, lift at 1. pose proof (np_cols t2) as Q3. destruct (load_cols t2) as [cols|e|e]; [|done|done].
  destruct (take_in Sound "sheetData" d2 H2) as [H3 H4]. unfold bind at 1. pose proof (q_take "sheetData" d2) as Q4. destruct (take_subtrees "sheetData" d2) as [d3 [t3|e|e]]; [|done|done].
  cbn [fst snd] in *. unfold bind at 1, lift at 1. assert (NoPanic (load_data t3)) as Q5. { apply np_data. intros l ->. by apply H4. } destruct (load_data t3) as [[data dim]|e|e]; [|done|done].
  apply q_bind; [apply q_take|]. intros tv. apply q_bind; [apply q_lift, np_views|]. intros v. apply q_ret.
Qed.
Lemma get_col_wrapping r : env_mode = Wrapping -> NoPanic (get_column_index r).
Proof.
  intros Hm. unfold get_column_index. rewrite Hm. assert (forall l i n, NoPanic (column_loop Wrapping i l n)) as H.
  { induction l as [|c l IH]; intros i n; [done|]. cbn [column_loop]. apply np_bind; [|intros ? _; apply IH]. unfold column_step. cbv zeta.
    apply np_bind; [unfold u16_sub; by destruct (_ <=? _)|intros ? _]. apply np_bind; [unfold u16_add, u16_wrap; by destruct (_ <? _)|intros ? _].
    apply np_bind; [unfold usize_pow; cbv zeta; by destruct (_ <=? _)|intros ? _]. apply np_bind; [unfold u16_mul, u16_wrap; by destruct (_ <? _)|intros ? _].
    unfold u16_add, u16_wrap; by destruct (_ <? _). }
  destruct (take_while is_alphabetic (chars r)) as [|c l]; [done|]. apply H.
Qed.
End loading.

(** ** Opening a sheet *)
Lemma find_first_spec {A} (f : A -> bool) (P : A -> Prop) l x : (forall y, f y = true <-> P y) -> List.find f l = Some x <-> First P l x.
Proof.
  intros Hf. assert (forall y, f y = false <-> ~ P y) as Hn. { intros y. rewrite <- Hf. by destruct (f y). }
  split.
  - intros Hx. pose proof (RelFacts.find_split f l) as H. rewrite Hx in H. destruct H as (l1 & l2 & H1 & H2 & H3). exists l1, l2. split; [done|]. split; [by apply Hf|].
    eapply Forall_impl; [exact H3|]. intros y. apply Hn.
  - intros (l1 & l2 & -> & H2 & H3). apply RelFacts.find_first; [by apply Hf|]. eapply Forall_impl; [exact H3|]. intros y. apply Hn.
Qed.
Lemma first_sheet n l x : List.find (fun x => seqb (sh_name x) n) l = Some x <-> First (fun x => sh_name x = n) l x.
Proof. apply find_first_spec. intros y. apply seqb_true. Qed.
Lemma first_rel i l x : List.find (fun x => seqb (r_id x) i) l = Some x <-> First (fun x => r_id x = i) l x.
Proof. apply find_first_spec. intros y. apply seqb_true. Qed.
Lemma split_at_none p s : split_at_byte p s = None <-> forall a b c, s = a +:+ String b c -> p b = false.
Proof.
  induction s as [|x s IH]; cbn [split_at_byte]; [split; [|done]; intros _ [|] b c; done|]. destruct (p x) eqn:Ex.
  - split; [done|]. intros H. specialize (H "" x s eq_refl). congruence.
  - destruct (split_at_byte p s) as [[[l b] r]|].
    + split; [done|]. intros H. exfalso. destruct IH as [_ IH]. assert (Some (l, b, r) = None) as Hx; [|done]. apply IH. intros a y c ->. by apply (H (String x a) y c).
    + split; [|done]. intros _ [|z a] b c; cbn; [by intros [= <- _]|]. intros [= _ ->]. by apply (proj1 IH eq_refl a b c).
Qed.
Lemma rsplit_none path : rsplit_at_byte (fun a => aeqb a "/") path = None <-> no_folder path.
Proof.
  unfold rsplit_at_byte. destruct (split_at_byte _ (srev path)) as [[[l b] r]|] eqn:Es.
  - split; [done|]. intros H. exfalso. assert (rsplit_at_byte (fun a => aeqb a "/") path = Some (srev r, b, srev l)) as Hx by (unfold rsplit_at_byte; by rewrite Es).
    pose proof (rsplit_at_byte_hit _ _ _ _ _ Hx) as Hb. apply rsplit_at_byte_app in Hx. unfold aeqb in Hb. apply Ascii.eqb_eq in Hb as ->. by apply (H _ _ Hx).
  - split; [|done]. intros _ a b ->. rewrite split_at_none in Es. specialize (Es (srev b) "/"%char (srev a)). rewrite srev_app_dist in Es. change ("/" +:+ b) with (String "/" b) in Es.
    rewrite srev_cons in Es. rewrite <- app_assoc_s in Es. cbn in Es. by specialize (Es eq_refl).
Qed.
Lemma beside_panics path : NoPanic (rels_beside path) <-> ~ no_folder path.
Proof.
  rewrite <- rsplit_none. unfold rels_beside. destruct (rsplit_at_byte _ path) as [[[dir b] file]|]; cbn; [|by split].
  split; [intros _ ?; done|done].
Qed.
Section opening.
Context `{E : Env}.
Lemma sound_dec a : {Sound a} + {exists r msg, a !! "r" = Some r /\ get_column_index r = Panic msg}.
Proof.
  unfold Sound. destruct (a !! "r") as [r|]; [|by left]. destruct (get_column_index r) as [i|m|m] eqn:Eg.
  - left. intros r' [= <-]. by rewrite Eg.
  - left. intros r' [= <-]. by rewrite Eg.
  - right. by exists r, m.
Qed.
Lemma np_cell_at t : (forall a, t_attrs t = Some a -> Sound a) -> NoPanic (cell_of_tree t).
Proof.
  intros Ht. unfold cell_of_tree. apply np_bind; [apply np_option|]. intros a Ha. assert (t_attrs t = Some a) as Ha'. { unfold attrs_req in Ha. destruct (t_attrs t); cbn in Ha; congruence. }
  apply np_bind.
  - unfold cell_of_attrs. apply np_bind; [apply np_option|]. intros r Hr. apply np_bind; [|intros ? _; repeat (apply np_bind; [apply np_attr|intros ? _]); done].
    apply (Ht _ Ha'). destruct (a !! "r"); cbn in Hr; congruence.
  - intros [i c] _. apply np_map. clear. revert c. induction (t_children t) as [|x l IH]; intros c; [done|]. cbn [cell_children]. apply np_bind; [|intros ? _; apply IH].
    unfold cell_child. cbv zeta. destruct (seqb _ "v"); [done|]. destruct (seqb _ "f"); [done|]. destruct (seqb _ "is"); [|done]. by destruct (t_children x).
Qed.
Lemma np_data_at t : (forall row cell a, row ∈ t_children t -> cell ∈ t_children row -> t_attrs cell = Some a -> Sound a) -> forall ts, last_of ts = Some t -> NoPanic (load_data ts).
Proof.
  intros Ht ts El. unfold load_data. rewrite El. apply np_map, np_mapM, Forall_forall. intros row Hrow. unfold row_of_tree. apply np_bind; [apply np_option|intros a _]. apply np_bind.
  - unfold row_of_attrs. apply np_bind; [apply np_option|intros r _]. apply np_bind; [apply np_option|intros i _].
    apply np_bind; [destruct (a !! "s"), (a !! "customFormat"); try done; destruct (seqb _ _); [apply np_map, np_option|done]|intros st _].
    apply np_bind; [destruct (a !! "ht"), (a !! "customHeight"); try done; destruct (seqb _ _); [apply np_map, np_option|done]|intros ht _].
    apply np_bind; [apply np_attr|done].
  - intros [i rp] _. apply np_bind; [|done]. apply np_mapM, Forall_forall. intros cell Hc. apply np_cell_at. intros b Hb. by eapply Ht.
Qed.
Lemma some_cell (ts : list tree) : (forall row cell a, row ∈ ts -> cell ∈ t_children row -> t_attrs cell = Some a -> Sound a)
  \/ exists row cell a r msg, row ∈ ts /\ cell ∈ t_children row /\ t_attrs cell = Some a /\ a !! "r" = Some r /\ get_column_index r = Panic msg.
Proof.
  induction ts as [|row ts IH]; [left; intros row cell a H; by apply elem_of_nil in H|].
  assert ((forall cell a, cell ∈ t_children row -> t_attrs cell = Some a -> Sound a)
    \/ exists cell a r msg, cell ∈ t_children row /\ t_attrs cell = Some a /\ a !! "r" = Some r /\ get_column_index r = Panic msg) as Hr.
  { generalize (t_children row) as cs. clear. induction cs as [|c cs IH]; [left; intros cell a H; by apply elem_of_nil in H|]. destruct IH as [IH|(cell & a & r & msg & H1 & H2)].
    - destruct (t_attrs c) as [a|] eqn:Ea; [destruct (sound_dec a) as [Hs|(r & msg & H1 & H2)]|].
      + left. intros cell b [->|Hc]%elem_of_cons Hb; [by replace b with a by congruence|by eapply IH].
      + right. exists c, a, r, msg. split; [left|done].
      + left. intros cell b [->|Hc]%elem_of_cons Hb; [congruence|by eapply IH].
    - right. exists cell, a, r, msg. split; [by right|done]. }
  destruct Hr as [Hr|(cell & a & r & msg & H1 & H2)]; [|right; exists row, cell, a, r, msg; split; [left|done]].
  destruct IH as [IH|(row' & cell & a & r & msg & H1 & H2)]; [|right; exists row', cell, a, r, msg; split; [by right|done]].
  left. intros row' cell a [->|Hin]%elem_of_cons; [apply Hr|by apply IH].
Qed.
Lemma load_bad data d : read_doc data = Ok d -> ~ NoPanic (ws_load d).2 ->
  exists it sd row cell a r msg, Represents d it /\ sd ∈ t_children (erase it) /\ t_tag sd = "sheetData" /\ row ∈ t_children sd /\ cell ∈ t_children row
    /\ t_attrs cell = Some a /\ a !! "r" = Some r /\ get_column_index r = Panic msg.
Proof.
  intros Hr Hp. destruct (read_doc_tree data d Hr) as [He|([g at_ v cs] & Hd & _)].
  { exfalso. apply Hp, np_load. intros k e a Hk. by rewrite He, lookup_empty in Hk. }
  assert (~ NoPanic (load_data (some_list (tagged "sheetData" cs)))) as Hl.
  { intros Hl. apply Hp. unfold ws_load. unfold bind at 1.
    destruct (Doc_take_tagged d g at_ v cs "dimension" Hd) as (d1 & -> & Hd1 & _). unfold bind at 1.
    destruct (Doc_take_tagged d1 g at_ v _ "cols" Hd1) as (d2 & -> & Hd2 & _). unfold bind at 1, lift at 1. rewrite tagged_untagged by done.
    pose proof (np_cols (some_list (tagged "cols" cs))) as Hc. destruct (load_cols _) as [cols|e|e]; [|done..]. unfold bind at 1.
    destruct (Doc_take_tagged d2 g at_ v _ "sheetData" Hd2) as (d3 & -> & Hd3 & _). unfold bind at 1, lift at 1. rewrite !tagged_untagged by done.
    destruct (load_data _) as [[dt dm]|e|e]; [|done..]. apply q_bind; [apply q_take|]. intros tv. apply q_bind; [apply q_lift, np_views|]. intros w. apply q_ret. }
  destruct (last_of (some_list (tagged "sheetData" cs))) as [sd|] eqn:El; [|exfalso; apply Hl; unfold load_data; by rewrite El].
  destruct (some_cell (t_children sd)) as [Hs|(row & cell & a & r & msg & H1 & H2 & H3 & H4 & H5)]; [exfalso; apply Hl; by eapply np_data_at|].
  destruct Hd as (it & Hit & Het). exists it, sd, row, cell, a, r, msg. rewrite Het. cbn [t_children].
  assert (sd ∈ tagged "sheetData" cs) as Hsd. { destruct (tagged "sheetData" cs) as [|x l] eqn:Et; [done|]. cbn [some_list last_of] in El. apply last_Some in El as [l' ->]. apply elem_of_app. right. left. }
  unfold tagged in Hsd. apply elem_of_list_In, filter_In in Hsd as [Hs1 Hs2%seqb_true]. apply elem_of_list_In in Hs1. destruct Hit. done.
Qed.
Lemma get_stored init path o o1 : get_xml_document init path o = (o1, Ok tt) -> exists p, of_open o1 !! path = Some p
  /\ ((of_archive o !! path = None /\ init = Ok p)
     \/ exists e c data, of_archive o !! path = Some e /\ en_content e = Some c /\ env_gunzip c = Some data /\ read_doc data = Ok (op_doc p)).
Proof.
  unfold get_xml_document, get_xml_tree, bind. destruct (of_open o !! path); [done|]. destruct (of_archive o !! path) as [e|].
  - destruct (en_content e) as [c|] eqn:Ec; cbn [of_option rbind]; [|done]. unfold decompress_content. destruct (env_gunzip c) as [data|] eqn:Ed; cbn [of_option rbind]; [|done].
    destruct (read_doc data) as [d|m|m] eqn:Er; cbn [rbind]; [|done..]. intros [= <-]. eexists. split; [cbn; apply lookup_insert|]. right. by exists e, c, data.
  - unfold lift. destruct init as [p|m|m]; [|done..]. intros [= <-]. exists p. split; [cbn; apply lookup_insert|by left].
Qed.
Lemma get_readable init path o o1 : get_xml_document init path o = (o1, Ok tt) -> ~ Unreadable o path.
Proof.
  intros Hg (_ & e & He & Hu). destruct (get_stored _ _ _ _ Hg) as (p0 & _ & [[Ha _]|(e' & c & data & Ha & Hc & Hb & Hr)]); [congruence|].
  assert (e' = e) as -> by congruence. by apply (Hu c data (op_doc p0)).
Qed.
Lemma get_fails init path o o1 e : (exists p, init = Ok p) -> get_xml_document init path o = (o1, Err e) -> is_Some (of_open o !! path) \/ Unreadable o path.
Proof.
  intros [p Hi]. unfold get_xml_document, get_xml_tree, bind. destruct (of_open o !! path) as [x|] eqn:Eo; [intros _; left; eauto|].
  destruct (of_archive o !! path) as [en|] eqn:Ea; [|rewrite Hi; done]. intros Hg. right. split; [done|]. exists en. split; [done|].
  intros c data d Hc Hd Hr. unfold decompress_content in Hg. rewrite Hc in Hg. cbn [of_option rbind] in Hg. rewrite Hd in Hg. cbn [of_option rbind] in Hg. rewrite Hr in Hg. done.
Qed.
Lemma template_sound : exists p, ws_init = Ok p /\ AttrsIn Sound (op_doc p).
Proof.
  unfold ws_init. rewrite (read_doc_det ws_template) by (by vm_compute).
  assert (match @read_doc id_env ws_template with Ok d => forallb (fun ke => match e_attrs (snd ke) with Some a => match a !! "r" with Some _ => false | None => true end | None => true end) (map_to_list (d_elems d)) = true | _ => False end) as H by (vm_compute; reflexivity).
  destruct (@read_doc id_env ws_template) as [d|e|e]; [|done|done]. cbn. eexists. split; [reflexivity|]. intros k e a Hk Ha r Hr. cbn in Hk. exfalso.
  rewrite forallb_forall in H. specialize (H (k, e)). cbn [snd] in H. rewrite Ha, Hr in H. assert (false = true); [|done]. apply H. apply elem_of_list_In, elem_of_map_to_list. done.
Qed.
(** The steps after the name of the part is known. *)
Definition after_name (path nm : string) : M book_state worksheet :=
  bind (on_pkg (on_office (get_xml_document ws_init path))) (fun _ =>
  bind (lift (rels_beside path)) (fun rp =>
  bind (on_pkg (on_office (rels_new rp))) (fun rels s =>
    match on_pkg (on_office (with_doc path ws_load)) s with
    | (s1, Ok x) => let '(cols, data, views, dim) := default (None, None, [view_default], dim_default) x in (s1, Ok (mkWs path nm rels dim views cols data))
    | (s1, Err e) => (((s1.1, (s1.2.1, (rels_close rels s1.2.2).1)) : book_state), Err e)
    | (s1, Panic e) => (((s1.1, (s1.2.1, (rels_close rels s1.2.2).1)) : book_state), Panic e)
    end))).
Lemma after_panics path nm sheets rels o : ~ NoPanic (after_name path nm (sheets, (rels, o))).2 ->
  of_open o !! path = None /\ ((no_folder path /\ ~ Unreadable o path)
  \/ exists e c data d, of_archive o !! path = Some e /\ en_content e = Some c /\ env_gunzip c = Some data /\ read_doc data = Ok d /\ ~ NoPanic (ws_load d).2).
Proof.
  unfold after_name. unfold bind at 1, on_pkg at 1, on_office at 1. cbn [fst snd]. intros Hp.
  assert (NoPanic (get_xml_document ws_init path o).2) as Hq. { apply q_get_doc. destruct template_sound as (p & -> & _). done. }
  destruct (get_xml_document ws_init path o) as [o1 [[]|e|e]] eqn:Eg; [|by exfalso; apply Hp|done]. clear Hq.
  split; [by eapply get_was_closed|]. unfold bind at 1, lift at 1 in Hp. destruct (rels_beside path) as [rp|e|e] eqn:Eb; [| by exfalso; apply Hp|].
  2: { left. split; [|by eapply get_readable]. destruct (rsplit_at_byte (fun a => aeqb a "/") path) as [[[dir b] file]|] eqn:Es; [|by apply rsplit_none]. unfold rels_beside in Eb. by rewrite Es in Eb. }
  right. unfold bind at 1, on_pkg at 1, on_office at 1 in Hp. cbn [fst snd] in Hp. pose proof (q_rels_new rp o1) as Hq.
  destruct (get_stored _ _ _ _ Eg) as (p0 & Hp0 & Hsrc). pose proof (rels_keeps_open rp o1 path p0 Hp0) as Hk. unfold id in Hk.
  destruct (rels_new rp o1) as [o2 [rl|e|e]]; [|by exfalso; apply Hp|done]. cbn [fst snd] in *. unfold on_pkg, on_office, with_doc in Hp. cbn [fst snd] in Hp. rewrite Hk in Hp.
  assert (~ NoPanic (ws_load (op_doc p0)).2) as Hns.
  { intros Hl. destruct (ws_load (op_doc p0)) as [d1 [[[[cs dt] vs] dm]|e|e]]; cbn in Hp, Hl; [by apply Hp|by apply Hp|done]. }
  destruct Hsrc as [[_ Hi]|(e & c & data & H1 & H2 & H3 & H4)]; [|by exists e, c, data, (op_doc p0)].
  exfalso. destruct template_sound as (p & Hip & Hs). rewrite Hi in Hip. injection Hip as <-. by apply Hns, np_load.
Qed.
Lemma ws_new_after name s : ws_new name s = match get_sheet_file_name name s with (s1, Ok (p, n)) => after_name p n s1 | (s1, Err e) => (s1, Err e) | (s1, Panic e) => (s1, Panic e) end.
Proof. unfold ws_new. unfold bind at 1. destruct (get_sheet_file_name name s) as [s1 [[p n]|e|e]]; reflexivity. Qed.
Lemma root_panics path nm sheets rels o : of_open o !! path = None -> no_folder path -> ~ Unreadable o path -> ~ NoPanic (after_name path nm (sheets, (rels, o))).2.
Proof.
  intros Ho Hn Hu. unfold after_name. unfold bind at 1, on_pkg at 1, on_office at 1. cbn [fst snd].
  destruct template_sound as (p & Hi & _). assert (NoPanic (get_xml_document ws_init path o).2) as Hq by (apply q_get_doc; by rewrite Hi).
  destruct (get_xml_document ws_init path o) as [o1 [[]|e|e]] eqn:Eg; [| |done].
  - unfold bind at 1, lift at 1. pose proof (proj1 (beside_panics path)) as Hb. destruct (rels_beside path) as [rp|e|e]; [exfalso; by apply Hb|exfalso; by apply Hb|]. by intros H.
  - exfalso. apply get_fails in Eg; [|eauto]. destruct Eg as [[x Hx]|?]; [congruence|done].
Qed.
(** The part that the name leads to. *)
Lemma name_listed n x r sheets rels o folder p : OwnerFolder (rl_path rels) folder -> First (fun x => sh_name x = n) sheets x -> First (fun r => r_id r = sh_rel x) (rl_rels rels) r ->
  Resolves folder (r_target r) p -> get_sheet_file_name (Some n) (sheets, (rels, o)) = ((sheets, (rels, o)), Ok (p, n)).
Proof.
  intros Hf Hx Hr Hp. apply first_sheet in Hx. apply first_rel in Hr. rewrite (file_name_old n x _ _ _ Hx). unfold get_target_by_id. rewrite Hr.
  destruct (resolve_spec rels folder (r_target r) Hf) as (p' & -> & Hp'). cbn [rmap rbind]. f_equal. f_equal. f_equal. inversion Hp; inversion Hp'; congruence.
Qed.
Lemma name_cases name sheets rels o folder : OwnerFolder (rl_path rels) folder ->
  (exists n x r p, name = Some n /\ First (fun x => sh_name x = n) sheets x /\ First (fun r => r_id r = sh_rel x) (rl_rels rels) r /\ Resolves folder (r_target r) p
     /\ get_sheet_file_name name (sheets, (rels, o)) = ((sheets, (rels, o)), Ok (p, n)))
  \/ (exists s1 e, get_sheet_file_name name (sheets, (rels, o)) = (s1, Err e))
  \/ (exists s1 p n, get_sheet_file_name name (sheets, (rels, o)) = (s1, Ok (p, n)) /\ s1.2.2 = o /\ of_archive o !! p = None /\ ~ no_folder p).
Proof.
  intros Hf. destruct (name ≫= (fun n => List.find (fun x => seqb (sh_name x) n) sheets)) as [x|] eqn:Ef.
  - destruct name as [n|]; [|done]. cbn in Ef. rewrite (file_name_old n x _ _ _ Ef). unfold get_target_by_id.
    destruct (List.find (fun x0 => seqb (r_id x0) (sh_rel x)) (rl_rels rels)) as [r|] eqn:Er; [|right; left; eauto].
    left. destruct (resolve_spec rels folder (r_target r) Hf) as (p & Hr & Hp). exists n, x, r, p. apply first_sheet in Ef. apply first_rel in Er. rewrite Hr. done.
  - right. right. destruct (file_name_new name sheets rels o folder) as (k & Hk & _ & Ha & _); [|by apply relative_path|].
    { intros n y -> Hy Hn. cbn in Ef. apply elem_of_list_In in Hy. pose proof (List.find_none _ _ Ef y Hy) as Hz. cbn in Hz. apply seqb_false in Hz. done. }
    eexists _, _, _. split; [exact Hk|]. split; [done|]. split; [done|]. unfold sheet_path. intros Hno.
    eapply (Hno (folder +:+ c_path c_worksheet)). reflexivity.
Qed.
End opening.

(** ** Calls *)
Section calling.
Context `{E : Env} `{HH : Hashes}.
Lemma np_add_panics name b o folder : OwnerFolder (rl_path (wb_rels b)) folder -> ~ NoPanic (add_sheet name (b, o)).2 ->
  exists n x r p, name = Some n /\ First (fun x => sh_name x = n) (wb_sheets b) x /\ First (fun r => r_id r = sh_rel x) (rl_rels (wb_rels b)) r /\ Resolves folder (r_target r) p
    /\ of_open o !! p = None /\ ((no_folder p /\ ~ Unreadable o p)
    \/ exists e c data d, of_archive o !! p = Some e /\ en_content e = Some c /\ env_gunzip c = Some data /\ read_doc data = Ok d /\ ~ NoPanic (ws_load d).2).
Proof.
  intros Hf Hp. unfold add_sheet in Hp. cbn [fst snd] in Hp. assert (~ NoPanic (ws_new name (wb_sheets b, (wb_rels b, o))).2) as Hq.
  { intros Hq. apply Hp. by destruct (ws_new name _) as [[l [r o1]] x]. }
  clear Hp. rewrite ws_new_after in Hq. destruct (name_cases name (wb_sheets b) (wb_rels b) o folder Hf) as [(n & x & r & p & H1 & H2 & H3 & H4 & H5)|[(s1 & e & H)|(s1 & p & n & H1 & H2 & H3 & H4)]].
  - rewrite H5 in Hq. apply after_panics in Hq as [H6 H7]. exists n, x, r, p. done.
  - rewrite H in Hq. by exfalso; apply Hq.
  - rewrite H1 in Hq. destruct s1 as [l [r o1]]. cbn in H2. subst o1. apply after_panics in Hq as [_ [[H _]|(e & c & data & d & H & _)]]; [done|congruence].
Qed.
Lemma np_add_root n b o folder x r p : OwnerFolder (rl_path (wb_rels b)) folder -> First (fun x => sh_name x = n) (wb_sheets b) x -> First (fun r => r_id r = sh_rel x) (rl_rels (wb_rels b)) r ->
  Resolves folder (r_target r) p -> of_open o !! p = None -> no_folder p -> ~ Unreadable o p -> ~ NoPanic (add_sheet (Some n) (b, o)).2.
Proof.
  intros Hf Hx Hr Hp Ho Hn Hu. unfold add_sheet. cbn [fst snd]. pose proof (root_panics p n (wb_sheets b) (wb_rels b) o Ho Hn Hu) as H. rewrite ws_new_after, (name_listed n x r _ _ _ folder p) by done.
  by destruct (after_name p n _) as [[l [r1 o1]] y].
Qed.
Lemma np_give name s : NoPanic (give (on_book (add_sheet name)) s).2 <-> NoPanic (add_sheet name (x_book s.1, x_office s.1)).2.
Proof. unfold give, on_book, x_state. destruct (add_sheet name _) as [[b o] [w|e|e]]; done. Qed.
Lemma np_pure m s : NoPanic (on_excel (on_book (A := unit) (pure_book m)) s).2 <-> NoPanic (m (x_book s.1)).2.
Proof. unfold on_excel, on_book, pure_book, x_state. cbn [fst snd]. by destruct (m (x_book s.1)) as [b r]. Qed.
Lemma np_spend h m s : (forall w t, NoPanic (m w t).2) -> NoPanic (spend h m s).2.
Proof.
  intros Hm. unfold spend. destruct (handle h s) as [w|]; [|done]. unfold on_book. specialize (Hm w (x_state s.1)). by destruct (m w (x_state s.1)) as [t r].
Qed.
Lemma np_use h m s w : handle h s = Some w -> NoPanic (use h m s).2 <-> NoPanic (m (w, ss_strings (wb_sst (x_book s.1)))).2.
Proof. intros Hw. unfold use. rewrite Hw. by destruct (m _) as [[w1 t1] r]. Qed.
Lemma use_none h m s : handle h s = None -> NoPanic (use h m s).2.
Proof. intros Hw. unfold use. by rewrite Hw. Qed.
Lemma np_place mo col cs : forall dim cells, NoPanic (place_cells mo col cs dim cells).2 <-> (mo = Checked -> cs = [] \/ col + N.of_nat (length cs) <= 65535).
Proof.
  revert col. induction cs as [|c cs IH]; intros col dim cells; cbn [place_cells]; [cbn; split; [by left|done]|]. unfold u16_add, u16_wrap.
  destruct (N.ltb_spec (col + 1) 65536) as [H|H].
  - rewrite IH. cbn [length]. split; intros Hm Hc; specialize (Hm Hc); [right|].
    + destruct Hm as [->|Hm]; cbn [length] in *; lia.
    + right. destruct Hm as [?|Hm]; [done|]. lia.
  - destruct mo; cbn.
    + split; [done|]. intros Hm. destruct (Hm eq_refl) as [?|Hm']; [done|]. cbn [length] in Hm'. lia.
    + rewrite IH. split; intros _; [intros ?; done|intros ?; done].
Qed.
Lemma np_row r c cs s : NoPanic (set_row_value r c cs s).2 <-> (env_mode = Checked -> ~ RunsOver c cs).
Proof.
  destruct s as [w table]. unfold set_row_value, u16_sub, RunsOver. destruct (N.leb_spec 1 c) as [Hc|Hc].
  - destruct (store_cells cs table) as [t1 cs1] eqn:Es. assert (length cs1 = length cs) as Hl.
    { clear -Es. revert table t1 cs1 Es. induction cs as [|x cs IH]; intros table t1 cs1; cbn [store_cells]; [by intros [= <- <-]|]. destruct (store_cell x table) as [t2 c1]. destruct (store_cells cs t2) as [t3 cs2] eqn:E2.
      intros [= <- <-]. cbn. f_equal. by eapply IH. }
    match goal with |- context [place_cells ?a ?b ?d ?e ?f] => pose proof (np_place a b d e f) as Hp; destruct (place_cells a b d e f) as [[dim cells] x] end. cbn [snd] in Hp.
    assert (NoPanic x <-> (env_mode = Checked -> ~ (c = 0 \/ cs <> [] /\ 65535 < c - 1 + N.of_nat (length cs)))) as <-.
    { rewrite Hp, Hl. split; intros H Hm; specialize (H Hm).
      - intros [?|[Hn Hx]]; [lia|]. destruct H as [->|H]; [by destruct cs|lia].
      - destruct cs1 as [|y cs1]; [by left|]. right. destruct cs as [|z cs]; [done|]. destruct (N.le_gt_cases (c - 1 + N.of_nat (length (z :: cs))) 65535) as [?|Hx]; [done|]. exfalso. apply H. right. by split. }
    by destruct x.
  - assert (c = 0) as -> by lia. destruct env_mode.
    + cbn. split; [done|]. intros H. apply (H eq_refl). by left.
    + destruct (store_cells cs table) as [t1 cs1]. match goal with |- context [place_cells ?a ?b ?d ?e ?f] => pose proof (proj2 (np_place a b d e f)) as Hp; destruct (place_cells a b d e f) as [[dim cells] x] end.
      cbn [snd] in Hp. split; [done|]. intros _. specialize (Hp ltac:(done)). by destruct x.
Qed.
Lemma position_cases {A} (f : A -> bool) (P : A -> Prop) l : (forall y, f y = true <-> P y) ->
  match position f l with Some i => exists l1 y, FirstAfter P l l1 y /\ i = N.of_nat (length l1) | None => Forall (fun y => ~ P y) l end.
Proof.
  intros Hf. induction l as [|x l IH]; cbn [position]; [constructor|]. destruct (f x) eqn:Ex.
  - exists [], x. split; [|done]. exists l. split; [done|]. split; [by apply Hf|constructor].
  - assert (~ P x) as Hx. { rewrite <- Hf. congruence. } destruct (position f l) as [i|].
    + destruct IH as (l1 & y & (l2 & -> & Hy & Hl) & ->). exists (x :: l1), y. split; [|cbn [length]; lia]. exists l2. split; [done|]. split; [done|]. by constructor.
    + by constructor.
Qed.
Lemma first_unique {A} (P : A -> Prop) l l1 x l1' x' : FirstAfter P l l1 x -> FirstAfter P l l1' x' -> l1 = l1' /\ x = x'.
Proof.
  intros (l2 & -> & Hx & Hl) (l2' & He & Hx' & Hl'). revert l1' He Hl'. induction Hl as [|y l1 Hy _ IH]; intros l1' He Hl'; destruct Hl' as [|z l1' Hz Hl']; cbn in He.
  - by injection He as -> _.
  - injection He as -> _. done.
  - injection He as -> _. done.
  - injection He as -> He. destruct (IH _ He Hl') as [-> ->]. done.
Qed.
Lemma np_style st b : NoPanic ((bind (wb_style_id st) (fun _ => ret tt)) b).2 <-> (env_mode = Checked -> ~ exists code l1 y, se_num st = NFCustom /\ se_code st = Some code
      /\ FirstAfter (fun y => hash_num y = hash_num (mkNum 0 NFCustom code)) (st_nums (sp_styles (wb_style b))) l1 y
      /\ 65535 < N.of_nat (length l1) mod 65536 + 163).
Proof.
  unfold bind, wb_style_id, get_style_id. set (l := st_nums (sp_styles (wb_style b))).
  assert (NoPanic (num_for st l) <-> (env_mode = Checked -> ~ exists code l1 y, se_num st = NFCustom /\ se_code st = Some code
      /\ FirstAfter (fun y => hash_num y = hash_num (mkNum 0 NFCustom code)) l l1 y /\ 65535 < N.of_nat (length l1) mod 65536 + 163)) as <-.
  { unfold num_for. destruct (se_num st) as [n|]; [cbn; split; [|done]; by intros _ _ (code & l1 & y & ? & _)|]. destruct (se_code st) as [code|]; [|cbn; split; [|done]; by intros _ _ (code & l1 & y & _ & ? & _)].
    unfold intern. pose proof (position_cases (fun y => hash_num y =? hash_num (mkNum 0 NFCustom code)) (fun y => hash_num y = hash_num (mkNum 0 NFCustom code)) l (fun y => N.eqb_eq _ _)) as Hp.
    destruct (position _ l) as [i|].
    - destruct Hp as (l1 & y & Hl1 & ->). unfold u16_add, u16_wrap, as_u16. destruct (N.ltb_spec (N.of_nat (length l1) mod 65536 + 163) 65536) as [H|H]; cbn [rmap rbind].
      + split; [|done]. intros _ _ (code' & l1' & y' & _ & [= <-] & H1 & H2). destruct (first_unique _ _ _ _ _ _ Hl1 H1) as [<- _]. lia.
      + destruct env_mode; cbn; [split; [done|]|by split]. intros Hn. apply (Hn eq_refl). exists code, l1, y. split; [done|]. split; [done|]. split; [done|lia].
    - cbn. split; [|done]. intros _ _ (code' & l1' & y' & _ & [= <-] & (l2 & Hl & Hy & _) & H2). rewrite Hl in Hp. apply Forall_app in Hp as [_ Hp]. by apply Forall_cons in Hp as [Hp _]. }
  destruct (num_for st l) as [[[nums num] on]|e|e]; [|done|done]. destruct (intern hash_font _ _) as [[? ?] ?]. destruct (intern hash_fill _ _) as [[? ?] ?]. destruct (intern hash_border _ _) as [[? ?] ?].
  cbv zeta. destruct (intern hash_xf _ (st_style_xfs _)) as [[? ?] ?]. destruct (intern hash_xf _ (st_cell_xfs _)) as [[? ?] ?]. done.
Qed.
(** Word splitting of references is unique. *)
Lemma word_col w rest : is_word w -> ends_word rest -> NoPanic (get_column_index (w +:+ rest)) <-> (env_mode = Checked -> word_value w <= 65535).
Proof.
  intros Hw Hr. destruct env_mode eqn:Em.
  - destruct (N.le_gt_cases (word_value w) 65535) as [H|H].
    + rewrite get_column_index_exact by done. by split.
    + destruct (get_column_index_overflow w rest Em Hw Hr H) as [e ->]. cbn. split; [done|]. intros Hx. specialize (Hx eq_refl). lia.
  - split; [done|]. intros _. by apply get_col_wrapping.
Qed.
End calling.

Section stepping.
Context `{E : Env} `{HH : Hashes}.
Lemma cell_index w r : is_word w -> r <= u32_max -> get_cell_index (w +:+ show_N r) = rbind (get_column_index (w +:+ show_N r)) (fun c => Ok (r, c)).
Proof.
  intros Hw Hr. unfold get_cell_index, extract_digits. rewrite filter_digits_app, filter_digits_letters by apply Hw. rewrite filter_digits_digits by apply show_N_digits. cbn [String.append].
  rewrite parse_uint_show by done. done.
Qed.
Lemma np_row_ref w r cs s : is_word w -> r <= u32_max ->
  NoPanic (set_row_value_ref (w +:+ show_N r) cs s).2 <-> (env_mode = Checked -> ~ (65535 < word_value w \/ RunsOver (word_value w) cs)).
Proof.
  intros Hw Hr. unfold set_row_value_ref, bind, lift. rewrite cell_index by done. pose proof (word_col w (show_N r) Hw (ends_word_digits _ (show_N_digits r))) as Hc. destruct env_mode eqn:Em.
  - destruct (N.le_gt_cases (word_value w) 65535) as [H|H].
    + rewrite get_column_index_exact by (try done; apply ends_word_digits, show_N_digits). cbn [rbind]. rewrite np_row, Em. split; intros Hx Hy; specialize (Hx Hy); [intros [?|?]; [lia|done]|tauto].
    + destruct (get_column_index_overflow w (show_N r) Em Hw (ends_word_digits _ (show_N_digits r)) H) as [e ->]. cbn. split; [done|]. intros Hx. apply (Hx eq_refl). by left.
  - split; [done|]. intros _. apply proj2 in Hc. specialize (Hc ltac:(done)). destruct (get_column_index _) as [i|e|e]; [|done|done]. cbn [rbind]. apply np_row. by rewrite Em.
Qed.
Lemma np_col_ref w rest p x : is_word w -> ends_word rest -> NoPanic (on_handle (T := list string) (set_column_ref (w +:+ rest) p) x).2 <-> (env_mode = Checked -> word_value w <= 65535).
Proof.
  intros Hw Hr. rewrite <- (word_col w rest Hw Hr). unfold on_handle, set_column_ref, bind, lift. by destruct (get_column_index _) as [i|e|e].
Qed.
Lemma dec_runs c cs : RunsOver c cs \/ ~ RunsOver c cs.
Proof.
  unfold RunsOver. destruct (N.eq_dec c 0) as [?|H1]; [tauto|]. destruct cs as [|x cs]; [right; intros [?|[? _]]; done|].
  destruct (N.le_gt_cases (c - 1 + N.of_nat (length (x :: cs))) 65535) as [H2|H2]; [right; intros [?|[_ ?]]; lia|left; right; done].
Qed.
Lemma dec_style st b : let over := exists code l1 y, se_num st = NFCustom /\ se_code st = Some code
      /\ FirstAfter (fun y => hash_num y = hash_num (mkNum 0 NFCustom code)) (st_nums (sp_styles (wb_style b))) l1 y
      /\ 65535 < N.of_nat (length l1) mod 65536 + 163 in over \/ ~ over.
Proof.
  cbv zeta. destruct (se_num st) as [n|]; [right; by intros (code & l1 & y & ? & _)|]. destruct (se_code st) as [code|]; [|right; by intros (code & l1 & y & _ & ? & _)].
  set (l := st_nums _). pose proof (position_cases (fun y => hash_num y =? hash_num (mkNum 0 NFCustom code)) (fun y => hash_num y = hash_num (mkNum 0 NFCustom code)) l (fun y => N.eqb_eq _ _)) as Hp.
  destruct (position _ l) as [i|].
  - destruct Hp as (l1 & y & Hl1 & _). destruct (N.le_gt_cases (N.of_nat (length l1) mod 65536 + 163) 65535) as [H|H].
    + right. intros (code' & l1' & y' & _ & [= <-] & H1 & H2). destruct (first_unique _ _ _ _ _ _ Hl1 H1) as [<- _]. lia.
    + left. by exists code, l1, y.
  - right. intros (code' & l1' & y' & _ & [= <-] & (l2 & Hl & Hy & _) & H2). rewrite Hl in Hp. apply Forall_app in Hp as [_ Hp]. by apply Forall_cons in Hp as [Hp _].
Qed.
Theorem step_forward folder c s : OwnerFolder (rl_path (wb_rels (x_book s.1))) folder -> (env_mode = Checked -> Addressed c) -> ~ NoPanic (call_step c s).2 ->
  AtRoot folder c s \/ env_mode = Checked /\ (Overruns c s \/ BadCell folder c s).
Proof.
  intros Hf Ha.
  assert (forall name, (forall n, name = Some n -> c = CGet n \/ c = CAdd (Some n)) -> ~ NoPanic (give (on_book (add_sheet name)) s).2 ->
    AtRoot folder c s \/ env_mode = Checked /\ (Overruns c s \/ BadCell folder c s)) as Hgive.
  { intros name Hname. rewrite np_give. intros Hp. destruct (np_add_panics _ _ _ folder Hf Hp) as (n & x & r & p & H1 & H2 & H3 & H4 & H5 & H6).
    assert (Asks folder c s p) as Hask. { exists n, x, r. split; [by apply Hname|done]. }
    destruct H6 as [[H6 H7]|(e & b & data & d & H6 & H7 & H8 & H9 & H10)]; [left; by exists p|]. right.
    destruct (load_bad data d H9 H10) as (it & sd & row & cell & a & rr & msg & K1 & K2 & K3 & K4 & K5 & K6 & K7 & K8).
    destruct env_mode eqn:Em; [|exfalso; pose proof (get_col_wrapping rr Em) as Hx; by rewrite K8 in Hx]. split; [done|]. right. exists p, e, b, data, d, it, sd, row, cell, a, rr, msg. done. }
  assert (forall h m, (forall w, handle h s = Some w -> ~ NoPanic (m (w, ss_strings (wb_sst (x_book s.1)))).2 -> env_mode = Checked /\ Overruns c s) -> ~ NoPanic (use h m s).2 ->
    AtRoot folder c s \/ env_mode = Checked /\ (Overruns c s \/ BadCell folder c s)) as Huse.
  { intros h m Hm. destruct (handle h s) as [w|] eqn:Eh; [|by intros H; exfalso; apply H, use_none]. rewrite (np_use h m s w Eh). intros Hp. right. destruct (Hm w eq_refl Hp). tauto. }
  assert (forall Q : Prop, ~ (env_mode = Checked -> Q) -> env_mode = Checked) as Hmode. { intros Q HQ. destruct env_mode; [done|]. exfalso. by apply HQ. }
  destruct c; cbn [call_step].
  - apply Hgive. intros n ->. by right.
  - apply Hgive. intros n [= ->]. by left.
  - rewrite np_pure. unfold rename_sheet. destruct (existsb _ _); [by intros H; exfalso; apply H|]. destruct (rename_first _ _ _); by intros H; exfalso; apply H.
  - rewrite np_pure. intros H; exfalso; by apply H.
  - rewrite np_pure. intros H; exfalso; by apply H.
  - rewrite np_pure. intros H; exfalso; by apply H.
  - rewrite np_pure. intros H; exfalso; by apply H.
  - rewrite np_pure. intros H; exfalso; by apply H.
  - rewrite np_pure. intros H; exfalso; by apply H.
  - rewrite np_pure. intros H; exfalso; by apply H.
  - rewrite np_pure, np_style. intros H. right. destruct (dec_style s0 (x_book s.1)) as [Ho|Ho]; [|exfalso; by apply H]. split; [by eapply Hmode|]. left. exact Ho.
  - apply Huse. intros w Hw. rewrite np_row. intros Hn. split; [by eapply Hmode|]. destruct (dec_runs c cs) as [Ho|Ho]; [|exfalso; by apply Hn]. split; [by exists w|done].
  - apply Huse. intros w Hw Hn. assert (env_mode = Checked) as Hm.
    { destruct env_mode eqn:Em; [done|]. exfalso. apply Hn. unfold set_row_value_ref, bind, lift, get_cell_index. pose proof (get_col_wrapping ref Em) as Hc. unfold extract_digits.
      destruct (parse_uint _ _) as [r|]; [|done]. cbn [of_option rbind]. destruct (get_column_index ref) as [i|e|e]; [|done|done]. cbn [rbind]. apply np_row. by rewrite Em. }
    split; [done|]. destruct (Ha Hm) as (l & r & -> & Hl & Hr). rewrite np_row_ref in Hn by done. split; [by exists w|]. exists l, r. split; [done|]. split; [done|]. split; [done|].
    destruct (N.le_gt_cases (word_value l) 65535) as [H1|H1]; [|by left]. destruct (dec_runs (word_value l) cs) as [Ho|Ho]; [by right|]. exfalso. apply Hn. intros _ [?|?]; [lia|done].
  - apply Huse. intros w _ Hn. exfalso. by apply Hn.
  - apply Huse. intros w _ Hn. exfalso. by apply Hn.
  - apply Huse. intros w Hw Hn. assert (env_mode = Checked) as Hm.
    { destruct env_mode eqn:Em; [done|]. exfalso. apply Hn. unfold on_handle, set_column_ref, bind, lift. pose proof (get_col_wrapping ref Em) as Hc. by destruct (get_column_index ref). }
    split; [done|]. destruct (Ha Hm) as (l & r & -> & Hl & Hr). rewrite np_col_ref in Hn by done. split; [by exists w|]. exists l, r. split; [done|]. split; [done|]. split; [done|].
    destruct (N.le_gt_cases (word_value l) 65535) as [H1|H1]; [|done]. exfalso. by apply Hn.
  - intros H. exfalso. apply H, np_spend. done.
  - intros H. exfalso. apply H, np_spend. intros w t. unfold on_wb_office. pose proof (q_ws_flush w t.2) as Hq. by destruct (ws_flush w t.2).
  - intros H. exfalso. apply H, np_spend. intros w t. apply np_delete.
Qed.
Theorem step_root folder c s : OwnerFolder (rl_path (wb_rels (x_book s.1))) folder -> AtRoot folder c s -> ~ NoPanic (call_step c s).2.
Proof.
  intros Hf (p & (n & x & r & Hc & Hx & Hr & Hp) & Hn & Ho & Hu). assert (~ NoPanic (give (on_book (add_sheet (Some n))) s).2) as H. { rewrite np_give. by eapply np_add_root. }
  destruct Hc as [->| ->]; exact H.
Qed.
Theorem step_over c s : env_mode = Checked -> Overruns c s -> ~ NoPanic (call_step c s).2.
Proof.
  intros Hm. destruct c; cbn [Overruns call_step]; try done.
  - intros H. rewrite np_pure, np_style. intros Hn. by apply (Hn Hm).
  - intros [[w Hw] H]. rewrite (np_use _ _ _ _ Hw), np_row. intros Hn. by apply (Hn Hm).
  - intros [[w Hw] (l & r & -> & Hl & Hr & H)]. rewrite (np_use _ _ _ _ Hw), np_row_ref by done. intros Hn. by apply (Hn Hm).
  - intros [[w Hw] (l & r & -> & Hl & Hr & H)]. rewrite (np_use _ _ _ _ Hw), np_col_ref by done. intros Hn. specialize (Hn Hm). lia.
Qed.
(** *** Sessions *)
Lemma step_folder c s : rl_path (wb_rels (x_book (call_step c s).1.1)) = rl_path (wb_rels (x_book s.1)).
Proof.
  assert (forall name, rl_path (wb_rels (x_book (give (on_book (add_sheet name)) s).1.1)) = rl_path (wb_rels (x_book s.1))) as Hgive.
  { intros name. unfold give, on_book, x_state, add_sheet. cbn [fst snd].
    destruct (ws_new_list name (wb_sheets (x_book s.1), (wb_rels (x_book s.1), x_office s.1))) as (_ & L2 & _).
    pose proof (file_name_path name (wb_sheets (x_book s.1), (wb_rels (x_book s.1), x_office s.1))) as Hp. rewrite <- L2 in Hp. cbn [fst snd] in Hp.
    destruct (ws_new name _) as [[l [r o]] [w|e|e]]; exact Hp. }
  assert (forall h m, rl_path (wb_rels (x_book (use h m s).1.1)) = rl_path (wb_rels (x_book s.1))) as Huse.
  { intros h m. unfold use. destruct (handle h s) as [w|]; [|done]. by destruct (m _) as [[w1 t] r]. }
  assert (forall m : M workbook unit, rl_path (wb_rels (m (x_book s.1)).1) = rl_path (wb_rels (x_book s.1)) -> rl_path (wb_rels (x_book (on_excel (on_book (pure_book m)) s).1.1)) = rl_path (wb_rels (x_book s.1))) as Hpure.
  { intros m Hm. unfold on_excel, on_book, pure_book, x_state. cbn [fst snd]. by destruct (m (x_book s.1)). }
  assert (forall h m, (forall w b o, rl_path (wb_rels (m w (b, o)).1.1) = rl_path (wb_rels b)) -> rl_path (wb_rels (x_book (spend h m s).1.1)) = rl_path (wb_rels (x_book s.1))) as Hspend.
  { intros h m Hm. unfold spend. destruct (handle h s) as [w|]; [|done]. unfold on_book, x_state. specialize (Hm w (x_book s.1) (x_office s.1)). by destruct (m w _) as [[b o] r]. }
  destruct c; cbn [call_step]; try apply Hgive; try apply Huse; try (apply Hpure; done).
  - apply Hpure. unfold rename_sheet. destruct (existsb _ _); [done|]. by destruct (rename_first _ _ _).
  - apply Hpure. unfold bind, wb_style_id. by destruct (get_style_id _ _) as [st [i|e|e]].
  - by apply Hspend.
  - apply Hspend. intros w b o. unfold on_wb_office. cbn [fst snd]. by destruct (ws_flush w o).
  - apply Hspend. intros w b o. destruct (delete_list w b o) as [_ D2]. by rewrite D2.
Qed.
Lemma calls_folder cs : forall s s', calls cs s = Some s' -> rl_path (wb_rels (x_book s'.1)) = rl_path (wb_rels (x_book s.1)).
Proof.
  induction cs as [|c cs IH]; intros s s'; cbn [calls]; [by intros [= <-]|]. pose proof (step_folder c s) as Hc. destruct (call_step c s) as [s1 [u|e|e]]; [| |done]; intros H; rewrite (IH _ _ H); exact Hc.
Qed.
(** A session ends at the first call that panics. *)
Lemma calls_none cs : forall s, calls cs s = None <-> Reaches cs s (fun c s1 => ~ NoPanic (call_step c s1).2).
Proof.
  induction cs as [|c cs IH]; intros s; cbn [calls].
  - split; [done|]. intros (cs1 & c1 & cs2 & s1 & H & _). by destruct cs1.
  - destruct (call_step c s) as [s1 r] eqn:Ec. split.
    + intros H. assert (~ NoPanic r \/ NoPanic r /\ calls cs s1 = None) as [Hr|[Hr Hn]]. { destruct r; cbn; tauto. }
      * exists [], c, cs, s. split; [done|]. split; [done|]. by rewrite Ec.
      * apply IH in Hn as (cs1 & c1 & cs2 & s2 & -> & H2 & H3). exists (c :: cs1), c1, cs2, s2. split; [done|]. split; [|done]. cbn [calls]. rewrite Ec. by destruct r.
    + intros (cs1 & c1 & cs2 & s2 & H1 & H2 & H3). destruct cs1 as [|c0 cs1]; cbn in H1.
      * injection H1 as <- <-. cbn in H2. injection H2 as <-. rewrite Ec in H3. by destruct r.
      * injection H1 as <- ->. cbn [calls] in H2. rewrite Ec in H2. assert (calls (cs1 ++ c1 :: cs2) s1 = None) as Hn. { apply IH. exists cs1, c1, cs2, s2. split; [done|]. split; [|done]. by destruct r. }
        by destruct r.
Qed.
Lemma reaches_imp (P Q : call -> session -> Prop) cs s : (forall cs1 c cs2 s1, cs = cs1 ++ c :: cs2 -> calls cs1 s = Some s1 -> P c s1 -> Q c s1) -> Reaches cs s P -> Reaches cs s Q.
Proof. intros H (cs1 & c & cs2 & s1 & H1 & H2 & H3). exists cs1, c, cs2, s1. split; [done|]. split; [done|]. by eapply H. Qed.
Theorem sessions_end folder cs s : OwnerFolder (rl_path (wb_rels (x_book s.1))) folder -> (env_mode = Checked -> Forall Addressed cs) ->
  (calls cs s = None -> Reaches cs s (fun c s1 => AtRoot folder c s1 \/ env_mode = Checked /\ (Overruns c s1 \/ BadCell folder c s1)))
  /\ (Reaches cs s (fun c s1 => AtRoot folder c s1 \/ env_mode = Checked /\ Overruns c s1) -> calls cs s = None).
Proof.
  intros Hf Ha. rewrite calls_none. split; apply reaches_imp; intros cs1 c cs2 s1 -> H1 H2; rewrite <- (calls_folder _ _ _ H1) in Hf.
  - apply step_forward; [done| |done]. intros Hm. specialize (Ha Hm). apply Forall_app in Ha as [_ Ha]. by apply Forall_cons in Ha as [Ha _].
  - destruct H2 as [H2|[H2 H3]]; [by eapply step_root|by eapply step_over].
Qed.
(** The parts of a new workbook are in folders. *)
Lemma new_not_root o0 c s : SessionInv o0 s -> ~ AtRoot "xl/" c s.
Proof.
  intros I (p & (n & x & r & _ & _ & (l1 & l2 & Hl & _) & Hr) & Hn & _). destruct (bs_list _ (si_book _ _ I)) as (ext & He & Hx). rewrite He in Hl.
  assert (r ∈ base_rels ++ ext) as Hin. { rewrite Hl. apply elem_of_app. right. left. } clear Hl.
  assert (exists a b, r_target r = "/" +:+ a +:+ "/" +:+ b) as (a & b & Ht).
  { apply elem_of_app in Hin as [Hin|Hin].
    - unfold base_rels in Hin. rewrite !elem_of_cons in Hin. destruct Hin as [->|[->|[->|[->|Hin]]]]; [exists "xl", "theme/theme1.xml"|exists "xl", "sharedStrings.xml"|exists "xl", "calcChain.xml"|exists "xl", "styles.xml"|by apply elem_of_nil in Hin]; reflexivity.
    - rewrite Forall_forall in Hx. destruct (Hx _ Hin) as (_ & (k & Hk) & _). rewrite Hk. exists sheet_dir. eexists. reflexivity. }
  rewrite Ht in Hr. change ("/" +:+ ?x) with (String "/" x) in Hr at 1. inversion Hr; [|done]. subst. by apply (Hn a b).
Qed.
(** What keeps a save from panicking does not depend on the file system. *)
Lemma save_panics t f f' path path' x fs fs' : NoPanic (excel_save t f path x fs).2 -> NoPanic (excel_save t f' path' x fs').2.
Proof.
  assert (forall f path b fs, NoPanic (write_file f path b fs).2) as Hw.
  { intros g p b l. unfold write_file. destruct (_ && _); [done|]. destruct (f_create g); [done|]. destruct (write_pieces _ _ _ _) as [? []]; done. }
  unfold excel_save. destruct (wb_flush _ _) as [o [u|e|e]]; [|done..]. unfold suite_save. destruct (bind _ _ _) as [o1 [u1|e|e]]; [|done..].
  unfold office_save. destruct (close_all _) as [o2 [u2|e|e]]; [|done..]. cbn [snd]. destruct (save_archive _) as [b|e|e]; [|done..]. intros _. apply Hw.
Qed.
Lemma saves_quietly t f path x fs : (forall g p l, Healthy g p l -> (excel_save t g p x l).2 = Ok tt) -> NoPanic (excel_save t f path x fs).2.
Proof.
  intros H. eapply (save_panics t (mkFaults false false None []) f path path x fs fs). rewrite H; [done|]. split; [by right|]. done.
Qed.
End stepping.
