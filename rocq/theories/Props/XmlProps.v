(** C05 - C12: the XML layer. *)
From Verif.Model Require Import XmlTree XmlWrite XmlRead.
From Verif.Spec Require Import XmlSpec XmlRepr XmlHistory DemoEnv.
From Verif.Proofs Require Import BaseFacts XmlWriteFacts XmlLexFacts XmlReadFacts XmlTreeFacts
  XmlHistFacts XmlNsFacts.

(** ** C05: escaping is lossless and its result contains no markup. *)
Theorem C05_escape_lossless : forall s, unescape (escape s) = Some s.
Proof. apply unescape_escape. Qed.
Theorem C05_escape_safe : forall s, SafeText (escape s).
Proof. intros s. rewrite escape_spec. apply spec_escape_safe. Qed.
Example C05_example : escape "a<b> & 'c' ""d""" = "a&lt;b&gt; &amp; &apos;c&apos; &quot;d&quot;"
  /\ ~ SafeText "a&b".
Proof.
  split; [by vm_compute|]. intros Hs. inversion Hs as [|a s Ha Hs' E|e s He Hs' E]; subst.
  - inversion Hs' as [|a' s' Ha' _|e s He _ E]; subst; [done|].
    rewrite !elem_of_cons, elem_of_nil in He. naive_solver.
  - rewrite !elem_of_cons, elem_of_nil in He. naive_solver.
Qed.

(** ** C06: writing succeeds on every document holding a tree and emits the text of that tree. *)
Theorem C06_write_renders : forall (E : Env) (d : doc) (it : itree), Represents d it ->
  exists nsl body, Permutation nsl (map_to_list (written_ns (d_ns d)))
    /\ Renders (Some nsl) (erase it) body /\ write_doc d = Ok (prolog +:+ body).
Proof.
  intros E d it Hr. exists (hash_entries (written_ns (d_ns d))), (render_root (d_ns d) (erase it)).
  split; [apply hash_entries_perm|]. split; [apply render_renders_mut|by apply write_doc_render].
Qed.

(** ** C07: reading back what was written. *)
Theorem C07_write_read : forall (E : Env) (d : doc) (it : itree),
  Represents d it -> names_ok (erase it) -> ns_ok (d_ns d) ->
  t_value (erase it) <> None \/ t_children (erase it) <> [] ->
  exists bytes d' it', write_doc d = Ok bytes /\ read_doc bytes = Ok d' /\ Represents d' it'
    /\ erase it' = reread (erase it) /\ d_ns d' = written_ns (d_ns d).
Proof.
  intros E d it Hr Hn Hns Hne.
  destruct (read_render_root (d_ns d) (erase it) Hn Hns Hne) as (d' & it' & H1 & H2 & _ & H4 & H5).
  exists (prolog +:+ render_root (d_ns d) (erase it)), d', it'. split; [by apply write_doc_render|]. done.
Qed.
(** A root element with neither text nor children is written but refused by the reader. *)
Theorem C07_empty_root_unreadable_refuted : forall (E : Env) (d : doc) (it : itree),
  Represents d it -> names_ok (erase it) -> ns_ok (d_ns d) ->
  t_value (erase it) = None -> t_children (erase it) = [] ->
  exists bytes m, write_doc d = Ok bytes /\ read_doc bytes = Err m.
Proof.
  intros E d it Hr Hn Hns Hv Hc. destruct (erase it) as [g a v cs] eqn:Et. cbn in Hv, Hc. subst v cs.
  destruct (read_empty_root (d_ns d) g a Hn Hns) as [m Hm].
  exists (prolog +:+ render_root (d_ns d) (erase it)), m. split; [by apply write_doc_render|]. by rewrite Et.
Qed.

(** A document built through the API, used by the examples below. *)
Definition demo_ops : list tree_op :=
  [ OpRoot "w:doc"; OpAttrs 0 {[ "xmlns:w" := "urn:w"; "a" := "x&y" ]};
    OpAppend "p" (Some 0); OpAppend "q" (Some 0); OpBefore "n" "q" (Some 0); OpValue 1 " t<1 ";
    OpAfter "m" "p" (Some 0); OpAt "z" 0 (Some 2); OpAppend "gone" None; OpPopTag "gone" None;
    OpOrder ["q"; "p"] 0; OpAttr 0 "b" "1" ].
Definition demo_doc (m : mode) : doc := (@run_ops (demo_env m) demo_ops new_doc).1.
Definition demo_tree : itree :=
  INode 0 "w:doc" (Some {[ "a" := "x&y"; "b" := "1" ]}) None
    [ INode 2 "q" None None [INode 5 "z" None None []]; INode 1 "p" None (Some " t<1 ") [];
      INode 4 "m" None None []; INode 3 "n" None None [] ].
Lemma demo_represents m : Represents (demo_doc m) demo_tree.
Proof.
  split; [done|]. split; [by apply (bool_decide_unpack _); vm_compute|].
  unfold Holds, demo_tree. cbn [flat flat_map app].
  repeat (apply List.Forall_cons; [apply (bool_decide_unpack _); by destruct m; vm_compute|]). apply List.Forall_nil.
Qed.
Example C06_example : @write_doc (demo_env Checked) (demo_doc Checked)
  = Ok (xml_decl +:+ "<w:doc xmlns:w=""urn:w"" a=""x&amp;y"" b=""1"" ><q ><z /></q><p > t&lt;1 </p><m /><n /></w:doc>").
Proof. by vm_compute. Qed.
Example C07_example : @names_ok (demo_env Wrapping) (erase demo_tree)
  /\ @ns_ok (demo_env Wrapping) (d_ns (demo_doc Wrapping)) /\ t_children (erase demo_tree) <> [].
Proof.
  split; [|split; [|done]].
  - cbn. do 2 (split; [done || (apply (bool_decide_unpack _); by vm_compute)|]). by repeat split.
  - intros k v. assert (d_ns (demo_doc Wrapping) = {["w" := "urn:w"]}) as ->
      by (apply (bool_decide_unpack _); by vm_compute).
    rewrite lookup_singleton_Some. intros [<- <-]. split; [done|]. by right.
Qed.

(** ** C08: attribute values across save and reopen. *)
Theorem C08_attribute_cycles : forall (E : Env) (n : nat) (d d' : doc) (it : itree) p k v,
  Represents d it -> names_ok (erase it) -> ns_ok (d_ns d) -> Cycles n d d' ->
  attr_at p k (erase it) = Some v ->
  exists it' v', Represents d' it' /\ attr_at p k (erase it') = Some v'
    /\ (sexists is_special v = false -> v' = v)
    /\ (sexists is_special v = true -> (String.length v + 3 * n <= String.length v')%nat)
    /\ (n = 1%nat -> (v' = v <-> sexists is_special v = false)).
Proof.
  intros E n d d' it p k v Hr Hn Hns Hc Hv.
  destruct (cycles_attr n d d' Hc it p k v Hr Hn Hns Hv) as (it' & H1 & H2).
  exists it', (Nat.iter n spec_escape v). split; [done|]. split; [done|].
  split; [apply iter_escape_plain|]. split; [apply iter_escape_len|].
  intros ->. split; [|apply iter_escape_plain]. intros Heq.
  destruct (sexists is_special v) eqn:Es; [|done]. apply (iter_escape_len 1) in Es. rewrite Heq in Es. lia.
Qed.
Example C08_example : attr_at [] "a" (erase demo_tree) = Some "x&y"
  /\ exists d', @Cycles (demo_env Checked) 2 (demo_doc Checked) d'
     /\ (match get_root d' with Some e => default ∅ (e_attrs e) !! "a" | None => None end) = Some "x&amp;amp;y".
Proof.
  split; [by vm_compute|]. eexists. split.
  - eapply Cycles_S; [vm_compute; reflexivity|vm_compute; reflexivity|].
    eapply Cycles_S; [vm_compute; reflexivity|vm_compute; reflexivity|]. apply Cycles_0.
  - by vm_compute.
Qed.

(** ** C09: every history of edits keeps the document sound and never reuses an id. *)
Theorem C09_histories_sound : forall (E : Env) (os : list tree_op),
  let '(d, new) := run_ops os new_doc in
  Sound d /\ StronglySorted N.lt new /\ Forall (fun i => 0 < i) new.
Proof.
  intros E os. destruct (run_ops_inv os new_doc HInv_new) as ((_ & _ & Hs) & _ & Hsort & Hf).
  destruct (run_ops os new_doc) as [d new]. cbn in *. split; [done|]. split; [done|].
  eapply Forall_impl; [exact Hf|]. cbn. lia.
Qed.
(** Where a new element goes, for every document reached by a history. *)
Theorem C09_insert_position : forall (E : Env) (os : list tree_op) (o : tree_op) tag parent d' id it,
  let d := (run_ops os new_doc).1 in
  Represents d it -> insertion o = Some (tag, parent) -> default 0 parent ∈ ids it ->
  apply_op o d = (d', Some id) ->
  exists q g a v l1 l2, Sub 0 it q (INode (default 0 parent) g a v (l1 ++ l2))
    /\ placed o l1 l2 /\ id ∉ ids it
    /\ Represents d' (subst (default 0 parent) (INode (default 0 parent) g a v
         (l1 ++ INode id tag None None [] :: l2)) it).
Proof.
  intros E os o tag parent d' id it d. apply insertion_effect. by apply run_ops_inv, HInv_new.
Qed.
(** Removing the children with a tag removes exactly these, with everything below them. *)
Theorem C09_remove_by_tag : forall (E : Env) (os : list tree_op) tag i d' r it,
  let d := (run_ops os new_doc).1 in
  Represents d it -> i ∈ ids it -> pop_elements_by_tag tag (Some i) d = (d', r) ->
  exists q g a v cs, Sub 0 it q (INode i g a v cs)
    /\ Represents d' (subst i (INode i g a v (List.filter (fun c => negb (seqb (i_tag c) tag)) cs)) it).
Proof.
  intros E os tag i d' r it d Hr Hi Hp. eapply pop_effect; [|done|done|done]. by apply run_ops_inv, HInv_new.
Qed.
Example C09_example : (@run_ops (demo_env Checked) demo_ops new_doc).2 = [1; 2; 3; 4; 5; 6]
  /\ Represents (demo_doc Checked) demo_tree
  /\ (@apply_op (demo_env Checked) (OpBefore "k" "m" None) (demo_doc Checked)).2 = Some 7.
Proof. split; [by vm_compute|]. split; [apply demo_represents|by vm_compute]. Qed.

(** ** C10: ordering children is a stable sort by the order list. *)
Theorem C10_order_child : forall (order : list string) (id : N) (d d' : doc) r e,
  N.of_nat (length order) <= usize_max -> order <> [] ->
  d_elems d !! id = Some e -> order_child order id d = (d', r) ->
  exists cs, d_elems d' = <[id := set_children e cs]> (d_elems d)
    /\ Permutation cs (e_children e)
    /\ StronglySorted (fun x y : N * string => MayPrecede order x.2 y.2) cs
    /\ (forall tag, List.filter (fun c : N * string => String.eqb c.2 tag) cs
                    = List.filter (fun c : N * string => String.eqb c.2 tag) (e_children e))
    /\ List.filter (fun c : N * string => negb (existsb (String.eqb c.2) order)) cs
       = List.filter (fun c : N * string => negb (existsb (String.eqb c.2) order)) (e_children e).
Proof. apply order_child_spec. Qed.
Example C10_example : order_child ["b"; "a"] 0 (mkDoc 4 ∅ {[0 := mkElem 0 0 "r" None None [(1,"a");(2,"x");(3,"b");(4,"a")]]})
  = (mkDoc 4 ∅ {[0 := mkElem 0 0 "r" None None [(3,"b");(1,"a");(4,"a");(2,"x")]]}, Ok tt).
Proof. apply (bool_decide_unpack _). by vm_compute. Qed.

(** ** C11: which namespace declarations a read keeps. *)
Theorem C11_namespaces : forall (E : Env) (s : string) (d : doc),
  strip_prefix bom s = None -> read_doc s = Ok d ->
  exists evs, Tokens s evs /\
  (Forall (map_Forall (fun k _ => regular_key k)) (omap tag_attrs evs) ->
   (forall p, p <> "<Default>" -> sexists (fun a => aeqb a ":") p = false ->
      d_ns d !! p = first_binding ("xmlns:" +:+ p) (omap tag_attrs evs))
   /\ d_ns d !! "<Default>" = last_binding "xmlns" (omap tag_attrs evs)).
Proof.
  intros E s d Hb Hr. unfold read_doc in Hr. rewrite Hb in Hr. apply parse_loop_ns in Hr as (evs & Ht & Hns).
  exists evs. split; [done|]. intros Hreg. destruct (Hns Hreg) as [H1 H2]. split.
  - intros p Hp Hc. rewrite H1 by done. done.
  - change "<Default>" with default_ns_key. rewrite H2. by destruct (last_binding _ _).
Qed.
(** A nested default declaration replaces the one of the root. *)
Definition nested_default : string := "<r xmlns=""urn:a"" xmlns:p=""urn:1""><c xmlns=""urn:b"" xmlns:p=""urn:2"">t</c></r>".
Theorem C11_nested_default_refuted : exists d, @read_doc (demo_env Checked) nested_default = Ok d
  /\ d_ns d !! "<Default>" = Some "urn:b" /\ d_ns d !! "p" = Some "urn:1"
  /\ @write_doc (demo_env Checked) d = Ok (xml_decl +:+ "<r xmlns:p=""urn:1"" xmlns=""urn:b""  ><c  >t</c></r>").
Proof. eexists. split; [by vm_compute|]. repeat split; by vm_compute. Qed.

(** ** C12: reading any bytes ends with an error or a document that can be written. *)
Theorem C12_read_total : forall (E : Env) (s : string),
  (exists m, read_doc s = Err m)
  \/ exists d out, read_doc s = Ok d /\ Sound d /\ write_doc d = Ok out.
Proof.
  intros E s. pose proof (read_doc_inv s) as Hr. destruct (read_doc s) as [d|m|m]; [|by left; eauto|done].
  right. destruct Hr as (_ & _ & Hs). destruct (Sound_writes d Hs) as [out Ho]. eauto.
Qed.
Example C12_example : (exists d, @read_doc (demo_env Checked) nested_default = Ok d)
  /\ @read_doc (demo_env Checked) "<a><b></a>" = Err "mismatched end tag".
Proof. split; [eexists|]; by vm_compute. Qed.

Print Assumptions C05_escape_lossless.
Print Assumptions C05_escape_safe.
Print Assumptions C06_write_renders.
Print Assumptions C07_write_read.
Print Assumptions C07_empty_root_unreadable_refuted.
Print Assumptions C08_attribute_cycles.
Print Assumptions C09_histories_sound.
Print Assumptions C09_insert_position.
Print Assumptions C09_remove_by_tag.
Print Assumptions C10_order_child.
Print Assumptions C11_namespaces.
Print Assumptions C11_nested_default_refuted.
Print Assumptions C12_read_total.
