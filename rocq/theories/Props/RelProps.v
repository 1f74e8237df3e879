(** C13 - C15: relationship ids, lookup by type, deletion. *)
From Verif.Model Require Import Relations.
From Verif.Spec Require Import RelSpec DemoEnv.
From Verif.Proofs Require Import BaseFacts RelFacts.

(** C13: the id of a new relationship is rId<k>, it is not in use, and [k] is the first free
    number above the number of relationships (so the search ends after at most that many steps). *)
Theorem C13_fresh_id : forall (c : content) (path name : option string) (r : relations),
  exists k id, set_new_relationship c path name r
    = (mkRelations (rl_rels r ++ [mkRel id ("/" +:+ target_path c path name) (c_type c) None]) (rl_path r), id)
  /\ id = "rId" +:+ show_N k
  /\ id ∉ rel_ids r
  /\ N.of_nat (length (rl_rels r)) < k <= 2 * N.of_nat (length (rl_rels r)) + 1
  /\ (forall j, N.of_nat (length (rl_rels r)) < j < k -> "rId" +:+ show_N j ∈ rel_ids r).
Proof.
  intros c path name r. destruct (get_next_spec r) as (k & E & Hk & Hn & Hj).
  exists k, (rid k). unfold set_new_relationship. rewrite E. done.
Qed.
(** Over any history of additions, lookups and deletions ids stay distinct. *)
Theorem C13_ids_distinct : forall (os : list rel_op) (r : relations),
  NoDup (rel_ids r) -> NoDup (rel_ids (run_rels os r)).
Proof. intros os r. apply run_rels_nodup. Qed.
Example C13_example :
  let r := mkRelations [mkRel "rId2" "/xl/a.xml" "t" None; mkRel "rId3" "b.xml" "u" None] "xl/_rels/workbook.xml.rels" in
  NoDup (rel_ids r)
  /\ (set_new_relationship c_theme None None r).2 = "rId4"
  /\ rel_ids (run_rels [RAdd c_theme None None; RDelete "xl/a.xml"; RAdd c_style None None;
                        RLookup "t" c_worksheet None None] r) = ["rId3"; "rId4"; "rId5"; "rId6"].
Proof. cbn zeta. split; [|split; by vm_compute]. apply (bool_decide_unpack _). by vm_compute. Qed.

(** C14: a relationship of the type exists: the first one is resolved against the folder of the
    owner, and nothing changes. *)
Theorem C14_found : forall (ty : string) (c : content) (path name : option string) (r : relations)
    (folder : string) (l1 l2 : list rel) (x : rel),
  OwnerFolder (rl_path r) folder ->
  rl_rels r = l1 ++ x :: l2 -> r_type x = ty -> Forall (fun y => r_type y <> ty) l1 ->
  exists p, get_target_by_type ty c path name r = (r, Ok p) /\ Resolves folder (r_target x) p.
Proof.
  intros ty c path name r folder l1 l2 x Ho Hr Ht Hf.
  destruct (resolve_spec r folder (r_target x) Ho) as (p & Hp & Hres).
  exists p. split; [|done]. unfold get_target_by_type.
  rewrite (first_of_find ty x r) by (by exists l1, l2). by rewrite Hp.
Qed.
(** None exists: exactly one relationship is added, at the end, and its path is returned. *)
Theorem C14_added : forall (ty : string) (c : content) (path name : option string) (r : relations),
  Forall (fun y => r_type y <> ty) (rl_rels r) ->
  exists id, id ∉ rel_ids r
  /\ get_target_by_type ty c path name r
     = (mkRelations (rl_rels r ++ [mkRel id ("/" +:+ target_path c path name) (c_type c) None]) (rl_path r),
        Ok (target_path c path name)).
Proof.
  intros ty c path name r Hf. destruct (C13_fresh_id c path name r) as (k & id & E & _ & Hn & _).
  exists id. split; [done|]. unfold get_target_by_type.
  pose proof (find_first_of ty r) as H. destruct (List.find _ _) as [x|].
  - destruct H as (l1 & l2 & Hr & Ht & _). rewrite Hr in Hf. apply Forall_app in Hf as [_ Hf].
    apply Forall_cons in Hf as [Hf _]. done.
  - by rewrite E.
Qed.
(** The path returned once is returned by every later lookup of the type, whatever is added,
    looked up, or deleted in between, unless that very path is deleted. *)
Theorem C14_stable : forall (ty : string) (c c2 : content) (path name path2 name2 : option string)
    (r r1 : relations) (p folder : string) (os : list rel_op),
  OwnerFolder (rl_path r) folder -> c_type c = ty ->
  get_target_by_type ty c path name r = (r1, Ok p) ->
  (forall q, RDelete q ∈ os -> absolute q <> "/" +:+ p) ->
  get_target_by_type ty c2 path2 name2 (run_rels os r1) = (run_rels os r1, Ok p).
Proof.
  intros ty c c2 path name path2 name2 r r1 p folder os Ho Hty H Hd.
  assert (exists x, first_of ty x r1 /\ resolve_target r1 (r_target x) = Ok p /\ rl_path r1 = rl_path r)
    as (x & Hx & Hp & Hpath).
  { unfold get_target_by_type in H. pose proof (find_first_of ty r) as Hf.
    destruct (List.find _ _) as [x|].
    - injection H as -> Hp. exists x. done.
    - injection H as <- <-.
      exists (mkRel (get_next_relationship_id r) ("/" +:+ target_path c path name) (c_type c) None).
      split; [|split; [|done]].
      + exists (rl_rels r), []. done.
      + unfold resolve_target.
        rewrite (relative_path _ folder) by done. done. }
  assert (first_of ty x (run_rels os r1)) as Hx'.
  { apply first_of_runs; [done|]. intros q Hq Hc. apply (Hd q Hq). rewrite Hc.
    destruct (resolve_spec r1 folder (r_target x)) as (p' & Hp' & Hres); [by rewrite Hpath|].
    rewrite Hp in Hp'. injection Hp' as <-. destruct (absolute_slash q) as (s & Hs). rewrite Hs in Hc.
    rewrite <- Hc in Hres. inversion Hres; subst; done. }
  unfold get_target_by_type. rewrite (first_of_find ty x _ Hx'). unfold resolve_target, get_relative_path in *.
  by rewrite run_rels_path, Hp.
Qed.
Example C14_example :
  let r := mkRelations [mkRel "rId1" "theme/t.xml" "T" None; mkRel "rId2" "/xl/s.xml" "S" None] "xl/_rels/workbook.xml.rels" in
  OwnerFolder (rl_path r) "xl/"
  /\ get_target_by_type "T" c_theme None None r = (r, Ok "xl/theme/t.xml")
  /\ get_target_by_type "S" c_theme None None r = (r, Ok "xl/s.xml")
  /\ (get_target_by_type (c_type c_style) c_style None None r).2 = Ok "xl/styles.xml"
  /\ length (rl_rels (get_target_by_type (c_type c_style) c_style None None r).1) = 3%nat.
Proof.
  cbn zeta. split; [|repeat split; by vm_compute].
  apply (Own_dir "xl" "/workbook.xml.rels"). intros a b E.
  by destruct a as [|? [|? [|? a]]].
Qed.

(** C15: deletion splits the list into the relationships whose target is the absolute path of the
    part, which go, and all others, which stay in order. *)
Theorem C15_delete_exact : forall (path : string) (r : relations),
  exists gone, Permutation (rl_rels r) (rl_rels (delete_relationship path r) ++ gone)
  /\ Forall (fun x => r_target x = absolute path) gone
  /\ Forall (fun x => r_target x <> absolute path) (rl_rels (delete_relationship path r))
  /\ sublist (rl_rels (delete_relationship path r)) (rl_rels r)
  /\ rl_path (delete_relationship path r) = rl_path r.
Proof.
  intros path r. exists (List.filter (fun x => seqb (r_target x) (absolute path)) (rl_rels r)).
  rewrite delete_rels. split; [|split; [|split; [|split; [apply filter_sublist|done]]]].
  - induction (rl_rels r) as [|x l IH]; [done|]. cbn [List.filter].
    destruct (seqb (r_target x) (absolute path)); cbn [negb app].
    + rewrite <- Permutation_middle. by constructor.
    + by constructor.
  - apply Forall_forall. intros x Hx. apply elem_of_list_In, filter_In in Hx as [_ Hx]. by apply String.eqb_eq.
  - apply Forall_forall. intros x Hx. apply elem_of_list_In, filter_In in Hx as [_ Hx].
    apply Bool.negb_true_iff in Hx. by apply String.eqb_neq.
Qed.
(** A relative target is never removed. *)
Theorem C15_relative_kept : forall (path : string) (r : relations) (x : rel),
  x ∈ rl_rels r -> (forall s, r_target x <> String "/" s) -> x ∈ rl_rels (delete_relationship path r).
Proof.
  intros path r x Hx Hn. rewrite delete_rels. apply elem_of_list_In, filter_In. split; [by apply elem_of_list_In|].
  apply Bool.negb_true_iff, String.eqb_neq. destruct (absolute_slash path) as (s & ->). apply Hn.
Qed.
(** So "after deleting a part no relationship leads to it" is false. *)
Theorem C15_no_link_left_refuted :
  exists (r : relations) (id p : string),
    get_target_by_id r id = Ok (Some p) /\ get_target_by_id (delete_relationship p r) id = Ok (Some p).
Proof.
  exists (mkRelations [mkRel "rId1" "worksheets/sheet1.xml" "T" None] "xl/_rels/workbook.xml.rels"),
    "rId1", "xl/worksheets/sheet1.xml". split; by vm_compute.
Qed.
Example C15_example :
  rl_rels (delete_relationship "xl/a.xml" (mkRelations
    [mkRel "rId1" "/xl/a.xml" "T" None; mkRel "rId2" "a.xml" "T" None; mkRel "rId3" "/xl/a.xml" "U" None] "xl/_rels/w.rels"))
  = [mkRel "rId2" "a.xml" "T" None].
Proof. by vm_compute. Qed.

Print Assumptions C13_fresh_id.
Print Assumptions C13_ids_distinct.
Print Assumptions C14_found.
Print Assumptions C14_added.
Print Assumptions C14_stable.
Print Assumptions C15_delete_exact.
Print Assumptions C15_relative_kept.
Print Assumptions C15_no_link_left_refuted.
