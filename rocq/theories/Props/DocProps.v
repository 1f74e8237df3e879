(** C47: documents and presentations over many saves. *)
From Verif.Model Require Import Excel.
From Verif.Spec Require Import XmlSpec XmlRepr PackageSpec PartSpec DocSpec DemoEnv.
From Verif.Proofs Require Import BaseFacts SmallPartFacts DocFacts.
Open Scope N_scope.

(** C47. A new document can be made on any file system. Save it, open the file that was written,
    and go on like this as often as you like, with any paths, times, and sizes of the pieces the
    operating system takes: every call succeeds; the creation time is that of the first save, the
    modification time that of the last; everything else in the properties stays as it was, and
    the order of the properties too; no file is touched but those saved to. *)
Theorem C47_history : forall (E : Env) (fs0 : filesys),
  exists s0 t0, suite_new None fs0 = Ok s0 /\ CoreOpen (su_office s0) (su_core s0) t0
  /\ property "dc:creator" t0 = Some "OpenXML-Office" /\ property "cp:lastModifiedBy" t0 = Some "OpenXML-Office"
  /\ property "dcterms:created" t0 = None /\ property "dcterms:modified" t0 = None
  /\ forall (first : saving) (l : list saving) (fs : filesys),
       Forall (fun x : saving => time_text (ck_1 x.1) /\ time_text (ck_2 x.1)) (first :: l) ->
       exists s fs' t, suite_cycles (first :: l) s0 fs = Some (s, fs') /\ CoreOpen (su_office s) (su_core s) t
       /\ property "dcterms:created" t = Some (ck_2 first.1)
       /\ property "dcterms:modified" t = Some (ck_1 (default first (last l)).1)
       /\ property "dc:creator" t = Some "OpenXML-Office" /\ property "cp:lastModifiedBy" t = Some "OpenXML-Office"
       /\ map t_tag (t_children t) = map t_tag (t_children t0)
       /\ (forall q, q ∉ map (fun x : saving => x.2.1) (first :: l) -> fs' !! q = fs !! q).
Proof.
  intros E fs0. destruct (doc_new fs0) as (s0 & t0 & H1 & H2 & H3 & H4 & H5 & H6 & H7 & H8).
  assert (CoreOpen (su_office s0) (su_core s0) t0) as Hc0. { destruct H2 as (_ & -> & _ & _ & Hc & _). exact Hc. }
  exists s0, t0. do 6 (split; [done|]). intros first l fs Hl.
  destruct (doc_history (first :: l) s0 fs t0) as (s & fs' & t & I1 & I2 & I3 & I4 & _ & I5 & I6 & I7); [done|done|by rewrite H6|done|done|].
  exists s, fs', t. split; [done|]. split. { destruct I2 as (_ & -> & _ & _ & Hc & _). exact Hc. }
  split; [by rewrite I6, H6|]. split.
  { rewrite I5 by done. clear. change ((first :: l).*1) with (map fst (first :: l)).
    revert first. induction l as [|y l IH]; intros x; [done|]. change (last (map fst (x :: y :: l))) with (last (map fst (y :: l))). rewrite IH.
    destruct l as [|z l]; [done|]. change (last (y :: z :: l)) with (last (z :: l)).
    destruct (last (z :: l)) eqn:Hz; [done|]. by apply last_None in Hz. }
  split; [rewrite I7; [done|done|done|by rewrite H7]|]. split; [rewrite I7; [done|done|done|by rewrite H8]|]. done.
Qed.
Definition demo_saving (d : string) (path : string) (pieces : list nat) : saving :=
  (mkClock ("2024-01-" +:+ d +:+ "T10:00:00Z") ("2024-01-" +:+ d +:+ "T10:00:01Z") ("2024-01-" +:+ d +:+ "T10:00:02Z") ("2024-01-" +:+ d +:+ "T10:00:03Z"), (path, pieces)).
Definition demo_savings : list saving := [demo_saving "01" "a.docx" [3%nat]; demo_saving "02" "b.docx" []; demo_saving "03" "a.docx" [1%nat; 0%nat]].
Example C47_example_times : Forall (fun x : saving => time_text (ck_1 x.1) /\ time_text (ck_2 x.1)) demo_savings.
Proof. repeat constructor; by vm_compute. Qed.
(** The run with three saves to two files beside a third file, computed. *)
Example C47_example : let E := demo_env Checked in
  match suite_new None ∅ with
  | Ok s0 => match suite_cycles demo_savings s0 {["c.docx" := "x"]} with
    | Some (s, fs) => (size fs =? 3)%nat && bool_decide (fs !! "c.docx" = Some "x") && bool_decide (fs !! "a.docx" <> fs !! "b.docx")
    | None => false end
  | _ => false end = true.
Proof. vm_compute. reflexivity. Qed.
Print Assumptions C47_history.
Print Assumptions C47_example_times.
Print Assumptions C47_example.
