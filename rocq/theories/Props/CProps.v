(** C74: programs that use a workbook through the C interface. *)
From Coq Require Import ZArith.
From Verif.Model Require Import Ffi.
From Verif.Spec Require Import XmlSpec PackageSpec SheetSpec StyleSpec SessionSpec FlowSpec GrowSpec CSpec DemoEnv.
From Verif.Proofs Require Import BaseFacts SaveFacts FrameFacts KeepFacts GrowFacts OnceFacts HeldFacts FfiFacts CFacts.
From Verif.Props Require Import KeepProps FlowProps ReopenProps HeldProps.
Open Scope N_scope.

(** C74. A C program leaves the workbook the library calls leave that its calls stand for, and has the sheets these hand out; calls with unusable arguments
    do nothing. It is aborted exactly if these calls end a program. *)
Theorem C74_same : forall (E : Env) (HH : Hashes) (ks : list c_call) (x : excel),
  match c_run ks (x, []) with
  | Some ((x', ws), codes) => calls (omap stands_for ks) (x, []) = Some (x', Some <$> ws) /\ length codes = length ks
  | None => calls (omap stands_for ks) (x, []) = None
  end.
Proof. intros E HH ks x. pose proof (run_lib ks (x, [])) as H. by destruct (c_run ks (x, [])) as [[[x' ws] codes]|]. Qed.
(** C74. The code of each call is 0 exactly if its arguments are usable and the library call succeeds at this point of the program; a call that renames
    a sheet returns 0 also if it fails. *)
Theorem C74_codes : forall (E : Env) (HH : Hashes) (ks1 ks2 : list c_call) (k : c_call) (x x' : excel) (ws : list worksheet) (codes : list Z),
  c_run (ks1 ++ k :: ks2) (x, []) = Some ((x', ws), codes) ->
  exists s z, calls (omap stands_for ks1) (x, []) = Some s /\ codes !! length ks1 = Some z
  /\ (z = 0%Z <-> exists c, stands_for k = Some c /\ ((call_step c s).2 = Ok tt \/ renames k)).
Proof.
  intros E HH ks1 ks2 k x x' ws codes Hr. destruct (run_codes _ _ _ _ _ _ Hr) as (s1 & cs1 & z & H1 & H2 & H3). pose proof (run_lib ks1 (x, [])) as Hl. rewrite H1 in Hl. destruct Hl as [Hl _].
  exists (lib s1), z. split; [done|]. split; [done|]. pose proof (step_lib k s1) as Hs. rewrite H3 in Hs. destruct (stands_for k) as [c|].
  - destruct Hs as [_ [_ Hs]]. rewrite Hs. split; [intros H; by exists c|by intros (c' & [= <-] & H)].
  - destruct Hs as (_ & z' & [= <-] & Hz). split; [done|by intros (c' & ? & _)].
Qed.
(** C74. No two sheets a C program is given have the same part: a sheet can be had once. *)
Theorem C74_once : forall (E : Env) (HH : Hashes) (from : option string) (fs0 : filesys) (ks : list c_call) (x0 x : excel) (ws : list worksheet) (codes : list Z),
  excel_new from fs0 = Ok x0 -> c_run ks (x0, []) = Some ((x, ws), codes) -> NoDup (map ws_path ws).
Proof.
  intros E HH from fs0 ks x0 x ws codes Hn Hr. pose proof (run_lib ks (x0, [])) as Hl. rewrite Hr in Hl. destruct Hl as [Hl _]. destruct (new_linv _ _ _ Hn) as [I0 _]. destruct (calls_effect _ _ _ I0 Hl) as (I & _).
  pose proof (li_nodup _ I) as Hnd. unfold held in Hnd. apply NoDup_app in Hnd as (_ & _ & Hnd). apply NoDup_app in Hnd as (_ & _ & Hnd). cbn [lib snd] in Hnd.
  unfold live_parts in Hnd. clear - Hnd. induction ws as [|w ws IH]; [constructor|]. rewrite fmap_cons, fmap_cons in Hnd. cbn [concat handle_parts map] in *. apply NoDup_app in Hnd as (_ & H1 & H2).
  constructor; [|by apply IH]. intros Hw. apply (H1 (ws_path w)); [by left|]. apply elem_of_list_In, in_map_iff in Hw as (v & Hv & Hin). apply elem_of_list_In, in_concat. exists (handle_parts (Some v)).
  split; [|cbn; by left]. apply elem_of_list_In. apply elem_of_list_fmap. exists (Some v). split; [done|]. apply elem_of_list_fmap. exists v. split; [done|]. by apply elem_of_list_In.
Qed.
(** C74. Every sheet a C program is given is saved without cells, columns and views, those it had in the file opened included. *)
Theorem C74_cells : forall (E : Env) (HH : Hashes) (from : option string) (fs0 fs fs' : filesys) (ks : list c_call) (x0 x : excel) (ws : list worksheet) (w : worksheet) (codes : list Z)
    (t : clock) (f : faults) (path : string) (tr : list filesys) (rep : reply unit),
  excel_new from fs0 = Ok x0 -> c_run ks (x0, []) = Some ((x, ws), codes) -> w ∈ ws ->
  ffi_excel_save t f fs (Some x) (Some path) = (tr, Some rep) -> rp_code rep = 0%Z -> last tr = Some fs' ->
  exists l text, Stored fs' path l /\ (forall b, (ws_path w, b) ∈ l <-> b = prolog +:+ text)
  /\ (text = "" \/ exists root nsl, Renders (Some nsl) root text
      /\ forall y, y ∈ t_children root -> t_tag y ∉ ["dimension"; "cols"; "sheetData"; "sheetViews"]).
Proof.
  intros E HH from fs0 fs fs' ks x0 x ws w codes t f path tr rep Hn Hr Hw Hs Hz Hl. pose proof (run_lib ks (x0, [])) as Hlib. rewrite Hr in Hlib. destruct Hlib as [Hlib _].
  apply elem_of_list_lookup in Hw as [h Hh]. unfold ffi_excel_save, saved in Hs. destruct (excel_save t f path x fs) as [tr' r] eqn:Es. injection Hs as <- Hs.
  apply (C73_held E HH from fs0 fs fs' x0 (omap stands_for ks) (lib (x, ws)) h w t f path tr' Hn Hlib).
  - unfold handle, lib. cbn [snd]. by rewrite list_lookup_fmap, Hh.
  - cbn [lib fst]. rewrite Es. destruct r as [[]|e|e]; [done| |done]. cbn in Hs. injection Hs as <-. by apply failed_code in Hz.
  - done.
Qed.

(** A C program that opens the file of C73_example and gets its sheet "Two" twice, with calls in between that fail or have no name: the codes, and the part of the sheet in the file saved.
    The second time the sheet is refused; the failed renaming returns 0. *)
Definition c_demo `{Env} `{Hashes} (ks : list c_call) : option (list Z * option string) :=
  match ffi_excel_create (Some "in") (Some (inr tt)) {["in" := env_zip held_parts]} with
  | Some r => x ← rp_out r; s ← c_run ks (x, []);
      let '(tr, rep) := ffi_excel_save demo_clock demo_faults ∅ (Some s.1.1) (Some "a.xlsx") in
      rep ← rep; fs ← last tr; b ← fs !! "a.xlsx"; l ← env_unzip b; Some (s.2 ++ [rp_code rep], part_of "xl/worksheets/sheet2.xml" l)
  | None => None end.
Example C74_example : @c_demo (demo_env Checked) value_hashes [KGet (Some "Two"); KRename (Some "No") (Some "New"); KHide None; KStyle None; KGet (Some "Two"); KAdd None]
  = Some ([0; 0; 1; 1; 4; 0; 0]%Z, Some "<?xml version=""1.0"" encoding=""utf-8""?><worksheet   />").
Proof. vm_compute. reflexivity. Qed.

Print Assumptions C74_same.
Print Assumptions C74_codes.
Print Assumptions C74_once.
Print Assumptions C74_cells.
Print Assumptions C74_example.
