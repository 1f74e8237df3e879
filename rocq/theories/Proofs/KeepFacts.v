(** What happens to the parts of a package during a session and at its end. *)
From Verif.Model Require Import Excel.
From Verif.Spec Require Import XmlSpec XmlRepr PackageSpec SessionSpec.
From Verif.Proofs Require Import BaseFacts PackageFacts XmlHistFacts BookFacts FrameFacts SaveFacts SessionFacts SoundFacts.
Open Scope N_scope.

Section with_env.
Context `{E : Env}.
Definition DocsOk (o : office) : Prop := forall q p, of_open o !! q = Some p -> HInv (op_doc p).
(** Nothing is lost and the documents stay sound. *)
Definition Safe (o o' : office) : Prop := DocsOk o' /\ forall q, Present o q -> Present o' q.
Lemma safe_refl o : DocsOk o -> Safe o o.
Proof. by split. Qed.
Lemma safe_trans o1 o2 o3 : Safe o1 o2 -> Safe o2 o3 -> Safe o1 o3.
Proof. intros [_ H1] [H2 H3]. split; [done|]. auto. Qed.
Lemma docs_insert o q p : DocsOk o -> HInv (op_doc p) -> DocsOk (set_open o (<[q := p]> (of_open o))).
Proof. intros Ho Hp k x. cbn. intros [[-> <-]|[_ Hx]]%lookup_insert_Some; [done|]. by eapply Ho. Qed.
Lemma open_insert o q p k : is_Some (of_open (set_open o (<[q := p]> (of_open o))) !! k) <-> is_Some (of_open o !! k) \/ k = q.
Proof. cbn. rewrite lookup_insert_is_Some. destruct (decide (q = k)) as [->|]; naive_solver. Qed.
Lemma safe_close path o : DocsOk o -> Safe o (close_xml_document path o).1.
Proof.
  intros Ho. unfold close_xml_document. destruct (of_open o !! path) as [p|] eqn:Ep; [|by apply safe_refl].
  destruct (Ho _ _ Ep) as (_ & _ & Hs). destruct (Sound_writes _ Hs) as (data & ->). cbn [fst]. split.
  - intros k x. cbn. intros [_ Hx]%lookup_delete_Some. by eapply Ho.
  - intros q [Hq|Hq]; unfold Present; cbn; (destruct (decide (q = path)) as [->|Hne]; [right; rewrite lookup_insert; eauto|]).
    + left. by rewrite lookup_delete_ne.
    + right. by rewrite lookup_insert_ne.
Qed.
Lemma close_ok path o : DocsOk o -> (close_xml_document path o).2 = Ok tt.
Proof.
  intros Ho. unfold close_xml_document. destruct (of_open o !! path) as [p|] eqn:Ep; [|done].
  destruct (Ho _ _ Ep) as (_ & _ & Hs). by destruct (Sound_writes _ Hs) as (data & ->).
Qed.
Lemma safe_with_doc {A} path (m : M doc A) o : Stable m -> DocsOk o -> Safe o (with_doc path m o).1.
Proof.
  intros Hm Ho. unfold with_doc. destruct (of_open o !! path) as [p|] eqn:Ep; [|by apply safe_refl].
  pose proof (Hm _ (Ho _ _ Ep)) as Hd. destruct (m (op_doc p)) as [d r]. cbn [fst] in *. split.
  - by apply docs_insert.
  - intros q [Hq|Hq]; [|by right]. left. apply open_insert. by left.
Qed.
Lemma with_doc_none {A} path (m : M doc A) o : of_open o !! path = None -> with_doc path m o = (o, Ok None).
Proof. unfold with_doc. by intros ->. Qed.
Lemma with_doc_open {A} path (m : M doc A) o q : is_Some (of_open (with_doc path m o).1 !! q) <-> is_Some (of_open o !! q).
Proof.
  unfold with_doc. destruct (of_open o !! path) as [p|] eqn:Ep; [|done]. destruct (m (op_doc p)) as [d r]. cbn [fst].
  rewrite open_insert. split; [|by left]. intros [Hq| ->]; [done|]. by rewrite Ep.
Qed.
Lemma with_doc_archive {A} path (m : M doc A) o : of_archive (with_doc path m o).1 = of_archive o.
Proof. unfold with_doc. destruct (of_open o !! path) as [p|]; [|done]. by destruct (m (op_doc p)). Qed.
Lemma safe_delete path o : DocsOk o -> is_Some (of_open o !! path) -> Safe o (delete_document path o).1.
Proof.
  intros Ho Hp. split; [done|]. intros q [Hq|Hq]; [by left|]. destruct (decide (q = path)) as [->|Hne]; [by left|]. right. cbn. by rewrite lookup_delete_ne.
Qed.
Lemma safe_rels_close r o : DocsOk o -> Safe o (rels_close r o).1.
Proof.
  intros Ho. unfold rels_close, bind. pose proof (safe_with_doc (rl_path r) _ o (stable_save_rels (rl_rels r)) Ho) as S1.
  pose proof (with_doc_open (rl_path r) (save_relationships (rl_rels r)) o (rl_path r)) as W.
  destruct (of_open o !! rl_path r) as [p|] eqn:Ep; [|by rewrite with_doc_none].
  destruct (with_doc (rl_path r) (save_relationships (rl_rels r)) o) as [o1 [[[|]|]|e|e]]; cbn [fst] in *; try done; (eapply safe_trans; [exact S1|]).
  - apply safe_close, S1.
  - apply safe_delete; [apply S1|]. apply W. eauto.
Qed.
Lemma safe_ws_close w o : DocsOk o -> Safe o (ws_close (w, o)).1.2.
Proof.
  intros Ho. unfold ws_close. destruct (of_open o !! ws_path w) as [p|] eqn:Ep; [|by apply safe_refl].
  pose proof (stable_ws_save w _ (Ho _ _ Ep)) as Hd. destruct (ws_save (w, op_doc p)) as [[w1 d] r]. cbn [fst snd] in *.
  match goal with |- context [close_xml_document (ws_path w) ?x] => set (o1 := x) end.
  assert (Safe o o1) as S1.
  { split; [by apply docs_insert|]. intros q [Hq|Hq]; [|by right]. left. apply open_insert. by left. }
  destruct r as [[]|e|e]; cbn [fst snd]; [|done|done]. pose proof (safe_close (ws_path w) o1 (proj1 S1)) as S2.
  destruct (close_xml_document (ws_path w) o1) as [o2 r2]. cbn [fst snd] in *. by eapply safe_trans.
Qed.
Lemma safe_ws_drop w o : DocsOk o -> Safe o (ws_drop w o).
Proof.
  intros Ho. unfold ws_drop. pose proof (safe_ws_close w o Ho) as S1. destruct (ws_close (w, o)) as [[w1 o1] r]. cbn [fst snd] in *.
  eapply safe_trans; [exact S1|]. apply safe_rels_close, S1.
Qed.
Lemma safe_ws_flush w o : DocsOk o -> Safe o (ws_flush w o).1.
Proof.
  intros Ho. unfold ws_flush. pose proof (safe_ws_close w o Ho) as S1. destruct (ws_close (w, o)) as [[w1 o1] r]. cbn [fst snd] in *.
  eapply safe_trans; [exact S1|]. apply safe_ws_drop, S1.
Qed.
Lemma safe_ws_delete w b o : DocsOk o -> is_Some (of_open o !! ws_path w) -> Safe o (wb_delete_sheet w (b, o)).1.2.
Proof.
  intros Ho Hp. unfold wb_delete_sheet, delete_sheet, bind, on_sheets, on_pkg, on_rels, on_office, modify. cbn [fst snd].
  pose proof (safe_delete (ws_path w) o Ho Hp) as S1. unfold delete_document, modify in S1 |- *. cbn [fst snd] in *.
  match type of S1 with Safe _ ?x => pose proof (safe_ws_flush w x (proj1 S1)) as S2; destruct (ws_flush w x) as [o1 r] end.
  cbn [fst snd] in *. by eapply safe_trans.
Qed.

(** ** Opening *)
(** From [o] to [o'] exactly the parts [ps] were opened, none of them open before. *)
Record Opens (ps : list string) (o o' : office) : Prop := {
  op_docs : DocsOk o';
  op_nodup : NoDup ps;
  op_closed : forall q, q ∈ ps -> of_open o !! q = None;
  op_open : forall q, is_Some (of_open o' !! q) <-> is_Some (of_open o !! q) \/ q ∈ ps;
  op_rest : forall q, q ∉ ps -> of_open o !! q = None -> of_archive o' !! q = of_archive o !! q;
}.
Lemma opens_refl o : DocsOk o -> Opens [] o o.
Proof. constructor; [done|constructor|by intros q ?%elem_of_nil| |done]. intros q. rewrite elem_of_nil. tauto. Qed.
Lemma opens_trans ps qs o1 o2 o3 : Opens ps o1 o2 -> Opens qs o2 o3 -> Opens (ps ++ qs) o1 o3.
Proof.
  intros [A1 A2 A3 A4 A5] [B1 B2 B3 B4 B5].
  assert (forall q, of_open o2 !! q = None <-> of_open o1 !! q = None /\ q ∉ ps) as N.
  { intros q. rewrite !eq_None_not_Some, A4. tauto. }
  constructor; [done| | | |].
  - apply NoDup_app. split; [done|]. split; [|done]. intros q Hq Hq'. apply B3, N in Hq'. tauto.
  - intros q [Hq|Hq]%elem_of_app; [by apply A3|]. by apply B3, N in Hq as [? _].
  - intros q. rewrite B4, A4, elem_of_app. tauto.
  - intros q Hq Ho. rewrite not_elem_of_app in Hq. destruct Hq as [H1 H2]. rewrite B5; [by apply A5|done|]. by apply N.
Qed.
Lemma opens_safe ps o o' : Opens ps o o' -> Safe o o'.
Proof.
  intros [A1 A2 A3 A4 A5]. split; [done|]. intros q Hq. destruct (decide (q ∈ ps)) as [Hin|Hout]; [left; apply A4; by right|].
  destruct (of_open o !! q) as [p|] eqn:Ep; [left; apply A4; left; eauto|]. destruct Hq as [Hq|Hq]; [by rewrite Ep in Hq; destruct Hq|].
  right. by rewrite A5.
Qed.
Lemma opens_perm ps qs o o' : ps ≡ₚ qs -> Opens ps o o' -> Opens qs o o'.
Proof.
  intros Hp [A1 A2 A3 A4 A5]. assert (forall q, q ∈ ps <-> q ∈ qs) as He by (intros q; by rewrite Hp).
  constructor; [done|by rewrite <- Hp| | |]; intros q; rewrite <- He; auto.
Qed.
Lemma opens_with_doc {A} path (m : M doc A) o : Stable m -> DocsOk o -> Opens [] o (with_doc path m o).1.
Proof.
  intros Hm Ho. constructor; [by apply safe_with_doc|constructor|by intros q ?%elem_of_nil| |].
  - intros q. rewrite with_doc_open, elem_of_nil. tauto.
  - intros q _ _. by rewrite with_doc_archive.
Qed.
Lemma opens_get init path o o' : InitOk init -> DocsOk o -> get_xml_document init path o = (o', Ok tt) -> Opens [path] o o'.
Proof.
  intros Hi Ho. unfold get_xml_document, get_xml_tree, get_xml_document_ref, bind, modify, lift, ret.
  destruct (of_open o !! path) eqn:Eo; [done|].
  assert (forall p a, HInv (op_doc p) -> (forall q, q <> path -> a !! q = of_archive o !! q) -> Opens [path] o (mkOffice (<[path := p]> (of_open o)) a)) as Hgo.
  { intros p a Hp Ha. constructor.
    - apply (docs_insert o path p Ho Hp).
    - apply NoDup_singleton.
    - by intros q ->%elem_of_list_singleton.
    - intros q. rewrite elem_of_list_singleton. apply (open_insert o path p q).
    - intros q Hq _. rewrite elem_of_list_singleton in Hq. by apply Ha. }
  destruct (of_archive o !! path) as [e|] eqn:Ea.
  - destruct (en_content e) as [c|]; cbn [of_option rbind]; [|done]. destruct (decompress_content c) as [data|x|x]; cbn [rbind]; [|done..].
    pose proof (read_doc_inv data) as Hr. destruct (read_doc data) as [d|x|x]; cbn [rbind]; [|done..]. intros [= <-]. apply Hgo; [done|].
    intros q Hq. cbn. by rewrite lookup_delete_ne.
  - destruct init as [p|x|x]; [|done..]. intros [= <-]. by apply Hgo.
Qed.
(** A failed opening: open parts stay open, and only an unreadable part can be gone. *)
Record Fails (o o' : office) : Prop := {
  fa_docs : DocsOk o';
  fa_open : forall q, is_Some (of_open o !! q) -> is_Some (of_open o' !! q);
  fa_kept : forall q, Present o q -> Present o' q \/ Unreadable o q;
}.
Lemma fails_safe o o' : Safe o o' -> (forall q, is_Some (of_open o !! q) -> is_Some (of_open o' !! q)) -> Fails o o'.
Proof. intros [H1 H2] H3. constructor; [done|done|]. intros q Hq. left. auto. Qed.
Lemma fails_get init path o o' e : DocsOk o -> get_xml_document init path o = (o', Err e) -> Fails o o'.
Proof.
  intros Ho. unfold get_xml_document, get_xml_tree, get_xml_document_ref, bind, modify, lift, ret.
  destruct (of_open o !! path) eqn:Eo; [intros [= <- _]; apply fails_safe; [by apply safe_refl|done]|].
  destruct (of_archive o !! path) as [x|] eqn:Ea; [|destruct init; intros [= <- _]; apply fails_safe; [by apply safe_refl|done]].
  assert ((forall c data d, en_content x = Some c -> env_gunzip c = Some data -> read_doc data <> Ok d) ->
    Fails o (set_archive o (delete path (of_archive o)))) as Hf.
  { intros Hx. constructor; [done|done|]. intros q [Hq|Hq]; [by left; left|]. destruct (decide (q = path)) as [->|Hne].
    - right. split; [done|]. eauto.
    - left; right. cbn. by rewrite lookup_delete_ne. }
  destruct (en_content x) as [c|] eqn:Ec; cbn [of_option rbind]; [|intros [= <- _]; by apply Hf].
  unfold decompress_content. destruct (env_gunzip c) as [data|] eqn:Ed; cbn [of_option rbind]; [|intros [= <- _]; apply Hf; intros ? ? ? [= <-] ?; congruence].
  pose proof (read_doc_inv data) as Hr. destruct (read_doc data) as [d|m|m] eqn:Er; cbn [rbind]; [done| |done].
  intros [= <- _]. apply Hf. intros ? ? ? [= <-] ? ?. congruence.
Qed.
Lemma fails_after ps o1 o2 o3 : Opens ps o1 o2 -> Fails o2 o3 -> Fails o1 o3.
Proof.
  intros HO [F1 F2 F3]. pose proof (opens_safe _ _ _ HO) as [_ HS]. destruct HO as [A1 A2 A3 A4 A5]. constructor; [done| |].
  - intros q Hq. apply F2, A4. by left.
  - intros q Hq. destruct (F3 q (HS q Hq)) as [H1|(H1 & e & He & Hr)]; [by left|]. right.
    assert (of_open o1 !! q = None /\ q ∉ ps) as [N1 N2]. { rewrite eq_None_not_Some in *. rewrite A4 in H1. tauto. }
    split; [done|]. exists e. split; [|done]. by rewrite <- A5.
Qed.
Lemma opens_rels path o o' r : DocsOk o -> rels_new path o = (o', Ok r) -> Opens [path] o o' /\ rl_path r = path.
Proof.
  intros Ho. unfold rels_new, bind. destruct (get_xml_document rels_init path o) as [o1 [[]|e|e]] eqn:Eg; [|done..].
  pose proof (opens_get _ _ _ _ init_rels Ho Eg) as O1. pose proof (opens_with_doc path load_relations o1 stable_load_rels (op_docs _ _ _ O1)) as O2.
  destruct (with_doc path load_relations o1) as [o2 [l|e|e]]; [|done..]. intros [= <- <-]. split; [|done]. exact (opens_trans _ _ _ _ _ O1 O2).
Qed.
Lemma fails_rels path o o' e : DocsOk o -> rels_new path o = (o', Err e) -> Fails o o'.
Proof.
  intros Ho. unfold rels_new, bind. destruct (get_xml_document rels_init path o) as [o1 [[]|x|x]] eqn:Eg; [|intros [= <- _]; by eapply fails_get|done].
  pose proof (opens_get _ _ _ _ init_rels Ho Eg) as O1. pose proof (opens_with_doc path load_relations o1 stable_load_rels (op_docs _ _ _ O1)) as O2.
  destruct (with_doc path load_relations o1) as [o2 [l|x|x]]; [done| |done]. intros [= <- _].
  pose proof (opens_trans _ _ _ _ _ O1 O2) as O3. apply fails_safe; [by eapply opens_safe|]. intros q Hq. apply (op_open _ _ _ O3). by left.
Qed.
Lemma file_name_office name s : (get_sheet_file_name name s).1.2.2 = s.2.2.
Proof.
  destruct s as [l [r o]]. unfold get_sheet_file_name, bind, get, lift, put, ret. cbn [snd].
  destruct (name ≫= _) as [x|].
  - destruct (get_target_by_id r (sh_rel x)) as [[p|]|e|e]; done.
  - destruct (get_relative_path r) as [rp|e|e]; [|done|done]. destruct (free_number _ _ _ _) as [n|e|e]; [|done|done]. done.
Qed.
Lemma ws_new_kept name s s' x : DocsOk s.2.2 -> ws_new name s = (s', x) ->
  match x with
  | Ok w => Opens [ws_path w; rl_path (ws_rels w)] s.2.2 s'.2.2
  | Err _ => Fails s.2.2 s'.2.2
  | Panic _ => True
  end.
Proof.
  intros Ho. unfold ws_new. unfold bind at 1. pose proof (file_name_office name s) as Hs.
  assert (forall o, DocsOk o -> Fails o o) as Hrefl. { intros o Hx. apply fails_safe; [by apply safe_refl|done]. }
  destruct (get_sheet_file_name name s) as [s1 [[path nm]|e|e]]; cbn [fst snd] in *; [|intros [= <- <-]; rewrite Hs; by apply Hrefl|by intros [= <- <-]].
  rewrite <- Hs in Ho |- *. clear Hs. destruct s1 as [l [r o]]. cbn [fst snd] in *. unfold bind at 1. unfold on_pkg at 1, on_office at 1. cbn [fst snd].
  destruct (get_xml_document ws_init path o) as [o1 [[]|e|e]] eqn:Eg; cbn [fst snd] in *; [|intros [= <- <-]; by eapply fails_get|by intros [= <- <-]].
  pose proof (opens_get _ _ _ _ (init_text _ _) Ho Eg) as O1. unfold bind at 1, lift at 1.
  destruct (rels_beside path) as [rp|e|e] eqn:Erp; cbn [fst snd]; [| |by intros [= <- <-]].
  2: { intros [= <- <-]. apply fails_safe; [by eapply opens_safe|]. intros q Hq. apply (op_open _ _ _ O1). by left. }
  unfold bind at 1. unfold on_pkg at 1, on_office at 1. cbn [fst snd].
  destruct (rels_new rp o1) as [o2 [rels|e|e]] eqn:Er; cbn [fst snd] in *; [| |by intros [= <- <-]].
  2: { intros [= <- <-]. eapply fails_after; [exact O1|]. eapply fails_rels; [|exact Er]. apply O1. }
  destruct (opens_rels _ _ _ _ (op_docs _ _ _ O1) Er) as [O2 Hrp]. pose proof (opens_trans _ _ _ _ _ O1 O2) as O12.
  pose proof (opens_with_doc path ws_load o2 stable_ws_load (op_docs _ _ _ O2)) as O3. pose proof (opens_trans _ _ _ _ _ O12 O3) as O123. cbn [app] in O123.
  unfold on_pkg, on_office. cbn [fst snd].
  destruct (with_doc path ws_load o2) as [o3 [y|e|e]]; cbn [fst snd] in *; [| |by intros [= <- <-]].
  - destruct (default _ y) as [[[cols data] views] dim]. intros [= <- <-]. cbn. by rewrite Hrp.
  - intros [= <- <-]. cbn [fst snd]. apply fails_safe.
    + eapply safe_trans; [by eapply opens_safe|]. apply safe_rels_close. apply O123.
    + intros q Hq. assert (q <> rp) as Hne.
      { intros ->. rewrite (op_closed _ _ _ O123 rp) in Hq; [by destruct Hq|]. right. left. }
      destruct (keep_rels_close rels o3 q) as [K _]; [by rewrite Hrp|]. unfold id in K. rewrite K. apply (op_open _ _ _ O123). by left.
Qed.

(** ** Making and loading workbooks *)
Lemma opens_part {A B} (c : content) (dir : option string) init (load : M doc A) (k : string -> option A -> B) s s' x :
  InitOk init -> Stable load -> DocsOk s.2 ->
  bind (on_rels (part_path c dir)) (fun path => bind (on_office (get_xml_document init path)) (fun _ =>
    bind (on_office (with_doc path load)) (fun l => ret (k path l)))) s = (s', Ok x) ->
  exists p l, x = k p l /\ Opens [p] s.2 s'.2.
Proof.
  intros Hi Hl Ho. unfold bind at 1. unfold on_rels. cbn [fst snd]. destruct (part_path c dir s.1) as [r1 [path|e|e]]; [|done..].
  unfold bind at 1. unfold on_office at 1. cbn [fst snd]. destruct (get_xml_document init path s.2) as [o1 [[]|e|e]] eqn:Eg; [|done..].
  pose proof (opens_get _ _ _ _ Hi Ho Eg) as O1. unfold bind, on_office. cbn [fst snd].
  pose proof (opens_with_doc path load o1 Hl (op_docs _ _ _ O1)) as O2. destruct (with_doc path load o1) as [o2 [l|e|e]]; [|done..].
  intros [= <- <-]. exists path, l. split; [done|]. exact (opens_trans _ _ _ _ _ O1 O2).
Qed.
Lemma opens_plain (c : content) (dir : option string) init s s' p :
  InitOk init -> DocsOk s.2 ->
  bind (on_rels (part_path c dir)) (fun path => bind (on_office (get_xml_document init path)) (fun _ => ret path)) s = (s', Ok p) -> Opens [p] s.2 s'.2.
Proof.
  intros Hi Ho. unfold bind at 1. unfold on_rels. cbn [fst snd]. destruct (part_path c dir s.1) as [r1 [path|e|e]]; [|done..].
  unfold bind, on_office. cbn [fst snd]. destruct (get_xml_document init path s.2) as [o1 [[]|e|e]] eqn:Eg; [|done..].
  intros [= <- <-]. by eapply opens_get.
Qed.
Lemma opens_theme s s' p : DocsOk s.2 -> theme_new s = (s', Ok p) -> Opens [p] s.2 s'.2.
Proof. intros Ho. apply opens_plain; [apply init_text|done]. Qed.
Lemma opens_core s s' p : DocsOk s.2 -> core_new s = (s', Ok p) -> Opens [p] s.2 s'.2.
Proof. intros Ho. apply opens_plain; [apply init_text|done]. Qed.
Lemma opens_sst s s' x : DocsOk s.2 -> sst_new s = (s', Ok x) -> Opens [ss_path x] s.2 s'.2.
Proof.
  intros Ho Hs. destruct (opens_part c_share_string None sst_init load_strings (fun p l => mkSst (default [] l) p) s s' x) as (p & l & -> & HO); try done.
  - apply init_ns.
  - apply stable_load_strings.
Qed.
Lemma opens_calc s s' x : DocsOk s.2 -> calc_new s = (s', Ok x) -> Opens [cc_path x] s.2 s'.2.
Proof.
  intros Ho Hs. destruct (opens_part c_calc_chain None calc_init load_calc (fun p l => mkCalc (default [] l) p) s s' x) as (p & l & -> & HO); try done.
  - apply init_ns.
  - apply stable_load_calc.
Qed.
Lemma opens_style s s' x : DocsOk s.2 -> style_new s = (s', Ok x) -> Opens [sp_path x] s.2 s'.2.
Proof.
  intros Ho Hs. destruct (opens_part c_style None style_init load_styles (fun p l => mkStylePart (default no_styles l) p) s s' x) as (p & l & -> & HO); try done.
  - apply init_text.
  - apply stable_load_styles.
Qed.
Lemma part_path_rels c dir r : rl_path (part_path c dir r).1 = rl_path r.
Proof. unfold part_path, get_target_by_type. by destruct (List.find _ _). Qed.
Lemma services_path s : rl_path (bind theme_new (fun theme => bind sst_new (fun x => bind calc_new (fun c => bind style_new (fun y => ret (theme, x, c, y))))) s).1.1 = rl_path s.1.
Proof.
  pose (G := fun A (m : M pkg_state A) => forall s, rl_path (m s).1.1 = rl_path s.1).
  assert (forall A B (m : M pkg_state A) (k : A -> M pkg_state B), G A m -> (forall a, G B (k a)) -> G B (bind m k)) as Gb.
  { intros A B m k Hm Hk s1. unfold bind. specialize (Hm s1). destruct (m s1) as [s2 [a|e|e]]; [|done..]. rewrite <- Hm. apply Hk. }
  assert (forall A (m : M office A), G A (on_office m)) as Go. { intros A m [r o]. unfold on_office. cbn. by destruct (m o). }
  assert (forall c dir, G _ (on_rels (part_path c dir))) as Gr. { intros c dir [r o]. unfold on_rels. cbn. pose proof (part_path_rels c dir r). by destruct (part_path c dir r). }
  assert (forall A (a : A), G A (ret a)) as Gt by done.
  apply (Gb _ _ theme_new). { repeat (apply Gb; [first [apply Go|apply Gr]|intros ?]). apply Gt. } intros theme.
  apply (Gb _ _ sst_new). { repeat (apply Gb; [first [apply Go|apply Gr]|intros ?]). apply Gt. } intros x.
  apply (Gb _ _ calc_new). { repeat (apply Gb; [first [apply Go|apply Gr]|intros ?]). apply Gt. } intros c.
  apply (Gb _ _ style_new). { repeat (apply Gb; [first [apply Go|apply Gr]|intros ?]). apply Gt. } intros y. apply Gt.
Qed.
Lemma opens_services s s' theme x c y : DocsOk s.2 ->
  bind theme_new (fun theme => bind sst_new (fun x => bind calc_new (fun c => bind style_new (fun y => ret (theme, x, c, y))))) s = (s', Ok (theme, x, c, y)) ->
  Opens [theme; ss_path x; cc_path c; sp_path y] s.2 s'.2.
Proof.
  intros Ho. unfold bind at 1. destruct (theme_new s) as [s1 [a|e|e]] eqn:E1; [|done..]. pose proof (opens_theme _ _ _ Ho E1) as O1.
  unfold bind at 1. destruct (sst_new s1) as [s2 [b|e|e]] eqn:E2; [|done..]. pose proof (opens_sst _ _ _ (op_docs _ _ _ O1) E2) as O2.
  unfold bind at 1. destruct (calc_new s2) as [s3 [d|e|e]] eqn:E3; [|done..]. pose proof (opens_calc _ _ _ (op_docs _ _ _ O2) E3) as O3.
  unfold bind at 1. destruct (style_new s3) as [s4 [f|e|e]] eqn:E4; [|done..]. pose proof (opens_style _ _ _ (op_docs _ _ _ O3) E4) as O4.
  intros [= <- <- <- <- <-]. exact (opens_trans _ _ _ _ _ O1 (opens_trans _ _ _ _ _ O2 (opens_trans _ _ _ _ _ O3 O4))).
Qed.
Lemma opens_workbook s s' b : DocsOk s.2 -> workbook_new s = (s', Ok b) -> Opens (own_parts b) s.2 s'.2 /\ rl_path s'.1 = rl_path s.1.
Proof.
  intros Ho. unfold workbook_new. unfold bind at 1. unfold on_rels at 1. pose proof (part_path_rels c_workbook None s.1) as Hr.
  destruct (part_path c_workbook None s.1) as [r1 [path|e|e]]; [|done..]. cbn [fst] in Hr.
  unfold bind at 1. unfold on_office at 1. cbn [fst snd]. destruct (get_xml_document workbook_init path s.2) as [o1 [[]|e|e]] eqn:Eg; [|done..].
  pose proof (opens_get _ _ _ _ (init_text _ _) Ho Eg) as O1. unfold bind at 1, lift at 1. destruct (book_rels_path path) as [rp|e|e]; [|done..].
  unfold bind at 1. unfold on_office at 1. cbn [fst snd]. destruct (rels_new rp o1) as [o2 [rels|e|e]] eqn:Er; [|done..].
  destruct (opens_rels _ _ _ _ (op_docs _ _ _ O1) Er) as [O2 Hrp]. unfold bind at 1, get at 1. cbn [fst snd].
  pose proof (services_path (rels, o2)) as Hp. pose proof (fun s' theme x c y => opens_services (rels, o2) s' theme x c y (op_docs _ _ _ O2)) as Hv.
  destruct (bind theme_new _ (rels, o2)) as [[rels1 o3] [[[[theme x] c] y]|e|e]]; [|done..]. specialize (Hv _ _ _ _ _ eq_refl) as O3. cbn [fst snd] in *.
  unfold bind at 1, put at 1. unfold bind at 1. unfold on_office at 1. cbn [fst snd].
  pose proof (opens_with_doc path load_book o3 stable_load_book (op_docs _ _ _ O3)) as O4.
  destruct (with_doc path load_book o3) as [o4 [v|e|e]]; [|done..]. destruct (default _ v) as [l w]. intros [= <- <-]. cbn [fst snd]. split; [|done].
  pose proof (opens_trans _ _ _ _ _ O1 (opens_trans _ _ _ _ _ O2 (opens_trans _ _ _ _ _ O3 O4))) as O. cbn [app] in O. unfold own_parts. cbn.
  rewrite Hp, Hrp. eapply opens_perm; [|exact O]. do 3 apply perm_skip. apply perm_swap.
Qed.
Definition DocsIn (x : suite) : list string := [rl_path (su_root x); su_core x].
Lemma opens_suite file fs x : suite_new file fs = Ok x ->
  exists o, office_new file fs = Ok o /\ of_open o = ∅ /\ Opens (DocsIn x) o (su_office x).
Proof.
  unfold suite_new. destruct (office_new file fs) as [o|e|e] eqn:Eo; cbn [rbind]; [|done..].
  assert (of_open o = ∅) as He.
  { unfold office_new in Eo. destruct file as [p|]; [|by injection Eo as <-]. destruct (fs !! p); [|done]. cbn in Eo. destruct (load_archive _); [|done..]. by injection Eo as <-. }
  assert (DocsOk o) as Ho. { intros q p. by rewrite He, lookup_empty. }
  destruct (rels_new "_rels/.rels" o) as [o1 [root|e|e]] eqn:Er; [|done..]. destruct (opens_rels _ _ _ _ Ho Er) as [O1 Hrp].
  assert (rl_path (core_new (root, o1)).1.1 = rl_path root) as Hc.
  { unfold core_new, bind, on_rels, on_office. cbn [fst snd]. pose proof (part_path_rels c_core None root). destruct (part_path c_core None root) as [r1 [p|e|e]]; [|done..].
    cbn [fst snd] in *. by destruct (get_xml_document core_init p o1) as [o3 [[]|e|e]]. }
  destruct (core_new (root, o1)) as [[root1 o2] [core|e|e]] eqn:Ec; [|done..]. intros [= <-]. exists o. split; [done|]. split; [done|].
  pose proof (opens_core (root, o1) _ _ (op_docs _ _ _ O1) Ec) as O2. cbn [fst snd] in *. unfold DocsIn. cbn. rewrite Hc, Hrp. exact (opens_trans _ _ _ _ _ O1 O2).
Qed.

(** ** Saving *)
Definition SafeM {A} (m : M office A) : Prop := forall o, DocsOk o -> Safe o (m o).1.
Lemma safe_bind {A B} (m : M office A) (k : A -> M office B) : SafeM m -> (forall a, SafeM (k a)) -> SafeM (bind m k).
Proof.
  intros Hm Hk o Ho. unfold bind. pose proof (Hm o Ho) as S1. destruct (m o) as [o1 [a|e|e]]; [|done..]. eapply safe_trans; [exact S1|]. apply Hk, S1.
Qed.
Lemma safe_style s : SafeM (style_close s).
Proof. apply safe_bind; [intros o Ho; apply safe_with_doc; [apply stable_save_styles|done]|intros _ o Ho; by apply safe_close]. Qed.
Lemma safe_book_part p v l : SafeM (book_part_close p v l).
Proof. apply safe_bind; [intros o Ho; apply safe_with_doc; [apply stable_save_book|done]|intros _ o Ho; by apply safe_close]. Qed.
Lemma safe_core a b p : SafeM (core_close a b p).
Proof. apply safe_bind; [intros o Ho; apply safe_with_doc; [apply stable_stamps|done]|intros _ o Ho; by apply safe_close]. Qed.
Lemma safe_core_flush t p : SafeM (core_flush t p).
Proof.
  intros o Ho. unfold core_flush. pose proof (safe_core (ck_1 t) (ck_2 t) p o Ho) as S1. destruct (core_close _ _ p o) as [o1 r]. cbn [fst] in *.
  eapply safe_trans; [exact S1|]. apply safe_core, S1.
Qed.
Section flush.
Context (b0 : workbook) (Hnd : NoDup (own_parts b0)).
(** The two services that delete their part when they are empty find it open. *)
Definition Ready (s : wb_state) : Prop :=
  same_paths b0 s.1 /\ DocsOk s.2 /\ (cc_entries (wb_calc b0) = [] -> is_Some (of_open s.2 !! cc_path (wb_calc b0)))
  /\ (ss_strings (wb_sst b0) = [] -> is_Some (of_open s.2 !! ss_path (wb_sst b0))).
Definition Step {A} (m : M wb_state A) : Prop := forall s, Ready s -> Ready (m s).1 /\ forall q, Present s.2 q -> Present (m s).1.2 q.
Lemma step_bind {A B} (m : M wb_state A) (k : A -> M wb_state B) : Step m -> (forall a, Step (k a)) -> Step (bind m k).
Proof.
  intros Hm Hk s Hs. unfold bind. destruct (Hm s Hs) as [H1 H2]. destruct (m s) as [s1 [a|e|e]]; [|done..]. destruct (Hk a s1 H1) as [H3 H4]. auto.
Qed.
Lemma step_office {A} (m : M office A) p : SafeM m -> Keep id (fun q => q <> p) m -> cc_path (wb_calc b0) <> p -> ss_path (wb_sst b0) <> p -> Step (on_wb_office m).
Proof.
  intros Hm Hk Hc Hx [b o] (H1 & H2 & H3 & H4). unfold on_wb_office. cbn [fst snd] in *. destruct (Hm o H2) as [S1 S2].
  destruct (Hk o _ Hc) as [K1 _]. destruct (Hk o _ Hx) as [K2 _]. unfold id in *. destruct (m o) as [o1 r]. cbn [fst snd] in *.
  split; [|done]. unfold Ready. cbn [fst snd]. rewrite K1, K2. done.
Qed.
Lemma step_calc : ss_path (wb_sst b0) <> cc_path (wb_calc b0) -> Step (on_wb_rels (calc_close (wb_calc b0))).
Proof.
  intros Hne [b o] (H1 & H2 & H3 & H4). unfold on_wb_rels. cbn [fst snd] in *.
  pose proof (calc_close_path (wb_calc b0) (wb_rels b, o)) as P. destruct (keep_calc_close (wb_calc b0) (wb_rels b, o) _ Hne) as [K _].
  assert (Safe o (calc_close (wb_calc b0) (wb_rels b, o)).1.2 /\ (cc_entries (wb_calc b0) = [] -> of_open (calc_close (wb_calc b0) (wb_rels b, o)).1.2 = of_open o)) as [[S1 S2] S3].
  { unfold calc_close. destruct (cc_entries (wb_calc b0)) as [|x l].
    - unfold bind, on_rels, on_office, modify, delete_document, modify. cbn [fst snd]. split; [|done]. by apply (safe_delete (cc_path (wb_calc b0)) o H2), H3.
    - split; [|done]. unfold bind, on_office. cbn [fst snd].
      pose proof (safe_with_doc (cc_path (wb_calc b0)) (add_trees 0 (map calc_tree (x :: l))) o (stable_adds _ _) H2) as S1.
      destruct (with_doc _ _ o) as [o1 [y|e|e]]; [|done..]. cbn [fst snd] in *. pose proof (safe_close (cc_path (wb_calc b0)) o1 (proj1 S1)) as S2.
      destruct (close_xml_document _ o1). cbn [fst snd] in *. by eapply safe_trans. }
  destruct (calc_close (wb_calc b0) (wb_rels b, o)) as [[r o1] y]. cbn [fst snd] in *. split; [|done]. destruct H1 as (P1 & P2 & P3 & P4 & P5 & P6).
  split; [unfold same_paths; cbn; by rewrite P|]. split; [done|]. cbn [fst snd]. rewrite K. split; [|done]. intros Hc. rewrite (S3 Hc). auto.
Qed.
Lemma step_sst : cc_path (wb_calc b0) <> ss_path (wb_sst b0) -> Step (on_wb_rels (sst_close (wb_sst b0))).
Proof.
  intros Hne [b o] (H1 & H2 & H3 & H4). unfold on_wb_rels. cbn [fst snd] in *.
  pose proof (sst_close_path (wb_sst b0) (wb_rels b, o)) as P. destruct (keep_sst_close (wb_sst b0) (wb_rels b, o) _ Hne) as [K _].
  assert (Safe o (sst_close (wb_sst b0) (wb_rels b, o)).1.2 /\ (ss_strings (wb_sst b0) = [] -> of_open (sst_close (wb_sst b0) (wb_rels b, o)).1.2 = of_open o)) as [[S1 S2] S3].
  { unfold sst_close. destruct (ss_strings (wb_sst b0)) as [|x l].
    - unfold bind, on_rels, on_office, modify, delete_document, modify. cbn [fst snd]. split; [|done]. by apply (safe_delete (ss_path (wb_sst b0)) o H2), H4.
    - split; [|done]. unfold bind, on_office. cbn [fst snd].
      pose proof (safe_with_doc (ss_path (wb_sst b0)) (save_strings (x :: l)) o (stable_save_strings _) H2) as S1.
      destruct (with_doc _ _ o) as [o1 [y|e|e]]; [|done..]. cbn [fst snd] in *. pose proof (safe_close (ss_path (wb_sst b0)) o1 (proj1 S1)) as S2.
      destruct (close_xml_document _ o1). cbn [fst snd] in *. by eapply safe_trans. }
  destruct (sst_close (wb_sst b0) (wb_rels b, o)) as [[r o1] y]. cbn [fst snd] in *. split; [|done]. destruct H1 as (P1 & P2 & P3 & P4 & P5 & P6).
  split; [unfold same_paths; cbn; by rewrite P|]. split; [done|]. cbn [fst snd]. rewrite K. split; [done|]. intros Hc. rewrite (S3 Hc). auto.
Qed.
Lemma step_rels : cc_path (wb_calc b0) <> rl_path (wb_rels b0) -> ss_path (wb_sst b0) <> rl_path (wb_rels b0) -> Step (fun s => on_wb_office (rels_close (wb_rels s.1)) s).
Proof.
  intros Hc Hx s Hs. assert (rl_path (wb_rels s.1) = rl_path (wb_rels b0)) as He by (by destruct Hs as ((_ & ? & _) & _)).
  apply (step_office (rels_close (wb_rels s.1)) (rl_path (wb_rels s.1))); [intros o Ho; by apply safe_rels_close|apply keep_rels_close|by rewrite He..|done].
Qed.
Lemma own_distinct : let c := cc_path (wb_calc b0) in let x := ss_path (wb_sst b0) in
  c <> x /\ c <> rl_path (wb_rels b0) /\ x <> rl_path (wb_rels b0) /\ c <> wb_theme b0 /\ x <> wb_theme b0 /\ c <> sp_path (wb_style b0) /\ x <> sp_path (wb_style b0)
  /\ c <> wb_path b0 /\ x <> wb_path b0.
Proof.
  cbn zeta. unfold own_parts in Hnd. rewrite !NoDup_cons, !not_elem_of_cons in Hnd. destruct Hnd as (H1 & H2 & H3 & H4 & H5 & _).
  repeat split; intros Hq; rewrite Hq in *; tauto.
Qed.
Lemma step_close s : Ready s -> Ready (wb_close s).1 /\ forall q, Present s.2 q -> Present (wb_close s).1.2 q.
Proof.
  destruct own_distinct as (D1 & D2 & D3 & D4 & D5 & D6 & D7 & D8 & D9).
  intros Hs. assert (forall A (k : wb_state -> M wb_state A), bind get k s = k s s) as Hg by done. unfold wb_close. rewrite Hg. clear Hg. cbn zeta.
  assert (wb_theme s.1 = wb_theme b0 /\ wb_calc s.1 = wb_calc b0 /\ wb_sst s.1 = wb_sst b0 /\ wb_style s.1 = wb_style b0 /\ wb_path s.1 = wb_path b0) as (F1 & F2 & F3 & F4 & F5).
  { destruct Hs as ((P1 & P2 & P3 & P4 & P5 & P6) & _). done. }
  unfold services_close. rewrite F1, F2, F3, F4, F5.
  match goal with |- Ready (?m s).1 /\ _ => assert (Step m) as HS end; [|exact (HS s Hs)].
  apply step_bind; [apply (step_office _ (wb_theme b0)); [intros o Ho; by apply safe_close|apply keep_close|done..]|intros _].
  apply step_bind; [|intros _; apply step_bind; [by apply step_rels|intros _]].
  - apply step_bind; [by apply step_calc|intros _]. apply step_bind; [by apply step_sst|intros _].
    apply (step_office _ (sp_path (wb_style b0))); [apply safe_style|apply keep_style_close|done..].
  - apply (step_office _ (wb_path b0)); [apply safe_book_part|apply keep_book_part_close|done..].
Qed.
Lemma step_drop b o : Ready (b, o) -> Safe o (wb_drop b o).
Proof.
  destruct own_distinct as (D1 & D2 & D3 & D4 & D5 & D6 & D7 & D8 & D9).
  intros Hb. unfold wb_drop.
  assert (wb_theme b = wb_theme b0 /\ wb_calc b = wb_calc b0 /\ wb_sst b = wb_sst b0 /\ wb_style b = wb_style b0) as (F1 & F2 & F3 & F4).
  { destruct Hb as ((P1 & P2 & P3 & P4 & P5 & P6) & _). done. }
  rewrite F1, F2, F3, F4. unfold quietly.
  destruct (step_close (b, o) Hb) as [H1 R1].
  destruct (step_calc ltac:(done) _ H1) as [H2 R2]. destruct (step_sst ltac:(done) _ H2) as [H3 R3].
  destruct (step_office _ (sp_path (wb_style b0)) (safe_style (wb_style b0)) (keep_style_close _) ltac:(done) ltac:(done) _ H3) as [H4 R4].
  destruct (step_rels ltac:(done) ltac:(done) _ H4) as [H5 R5].
  destruct (step_office (theme_close (wb_theme b0)) (wb_theme b0) (fun o Ho => safe_close _ o Ho) (keep_close _) ltac:(done) ltac:(done) _ H5) as [H6 R6].
  split; [apply H6|]. intros q Hq. apply R6, R5, R4, R3, R2, R1, Hq.
Qed.
End flush.
Lemma safe_flush b o : NoDup (own_parts b) -> DocsOk o -> (forall q, q ∈ own_parts b -> is_Some (of_open o !! q)) -> Safe o (wb_flush b o).1.
Proof.
  intros Hnd Ho Hopen. unfold wb_flush.
  assert (Ready b (b, o)) as H0.
  { split; [apply same_paths_refl|]. split; [done|]. split; intros _; apply Hopen; unfold own_parts; rewrite !elem_of_cons; tauto. }
  destruct (step_close b Hnd (b, o) H0) as [H1 R1]. destruct (wb_close (b, o)) as [[b1 o1] r]. cbn [fst snd] in *.
  destruct (step_drop b Hnd b1 o1 H1) as [H2 R2]. split; [done|]. auto.
Qed.
(** What the file of a save holds, for a package whose parts are all sound. *)
Lemma suite_kept t f path x fs tr fs' : DocsOk (su_office x) -> suite_save t f path x fs = (tr, Ok tt) -> last tr = Some fs' ->
  exists l, Stored fs' path l /\ (forall q, q <> content_types_name -> Present (su_office x) q -> q ∈ l.*1)
  /\ (forall q e data, q <> content_types_name -> q ∉ DocsIn x -> of_open (su_office x) !! q = None -> of_archive (su_office x) !! q = Some e -> part_bytes e = Ok data -> (q, data) ∈ l).
Proof.
  intros Ho. unfold suite_save, bind. pose proof (safe_core_flush t (su_core x) (su_office x) Ho) as S1.
  pose proof (keep_core_flush t (su_core x) (su_office x)) as K1. unfold id in K1.
  destruct (core_flush t (su_core x) (su_office x)) as [o1 [[]|e|e]]; [|done..]. cbn [fst] in *.
  pose proof (safe_rels_close (su_root x) o1 (proj1 S1)) as S2. pose proof (keep_rels_close (su_root x) o1) as K2. unfold id in K2.
  destruct (rels_close (su_root x) o1) as [o2 [[]|e|e]]; [|done..]. cbn [fst] in *.
  destruct (office_save f path o2 fs) as [o3 [tr3 r3]] eqn:Hsave. cbn [snd]. intros [= -> ->] Hl.
  destruct (saved_file _ _ _ _ _ _ _ Hsave Hl) as (l & Hst & Hin & Hok & _). exists l. split; [done|]. split.
  - intros q Hq Hp. destruct (safe_trans _ _ _ S1 S2) as [_ Hk]. apply Hk in Hp. destruct (Hok q Hq) as [y Hy].
    assert (exists data, y = Some data) as [data ->].
    { unfold part_data in Hy. destruct (of_open o2 !! q) as [p|] eqn:Eo; [destruct (write_doc _); [|done..]; injection Hy as <-; eauto|].
      destruct Hp as [[? ?]|[e He]]; [congruence|]. rewrite He in Hy. destruct (part_bytes e); [|done..]. injection Hy as <-. eauto. }
    apply elem_of_list_fmap. exists (q, data). split; [done|]. by apply Hin.
  - intros q e data Hq Hd Hn He Hb. apply Hin; [done|]. unfold DocsIn in Hd. rewrite !not_elem_of_cons in Hd. destruct Hd as (D1 & D2 & _).
    destruct (K1 q D2) as [A1 A2]. destruct (K2 q D1) as [B1 B2]. unfold part_data. rewrite B1, A1, Hn, B2, A2, He, Hb. done.
Qed.
Lemma excel_kept t f path x fs tr fs' : DocsOk (x_office x) -> NoDup (own_parts (x_book x)) ->
  (forall q, q ∈ own_parts (x_book x) -> is_Some (of_open (x_office x) !! q)) ->
  excel_save t f path x fs = (tr, Ok tt) -> last tr = Some fs' ->
  exists l, Stored fs' path l /\ (forall q, q <> content_types_name -> Present (x_office x) q -> q ∈ l.*1)
  /\ (forall q e data, q <> content_types_name -> q ∉ DocsIn (x_suite x) -> of_open (x_office x) !! q = None -> of_archive (x_office x) !! q = Some e -> part_bytes e = Ok data -> (q, data) ∈ l).
Proof.
  intros Ho Hnd Hop. unfold excel_save. pose proof (safe_flush (x_book x) (x_office x) Hnd Ho Hop) as S1. pose proof (flush_keeps (x_book x) (x_office x)) as K.
  destruct (wb_flush (x_book x) (x_office x)) as [o [[]|e|e]]; [|done..]. cbn [fst] in *. intros Hs Hl.
  destruct (suite_kept _ _ _ _ _ _ _ (proj1 S1 : DocsOk (su_office (mkSuite o (su_root (x_suite x)) (su_core (x_suite x))))) Hs Hl) as (l & H1 & H2 & H3).
  exists l. split; [done|]. cbn [su_office su_root su_core] in *. split.
  - intros q Hq Hp. apply H2; [done|]. by apply S1.
  - intros q e data Hq Hd Hn He Hb. assert (q ∉ own_parts (x_book x)) as Hno. { intros Hin. apply Hop in Hin. rewrite Hn in Hin. by destruct Hin. }
    destruct (K q Hno) as [K1 K2]. apply (H3 q e data); [done|done|by rewrite K1|by rewrite K2|done].
Qed.
End with_env.

(** ** Sessions *)
Definition handle_parts (h : option worksheet) : list string := match h with Some w => [ws_path w; rl_path (ws_rels w)] | None => [] end.
Definition live_parts (l : list (option worksheet)) : list string := concat (handle_parts <$> l).
Definition held (s : session) : list string := own_parts (x_book s.1) ++ DocsIn (x_suite s.1) ++ live_parts s.2.
Lemma live_insert l h w w1 : l !! h = Some (Some w) -> handle_parts (Some w1) = handle_parts (Some w) -> live_parts (<[h := Some w1]> l) = live_parts l.
Proof.
  intros Hl Hp. unfold live_parts. rewrite list_fmap_insert, Hp. f_equal. apply list_insert_id. by rewrite list_lookup_fmap, Hl.
Qed.
Lemma live_split l h w : l !! h = Some (Some w) ->
  exists a b, live_parts l = a ++ handle_parts (Some w) ++ b /\ live_parts (<[h := None]> l) = a ++ b.
Proof.
  intros Hl. exists (live_parts (take h l)), (live_parts (drop (S h) l)). unfold live_parts. split.
  - rewrite <- (take_drop_middle l h (Some w) Hl) at 1. by rewrite fmap_app, concat_app, fmap_cons.
  - rewrite insert_take_drop by (by eapply lookup_lt_Some). by rewrite fmap_app, concat_app, fmap_cons.
Qed.
Lemma handle_lookup h s w : handle h s = Some w -> s.2 !! h = Some (Some w).
Proof. unfold handle. destruct (s.2 !! h) as [[y|]|]; [|done..]. by intros [= ->]. Qed.
Section with_env.
Context `{E : Env} `{Hs : Hashes}.
Record LInv (s : session) : Prop := {
  li_docs : DocsOk (x_office s.1);
  li_nodup : NoDup (held s);
  li_open : forall q, q ∈ held s -> is_Some (of_open (x_office s.1) !! q);
}.
(** What a call does to a package. *)
Record Effect (o o' : office) (bad : Prop) : Prop := {
  ef_kept : forall q, Present o q -> Present o' q \/ Unreadable o q /\ bad;
  ef_same : forall q e, of_open o !! q = None -> of_archive o !! q = Some e ->
    (of_open o' !! q = None /\ of_archive o' !! q = Some e) \/ is_Some (of_open o' !! q) \/ bad;
}.
Lemma effect_refl o bad : Effect o o bad.
Proof. constructor; auto. Qed.
Definition NoPanic {A} (r : res A) : Prop := match r with Panic _ => False | _ => True end.
Definition Bad (c : call) (r : res unit) : Prop := opens c /\ exists e, r = Err e.
Definition StepOk (c : call) (m : M session unit) : Prop :=
  forall s, LInv s -> NoPanic (m s).2 -> LInv (m s).1 /\ Effect (x_office s.1) (x_office (m s).1.1) (Bad c (m s).2).
Lemma use_step c h m : WsStays m -> StepOk c (use h m).
Proof.
  intros Hm s [I1 I2 I3] _. unfold use. destruct (handle h s) as [w|] eqn:Eh; [|split; [done|apply effect_refl]].
  destruct (Hm (w, ss_strings (wb_sst (x_book s.1)))) as [H1 H2]. destruct (m _) as [[w1 t1] r]. cbn [fst snd] in *. split; [|apply effect_refl].
  assert (held (mkExcel (x_suite s.1) (set_wb_strings (x_book s.1) t1), <[h := Some w1]> s.2) = held s) as He.
  { unfold held. cbn [fst snd x_suite x_book]. rewrite (live_insert _ h w w1); [done|by apply handle_lookup|]. cbn. by rewrite H1, H2. }
  constructor; [done|by rewrite He|]. intros q Hq. rewrite He in Hq. by apply I3.
Qed.
Definition KeepsOwn {A} (m : M workbook A) : Prop := forall b, own_parts (m b).1 = own_parts b.
Lemma pure_step c m : KeepsOwn m -> StepOk c (on_excel (on_book (A := unit) (pure_book m))).
Proof.
  intros Hm s [I1 I2 I3] _. unfold on_excel, on_book, pure_book, x_state. cbn [fst snd]. specialize (Hm (x_book s.1)). destruct (m (x_book s.1)) as [b r].
  cbn [fst snd] in *. split; [|apply effect_refl].
  assert (held (set_x s.1 (b, x_office s.1), s.2) = held s) as He. { unfold held. cbn [fst snd x_book x_suite set_x]. by rewrite Hm. }
  constructor; [done|by rewrite He|]. intros q Hq. rewrite He in Hq. by apply I3.
Qed.
Lemma spend_step c h m :
  (forall w b o, DocsOk o -> is_Some (of_open o !! ws_path w) -> let r := m w (b, o) in
     own_parts r.1.1 = own_parts b /\ Safe o r.1.2 /\ (forall q, q <> ws_path w -> q <> rl_path (ws_rels w) -> SameAt o r.1.2 q)) ->
  StepOk c (spend h m).
Proof.
  intros Hm s [I1 I2 I3] _. unfold spend. destruct (handle h s) as [w|] eqn:Eh; [|split; [done|apply effect_refl]].
  apply handle_lookup in Eh. destruct (live_split _ _ _ Eh) as (a & b & L1 & L2).
  assert (forall q, q ∈ handle_parts (Some w) -> is_Some (of_open (x_office s.1) !! q)) as Hw.
  { intros q Hq. apply I3. unfold held. rewrite L1, !elem_of_app. tauto. }
  unfold on_book, x_state. destruct (Hm w (x_book s.1) (x_office s.1) I1) as (M1 & M2 & M3); [apply Hw; left|].
  destruct (m w (x_book s.1, x_office s.1)) as [[b1 o1] r]. cbn [fst snd] in *.
  assert (forall q, q ∈ own_parts (x_book s.1) ++ DocsIn (x_suite s.1) ++ a ++ b -> q <> ws_path w /\ q <> rl_path (ws_rels w)) as Hne.
  { intros q Hq. unfold held in I2. rewrite L1 in I2. 
    assert (own_parts (x_book s.1) ++ DocsIn (x_suite s.1) ++ a ++ handle_parts (Some w) ++ b ≡ₚ (own_parts (x_book s.1) ++ DocsIn (x_suite s.1) ++ a ++ b) ++ handle_parts (Some w)) as Hp.
    { rewrite <- !app_assoc. do 3 apply Permutation_app_head. apply Permutation_app_comm. }
    rewrite Hp in I2. apply NoDup_app in I2 as (_ & I2 & _). split; intros ->; apply (I2 _ Hq); [left|right; left]. }
  split.
  - constructor; cbn [fst snd].
    + apply M2.
    + unfold held. cbn [fst snd x_book x_suite set_x]. rewrite L2, M1. unfold DocsIn. cbn [su_root su_core]. fold (DocsIn (x_suite s.1)).
      unfold held in I2. rewrite L1 in I2. assert (own_parts (x_book s.1) ++ DocsIn (x_suite s.1) ++ a ++ handle_parts (Some w) ++ b ≡ₚ (own_parts (x_book s.1) ++ DocsIn (x_suite s.1) ++ a ++ b) ++ handle_parts (Some w)) as Hp.
      { rewrite <- !app_assoc. do 3 apply Permutation_app_head. apply Permutation_app_comm. }
      rewrite Hp in I2. by apply NoDup_app in I2 as (I2 & _ & _).
    + intros q Hq. unfold held in Hq. cbn [fst snd x_book x_suite set_x] in Hq. rewrite L2, M1 in Hq. unfold DocsIn in Hq. cbn [su_root su_core] in Hq. fold (DocsIn (x_suite s.1)) in Hq.
      destruct (Hne q Hq) as [N1 N2]. destruct (M3 q N1 N2) as [K _]. unfold x_office. cbn [x_suite su_office set_x fst snd]. rewrite K. apply I3. unfold held. rewrite L1.
      rewrite !elem_of_app in *. tauto.
  - constructor.
    + intros q Hq. left. by apply M2.
    + intros q e Hn He. left. assert (forall p, p ∈ handle_parts (Some w) -> q <> p) as Hp. { intros p Hp ->. apply Hw in Hp. rewrite Hn in Hp. by destruct Hp. }
      destruct (M3 q) as [K1 K2]; [apply Hp; left|apply Hp; right; left|]. unfold x_office. cbn [x_suite su_office set_x fst snd]. by rewrite K1, K2.
Qed.
Lemma file_name_path name s : rl_path (get_sheet_file_name name s).1.2.1 = rl_path s.2.1.
Proof.
  destruct s as [l [r o]]. unfold get_sheet_file_name, bind, get, lift, put, ret. cbn [fst snd].
  destruct (name ≫= _) as [x|].
  - destruct (get_target_by_id r (sh_rel x)) as [[p|]|e|e]; done.
  - destruct (get_relative_path r) as [rp|e|e]; [|done|done]. destruct (free_number _ _ _ _) as [n|e|e]; [|done|done]. done.
Qed.
Lemma give_step c name : opens c -> StepOk c (give (on_book (add_sheet name))).
Proof.
  intros Hc s [I1 I2 I3]. unfold give, on_book, x_state, add_sheet. cbn [fst snd].
  destruct (ws_new_list name (wb_sheets (x_book s.1), (wb_rels (x_book s.1), x_office s.1))) as (_ & L2 & _).
  pose proof (file_name_path name (wb_sheets (x_book s.1), (wb_rels (x_book s.1), x_office s.1))) as Hp. rewrite <- L2 in Hp. clear L2.
  pose proof (fun s' x => ws_new_kept name (wb_sheets (x_book s.1), (wb_rels (x_book s.1), x_office s.1)) s' x I1) as K.
  destruct (ws_new name _) as [[l [r o]] x]. cbn [fst snd] in *. specialize (K _ _ eq_refl). cbn [fst snd] in K.
  set (b1 := set_wb_rels (set_wb_sheets (x_book s.1) l) r).
  assert (own_parts b1 = own_parts (x_book s.1)) as Hown. { unfold own_parts, b1. cbn. by rewrite Hp. }
  destruct x as [w|e|e]; cbn [fst snd]; [intros _|intros _|done].
  - assert (held (set_x s.1 (b1, o), s.2 ++ [Some w]) = held s ++ [ws_path w; rl_path (ws_rels w)]) as He.
    { unfold held. cbn [fst snd x_book x_suite set_x]. rewrite Hown. unfold live_parts. rewrite fmap_app, concat_app, <- !app_assoc. done. }
    pose proof K as [A1 A2 A3 A4 A5]. split.
    + constructor; [done| |].
      * rewrite He. apply NoDup_app. split; [done|]. split; [|done]. intros q Hq Hq'. apply I3 in Hq. rewrite (A3 q Hq') in Hq. by destruct Hq.
      * intros q Hq. rewrite He, elem_of_app in Hq. apply A4. destruct Hq as [Hq|Hq]; [left; by apply I3|by right].
    + constructor.
      * intros q Hq. left. by apply (opens_safe _ _ _ K).
      * intros q x Hn Hx. destruct (decide (q ∈ [ws_path w; rl_path (ws_rels w)])) as [Hin|Hout]; [right; left; apply A4; by right|].
        left. split; [|unfold x_office; cbn [x_suite su_office set_x fst snd]; by rewrite A5]. apply eq_None_not_Some. intros Hy. apply A4 in Hy as [Hy|Hy]; [|done]. rewrite Hn in Hy. by destruct Hy.
  - assert (held (set_x s.1 (b1, o), s.2) = held s) as He. { unfold held. cbn [fst snd x_book x_suite set_x]. by rewrite Hown. }
    assert (Bad c (Err e)) as Hbad by (split; [done|eauto]). destruct K as [A1 A2 A3]. split.
    + constructor; [done|by rewrite He|]. intros q Hq. rewrite He in Hq. by apply A2, I3.
    + constructor; [|tauto]. intros q Hq. destruct (A3 q Hq); tauto.
Qed.
Lemma own_rename old new : KeepsOwn (rename_sheet old new).
Proof. intros b. unfold rename_sheet. destruct (existsb _ _); [done|]. by destruct (rename_first _ _ _). Qed.
Lemma own_style st : KeepsOwn (bind (wb_style_id st) (fun _ => ret tt)).
Proof. intros b. unfold bind, wb_style_id. by destruct (get_style_id st _) as [st' [r|e|e]]. Qed.
Lemma own_delete w b o : own_parts (wb_delete_sheet w (b, o)).1.1 = own_parts b.
Proof.
  destruct (delete_list w b o) as [_ D2]. assert (same_paths b (wb_delete_sheet w (b, o)).1.1) as Hp; [|by apply same_paths_own].
  unfold wb_delete_sheet. destruct (delete_sheet w _) as [[l [r o1]] x] eqn:Ed. cbn [fst snd] in *.
  unfold wb_delete_sheet in D2. cbn [fst snd] in D2. rewrite Ed in D2. cbn in D2. subst r. done.
Qed.
Theorem call_effect c : StepOk c (call_step c).
Proof.
  destruct c; cbn [call_step].
  - by apply give_step.
  - by apply give_step.
  - apply pure_step, own_rename.
  - by apply pure_step.
  - by apply pure_step.
  - by apply pure_step.
  - by apply pure_step.
  - by apply pure_step.
  - by apply pure_step.
  - by apply pure_step.
  - apply pure_step, own_style.
  - apply use_step, stays_row.
  - apply use_step, stays_row_ref.
  - apply use_step, stays_row_props.
  - apply use_step, stays_col.
  - apply use_step, stays_col_ref.
  - apply spend_step. intros w b o Ho Hp. cbn. split; [done|]. split; [by apply safe_ws_drop|]. intros q. apply ws_drop_keeps.
  - apply spend_step. intros w b o Ho Hp. unfold on_wb_office. cbn [fst snd]. pose proof (safe_ws_flush w o Ho) as S1. pose proof (ws_flush_keeps w o) as K.
    destruct (ws_flush w o). cbn in *. split; [done|]. split; [done|]. intros q. apply K.
  - apply spend_step. intros w b o Ho Hp. cbn zeta. split; [apply own_delete|]. split; [by apply safe_ws_delete|]. intros q. apply delete_keeps.
Qed.
Theorem calls_effect cs : forall s s', LInv s -> calls cs s = Some s' -> LInv s'
  /\ (forall q, Present (x_office s.1) q -> Present (x_office s'.1) q \/ FailedOpen cs s (fun s1 => Unreadable (x_office s1.1) q))
  /\ (forall q e, of_open (x_office s.1) !! q = None -> of_archive (x_office s.1) !! q = Some e ->
       (of_open (x_office s'.1) !! q = None /\ of_archive (x_office s'.1) !! q = Some e) \/ WasOpen cs s q \/ FailedOpen cs s (fun _ => True)).
Proof.
  induction cs as [|c cs IH]; intros s s' I; cbn [calls]; [intros [= <-]; auto|].
  assert (forall s1, (match (call_step c s).2 with Panic _ => False | _ => True end) -> (call_step c s).1 = s1 -> forall P, FailedOpen cs s1 P -> FailedOpen (c :: cs) s P) as HF.
  { intros s1 Hn He P (cs1 & c1 & cs2 & s2 & e & -> & H2 & H3 & H4 & H5). exists (c :: cs1), c1, cs2, s2, e. split; [done|]. split; [|done].
    cbn [calls]. destruct (call_step c s) as [s3 [[]|m|m]]; cbn [fst snd] in *; [by subst|by subst|done]. }
  assert (forall s1, (match (call_step c s).2 with Panic _ => False | _ => True end) -> (call_step c s).1 = s1 -> forall q, WasOpen cs s1 q -> WasOpen (c :: cs) s q) as HW.
  { intros s1 Hn He q (cs1 & cs2 & s2 & -> & H2 & H3). exists (c :: cs1), cs2, s2. split; [done|]. split; [|done].
    cbn [calls]. destruct (call_step c s) as [s3 [[]|m|m]]; cbn [fst snd] in *; [by subst|by subst|done]. }
  pose proof (call_effect c s I) as HE.
  assert (forall (P : session -> Prop), P s -> Bad c (call_step c s).2 -> FailedOpen (c :: cs) s P) as HB.
  { intros P HP [Ho [e He]]. exists [], c, cs, s, e. done. }
  assert (forall s1 q, (match (call_step c s).2 with Panic _ => False | _ => True end) -> (call_step c s).1 = s1 -> is_Some (of_open (x_office s1.1) !! q) -> WasOpen (c :: cs) s q) as HO.
  { intros s1 q Hn He Hq. exists [c], cs, s1. split; [done|]. split; [|done]. cbn [calls]. destruct (call_step c s) as [s3 [[]|m|m]]; cbn [fst snd] in *; [by subst|by subst|done]. }
  destruct (call_step c s) as [s1 r]. cbn [fst snd] in *. intros Hcalls.
  assert (match r with Panic _ => False | _ => True end /\ calls cs s1 = Some s') as [Hn Hgo]. { destruct r as [[]|m|m]; done. }
  clear Hcalls. destruct (HE Hn) as [I1 [E1 E2]]. destruct (IH s1 s' I1 Hgo) as (J1 & J2 & J3). split; [done|]. split.
  - intros q Hq. destruct (E1 q Hq) as [H1|[H1 H2]]; [|right; by apply HB]. destruct (J2 q H1) as [?|?]; [by left|]. right. by eapply HF.
  - intros q e H1 H2. destruct (E2 q e H1 H2) as [[H3 H4]|[H3|H3]].
    + destruct (J3 q e H3 H4) as [?|[?|?]]; [by left|right; left; by eapply HW|right; right; by eapply HF].
    + right; left. by eapply HO.
    + right; right. by apply HB.
Qed.
(** A workbook that was just opened or made. *)
Lemma new_linv file fs x : excel_new file fs = Ok x ->
  LInv (x, []) /\ exists o, office_new file fs = Ok o /\ Safe o (x_office x)
  /\ (forall q e, of_archive o !! q = Some e -> (of_open (x_office x) !! q = None /\ of_archive (x_office x) !! q = Some e) \/ is_Some (of_open (x_office x) !! q) \/ file = None).
Proof.
  unfold excel_new. destruct (suite_new file fs) as [s|e|e] eqn:Es; cbn [rbind]; [|done..].
  destruct (opens_suite _ _ _ Es) as (o & Ho & He & O1).
  destruct (workbook_new (su_root s, su_office s)) as [[root o1] [b|e|e]] eqn:Ew; [|done..].
  destruct (opens_workbook (su_root s, su_office s) _ _ (op_docs _ _ _ O1) Ew) as [O2 Hr]. cbn [fst snd] in *.
  pose proof (opens_trans _ _ _ _ _ O1 O2) as O.
  set (x0 := mkExcel (mkSuite o1 root (su_core s)) b).
  assert (LInv (x0, [])) as I0.
  { assert (held (x0, []) ≡ₚ DocsIn s ++ own_parts b) as Hp.
    { unfold held, x0, live_parts. cbn [fst snd x_book x_suite]. cbn [fmap list_fmap concat]. rewrite app_nil_r. rewrite Permutation_app_comm.
      unfold DocsIn. cbn [su_root su_core]. by rewrite Hr. }
    constructor; [apply O|rewrite Hp; apply O|]. intros q Hq. rewrite Hp in Hq. apply (op_open _ _ _ O). by right. }
  destruct file as [p|].
  - intros [= <-]. split; [done|]. exists o. split; [done|]. split; [by eapply opens_safe|].
    intros q e Hq. destruct (decide (q ∈ DocsIn s ++ own_parts b)) as [Hin|Hout]; [right; left; apply (op_open _ _ _ O); by right|].
    left. assert (of_open o !! q = None) as Hn by (by rewrite He, lookup_empty). split; [|unfold x_office; cbn; by rewrite (op_rest _ _ _ O)].
    apply eq_None_not_Some. intros Hy. apply (op_open _ _ _ O) in Hy as [Hy|Hy]; [|done]. rewrite Hn in Hy. by destruct Hy.
  - pose proof (give_step (CAdd None) None I (x0, []) I0) as G. unfold give in G. cbn [fst snd] in G.
    destruct (on_book (add_sheet None) x0) as [x1 [w|e|e]]; [|done..]. cbn [fst snd] in G. destruct (G I) as [I1 [E1 _]].
    intros [= <-].
    destruct (call_effect (CDrop 0) (x1, [Some w]) I1) as [I2 [E2 _]]; [done|].
    cbn in I2, E2.
    split.
    + destruct I2 as [C1 C2 C3]. by constructor.
    + exists o. split; [done|]. split; [|tauto].
      split; [apply I2|]. intros q Hq. apply (opens_safe _ _ _ O) in Hq.
      destruct (E1 q Hq) as [Hq1|[_ [_ [? ?]]]]; [|done]. by destruct (E2 q Hq1) as [Hq2|[_ [_ [? ?]]]].
Qed.
End with_env.
