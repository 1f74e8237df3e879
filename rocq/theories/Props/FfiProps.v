(** C38, C46: the C interface. *)
From Coq Require Import ZArith.
From Verif.Model Require Import Ffi.
From Verif.Spec Require Import PackageSpec StyleSpec FfiSpec DemoEnv.
From Verif.Proofs Require Import BaseFacts StyleFacts FfiFacts.
Open Scope N_scope.

(** C38. The create functions: the code is 0 exactly if the buffer is there and valid and the
    library opened the file; without a file name, a new one. *)
Theorem C38_create : forall (E : Env) (file : option string) (b : buffer unit) (fs : filesys),
  Faithful (exists p, b = Some (inr p)) (excel_new file fs) Some (ffi_excel_create file b fs)
  /\ Faithful (exists p, b = Some (inr p)) (suite_new file fs) Some (ffi_word_create file b fs)
  /\ Faithful (exists p, b = Some (inr p)) (suite_new file fs) Some (ffi_power_point_create file b fs).
Proof. intros E file b fs. split; [|split]; apply create_faithful. Qed.
(** Calls on a workbook other than renaming. What the call did to the workbook is what the library
    call does; a call with unusable arguments does nothing. *)
Theorem C38_calls : forall (E : Env) (Hs : Hashes) (x : option excel) (name : option string) (b : buffer fbs_setting),
  (forall x', x = Some x' ->
     Faithful True (on_book (add_sheet name) x').2 Some (ffi_add_sheet x name).2
     /\ (ffi_add_sheet x name).1 = Some (on_book (add_sheet name) x').1)
  /\ (forall x' n, x = Some x' -> name = Some n ->
     Faithful True (on_book (get_worksheet n) x').2 Some (ffi_get_sheet x name).2
     /\ (ffi_get_sheet x name).1 = Some (on_book (get_worksheet n) x').1
     /\ Faithful True (on_book (pure_book (hide_sheet n)) x').2 (fun _ => None) (ffi_hide_sheet x name).2
     /\ (ffi_hide_sheet x name).1 = Some (on_book (pure_book (hide_sheet n)) x').1)
  /\ (forall x' f, x = Some x' -> b = Some (inr f) ->
     Faithful True (on_book (pure_book (wb_style_id (ffi_setting f))) x').2 Some (ffi_style_id x b).2
     /\ (ffi_style_id x b).1 = Some (on_book (pure_book (wb_style_id (ffi_setting f))) x').1)
  /\ (x = None -> forall rep, (ffi_add_sheet x name).2 = Some rep -> rp_code rep = 1%Z /\ rp_out rep = None)
  /\ (x = None \/ name = None -> (ffi_get_sheet x name).1 = x /\ (ffi_hide_sheet x name).1 = x
      /\ (exists rep, (ffi_get_sheet x name).2 = Some rep /\ rp_code rep = 1%Z /\ rp_out rep = None)
      /\ (exists rep, (ffi_hide_sheet x name).2 = Some rep /\ rp_code rep = 1%Z /\ rp_out rep = None))
  /\ (x = None \/ (forall f, b <> Some (inr f)) -> (ffi_style_id x b).1 = x
      /\ exists rep, (ffi_style_id x b).2 = Some rep /\ rp_code rep <> 0%Z /\ rp_out rep = None).
Proof.
  intros E Hs x name b. split; [|split; [|split; [|split; [|split]]]].
  - intros x' ->. apply on_ptr_faithful. done.
  - intros x' n -> ->. cbn [ffi_get_sheet ffi_hide_sheet].
    destruct (on_ptr_faithful IoError (fun w : worksheet => Some w) (on_book (get_worksheet n)) x') as [A B]; [done|].
    destruct (on_ptr_faithful (B := unit) IoError (fun _ : unit => None) (on_book (pure_book (hide_sheet n))) x') as [C D]; [done|]. done.
  - intros x' f -> ->. cbn [ffi_style_id]. apply on_ptr_faithful. done.
  - intros -> rep [= <-]. done.
  - intros [-> | ->]; [destruct name|]; cbn; (split; [done|]); (split; [done|]); split; eexists; done.
  - intros [-> | Hb].
    + destruct b as [[]|]; cbn; (split; [done|]); eexists; done.
    + destruct b as [[e|f]|]; [| |]; cbn.
      * destruct x; cbn; (split; [done|]); eexists; done.
      * by destruct (Hb f).
      * split; [done|]. eexists; done.
Qed.
(** Saving a workbook. *)
Theorem C38_save : forall (E : Env) (t : clock) (f : faults) (fs : filesys) (x : option excel) (path : option string),
  (forall x' p, x = Some x' -> path = Some p ->
     Faithful True (excel_save t f p x' fs).2 (fun _ => None) (ffi_excel_save t f fs x path).2
     /\ (ffi_excel_save t f fs x path).1 = (excel_save t f p x' fs).1)
  /\ (x = None \/ path = None -> (ffi_excel_save t f fs x path).1 = []
      /\ exists rep, (ffi_excel_save t f fs x path).2 = Some rep /\ rp_code rep = 1%Z /\ rp_error rep = None).
Proof.
  intros E t f fs x path. split.
  - intros x' p -> ->. unfold ffi_excel_save, saved. destruct (excel_save t f p x' fs) as [tr r]. cbn [fst snd]. split; [|done]. by apply reply_faithful.
  - intros [-> | ->]; [|destruct x]; cbn; (split; [done|]); eexists; done.
Qed.
(** The message of a failure reaches the caller. *)
Theorem C38_message : forall (E : Env) (Hs : Hashes) (x : excel) (e : string), text_ok e ->
  (forall file fs, excel_new file fs = Err e -> Explains "" e (ffi_excel_create file (Some (inr tt)) fs))
  /\ (forall name, (on_book (add_sheet name) x).2 = Err e -> Explains "Flat Buffer Parse Error. " e (ffi_add_sheet (Some x) name).2)
  /\ (forall n, (on_book (get_worksheet n) x).2 = Err e -> Explains "Flat Buffer Parse Error. " e (ffi_get_sheet (Some x) (Some n)).2)
  /\ (forall old new, (on_book (pure_book (rename_sheet old new)) x).2 = Err e -> Explains "Flat Buffer Parse Error. " e (ffi_rename_sheet (Some x) (Some old) (Some new)).2)
  /\ (forall s, (on_book (pure_book (wb_style_id (ffi_setting s))) x).2 = Err e -> Explains "Flat Buffer Parse Error. " e (ffi_style_id (Some x) (Some (inr s))).2)
  /\ (forall t f path fs, (excel_save t f path x fs).2 = Err e -> Explains "Flat Buffer Parse Error. " e (ffi_excel_save t f fs (Some x) (Some path)).2).
Proof.
  intros E Hs x e He. split; [|split; [|split; [|split; [|split]]]].
  - intros file fs Hx. unfold ffi_excel_create, create. rewrite Hx. unfold chain_error. rewrite (text_no_nul e He). eexists; done.
  - intros name Hx. by apply on_ptr_explains.
  - intros n Hx. by apply on_ptr_explains.
  - intros old new Hx. by apply on_ptr_explains.
  - intros s Hx. cbn [ffi_style_id]. by apply on_ptr_explains.
  - intros t f path fs Hx. unfold ffi_excel_save, saved. destruct (excel_save t f path x fs) as [tr r]. cbn [fst snd] in *. subst r. by apply reply_explains.
Qed.
(** Renaming: a call that fails, because the old name is unknown or the new one taken, answers 0 and
    the sheets are as before. *)
Theorem C38_rename_refuted : forall (x : excel) (old new : string),
  old ∉ list_sheet_names (x_book x) \/ new ∈ list_sheet_names (x_book x) ->
  exists x' e, ffi_rename_sheet (Some x) (Some old) (Some new) = (Some x', Some (mkReply 0 None (Some (Some e))))
  /\ list_sheet_names (x_book x') = list_sheet_names (x_book x).
Proof.
  intros x old new Hor. unfold ffi_rename_sheet, on_ptr, on_book, pure_book, x_state. cbn [fst snd].
  destruct (rename_fails old new (x_book x) Hor) as (e & -> & He). cbn [fst snd reply_of]. unfold failure. rewrite (text_no_nul _ He).
  eexists _, _. split; [done|]. done.
Qed.
(** And one that answers 0 without a message did rename. *)
Theorem C38_rename_message : forall (x x' : excel) (old new : string) (rep : reply unit),
  ffi_rename_sheet (Some x) (Some old) (Some new) = (Some x', Some rep) -> rp_error rep = None ->
  rp_code rep = 0%Z /\ old ∈ list_sheet_names (x_book x) /\ new ∉ list_sheet_names (x_book x) /\ new ∈ list_sheet_names (x_book x').
Proof.
  intros x x' old new rep. unfold ffi_rename_sheet, on_ptr, on_book, pure_book, x_state. cbn [fst snd].
  destruct (decide (old ∉ list_sheet_names (x_book x) \/ new ∈ list_sheet_names (x_book x))) as [Hor|Hor].
  - destruct (rename_fails old new (x_book x) Hor) as (e & -> & He). cbn [fst snd reply_of]. unfold failure. rewrite (text_no_nul _ He). intros [= <- <-]. done.
  - assert (old ∈ list_sheet_names (x_book x) /\ new ∉ list_sheet_names (x_book x)) as [H1 H2].
    { split; [destruct (decide (old ∈ list_sheet_names (x_book x))) as [|H]; [done|]; exfalso; apply Hor; by left|]. intros H. apply Hor. by right. }
    destruct (rename_works old new (x_book x) H1 H2) as (b' & -> & Hb). cbn [fst snd reply_of]. intros [= <- <-]. done.
Qed.
(** Documents and presentations: every save that fails with a message answers 0. *)
Theorem C38_save_refuted : forall (E : Env) (t : clock) (f : faults) (fs : filesys) (s : suite) (path e : string),
  text_ok e -> (suite_save t f path s fs).2 = Err e ->
  (exists rep, (ffi_word_save t f fs (Some s) (Some path)).2 = Some rep /\ rp_code rep = 0%Z)
  /\ (exists rep, (ffi_power_point_save t f fs (Some s) (Some path)).2 = Some rep /\ rp_code rep = 0%Z).
Proof.
  intros E t f fs s path e He Hs. unfold ffi_word_save, ffi_power_point_save, saved. destruct (suite_save t f path s fs) as [tr r]. cbn [snd] in *. subst r.
  cbn [reply_of]. unfold failure. rewrite (text_no_nul _ (text_prefix _ He)). split; eexists; done.
Qed.
(** A new document, saved where no file can be created: the answer is 0 and there is no file. *)
Definition demo_word `{Env} : bool :=
  match ffi_word_create None (Some (inr tt)) ∅ with
  | Some rep =>
      match ffi_word_save (mkClock "1" "2" "3" "4") (mkFaults false true None []) ∅ (rp_out rep) (Some "a.docx") with
      | (tr, Some rep') => Z.eqb (rp_code rep) 0 && Z.eqb (rp_code rep') 0
          && match rp_error rep' with Some (Some _) => true | _ => false end
          && forallb (fun fs : filesys => match fs !! "a.docx" with None => true | Some _ => false end) tr
      | _ => false
      end
  | None => false
  end.
Example C38_save_example : @demo_word (demo_env Checked) = true.
Proof. vm_compute. reflexivity. Qed.
(** A workbook through the C interface: a sheet is added, a missing one renamed (answer 0), an
    invalid buffer refused, a style with an unknown number format refused, the file saved. *)
Definition plain_fbs : fbs_setting :=
  mkFbs 0 None None None None None None None 11 None true false false false false None None PNone HNone VNone.
Definition demo_ffi `{Env} `{Hashes} : bool :=
  match ffi_excel_create None (Some (inr tt)) ∅, ffi_excel_create (Some "none.xlsx") (Some (inr tt)) ∅, ffi_excel_create None None ∅ with
  | Some r0, Some r1, Some r2 =>
      match ffi_add_sheet (rp_out r0) (Some "Data") with
      | (x1, Some a) =>
          match ffi_rename_sheet x1 (Some "Missing") (Some "New"), ffi_style_id x1 (Some (inl "bad buffer")),
            ffi_style_id x1 (Some (inr plain_fbs)), ffi_style_id x1 (Some (inr (mkFbs 30 None None None None None None None 11 None true false false false false None None PNone HNone VNone))),
            ffi_excel_save (mkClock "1" "2" "3" "4") (mkFaults false false None []) ∅ x1 (Some "a.xlsx") with
          | (_, Some b), (_, Some c), (_, Some d), (_, Some d2), (_, Some e) =>
              bool_decide (map rp_code [r0; r1; r2] = [0; -1; 1]%Z)
              && bool_decide (rp_code a = 0%Z /\ rp_code b = 0%Z /\ rp_code c = 2%Z /\ rp_code d = 0%Z /\ rp_code d2 = 4%Z /\ rp_code e = 0%Z)
              && match rp_error b with Some (Some _) => true | _ => false end
              && match rp_out d with Some _ => true | _ => false end
          | _, _, _, _, _ => false
          end
      | _ => false
      end
  | _, _, _ => false
  end.
Example C38_example : @demo_ffi (demo_env Checked) value_hashes = true.
Proof. vm_compute. reflexivity. Qed.

(** C46. Styles asked for through the C interface. Unless two entries of the tables have the same
    hash, the id answered names the style described if the description sets italic, underline and
    double underline as it sets bold, and nothing but the left border, fonts, fills without pattern and
    wrapping; otherwise it does not. *)
Theorem C46_style : forall (E : Env) (Hs : Hashes) (x x' : excel) (f : fbs_setting) (rep : reply N) (id : N),
  ffi_style_id (Some x) (Some (inr f)) = (Some x', Some rep) -> rp_out rep = Some id ->
  let before := sp_styles (wb_style (x_book x)) in
  let after := sp_styles (wb_style (x_book x')) in
  Collisionless Hs [ffi_setting f] before -> Small after ->
  Shows after (wanted f) id <-> Survives f.
Proof.
  intros E Hs x x' f rep id Hx Hid before after Hc Hsm. cbn [ffi_style_id] in Hx. unfold on_ptr, on_book, pure_book, wb_style_id, x_state in Hx. cbn [fst snd] in Hx.
  fold before in Hx. destruct (get_style_id (ffi_setting f) before) as [st r] eqn:Eg. cbn [fst snd] in Hx.
  destruct r as [i|e|e]; cbn [reply_of] in Hx; [|injection Hx as _ <-; unfold failure in Hid; by destruct (has_nul _)|done].
  injection Hx as <- <-. injection Hid as <-. cbn in after. subst after. rewrite (one_ideal Hs _ _ Hc) in Eg.
  pose proof (get_style_shows _ _ _ _ Eg Hsm) as Hsh. split.
  - intros Hw. by eapply shows_survives.
  - intros Hsv. by eapply survives_shows.
Qed.
(** For example, a bold font comes out italic and underlined. *)
Example C46_example : ~ Survives plain_fbs /\ Survives (mkFbs 14 None (Some (mkSide None LThin)) None None None None (Some "Arial") 9 None
  false false false false true (Some "FF0000") None PNone HNone VNone).
Proof. split; [intros [H _]; done|]. repeat split. Qed.
(** Number formats: the request fails exactly if the number is none of the library's and no format
    code is given. *)
Theorem C46_number : forall (E : Env) (Hs : Hashes) (x : excel) (f : fbs_setting),
  Collisionless Hs [ffi_setting f] (sp_styles (wb_style (x_book x))) -> below_len (st_nums (sp_styles (wb_style (x_book x)))) 65000 ->
  (exists x' rep, ffi_style_id (Some x) (Some (inr f)) = (x', Some rep)
    /\ (rp_code rep = 0%Z <-> fb_num f <= 22 \/ 37 <= fb_num f <= 49 \/ is_Some (fb_code f))).
Proof.
  intros E Hs x f Hc Hb. cbn [ffi_style_id]. unfold on_ptr, on_book, pure_book, wb_style_id, x_state. cbn [fst snd].
  rewrite (one_ideal Hs _ _ Hc). destruct (get_style_total (ffi_setting f) _ Hb) as [T1 T2].
  pose proof (number_given_ffi f) as Hn. destruct (decide (fb_num f <= 22 \/ 37 <= fb_num f <= 49 \/ is_Some (fb_code f))) as [Hd|Hd].
  - destruct T1 as (st & id & ->); [by apply Hn|]. cbn. eexists _, _. split; [done|]. done.
  - destruct T2 as [e ->]; [by rewrite Hn|]. cbn. eexists _, _. split; [done|]. unfold failure. destruct (has_nul _); cbn; (split; [done|]); intros; by destruct Hd.
Qed.

Print Assumptions C38_create.
Print Assumptions C38_calls.
Print Assumptions C38_save.
Print Assumptions C38_message.
Print Assumptions C38_rename_refuted.
Print Assumptions C38_rename_message.
Print Assumptions C38_save_refuted.
Print Assumptions C46_style.
Print Assumptions C46_number.
