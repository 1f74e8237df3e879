(** A concrete environment, used only by the non-vacuity examples and refutation witnesses. *)
From Verif.Model Require Import Base.
From Verif.Proofs Require Import BaseFacts.

Definition demo_f32 (s : string) : option string := if f64_parses s && sforall f32_byte s then Some s else None.
Lemma demo_f32_idem s d : demo_f32 s = Some d -> demo_f32 d = Some d.
Proof. unfold demo_f32. destruct (_ && _) eqn:E; [|done]. intros [= <-]. by rewrite E. Qed.
Lemma demo_f32_bytes s d : demo_f32 s = Some d -> sforall f32_byte d = true.
Proof. unfold demo_f32. destruct (f64_parses s); [|done]. cbn [andb]. destruct (sforall f32_byte s) eqn:E; [|done]. by intros [= <-]. Qed.
Lemma demo_gunzip_gzip s : strip_prefix "gz:" ("gz:" +:+ s) = Some s.
Proof. apply strip_prefix_app. Qed.
(** A toy container format: every byte is preceded by x, a string ends with a dot. *)
Fixpoint demo_enc (s : string) : string :=
  match s with EmptyString => "." | String a s => String "x" (String a (demo_enc s)) end.
Fixpoint demo_dec (s : string) : option (string * string) :=
  match s with
  | String t s1 =>
      if aeqb t "." then Some ("", s1)
      else match s1 with
           | String a s2 => match demo_dec s2 with Some (w, r) => Some (String a w, r) | None => None end
           | EmptyString => None
           end
  | EmptyString => None
  end.
Lemma demo_dec_enc s r : demo_dec (demo_enc s +:+ r) = Some (s, r).
Proof. induction s as [|a s IH]; cbn; [done|]. by rewrite IH. Qed.
Fixpoint demo_zip (l : list (string * string)) : string :=
  match l with [] => "" | (k, v) :: l => demo_enc k +:+ demo_enc v +:+ demo_zip l end.
Fixpoint demo_entries (fuel : nat) (s : string) : option (list (string * string)) :=
  match s, fuel with
  | EmptyString, _ => Some []
  | _, O => None
  | _, S f =>
      match demo_dec s with
      | Some (k, r) =>
          match demo_dec r with
          | Some (v, r2) => match demo_entries f r2 with Some l => Some ((k, v) :: l) | None => None end
          | None => None
          end
      | None => None
      end
  end.
Lemma demo_entries_zip l n : (length l <= n)%nat -> demo_entries n (demo_zip l) = Some l.
Proof.
  revert n. induction l as [|[k v] l IH]; intros n; [by destruct n|].
  destruct n as [|n]; cbn [length]; [lia|]. intros Hn.
  assert (exists a t, demo_zip ((k, v) :: l) = String a t) as (a & t & E).
  { cbn. destruct k; cbn; eauto. }
  unfold demo_entries. fold demo_entries. rewrite E, <- E. cbn [demo_zip].
  rewrite demo_dec_enc, demo_dec_enc, IH by lia. done.
Qed.
Definition demo_unzip (s : string) : option (list (string * string)) :=
  match demo_entries (String.length s) s with
  | Some l => if decide (NoDup l.*1) then Some l else None
  | None => None
  end.
Lemma demo_zip_length l : (length l <= String.length (demo_zip l))%nat.
Proof.
  induction l as [|[k v] l IH]; [done|]. cbn [demo_zip length].
  assert (forall a b, String.length (a +:+ b) = (String.length a + String.length b)%nat) as Hl.
  { intros a b. induction a as [|x a IHa]; [done|]. cbn. by rewrite IHa. }
  rewrite !Hl. assert (1 <= String.length (demo_enc k))%nat by (destruct k; cbn; lia). lia.
Qed.
Lemma demo_unzip_zip l : NoDup l.*1 -> demo_unzip (demo_zip l) = Some l.
Proof.
  intros H. unfold demo_unzip. rewrite demo_entries_zip by apply demo_zip_length.
  by rewrite decide_True.
Qed.
Lemma demo_unzip_nodup s l : demo_unzip s = Some l -> NoDup l.*1.
Proof.
  unfold demo_unzip. destruct (demo_entries _ s) as [l'|]; [|done].
  destruct (decide (NoDup l'.*1)); [|done]. by intros [= <-].
Qed.
Definition demo_env (m : mode) : Env := {|
  env_mode := m;
  env_alpha := fun _ => false;
  env_now := "2025-01-01T00:00:00Z";
  env_now_chars := eq_refl;
  env_order := fun l => l;
  env_order_perm := fun l => Permutation_refl l;
  env_gzip := fun s => "gz:" +:+ s;
  env_gunzip := strip_prefix "gz:";
  env_gunzip_gzip := demo_gunzip_gzip;
  env_order2 := fun l => l;
  env_order2_perm := fun l => Permutation_refl l;
  env_zip := demo_zip;
  env_unzip := demo_unzip;
  env_unzip_zip := demo_unzip_zip;
  env_unzip_nodup := demo_unzip_nodup;
  env_f32 := demo_f32;
  env_f32_idem := demo_f32_idem;
  env_f32_bytes := demo_f32_bytes;
|}.
