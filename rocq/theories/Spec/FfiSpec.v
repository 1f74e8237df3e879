(** What a C caller may rely on. *)
From Coq Require Import ZArith.
From Verif.Model Require Import Ffi.
From Verif.Spec Require Import StyleSpec.
Open Scope N_scope.

(** An answer tells the outcome of the operation it stands for: code 0 says that the arguments were
    usable and the operation succeeded, and then, and only then, its result is stored; any failure
    has another code, and a message is stored only with a failure. *)
Definition Tells {A B} (usable : Prop) (r : res A) (out : A -> option B) (rep : reply B) : Prop :=
  (rp_code rep = 0%Z <-> usable /\ exists a, r = Ok a)
  /\ (forall b, rp_out rep = Some b <-> usable /\ exists a, r = Ok a /\ out a = Some b)
  /\ (rp_code rep = 0%Z -> rp_error rep = None)
  /\ (forall p, r <> Panic p).
(** Unless it aborts, which it does only if the operation does. *)
Definition Faithful {A B} (usable : Prop) (r : res A) (out : A -> option B) (rep : option (reply B)) : Prop :=
  match rep with
  | Some rep => usable /\ Tells usable r out rep \/ ~ usable /\ rp_code rep <> 0%Z /\ rp_out rep = None
  | None => usable /\ exists p, r = Panic p
  end.
(** A message reaches the caller as it is, after a fixed prefix. *)
Definition text_ok (e : string) : Prop := forall a b, e <> a +:+ String "000" b.
Definition Explains {B} (prefix : string) (e : string) (rep : option (reply B)) : Prop :=
  exists c, rep = Some (mkReply c None (Some (Some (prefix +:+ e)))).

(** ** The style a C caller describes *)
Definition wanted (f : fbs_setting) : setting :=
  mkSetting (if bool_decide (fb_num f <= 22 \/ 37 <= fb_num f <= 49) then NFBuiltin (fb_num f) else NFCustom) (fb_code f)
    (default side_default (fb_left f)) (default side_default (fb_top f)) (default side_default (fb_right f))
    (default side_default (fb_bottom f)) (default side_default (fb_diagonal f))
    (default "Calibri" (fb_font f)) (fb_size f) (default (mkColor CTheme "1") (fb_color f))
    (fb_bold f) (fb_italic f) (fb_underline f) (fb_double f) (fb_wrap f) (fb_bg f) (fb_fg f)
    (fb_pattern f) (fb_halign f) (fb_valign f).
(** The descriptions that survive the interface. *)
Definition Survives (f : fbs_setting) : Prop :=
  fb_italic f = fb_bold f /\ fb_underline f = fb_bold f /\ fb_double f = fb_bold f
  /\ default (mkColor CTheme "1") (fb_color f) = mkColor CTheme "1"
  /\ default side_default (fb_top f) = side_default /\ default side_default (fb_right f) = side_default
  /\ default side_default (fb_bottom f) = side_default /\ default side_default (fb_diagonal f) = side_default
  /\ fb_pattern f = PNone /\ fb_halign f = HNone /\ fb_valign f = VNone.
