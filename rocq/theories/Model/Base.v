(** Foundations of the model: results, the state-and-error monad, byte strings, characters,
    integer parsing and printing, sorted iteration over maps, and the environment of external
    behaviour (build mode, Unicode tables, clock, hash iteration order, gzip, f32). *)
From Coq Require Export Ascii String NArith Lia List.
From stdpp Require Export base sorting strings gmap numbers list.
Global Open Scope string_scope.
Global Open Scope list_scope.
Global Open Scope N_scope.
Global Arguments String.append !_ _ : simpl nomatch.

(** ** Results. [AnyResult<A, AnyError>] plus the possibility of a Rust panic.
    (anyhow's context chains are reduced to the innermost message: SIMPL.) *)
Inductive res (A : Type) : Type :=
| Ok (a : A)
| Err (msg : string)
| Panic (msg : string).
Arguments Ok {A} a.
Arguments Err {A} msg.
Arguments Panic {A} msg.

Definition is_ok {A} (r : res A) : bool := match r with Ok _ => true | _ => false end.

Definition rbind {A B} (m : res A) (k : A -> res B) : res B :=
  match m with Ok a => k a | Err e => Err e | Panic e => Panic e end.
Definition rmap {A B} (f : A -> B) (m : res A) : res B := rbind m (fun a => Ok (f a)).
Definition of_option {A} (msg : string) (o : option A) : res A :=
  match o with Some a => Ok a | None => Err msg end.

Fixpoint rmapM {A B} (f : A -> res B) (l : list A) : res (list B) :=
  match l with
  | [] => Ok []
  | a :: l => rbind (f a) (fun b => rbind (rmapM f l) (fun bs => Ok (b :: bs)))
  end.

(** ** Computations over a mutable state that may fail half-way: a Rust function taking
    [&mut self] and returning a [Result]. The state reached at the failure is kept. *)
Definition M (S A : Type) : Type := S -> S * res A.
Definition ret {S A} (a : A) : M S A := fun s => (s, Ok a).
Definition bind {S A B} (m : M S A) (k : A -> M S B) : M S B :=
  fun s => match m s with
           | (s', Ok a) => k a s'
           | (s', Err e) => (s', Err e)
           | (s', Panic e) => (s', Panic e)
           end.
Definition fail {S A} (msg : string) : M S A := fun s => (s, Err msg).
Definition panic {S A} (msg : string) : M S A := fun s => (s, Panic msg).
Definition get {S} : M S S := fun s => (s, Ok s).
Definition put {S} (s' : S) : M S unit := fun _ => (s', Ok tt).
Definition modify {S} (f : S -> S) : M S unit := fun s => (f s, Ok tt).
Definition lift {S A} (r : res A) : M S A := fun s => (s, r).

Declare Scope mon_scope.
Delimit Scope mon_scope with mon.
Notation "x <- m ;; k" := (bind m (fun x => k))
  (at level 100, m at next level, right associativity) : mon_scope.
Notation "' pat <- m ;; k" := (bind m (fun x => match x with pat => k end))
  (at level 100, pat pattern, m at next level, right associativity) : mon_scope.
Notation "m ;;; k" := (bind m (fun _ => k)) (at level 100, right associativity) : mon_scope.

Fixpoint iterM {S A} (f : A -> M S unit) (l : list A) : M S unit :=
  match l with
  | [] => ret tt
  | a :: l => bind (f a) (fun _ => iterM f l)
  end.
Fixpoint mapMS {S A B} (f : A -> M S B) (l : list A) : M S (list B) :=
  match l with
  | [] => ret []
  | a :: l => bind (f a) (fun b => bind (mapMS f l) (fun bs => ret (b :: bs)))
  end.

(** ** Byte strings *)
Fixpoint bytes (s : string) : list ascii :=
  match s with EmptyString => [] | String a s => a :: bytes s end.
Fixpoint of_bytes (l : list ascii) : string :=
  match l with [] => EmptyString | a :: l => String a (of_bytes l) end.

Definition aeqb (a b : ascii) : bool := Ascii.eqb a b.
Definition seqb (a b : string) : bool := String.eqb a b.

Fixpoint sforall (p : ascii -> bool) (s : string) : bool :=
  match s with EmptyString => true | String a s => p a && sforall p s end.
Fixpoint sexists (p : ascii -> bool) (s : string) : bool :=
  match s with EmptyString => false | String a s => p a || sexists p s end.

Fixpoint srev_app (s acc : string) : string :=
  match s with EmptyString => acc | String a s => srev_app s (String a acc) end.
Definition srev (s : string) : string := srev_app s "".

(** [str::starts_with], [str::strip_prefix] *)
Fixpoint strip_prefix (p s : string) : option string :=
  match p, s with
  | EmptyString, _ => Some s
  | String a p, String b s => if aeqb a b then strip_prefix p s else None
  | String _ _, EmptyString => None
  end.
Definition starts_with (p s : string) : bool :=
  match strip_prefix p s with Some _ => true | None => false end.
(** [str::strip_suffix] / [ends_with] *)
Definition strip_suffix (p s : string) : option string :=
  match strip_prefix (srev p) (srev s) with Some r => Some (srev r) | None => None end.

(** [str::find(pat)]: byte offset of the first occurrence, here as the split around it. *)
Fixpoint split_at_sub (pat s : string) : option (string * string) :=
  match strip_prefix pat s with
  | Some r => Some ("", r)
  | None =>
      match s with
      | EmptyString => None
      | String a s' =>
          match split_at_sub pat s' with
          | Some (l, r) => Some (String a l, r)
          | None => None
          end
      end
  end.
(** Split around the first byte satisfying [p]: bytes before it, the byte, bytes after it. *)
Fixpoint split_at_byte (p : ascii -> bool) (s : string) : option (string * ascii * string) :=
  match s with
  | EmptyString => None
  | String a s' =>
      if p a then Some ("", a, s')
      else match split_at_byte p s' with
           | Some (l, b, r) => Some (String a l, b, r)
           | None => None
           end
  end.
(** [str::rfind("/")] as the split around the last occurrence. *)
Definition rsplit_at_byte (p : ascii -> bool) (s : string) : option (string * ascii * string) :=
  match split_at_byte p (srev s) with
  | Some (l, b, r) => Some (srev r, b, srev l)
  | None => None
  end.
(** [str::split(":")] for a single-byte separator. *)
Fixpoint split_byte (sep : ascii) (s : string) : list string :=
  match s with
  | EmptyString => [EmptyString]
  | String a s' =>
      if aeqb a sep then EmptyString :: split_byte sep s'
      else match split_byte sep s' with
           | w :: ws => String a w :: ws
           | [] => [String a EmptyString]
           end
  end.
(** [Vec<String>::join(sep)] *)
Fixpoint join (sep : string) (l : list string) : string :=
  match l with
  | [] => ""
  | [a] => a
  | a :: l => a +:+ sep +:+ join sep l
  end.
Definition sconcat (l : list string) : string := foldr String.append "" l.

(** ** Characters of a UTF-8 string ([str::chars]). Rust strings are always valid UTF-8; on an
    ill-formed byte the decoder yields U+FFFD. *)
Definition byteN (a : ascii) : N := N_of_ascii a.
Definition is_cont (a : ascii) : bool := (128 <=? byteN a) && (byteN a <? 192).
Definition cont (a : ascii) : N := byteN a - 128.
Fixpoint chars (s : string) : list N :=
  match s with
  | EmptyString => []
  | String a s1 =>
      let x := byteN a in
      let bad := 65533 :: chars s1 in
      if x <? 128 then x :: chars s1
      else if (192 <=? x) && (x <? 224) then
        match s1 with
        | String b s2 => if is_cont b then ((x - 192) * 64 + cont b) :: chars s2 else bad
        | EmptyString => bad
        end
      else if (224 <=? x) && (x <? 240) then
        match s1 with
        | String b (String c s3) =>
            if is_cont b && is_cont c
            then ((x - 224) * 4096 + cont b * 64 + cont c) :: chars s3 else bad
        | _ => bad
        end
      else if (240 <=? x) && (x <? 248) then
        match s1 with
        | String b (String c (String d s4)) =>
            if is_cont b && is_cont c && is_cont d
            then ((x - 240) * 262144 + cont b * 4096 + cont c * 64 + cont d) :: chars s4 else bad
        | _ => bad
        end
      else bad
  end.
(** [char::encode_utf8] *)
Definition encode_utf8 (c : N) : string :=
  let b (n : N) := ascii_of_N n in
  if c <? 128 then String (b c) ""
  else if c <? 2048 then String (b (192 + c / 64)) (String (b (128 + c mod 64)) "")
  else if c <? 65536 then
    String (b (224 + c / 4096)) (String (b (128 + (c / 64) mod 64))
      (String (b (128 + c mod 64)) ""))
  else
    String (b (240 + c / 262144)) (String (b (128 + (c / 4096) mod 64))
      (String (b (128 + (c / 64) mod 64)) (String (b (128 + c mod 64)) ""))).

Definition rfc3339_byte (a : ascii) : bool :=
  let c := byteN a in
  ((48 <=? c) && (c <=? 58)) || (c =? 45) || (c =? 84) || (c =? 90).

(** ** External behaviour. Everything the crates around the code decide is a field here; the
    theorems hold for every environment. [Checked] is a debug build (overflow panics),
    [Wrapping] a release build. *)
(** The characters of a floating-point rendering: letters, digits, and + - . *)
Definition f32_byte (a : ascii) : bool :=
  let c := byteN a in
  ((48 <=? c) && (c <=? 57)) || ((65 <=? c) && (c <=? 90)) || ((97 <=? c) && (c <=? 122))
  || (c =? 43) || (c =? 45) || (c =? 46).

Inductive mode := Checked | Wrapping.

Class Env := {
  env_mode : mode;
  (** [char::is_alphabetic] outside ASCII (Unicode table). *)
  env_alpha : N -> bool;
  (** [Utc::now().to_rfc3339_opts(Secs, true)]: digits and the characters - : T Z. *)
  env_now : string;
  env_now_chars : sforall rfc3339_byte env_now = true;
  (** [HashMap] iteration order: any reordering of the keys. *)
  env_order : list string -> list string;
  env_order_perm : forall l, Permutation (env_order l) l;
  (** flate2 gzip, [rs/src/utils/file_handling.rs] lines 7-22. *)
  env_gzip : string -> string;
  env_gunzip : string -> option string;
  env_gunzip_gzip : forall s, env_gunzip (env_gzip s) = Some s;
  (** [HashSet<(String, String)>] iteration order. *)
  env_order2 : list (string * string) -> list (string * string);
  env_order2_perm : forall l, Permutation (env_order2 l) l;
  (** The zip container (crate zip 2.2): entries with distinct names, in order. *)
  env_zip : list (string * string) -> string;
  env_unzip : string -> option (list (string * string));
  env_unzip_zip : forall l, NoDup l.*1 -> env_unzip (env_zip l) = Some l;
  env_unzip_nodup : forall s l, env_unzip s = Some l -> NoDup l.*1;
  (** [str::parse::<f32>()] followed by [to_string()]: an [f32] value is represented by its
      shortest decimal rendering, which parses back to itself. *)
  env_f32 : string -> option string;
  env_f32_idem : forall s d, env_f32 s = Some d -> env_f32 d = Some d;
  env_f32_bytes : forall s d, env_f32 s = Some d -> sforall f32_byte d = true;
}.

Definition is_ascii_alpha (c : N) : bool :=
  ((65 <=? c) && (c <=? 90)) || ((97 <=? c) && (c <=? 122)).
Definition is_ascii_digit (c : N) : bool := (48 <=? c) && (c <=? 57).
(** [char::is_alphabetic]: ASCII letters, and the Unicode table beyond ASCII. *)
Definition is_alphabetic `{Env} (c : N) : bool :=
  if c <? 128 then is_ascii_alpha c else env_alpha c.
(** [char::to_ascii_uppercase] *)
Definition to_ascii_uppercase (c : N) : N :=
  if (97 <=? c) && (c <=? 122) then c - 32 else c.
(** [char::is_whitespace] (Unicode White_Space) *)
Definition is_uni_space (c : N) : bool :=
  ((9 <=? c) && (c <=? 13)) || (c =? 32) || (c =? 133) || (c =? 160) || (c =? 5760)
  || ((8192 <=? c) && (c <=? 8202)) || (c =? 8232) || (c =? 8233) || (c =? 8239)
  || (c =? 8287) || (c =? 12288).
Fixpoint drop_while {A} (p : A -> bool) (l : list A) : list A :=
  match l with [] => [] | a :: l' => if p a then drop_while p l' else l end.
Fixpoint take_while {A} (p : A -> bool) (l : list A) : list A :=
  match l with [] => [] | a :: l' => if p a then a :: take_while p l' else [] end.
(** [str::trim] on characters *)
Definition trim_chars (l : list N) : list N :=
  rev (drop_while is_uni_space (rev (drop_while is_uni_space l))).

(** ** Integers *)
Definition is_digit_byte (a : ascii) : bool := is_ascii_digit (byteN a).
Fixpoint digits_val (acc : N) (s : string) : N :=
  match s with
  | EmptyString => acc
  | String a s => digits_val (acc * 10 + (byteN a - 48)) s
  end.
(** [str::parse::<uN>()] for an unsigned type with maximum [max]: an optional plus sign, at
    least one digit, digits only, no overflow. *)
Definition parse_digits (max : N) (s : string) : option N :=
  match s with
  | EmptyString => None
  | _ => if sforall is_digit_byte s then
           let v := digits_val 0 s in if v <=? max then Some v else None
         else None
  end.
Definition parse_uint (max : N) (s : string) : option N :=
  match s with
  | String a s' => if aeqb a "+" then parse_digits max s' else parse_digits max s
  | EmptyString => None
  end.
Definition u8_max : N := 255.
Definition u16_max : N := 65535.
Definition u32_max : N := 4294967295.
Definition usize_max : N := 18446744073709551615.

(** [uN::to_string] *)
Definition digit_char (d : N) : ascii := ascii_of_N (48 + d).
Fixpoint show_aux (fuel : nat) (n : N) (acc : string) : string :=
  match fuel with
  | O => acc
  | S f =>
      let acc' := String (digit_char (n mod 10)) acc in
      if n / 10 =? 0 then acc' else show_aux f (n / 10) acc'
  end.
Definition show_N (n : N) : string := show_aux (S (N.to_nat (N.log2 n))) n "".

(** [u16] and [usize] arithmetic under the build mode. *)
Definition u16_wrap (m : mode) (n : N) : res N :=
  if n <? 65536 then Ok n
  else match m with Checked => Panic "attempt to overflow u16" | Wrapping => Ok (n mod 65536) end.
Definition u16_add (m : mode) (a b : N) : res N := u16_wrap m (a + b).
Definition u16_mul (m : mode) (a b : N) : res N := u16_wrap m (a * b).
Definition u16_sub (m : mode) (a b : N) : res N :=
  if b <=? a then Ok (a - b)
  else match m with
       | Checked => Panic "attempt to subtract with overflow"
       | Wrapping => Ok ((a + 65536 - b) mod 65536)
       end.
Definition usize_pow (m : mode) (b e : N) : res N :=
  let p := b ^ e in
  if p <=? usize_max then Ok p
  else match m with
       | Checked => Panic "attempt to multiply with overflow"
       | Wrapping => Ok (p mod 18446744073709551616)
       end.

(** [str::parse::<f64>().is_ok()]: Rust's floating-point literal grammar. *)
Definition lower_byte (a : ascii) : ascii :=
  let c := byteN a in if (65 <=? c) && (c <=? 90) then ascii_of_N (c + 32) else a.
Fixpoint slower (s : string) : string :=
  match s with EmptyString => "" | String a s => String (lower_byte a) (slower s) end.
Fixpoint span_digits (s : string) : string * string :=
  match s with
  | String a s' => if is_digit_byte a then let '(d, r) := span_digits s' in (String a d, r) else ("", s)
  | EmptyString => ("", "")
  end.
Definition strip_sign (s : string) : string :=
  match s with
  | String a s' => if aeqb a "+" || aeqb a "-" then s' else s
  | EmptyString => s
  end.
Definition is_nonempty (s : string) : bool := match s with EmptyString => false | _ => true end.
Definition f64_exponent_ok (s : string) : bool :=
  match s with
  | EmptyString => true
  | String a s' =>
      if aeqb a "e" || aeqb a "E" then
        let t := strip_sign s' in is_nonempty t && sforall is_digit_byte t
      else false
  end.
Definition f64_number_ok (s : string) : bool :=
  let '(i, r) := span_digits s in
  match r with
  | String a r' =>
      if aeqb a "." then
        let '(f, r'') := span_digits r' in
        (is_nonempty i || is_nonempty f) && f64_exponent_ok r''
      else is_nonempty i && f64_exponent_ok r
  | EmptyString => is_nonempty i
  end.
Definition f64_parses (s : string) : bool :=
  let t := strip_sign s in
  let l := slower t in
  seqb l "inf" || seqb l "infinity" || seqb l "nan" || f64_number_ok t.

(** ** Sorted iteration *)
Fixpoint str_leb (a b : string) : bool :=
  match a, b with
  | EmptyString, _ => true
  | String _ _, EmptyString => false
  | String x a', String y b' =>
      if byteN x <? byteN y then true
      else if byteN y <? byteN x then false
      else str_leb a' b'
  end.
Definition str_le (a b : string) : Prop := str_leb a b = true.
Global Instance str_le_dec a b : Decision (str_le a b) := bool_dec _ _.
(** [keys().collect(); keys.sort()] then lookup: attribute order of the writer. *)
Definition key_le {V} (x y : string * V) : Prop := str_le (x.1) (y.1).
Global Instance key_le_dec {V} (x y : string * V) : Decision (key_le x y).
Proof. unfold key_le; apply _. Defined.
Definition sorted_entries {V} (m : gmap string V) : list (string * V) :=
  merge_sort key_le (map_to_list m).
(** [BTreeMap] iteration: entries by ascending key. *)
Definition nkey_le {V} (x y : N * V) : Prop := (x.1 <= y.1)%N.
Global Instance nkey_le_dec {V} (x y : N * V) : Decision (nkey_le x y).
Proof. unfold nkey_le; apply _. Defined.
Definition btree_entries {V} (m : gmap N V) : list (N * V) :=
  merge_sort nkey_le (map_to_list m).
(** [HashMap] iteration: keys in the environment's order. *)
Definition map_keys {V} (m : gmap string V) : list string := (map_to_list m).*1.
Definition hash_entries `{Env} {V} (m : gmap string V) : list (string * V) :=
  omap (fun k => (fun v => (k, v)) <$> m !! k) (env_order (map_keys m)).
