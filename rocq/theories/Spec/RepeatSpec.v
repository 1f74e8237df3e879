(** Two runs of the same program. *)
From Verif.Model Require Import Excel.
From Verif.Spec Require Import XmlSpec XmlRepr PackageSpec WellSpec.

(** Two runs on the same machine: the build, the compression and the parsing of numbers are the same; the
    time of day and the order in which hash tables are walked through are not. *)
Record SameMachine (E1 E2 : Env) : Prop := {
  sm_mode : @env_mode E1 = @env_mode E2;
  sm_alpha : @env_alpha E1 = @env_alpha E2;
  sm_gzip : @env_gzip E1 = @env_gzip E2;
  sm_gunzip : @env_gunzip E1 = @env_gunzip E2;
  sm_zip : @env_zip E1 = @env_zip E2;
  sm_unzip : @env_unzip E1 = @env_unzip E2;
  sm_f32 : @env_f32 E1 = @env_f32 E2;
}.

(** What the calls of a session answer, up to the first panic. *)
Fixpoint replies `{Env} `{Hashes} (cs : list call) (s : session) : list (res unit) :=
  match cs with
  | [] => []
  | c :: cs =>
      let '(s1, r) := call_step c s in
      r :: match r with Panic _ => [] | _ => replies cs s1 end
  end.

(** The same tree, but for the text of the elements that hold a date. *)
Inductive SameButDates : tree -> tree -> Prop :=
| sbd g a v v' cs cs' : v = v' \/ g ∈ ["dcterms:modified"; "dcterms:created"] -> Forall2 SameButDates cs cs' ->
    SameButDates (Node g a v cs) (Node g a v' cs').
(** The same part: the same bytes; or the same tree, in the sense of [T], written with the same namespaces. *)
Definition SamePart (E1 E2 : Env) (T : tree -> tree -> Prop) (a b : string) : Prop :=
  a = b \/
  exists t1 t2 n1 n2 text1 text2, a = @prolog E1 +:+ text1 /\ b = @prolog E2 +:+ text2
    /\ Renders (Some n1) t1 text1 /\ Renders (Some n2) t2 text2 /\ @names_ok E1 t1 /\ T t1 t2 /\ Permutation n1 n2 /\ NoDup n1.*1.
(** The same list of content types: the same entries. *)
Definition SameTypes (E1 E2 : Env) (a b : string) : Prop :=
  exists g at1 c1 c2 n1 n2 text1 text2, a = @prolog E1 +:+ text1 /\ b = @prolog E2 +:+ text2
    /\ Renders (Some n1) (Node g at1 None c1) text1 /\ Renders (Some n2) (Node g at1 None c2) text2
    /\ Permutation n1 n2 /\ Permutation c1 c2 /\ NoDup n1.*1.
(** The same package: the same names, each with the same part; the part [core] holds dates. *)
Definition SamePackage (E1 E2 : Env) (core : string) (l1 l2 : list (string * string)) : Prop :=
  Permutation l1.*1 l2.*1 /\
  forall q a b, (q, a) ∈ l1 -> (q, b) ∈ l2 ->
    if decide (q = content_types_name) then SameTypes E1 E2 a b
    else SamePart E1 E2 (if decide (q = core) then SameButDates else eq) a b.
(** Bytes that both runs make the same of, if they read them. *)
Definition ReadAlike (E1 E2 : Env) (data : string) : Prop := @Ordinary E1 data /\ @read_doc E1 data = @read_doc E2 data.
(** No tag of the text declares a namespace prefix twice. (The library takes every attribute whose name begins
    with xmlns for a declaration, of what stands between its first two colons, or of the default namespace.) *)
Definition declared (k : string) : string := match split_byte ":" k with _ :: p :: _ => p | _ => default_ns_key end.
Definition clear_tag (attrs : gmap string string) : bool :=
  bool_decide (NoDup (map declared (List.filter (starts_with "xmlns") (map_keys attrs)))).
Fixpoint clear_from (fuel : nat) (s : string) : bool :=
  match fuel with
  | O => true
  | S fuel =>
      match read_event s with
      | Ok (EvStart _ raw, rest) | Ok (EvEmpty _ raw, rest) =>
          match get_attributes raw with Ok a => clear_tag a | _ => true end && clear_from fuel rest
      | Ok (_, rest) => clear_from fuel rest
      | _ => true
      end
  end.
Definition clear (data : string) : bool :=
  let s := match strip_prefix bom data with Some r => r | None => data end in clear_from (S (String.length s)) s.
