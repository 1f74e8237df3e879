(** [rs/src/files/xml/xml_serialize.rs]: reading a document, and the part of quick-xml 0.37 it
    relies on ([NsReader] with [trim_text(true)], default configuration otherwise).
    SIMPL: bytes are assumed to be valid UTF-8 ([from_utf8_lossy] and the text decoder are then
    the identity); the checks of [NsReader] on rebinding the reserved prefixes xml and xmlns are
    not modelled. *)
From Verif.Model Require Export XmlTree.

(** quick-xml [is_whitespace] *)
Definition is_ws (a : ascii) : bool :=
  let c := byteN a in (c =? 32) || (c =? 9) || (c =? 10) || (c =? 13).
Fixpoint skip_ws (s : string) : string :=
  match s with String a s' => if is_ws a then skip_ws s' else s | EmptyString => "" end.
(** Removal of trailing white space. *)
Fixpoint trim_end (s : string) : string :=
  match s with
  | EmptyString => ""
  | String a s' =>
      match trim_end s' with
      | EmptyString => if is_ws a then "" else String a ""
      | t => String a t
      end
  end.

(** ** Un-escaping ([quick_xml::escape::unescape]) *)
Definition hex_val (a : ascii) : option N :=
  let c := byteN a in
  if (48 <=? c) && (c <=? 57) then Some (c - 48)
  else if (97 <=? c) && (c <=? 102) then Some (c - 87)
  else if (65 <=? c) && (c <=? 70) then Some (c - 55)
  else None.
Fixpoint hex_digits (acc : N) (s : string) : option N :=
  match s with
  | EmptyString => Some acc
  | String a s => match hex_val a with Some d => hex_digits (acc * 16 + d) s | None => None end
  end.
Definition char_ref (num : string) : option string :=
  let code :=
    match num with
    | String a hex => if aeqb a "x" then (match hex with EmptyString => None | _ => hex_digits 0 hex end)
                      else (if sforall is_digit_byte num then Some (digits_val 0 num) else None)
    | EmptyString => None
    end in
  match code with
  | Some c =>
      if (c =? 0) || (1114111 <? c) || ((55296 <=? c) && (c <=? 57343)) then None
      else Some (encode_utf8 c)
  | None => None
  end.
Definition resolve_entity (ent : string) : option string :=
  if seqb ent "lt" then Some "<"
  else if seqb ent "gt" then Some ">"
  else if seqb ent "amp" then Some "&"
  else if seqb ent "apos" then Some "'"
  else if seqb ent "quot" then Some """"
  else match ent with
       | String a num => if aeqb a "#" then char_ref num else None
       | EmptyString => None
       end.
(** [ent] holds the (reversed) entity name read so far, if inside one. *)
Fixpoint unescape_from (ent : option string) (s : string) : option string :=
  match s with
  | EmptyString => match ent with None => Some "" | Some _ => None end
  | String a s' =>
      match ent with
      | None =>
          if aeqb a "&" then unescape_from (Some "") s'
          else match unescape_from None s' with Some t => Some (String a t) | None => None end
      | Some e =>
          if aeqb a "&" then None
          else if aeqb a ";" then
            match resolve_entity (srev e) with
            | Some r => match unescape_from None s' with Some t => Some (r +:+ t) | None => None end
            | None => None
            end
          else unescape_from (Some (String a e)) s'
      end
  end.
Definition unescape (s : string) : option string := unescape_from None s.

(** ** Tokens *)
Inductive event :=
| EvStart (name attrs : string)   (* name and the raw rest of the tag *)
| EvEmpty (name attrs : string)
| EvEnd (name : string)
| EvText (raw : string)           (* trimmed, still escaped *)
| EvOther                         (* declaration, comment, CDATA, doctype, instruction *)
| EvEof.

(** End of a start tag: the first > outside quotes. *)
Fixpoint scan_tag (q : option ascii) (s : string) : option (string * string) :=
  match s with
  | EmptyString => None
  | String a s' =>
      let next q := match scan_tag q s' with Some (c, r) => Some (String a c, r) | None => None end in
      match q with
      | None =>
          if aeqb a ">" then Some ("", s')
          else if aeqb a """" || aeqb a "'" then next (Some a)
          else next None
      | Some b => if aeqb a b then next None else next (Some b)
      end
  end.
(** Name of a tag: up to the first white space. *)
Fixpoint split_name (s : string) : string * string :=
  match s with
  | EmptyString => ("", "")
  | String a s' =>
      if is_ws a then ("", s) else let '(n, r) := split_name s' in (String a n, r)
  end.
(** End of a doctype: balanced angle brackets. *)
Fixpoint scan_doctype (balance : nat) (s : string) : option string :=
  match s with
  | EmptyString => None
  | String a s' =>
      if aeqb a "<" then scan_doctype (S balance) s'
      else if aeqb a ">" then match balance with O => Some s' | S b => scan_doctype b s' end
      else scan_doctype balance s'
  end.
Definition not_lt (a : ascii) : bool := negb (aeqb a "<").
Fixpoint span_text (s : string) : string * string :=
  match s with
  | EmptyString => ("", "")
  | String a s' => if aeqb a "<" then ("", s) else let '(t, r) := span_text s' in (String a t, r)
  end.

(** Markup after <. *)
Definition read_markup (s : string) : res (event * string) :=
  match s with
  | EmptyString => Err "unclosed tag"
  | String c s1 =>
      if aeqb c "!" then
        match s1 with
        | String d s2 =>
            if aeqb d "-" then
              match s2 with
              | String e s3 =>
                  if aeqb e "-" then
                    match split_at_sub "-->" s3 with
                    | Some (_, r) => Ok (EvOther, r)
                    | None => Err "unclosed comment"
                    end
                  else Err "unclosed comment"
              | EmptyString => Err "unclosed comment"
              end
            else if aeqb d "[" then
              match split_at_sub "]]>" s2 with
              | Some (c, r) => if starts_with "cdata[" (slower c) then Ok (EvOther, r) else Err "unclosed cdata"
              | None => Err "unclosed cdata"
              end
            else if aeqb d "D" || aeqb d "d" then
              match scan_doctype 0 s2 with
              | Some r => if starts_with "octype" (slower s2) then Ok (EvOther, r) else Err "unclosed doctype"
              | None => Err "unclosed doctype"
              end
            else Err "invalid bang markup"
        | EmptyString => Err "invalid bang markup"
        end
      else if aeqb c "?" then
        match split_at_sub "?>" s with
        | Some (String _ _, r) => Ok (EvOther, r)
        | _ => Err "unclosed instruction"
        end
      else if aeqb c "/" then
        match split_at_byte (fun a => aeqb a ">") s1 with
        | Some (name, _, r) => Ok (EvEnd (trim_end name), r)
        | None => Err "unclosed tag"
        end
      else
        match scan_tag None s with
        | None => Err "unclosed tag"
        | Some (content, r) =>
            match strip_suffix "/" content with
            | Some content' => let '(n, a) := split_name content' in Ok (EvEmpty n a, r)
            | None => let '(n, a) := split_name content in Ok (EvStart n a, r)
            end
        end
  end.

(** One event: leading white space is skipped, text is trimmed, empty text gives no event. *)
Definition read_event (s : string) : res (event * string) :=
  match skip_ws s with
  | EmptyString => Ok (EvEof, "")
  | String a s' =>
      if aeqb a "<" then read_markup s'
      else let '(t, r) := span_text (String a s') in Ok (EvText (trim_end t), r)
  end.

(** ** Attributes ([BytesStart::attributes] with duplicate check) *)
Inductive astate :=
| ABefore
| AKey (k : string)              (* reversed *)
| AAfterKey (k : string)
| AAfterEq (k : string)
| AValue (q : ascii) (k v : string).
Fixpoint parse_attrs_from (st : astate) (seen : list (string * string)) (s : string)
  : option (list (string * string)) :=
  match s with
  | EmptyString => match st with ABefore => Some seen | _ => None end
  | String a s' =>
      match st with
      | ABefore => if is_ws a then parse_attrs_from ABefore seen s'
                   else parse_attrs_from (AKey (String a "")) seen s'
      | AKey k =>
          if aeqb a "=" then
            (if existsb (fun kv => seqb kv.1 (srev k)) seen then None
             else parse_attrs_from (AAfterEq (srev k)) seen s')
          else if is_ws a then parse_attrs_from (AAfterKey (srev k)) seen s'
          else parse_attrs_from (AKey (String a k)) seen s'
      | AAfterKey k =>
          if is_ws a then parse_attrs_from (AAfterKey k) seen s'
          else if aeqb a "=" then
            (if existsb (fun kv => seqb kv.1 k) seen then None
             else parse_attrs_from (AAfterEq k) seen s')
          else None
      | AAfterEq k =>
          if is_ws a then parse_attrs_from (AAfterEq k) seen s'
          else if aeqb a """" || aeqb a "'" then parse_attrs_from (AValue a k "") seen s'
          else None
      | AValue q k v =>
          if aeqb a q then parse_attrs_from ABefore (seen ++ [(k, srev v)]) s'
          else parse_attrs_from (AValue q k (String a v)) seen s'
      end
  end.
(** xml_serialize.rs 121-132: attribute values are taken as they are, without un-escaping. *)
Definition get_attributes (raw : string) : res (gmap string string) :=
  match parse_attrs_from ABefore [] raw with
  | Some l => Ok (attrs_of l)
  | None => Err "Failed to parse attribute"
  end.

(** ** The event loop, xml_serialize.rs 34-119. [ps_open] is the reader's stack of open tags
    (quick-xml [check_end_names]). *)
Record pstate := mkPstate {
  ps_doc : doc;
  ps_root : bool;
  ps_active : N;
  ps_open : list string;
}.
Definition run_add `{Env} (d : doc) (m : M doc N) (attrs : gmap string string) : res (doc * N) :=
  match m d with
  | (d1, Ok id) =>
      match set_attributes id attrs d1 with
      | (d2, Ok _) => Ok (d2, id)
      | (_, Err e) => Err e
      | (_, Panic e) => Panic e
      end
  | (_, Err e) => Err e
  | (_, Panic e) => Panic e
  end.
Definition parse_step `{Env} (ev : event) (p : pstate) : res (pstate + doc) :=
  match ev with
  | EvOther => Ok (inl p)
  | EvEof => Ok (inr (ps_doc p))
  | EvStart name raw =>
      rbind (get_attributes raw) (fun attrs =>
      rbind (run_add (ps_doc p)
               (if ps_root p then append_child name (Some (ps_active p)) else create_root name)
               attrs) (fun '(d, id) =>
      Ok (inl (mkPstate d true id (name :: ps_open p)))))
  | EvEmpty name raw =>
      rbind (get_attributes raw) (fun attrs =>
      rbind (run_add (ps_doc p) (append_child name (Some (ps_active p))) attrs) (fun '(d, _) =>
      Ok (inl (mkPstate d (ps_root p) (ps_active p) (ps_open p)))))
  | EvText raw =>
      match unescape raw with
      | None => Err "XML Text parsing error"
      | Some t =>
          match d_elems (ps_doc p) !! ps_active p with
          | None => Err "Getting Target Element Failed"
          | Some e =>
              Ok (inl (mkPstate
                (with_elems (ps_doc p)
                   (<[ps_active p := set_elem_value e (Some t)]> (d_elems (ps_doc p))))
                (ps_root p) (ps_active p) (ps_open p)))
          end
      end
  | EvEnd name =>
      match ps_open p with
      | [] => Err "unmatched end tag"
      | o :: os =>
          if negb (seqb name o) then Err "mismatched end tag"
          else
            match d_elems (ps_doc p) !! ps_active p with
            | None => Err "Getting Target Element Failed"
            | Some e =>
                if seqb (e_tag e) name then
                  Ok (inl (mkPstate (ps_doc p) (ps_root p) (e_parent e) os))
                else Err "Invalid XML Tree Parsing Failed."
            end
      end
  end.
Fixpoint parse_loop `{Env} (fuel : nat) (s : string) (p : pstate) : res doc :=
  match fuel with
  | O => Panic "reader out of fuel"
  | S fuel =>
      rbind (read_event s) (fun '(ev, rest) =>
      rbind (parse_step ev p) (fun r =>
      match r with inr d => Ok d | inl p' => parse_loop fuel rest p' end))
  end.
Definition bom : string :=
  String (ascii_of_N 239) (String (ascii_of_N 187) (String (ascii_of_N 191) "")).
(** xml_serialize.rs 17-32 *)
Definition read_doc `{Env} (s : string) : res doc :=
  let s := match strip_prefix bom s with Some r => r | None => s end in
  parse_loop (S (String.length s)) s (mkPstate new_doc false 0 []).
