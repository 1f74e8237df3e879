(** [rs_ffi/src]: the C interface. *)
From Coq Require Import ZArith.
From Verif.Model Require Export Excel.
Open Scope mon_scope.
Open Scope N_scope.

(** ** Answers *)
(** rs_ffi/src/status_code.rs 1-9 *)
Inductive status := UnknownError | Success | InvalidArgument | FlatBufferError | FileNotFound | IoError.
Definition code_of (s : status) : Z :=
  match s with
  | UnknownError => -1 | Success => 0 | InvalidArgument => 1 | FlatBufferError => 2 | FileNotFound => 3 | IoError => 4
  end.
(** What a C caller gets: the returned code, what was stored through the result pointer, and what
    was stored through the error pointer ([Some None] is a null pointer). *)
Record reply (A : Type) := mkReply { rp_code : Z; rp_out : option A; rp_error : option (option string) }.
Arguments mkReply {A} _ _ _.
Arguments rp_code {A} _.
Arguments rp_out {A} _.
Arguments rp_error {A} _.
Definition answer {A} (s : status) (a : option A) (e : option (option string)) : reply A := mkReply (code_of s) a e.
(** [CString::new]: fails if there is a zero byte. *)
Fixpoint has_nul (s : string) : bool :=
  match s with EmptyString => false | String a s => Ascii.eqb a "000" || has_nul s end.
(** utils.rs 5-20. SIMPL: the model keeps one message per error, not the chain of causes. *)
Definition chain_error (e : string) : option string := if has_nul e then None else Some e.
(** The common ending of the entry points, excel.rs 94-103: [bad] is the code returned when the
    message could be passed on; if it could not, the code is IoError. *)
Definition failure {A} (bad : status) (e : string) : reply A :=
  let text := "Flat Buffer Parse Error. " +:+ e in
  if has_nul text then answer IoError None None else answer bad None (Some (Some text)).
(** A panic does not leave an [extern "C"] function: the process is aborted ([None]). *)
Definition reply_of {A B} (bad : status) (out : A -> option B) (r : res A) : option (reply B) :=
  match r with
  | Ok a => Some (answer Success (out a) None)
  | Err e => Some (failure bad e)
  | Panic _ => None
  end.
Definition no_out {A B} (_ : A) : option B := None.

(** ** Buffers *)
(** A buffer argument: [None] if it is null or empty, else what the flatbuffer verifier says of it:
    an error or the decoded table. File and sheet names are given decoded. *)
Notation buffer A := (option (string + A)).
(** The shared body of excel.rs 20-71, document/word.rs 13-63 and presentation/power_point.rs
    13-63. The properties in the buffer have no effect (see Excel.v). *)
Definition create {A} (open : res A) (b : buffer unit) : option (reply A) :=
  match b with
  | None => Some (answer InvalidArgument None None)
  | Some (inl e) => Some (answer FlatBufferError None (Some (chain_error e)))
  | Some (inr _) =>
      match open with
      | Ok x => Some (answer Success (Some x) None)
      | Err e => Some (answer UnknownError None (Some (chain_error e)))
      | Panic _ => None
      end
  end.
(** excel.rs 20-71 *)
Definition ffi_excel_create `{Env} (file : option string) (b : buffer unit) (fs : filesys) : option (reply excel) :=
  create (excel_new file fs) b.
(** document/word.rs 13-63 *)
Definition ffi_word_create `{Env} (file : option string) (b : buffer unit) (fs : filesys) : option (reply suite) :=
  create (suite_new file fs) b.
(** presentation/power_point.rs 13-63 *)
Definition ffi_power_point_create `{Env} (file : option string) (b : buffer unit) (fs : filesys) : option (reply suite) :=
  create (suite_new file fs) b.

(** ** Workbook calls: the workbook afterwards and the answer *)
(** [Box::from_raw] under [ManuallyDrop]: the caller keeps the workbook. A null pointer is [None]. *)
Definition on_ptr {A B} (bad : status) (out : A -> option B) (m : M excel A) (x : option excel)
  : option excel * option (reply B) :=
  match x with
  | None => (None, Some (answer InvalidArgument None None))
  | Some x => let '(x1, r) := m x in (Some x1, reply_of bad out r)
  end.
(** excel.rs 75-129: a null name is no name. *)
Definition ffi_add_sheet `{Env} (x : option excel) (name : option string) : option excel * option (reply worksheet) :=
  on_ptr IoError Some (on_book (add_sheet name)) x.
(** excel.rs 133-164 *)
Definition ffi_rename_sheet (x : option excel) (old new : option string) : option excel * option (reply unit) :=
  match old, new with
  | Some old, Some new => on_ptr Success no_out (on_book (pure_book (rename_sheet old new))) x
  | _, _ => (x, Some (answer InvalidArgument None None))
  end.
(** excel.rs 168-201 *)
Definition ffi_get_sheet `{Env} (x : option excel) (name : option string) : option excel * option (reply worksheet) :=
  match name with
  | Some name => on_ptr IoError Some (on_book (get_worksheet name)) x
  | None => (x, Some (answer InvalidArgument None None))
  end.
(** excel.rs 221-248 *)
Definition ffi_hide_sheet (x : option excel) (name : option string) : option excel * option (reply unit) :=
  match name with
  | Some name => on_ptr IoError no_out (on_book (pure_book (hide_sheet name))) x
  | None => (x, Some (answer InvalidArgument None None))
  end.

(** ** Styles *)
(** fbs/spreadsheet_2007/excel_style.fbs 15-37. SIMPL: nested tables and enums are given decoded;
    the field [protect] is read by nobody and left out. *)
Record fbs_setting := mkFbs {
  fb_num : N;
  fb_code : option string;
  fb_left : option border_side;
  fb_top : option border_side;
  fb_right : option border_side;
  fb_bottom : option border_side;
  fb_diagonal : option border_side;
  fb_font : option string;
  fb_size : N;
  fb_color : option color;
  fb_bold : bool;
  fb_italic : bool;
  fb_underline : bool;
  fb_double : bool;
  fb_wrap : bool;
  fb_bg : option string;
  fb_fg : option string;
  fb_pattern : pattern;
  fb_halign : halign;
  fb_valign : valign;
}.
(** models/style.rs 87-127 *)
Definition builtin_ids : list N :=
  [0;1;2;3;4;5;6;7;8;9;10;11;12;13;14;15;16;17;18;19;20;21;22;37;38;39;40;41;42;43;44;45;46;47;48;49].
Definition num_enum (s : string) : num_type :=
  match List.find (fun n => seqb s (show_N n)) builtin_ids with Some n => NFBuiltin n | None => NFCustom end.
(** excel.rs 269-296. SIMPL: line 278 assigns an optional table of the generated code to a field of
    type [BorderSetting], which needs a conversion the source does not have; the model reads it as
    the obvious one, absence being the default side. *)
Definition ffi_setting (f : fbs_setting) : setting :=
  mkSetting (num_enum (show_N (fb_num f))) (fb_code f)
    (default side_default (fb_left f)) side_default side_default side_default side_default
    (default "Calibri" (fb_font f)) (fb_size f) (mkColor CTheme "1")
    (fb_bold f) (fb_bold f) (fb_bold f) (fb_bold f) (fb_wrap f) (fb_bg f) (fb_fg f) PNone HNone VNone.
(** excel.rs 255-322 *)
Definition ffi_style_id `{Env} `{Hashes} (x : option excel) (b : buffer fbs_setting) : option excel * option (reply N) :=
  match b with
  | None => (x, Some (answer InvalidArgument None None))
  | Some b =>
      match x, b with
      | None, _ => (x, Some (answer InvalidArgument None None))
      | Some _, inl e => (x, Some (answer FlatBufferError None (Some (chain_error e))))
      | Some _, inr f => on_ptr IoError Some (on_book (pure_book (wb_style_id (ffi_setting f)))) x
      end
  end.

(** ** Saving: the object is consumed; the states of the file system and the answer *)
Definition saved {A} (bad : status) (save : A -> string -> list filesys * res unit) (x : option A) (path : option string)
  : list filesys * option (reply unit) :=
  match x, path with
  | Some x, Some path => let '(tr, r) := save x path in (tr, reply_of bad no_out r)
  | _, _ => ([], Some (answer InvalidArgument None None))
  end.
(** excel.rs 326-352 *)
Definition ffi_excel_save `{Env} (t : clock) (f : faults) (fs : filesys) :=
  saved IoError (fun x path => excel_save t f path x fs).
(** document/word.rs 67-94 *)
Definition ffi_word_save `{Env} (t : clock) (f : faults) (fs : filesys) :=
  saved Success (fun x path => suite_save t f path x fs).
(** presentation/power_point.rs 67-94 *)
Definition ffi_power_point_save `{Env} (t : clock) (f : faults) (fs : filesys) :=
  saved Success (fun x path => suite_save t f path x fs).
