(** [rs/src/utils/converters.rs]: column letters, cell references, boolean flags. *)
From Verif.Model Require Export Base.

(** converters.rs 13-16: one step of the loop in [get_column_index], for the character [c] at
    distance [i] from the end of the column part. *)
Definition column_step (m : mode) (i : N) (c : N) (index : N) : res N :=
  let up := to_ascii_uppercase c mod 65536 in
  rbind (u16_sub m up 65) (fun d =>
  rbind (u16_add m d 1) (fun char_value =>
  rbind (usize_pow m 26 i) (fun p =>
  rbind (u16_mul m char_value (p mod 65536)) (fun t =>
  u16_add m index t)))).

Fixpoint column_loop (m : mode) (i : N) (rev_chars : list N) (index : N) : res N :=
  match rev_chars with
  | [] => Ok index
  | c :: cs => rbind (column_step m i c index) (column_loop m (i + 1) cs)
  end.

(** converters.rs 7-18 *)
Definition get_column_index `{Env} (cell_ref : string) : res N :=
  let column_part := take_while is_alphabetic (chars cell_ref) in
  match column_part with
  | [] => Err "Failed to Convert to Column Key Id"
  | _ => column_loop env_mode 0 (rev column_part) 0
  end.

(** converters.rs 27-32: the loop; a [u16] has at most four letters, the fuel is the number
    itself (each round at least halves it) and never runs out. *)
Fixpoint column_ref_loop (fuel : nat) (index : N) (name : string) : string :=
  match fuel with
  | O => name
  | S f =>
      if index =? 0 then name
      else
        let i := index - 1 in
        column_ref_loop f (i / 26) (String (ascii_of_N (i mod 26 + 65)) name)
  end.

(** converters.rs 20-35; the argument is a [u16]. *)
Definition get_column_ref (cell_id : N) : res string :=
  if cell_id =? 0 then Err "Index must be greater than 0"
  else Ok (column_ref_loop (S (N.to_nat (N.log2 cell_id))) cell_id "").

(** converters.rs 68-75: all ASCII digits of the reference, wherever they stand, as [u32]. *)
Fixpoint filter_digits (s : string) : string :=
  match s with
  | EmptyString => ""
  | String a s => if is_digit_byte a then String a (filter_digits s) else filter_digits s
  end.
Definition extract_digits (s : string) : res N :=
  of_option "Failed to Extract Digits" (parse_uint u32_max (filter_digits s)).

(** converters.rs 38-43 *)
Definition get_cell_index `{Env} (cell_ref : string) : res (N * N) :=
  rbind (extract_digits cell_ref) (fun r =>
  rbind (get_column_index cell_ref) (fun c => Ok (r, c))).

(** converters.rs 61-66; 46-51 is the same test as 1 / 0. *)
Definition normalize_bool (value : string) : bool :=
  let t := trim_chars (chars value) in
  bool_decide (t = chars "true") || bool_decide (t = chars "1").
(** converters.rs 46-51 *)
Definition normalize_bool_u8 (value : string) : N := if normalize_bool value then 1 else 0.
(** converters.rs 53-59 *)
Definition bool_xml_flag (b : bool) : string := if b then "1" else "0".
