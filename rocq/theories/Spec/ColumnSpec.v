(** Specification of spreadsheet column names, independent of the code: a column name is a
    non-empty word over the letters A..Z read as a number in bijective base 26. *)
From Verif.Model Require Import Base.

Definition is_letter (a : ascii) : bool :=
  ((65 <=? byteN a) && (byteN a <=? 90)) || ((97 <=? byteN a) && (byteN a <=? 122)).
Definition is_upper (a : ascii) : bool := (65 <=? byteN a) && (byteN a <=? 90).
Definition upper_letter (a : ascii) : ascii :=
  if (97 <=? byteN a) && (byteN a <=? 122) then ascii_of_N (byteN a - 32) else a.
Fixpoint upper (s : string) : string :=
  match s with EmptyString => "" | String a s => String (upper_letter a) (upper s) end.
(** A = 1, ..., Z = 26 *)
Definition letter_value (a : ascii) : N := byteN (upper_letter a) - 64.
Fixpoint word_value_from (acc : N) (s : string) : N :=
  match s with
  | EmptyString => acc
  | String a s => word_value_from (acc * 26 + letter_value a) s
  end.
Definition word_value (s : string) : N := word_value_from 0 s.
Definition is_word (s : string) : Prop := s <> "" /\ sforall is_letter s = true.
(** What may follow the letters in a cell reference: something whose first character is not
    alphabetic. *)
Definition ends_word `{Env} (rest : string) : Prop :=
  match chars rest with [] => True | c :: _ => is_alphabetic c = false end.
