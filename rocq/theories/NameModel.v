(** File names of an acquisition. *)
From Coq Require Export Ascii String.
From Verif Require Import Base.
Local Open Scope N_scope.

(** Decimal digits of n, least significant first.  [fuel] bounds the number of digits; a size_t has at most 20. *)
Fixpoint digits_le (fuel : nat) (n : N) : list N :=
  match fuel with
  | O => []
  | S k => if n <? 10 then [n] else (n mod 10) :: digits_le k (n / 10)
  end.

Definition digit_char (d : N) : ascii := ascii_of_N (48 + d).

(** Text of the decimal number n as printf("%zu") prints it. *)
Definition dec (n : N) : list ascii := map digit_char (rev (digits_le 20 n)).

(** printf("%06zu"): pad on the left with zeros to at least six characters. *)
Definition pad6 (s : list ascii) : list ascii := repeat "0"%char (6 - List.length s) ++ s.

(** frameProcessor/src/Acquisition.cpp:659-660: snprintf(number_string, 7, "%06zu", file_index) keeps at most six
    characters and the terminating NUL. *)
Definition number_string (n : N) : string := string_of_list_ascii (firstn 6 (pad6 (dec n))).

(** The settings that make up file names (Acquisition.h: configured_filename_, acquisition_id_, file_postfix_,
    file_extension_, use_file_numbers_, starting_file_index_). *)
Record naming := Naming {
  n_filename : string; n_acqid : string; n_postfix : string; n_ext : string;
  n_use_numbers : bool; n_start : N }.

(** frameProcessor/src/Acquisition.cpp:372-379 (start_acquisition): a non-empty extension gets a leading dot. *)
Definition sanitise_ext (e : string) : string :=
  match e with
  | EmptyString => EmptyString
  | String c _ => if Ascii.eqb c "."%char then e else String "."%char e
  end.

(** frameProcessor/src/Acquisition.cpp:654-677 (generate_filename).  The size_t addition of line 657 is taken
    without wrap-around (file numbers are far below 2^64 - 2^32). *)
Definition generate_filename (c : naming) (file_number : N) : string :=
  let file_idx := file_number + n_start c in
  let stem :=
    if negb (String.eqb (n_filename c) "") then (n_filename c ++ n_postfix c)%string
    else if negb (String.eqb (n_acqid c) "") then (n_acqid c ++ n_postfix c)%string
    else ""%string in
  if String.eqb stem "" then ""%string
  else if n_use_numbers c then (stem ++ "_" ++ number_string file_idx ++ n_ext c)%string
  else (stem ++ n_ext c)%string.
