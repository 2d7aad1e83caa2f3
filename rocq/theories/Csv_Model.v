(** * Text of the certificates: printing and reading numbers and rows

    The certificates are written with [operator<<] on [std::ofstream] and read
    with [std::getline], [optimizationtools::split], [std::stol] and
    [std::stod] (/repo/src/onedimensional/solution.cpp:264-300,
    /repo/src/onedimensional/solution_builder.cpp:38-125,
    /repo/src/rectangle/solution.cpp:239-299,
    /repo/src/rectangle/solution_builder.cpp:66-129).  A file is a string. *)

From Coq Require Import Ascii String List ZArith Bool.
Import ListNotations.
Open Scope Z_scope.

Definition newline : ascii := ascii_of_nat 10.
Definition comma : ascii := ","%char.

(** [operator<<] of an integer. *)
Definition digit_char (d : Z) : ascii := ascii_of_nat (48 + Z.to_nat d).
Fixpoint print_digits (fuel : nat) (n : Z) (acc : string) : string :=
  match fuel with
  | O => acc
  | S fuel' =>
      let acc := String (digit_char (n mod 10)) acc in
      if n <? 10 then acc else print_digits fuel' (n / 10) acc
  end.
Definition print_int (n : Z) : string :=
  if n <? 0 then String "-" (print_digits (S (Z.to_nat (Z.log2 (- n)))) (- n) "")
  else print_digits (S (Z.to_nat (Z.log2 n))) n "".

(** [std::stol]: leading spaces, sign, digits, the rest is ignored.  [None]: no
    digit (std::invalid_argument) or not a 64-bit value (std::out_of_range). *)
Definition char_digit (c : ascii) : option Z :=
  let n := nat_of_ascii c in
  if (Nat.leb 48 n && Nat.leb n 57)%bool then Some (Z.of_nat n - 48) else None.
Fixpoint read_digits (s : string) (acc : Z) (some : bool) : option Z :=
  match s with
  | EmptyString => if some then Some acc else None
  | String c s' =>
      match char_digit c with
      | Some d => read_digits s' (acc * 10 + d) true
      | None => if some then Some acc else None
      end
  end.
Definition read_sign (s : string) : option Z :=
  match s with
  | String c s' =>
      if Ascii.eqb c "-" then option_map Z.opp (read_digits s' 0 false)
      else if Ascii.eqb c "+" then read_digits s' 0 false
      else read_digits s 0 false
  | EmptyString => None
  end.
Definition is_space (c : ascii) : bool :=
  let n := nat_of_ascii c in Nat.eqb n 32 || (Nat.leb 9 n && Nat.leb n 13).
Fixpoint skip_spaces (s : string) : string :=
  match s with
  | String c s' => if is_space c then skip_spaces s' else s
  | EmptyString => EmptyString
  end.
Definition int64 (z : Z) : bool := (- 9223372036854775808 <=? z) && (z <=? 9223372036854775807).
Definition stol (s : string) : option Z :=
  match read_sign (skip_spaces s) with
  | Some z => if int64 z then Some z else None
  | None => None
  end.

(** [(Length)std::stod] on the text of an integer.  Simplification: the integer
    itself, without the rounding to a double (the callers only compare it with
    -1). *)
Definition stod_int (s : string) : option Z := read_sign (skip_spaces s).

(** Conversion of a long to a 32-bit type. *)
Definition to_int32 (z : Z) : Z := (z + 2147483648) mod 4294967296 - 2147483648.

(** Pieces between separators. *)
Fixpoint split_on (c : ascii) (s : string) : list string :=
  match s with
  | EmptyString => [EmptyString]
  | String a s' =>
      if Ascii.eqb a c then EmptyString :: split_on c s'
      else match split_on c s' with
           | p :: ps => String a p :: ps
           | [] => [String a EmptyString]
           end
  end.
(** Without the last piece if it is empty. *)
Definition drop_last_empty (l : list string) : list string :=
  match last l EmptyString with EmptyString => removelast l | _ => l end.

(** The lines [std::getline] returns. *)
Definition get_lines (text : string) : list string := drop_last_empty (split_on newline text).

(** optimizationtools::split, an external library: the pieces between the
    separators, with or without an empty last piece ([keep]; every theorem holds
    for both). *)
Definition split_cells (keep : bool) (line : string) : list string :=
  if keep then split_on comma line else drop_last_empty (split_on comma line).

(** A row of cells separated by commas, then [std::endl]. *)
Fixpoint join (cells : list string) : string :=
  match cells with
  | [] => EmptyString
  | [c] => c
  | c :: cells' => append c (String comma (join cells'))
  end.
Definition row (cells : list string) : string := append (join cells) (String newline EmptyString).
Definition rows (l : list (list string)) : string := String.concat "" (map row l).
