(** * The onedimensional certificate *)

From Coq Require Import Ascii String List ZArith Bool.
From Verif Require Import Util OneDim_Model Csv_Model.
Import ListNotations.
Open Scope Z_scope.

(** Solution::write, /repo/src/onedimensional/solution.cpp:264-300.  The result is
    the text of the file. *)
Definition certificate_labels : list string := ["TYPE"; "ID"; "COPIES"; "BIN"; "X"; "LX"]%string.

Definition bin_row (i : Instance) (bin_pos : nat) (b : SBin) : list string :=
  ["BIN"%string; print_int (Z.of_nat (sb_type b)); print_int (sb_copies b);
   print_int (Z.of_nat bin_pos); "0"%string; print_int (bt_length (bin_type i (sb_type b)))].

Definition item_row (i : Instance) (bin_pos : nat) (b : SBin) (item : SItem) : list string :=
  ["ITEM"%string; print_int (Z.of_nat (si_type item)); print_int (sb_copies b);
   print_int (Z.of_nat bin_pos); print_int (si_start item);
   print_int (it_length (item_type i (si_type item)))].

Fixpoint bins_rows (i : Instance) (bin_pos : nat) (bins : list SBin) : list (list string) :=
  match bins with
  | [] => []
  | b :: bins' =>
      bin_row i bin_pos b :: map (item_row i bin_pos b) (sb_items b) ++ bins_rows i (S bin_pos) bins'
  end.

Definition write_certificate (i : Instance) (s : Solution) : string :=
  rows (certificate_labels :: bins_rows i 0 (c_bins (s_core s))).

(** The variables of a line, with their initial values
    (/repo/src/onedimensional/solution_builder.cpp:59-64). *)
Record Fields : Type := mkFields {
  f_type : string; f_id : Z; f_copies : Z; f_bin : Z; f_x : Z; f_lx : Z }.
Definition fields0 : Fields := mkFields "" (-1) (-1) (-1) (-1) (-1).

(** One iteration of the loop over the cells, :67-79.  [None]: std::stol or
    std::stod throws. *)
Definition set_field (label cell : string) (f : Fields) : option Fields :=
  if String.eqb label "TYPE" then
    Some (mkFields cell (f_id f) (f_copies f) (f_bin f) (f_x f) (f_lx f))
  else if String.eqb label "ID" then
    option_map (fun z => mkFields (f_type f) (to_int32 z) (f_copies f) (f_bin f) (f_x f) (f_lx f)) (stol cell)
  else if String.eqb label "COPIES" then
    option_map (fun z => mkFields (f_type f) (f_id f) z (f_bin f) (f_x f) (f_lx f)) (stol cell)
  else if String.eqb label "BIN" then
    option_map (fun z => mkFields (f_type f) (f_id f) (f_copies f) z (f_x f) (f_lx f)) (stol cell)
  else if String.eqb label "X" then
    option_map (fun z => mkFields (f_type f) (f_id f) (f_copies f) (f_bin f) z (f_lx f)) (stod_int cell)
  else if String.eqb label "LX" then
    option_map (fun z => mkFields (f_type f) (f_id f) (f_copies f) (f_bin f) (f_x f) z) (stod_int cell)
  else Some f.

(** The loop, :66-80.  [None] also if the line has more cells than there are
    labels (out-of-range access to [labels]). *)
Fixpoint read_cells (labels cells : list string) (f : Fields) : option Fields :=
  match cells, labels with
  | [], _ => Some f
  | _ :: _, [] => None
  | c :: cells', l :: labels' =>
      match set_field l c f with
      | Some f' => read_cells labels' cells' f'
      | None => None
      end
  end.

(** The rest of a line, :81-124: missing values and wrong types throw, then
    add_bin or add_item is called.  [None] also for a negative id or position
    (undefined behaviour or an exception in the callees). *)
Definition apply_row (i : Instance) (bins : list SBin) (f : Fields) : option (list SBin) :=
  if String.eqb (f_type f) "" then None
  else if f_id f =? -1 then None
  else if f_copies f =? -1 then None
  else if f_bin f =? -1 then None
  else if f_x f =? -1 then None
  else if f_lx f =? -1 then None
  else if f_id f <? 0 then None
  else if String.eqb (f_type f) "BIN" then sb_add_bin i bins (Z.to_nat (f_id f)) (f_copies f)
  else if String.eqb (f_type f) "ITEM" then
    (if f_bin f <? 0 then None else sb_add_item i bins (Z.to_nat (f_bin f)) (Z.to_nat (f_id f)))
  else None.

Fixpoint read_lines (keep : bool) (i : Instance) (labels : list string) (lines : list string)
    (bins : list SBin) : option (list SBin) :=
  match lines with
  | [] => Some bins
  | l :: lines' =>
      match read_cells labels (split_cells keep l) fields0 with
      | None => None
      | Some f =>
          match apply_row i bins f with
          | None => None
          | Some bins' => read_lines keep i labels lines' bins'
          end
      end
  end.

(** SolutionBuilder::read on an empty builder, solution_builder.cpp:38-125, with
    the content of the file.  The result is the bins of the builder, [None] an
    exception or undefined behaviour. *)
Definition read_certificate (keep : bool) (i : Instance) (text : string) : option (list SBin) :=
  match get_lines text with
  | [] => Some []
  | header :: lines => read_lines keep i (split_cells keep header) lines []
  end.
