(** * The rectangle certificate *)

From Coq Require Import Ascii String List ZArith Bool.
From Verif Require Import Util Csv_Model Rect_Model Rect_Spec RectSol_Model.
Import ListNotations.
Open Scope Z_scope.

(** Solution::write, /repo/src/rectangle/solution.cpp:245-299.  The result is the
    text of the file.  The lines of the bins and of the defects end with a
    comma. *)
Definition rcertificate_labels : list string :=
  ["TYPE"; "ID"; "COPIES"; "BIN"; "X"; "Y"; "LX"; "LY"; "GROUP_ID"]%string.

Definition rbin_row (i : RInstance) (bin_pos : nat) (b : RSBin) : list string :=
  ["BIN"%string; print_int (Z.of_nat (rs_type b)); print_int (rs_copies b); print_int (Z.of_nat bin_pos);
   "0"%string; "0"%string; print_int (rb_x (rbin i (rs_type b))); print_int (rb_y (rbin i (rs_type b))); ""%string].

Definition rdefect_row (bin_pos : nat) (b : RSBin) (id : nat) (d : Defect) : list string :=
  ["DEFECT"%string; print_int (Z.of_nat id); print_int (rs_copies b); print_int (Z.of_nat bin_pos);
   print_int (df_x d); print_int (df_y d); print_int (df_lx d); print_int (df_ly d); ""%string].

Fixpoint rdefect_rows (bin_pos : nat) (b : RSBin) (id : nat) (l : list Defect) : list (list string) :=
  match l with
  | [] => []
  | d :: l' => rdefect_row bin_pos b id d :: rdefect_rows bin_pos b (S id) l'
  end.

Definition ritem_row (i : RInstance) (bin_pos : nat) (b : RSBin) (p : Place) : list string :=
  let it := ritem i (pl_type p) in
  ["ITEM"%string; print_int (Z.of_nat (pl_type p)); print_int (rs_copies b); print_int (Z.of_nat bin_pos);
   print_int (pl_x p); print_int (pl_y p);
   print_int (if negb (pl_rot p) then ri_x it else ri_y it);
   print_int (if negb (pl_rot p) then ri_y it else ri_x it);
   print_int (Z.of_nat (ri_group it))].

Fixpoint rbins_rows (i : RInstance) (bin_pos : nat) (bins : list RSBin) : list (list string) :=
  match bins with
  | [] => []
  | b :: bins' =>
      rbin_row i bin_pos b :: rdefect_rows bin_pos b 0 (rb_defects (rbin i (rs_type b)))
      ++ map (ritem_row i bin_pos b) (rs_items b) ++ rbins_rows i (S bin_pos) bins'
  end.

Definition rwrite_certificate (i : RInstance) (s : RSolution) : string :=
  rows (rcertificate_labels :: rbins_rows i 0 (rc_bins (rs_core s))).

(** The variables of a line, with their initial values
    (/repo/src/rectangle/solution_builder.cpp:86-93). *)
Record RFields : Type := mkRF {
  rf_type : string; rf_id : Z; rf_copies : Z; rf_bin : Z; rf_x : Z; rf_y : Z; rf_lx : Z; rf_ly : Z }.
Definition rfields0 : RFields := mkRF "" (-1) (-1) (-1) (-1) (-1) (-1) (-1).

(** One iteration of the loop over the cells, :95-113.  [None]: std::stol
    throws. *)
Definition rset_field (label cell : string) (f : RFields) : option RFields :=
  let '(mkRF t id c b x y lx ly) := f in
  if String.eqb label "TYPE" then Some (mkRF cell id c b x y lx ly)
  else if String.eqb label "ID" then option_map (fun z => mkRF t (to_int32 z) c b x y lx ly) (stol cell)
  else if String.eqb label "COPIES" then option_map (fun z => mkRF t id z b x y lx ly) (stol cell)
  else if String.eqb label "BIN" then option_map (fun z => mkRF t id c z x y lx ly) (stol cell)
  else if String.eqb label "X" then option_map (fun z => mkRF t id c b z y lx ly) (stol cell)
  else if String.eqb label "Y" then option_map (fun z => mkRF t id c b x z lx ly) (stol cell)
  else if String.eqb label "LX" then option_map (fun z => mkRF t id c b x y z ly) (stol cell)
  else if String.eqb label "LY" then option_map (fun z => mkRF t id c b x y lx z) (stol cell)
  else Some f.

(** The loop.  [None] also if the line has more cells than there are labels
    (out-of-range access to [labels]). *)
Fixpoint rread_cells (labels cells : list string) (f : RFields) : option RFields :=
  match cells, labels with
  | [], _ => Some f
  | _ :: _, [] => None
  | c :: cells', l :: labels' =>
      match rset_field l c f with
      | Some f' => rread_cells labels' cells' f'
      | None => None
      end
  end.

(** The end of a line, :115-126.  Nothing is checked here; negative ids and
    positions are undefined behaviour. *)
Definition rapply_row (i : RInstance) (bins : list RSBin) (f : RFields) : option (list RSBin) :=
  if String.eqb (rf_type f) "BIN" then
    (if rf_id f <? 0 then None else rb_add_bin i bins (Z.to_nat (rf_id f)) (rf_copies f))
  else if String.eqb (rf_type f) "ITEM" then
    (if (rf_id f <? 0) || (rf_bin f <? 0) then None
     else rb_add_item i bins (Z.to_nat (rf_bin f))
            (mkPl (Z.to_nat (rf_id f)) (rf_x f) (rf_y f)
               (negb (rf_lx f =? ri_x (ritem i (Z.to_nat (rf_id f)))))))
  else Some bins.

Fixpoint rread_lines (keep : bool) (i : RInstance) (labels : list string) (lines : list string)
    (bins : list RSBin) : option (list RSBin) :=
  match lines with
  | [] => Some bins
  | l :: lines' =>
      match rread_cells labels (split_cells keep l) rfields0 with
      | None => None
      | Some f =>
          match rapply_row i bins f with
          | None => None
          | Some bins' => rread_lines keep i labels lines' bins'
          end
      end
  end.

(** SolutionBuilder::read on an empty builder, solution_builder.cpp:66-129, with
    the content of the file.  The result is the bins of the builder, [None] an
    exception or undefined behaviour. *)
Definition rread_certificate (keep : bool) (i : RInstance) (text : string) : option (list RSBin) :=
  match get_lines text with
  | [] => Some []
  | header :: lines => rread_lines keep i (split_cells keep header) lines []
  end.
