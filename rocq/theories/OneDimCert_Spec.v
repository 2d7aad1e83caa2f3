(** * What the lines of a certificate mean *)

From Coq Require Import Ascii String List ZArith.
From Verif Require Import Util Csv_Model OneDim_Model OneDim_Spec.
Import ListNotations.
Open Scope Z_scope.

(** The builder call a line stands for; [v] gives the cell under each label. *)
Inductive row_call (v : string -> string) : BuilderCall -> Prop :=
| row_bin : forall id copies pos x lx,
    v "TYPE"%string = "BIN"%string ->
    stol (v "ID"%string) = Some (Z.of_nat id) -> (Z.of_nat id < 2147483648) ->
    stol (v "COPIES"%string) = Some copies -> copies <> -1 ->
    stol (v "BIN"%string) = Some pos -> pos <> -1 ->
    stod_int (v "X"%string) = Some x -> x <> -1 ->
    stod_int (v "LX"%string) = Some lx -> lx <> -1 ->
    row_call v (AddBin id copies)
| row_item : forall id copies pos x lx,
    v "TYPE"%string = "ITEM"%string ->
    stol (v "ID"%string) = Some (Z.of_nat id) -> (Z.of_nat id < 2147483648) ->
    stol (v "COPIES"%string) = Some copies -> copies <> -1 ->
    stol (v "BIN"%string) = Some (Z.of_nat pos) ->
    stod_int (v "X"%string) = Some x -> x <> -1 ->
    stod_int (v "LX"%string) = Some lx -> lx <> -1 ->
    row_call v (AddItem pos id).

(** The numbers fit the types they are read with and are not mistaken for a
    missing value. *)
Record printable (i : Instance) (bin_pos : nat) (b : SBin) : Prop := {
  bo_pos : Z.of_nat bin_pos < 9223372036854775808;
  bo_type : Z.of_nat (sb_type b) < 2147483648;
  bo_copies : sb_copies b <> -1 /\ int64 (sb_copies b) = true;
  bo_length : bt_length (bin_type i (sb_type b)) <> -1;
  bo_items : forall y, In y (sb_items b) -> Z.of_nat (si_type y) < 2147483648 /\
    si_start y <> -1 /\ it_length (item_type i (si_type y)) <> -1
}.

