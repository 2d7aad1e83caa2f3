(** * What the lines of a rectangle certificate mean *)

From Coq Require Import Ascii String List ZArith Bool.
From Verif Require Import Util Csv_Model Csv_Spec Rect_Model Rect_Spec RectSol_Model.
Import ListNotations.
Open Scope Z_scope.

Section Spec.

Variable i : RInstance.

Definition columns : list string := ["TYPE"; "ID"; "COPIES"; "BIN"; "X"; "Y"; "LX"; "LY"]%string.

(** The builder calls a line stands for; [v] gives the cell under each label. *)
Inductive rrow_calls (v : string -> string) : list RBuilderCall -> Prop :=
| rrow : forall id copies pos x y lx ly calls,
    stol (v "ID"%string) = Some (Z.of_nat id) -> Z.of_nat id < 2147483648 ->
    stol (v "COPIES"%string) = Some copies ->
    stol (v "BIN"%string) = Some (Z.of_nat pos) ->
    stol (v "X"%string) = Some x -> stol (v "Y"%string) = Some y ->
    stol (v "LX"%string) = Some lx -> stol (v "LY"%string) = Some ly ->
    (v "TYPE"%string = "BIN"%string /\ calls = [RAddBin id copies]
     \/ v "TYPE"%string = "ITEM"%string
        /\ calls = [RAddItem pos (mkPl id x y (negb (lx =? ri_x (ritem i id))))]
     \/ v "TYPE"%string <> "BIN"%string /\ v "TYPE"%string <> "ITEM"%string /\ calls = []) ->
    rrow_calls v calls.

(** Rotating a square changes nothing. *)
Definition unrotated_square (p : Place) : Place :=
  if ri_x (ritem i (pl_type p)) =? ri_y (ritem i (pl_type p))
  then mkPl (pl_type p) (pl_x p) (pl_y p) false else p.
Definition unrotated_squares (d : RDesc) : RDesc :=
  mkRD (rd_type d) (rd_copies d) (map unrotated_square (rd_items d)).

(** The numbers fit the types they are read with. *)
Record rprintable (bin_pos : nat) (d : RDesc) : Prop := {
  rp_pos : Z.of_nat bin_pos < 9223372036854775808;
  rp_type : Z.of_nat (rd_type d) < 2147483648;
  rp_copies : int64 (rd_copies d) = true;
  rp_rect : int64 (rb_x (rbin i (rd_type d))) = true /\ int64 (rb_y (rbin i (rd_type d))) = true;
  rp_number : Z.of_nat (length (rb_defects (rbin i (rd_type d)))) <= 2147483648;
  rp_defects : forall df, In df (rb_defects (rbin i (rd_type d))) ->
    int64 (df_x df) = true /\ int64 (df_y df) = true /\ int64 (df_lx df) = true /\ int64 (df_ly df) = true;
  rp_items : forall p, In p (rd_items d) -> Z.of_nat (pl_type p) < 2147483648 /\
    int64 (pl_x p) = true /\ int64 (pl_y p) = true /\
    int64 (ri_x (ritem i (pl_type p))) = true /\ int64 (ri_y (ritem i (pl_type p))) = true
}.

(** Oriented items are not rotated. *)
Definition rotations_ok (d : RDesc) : Prop :=
  forall p, In p (rd_items d) -> pl_rot p = true -> ri_oriented (ritem i (pl_type p)) = false.

End Spec.
