(** * What flipping a rectangle instance means *)

From Coq Require Import List ZArith QArith Bool.
From Verif Require Import Util Common_Model OneDim_Model OneDim_Spec Rect_Model Rect_Spec RectSol_Model RectSol_Spec.
Import ListNotations.
Open Scope Z_scope.

(** Exchange of the two axes. *)
Definition swap_place (p : Place) : Place := mkPl (pl_type p) (pl_y p) (pl_x p) (pl_rot p).
Definition swap_desc (d : RDesc) : RDesc := mkRD (rd_type d) (rd_copies d) (map swap_place (rd_items d)).
Definition swap_defect (d : Defect) : Defect := mkDefect (df_y d) (df_x d) (df_ly d) (df_lx d).
Definition swap_unloading (u : Unloading) : Unloading :=
  match u with
  | UNone => UNone | UOnlyX => UOnlyY | UOnlyY => UOnlyX
  | UIncreasingX => UIncreasingY | UIncreasingY => UIncreasingX
  end.

(** Instance [j] is [i] with the two axes exchanged, as far as geometry, weights,
    profits, costs and resources are concerned. *)
Record swapped (i j : RInstance) : Prop := {
  sw_unloading : rp_unloading (rin_params j) = swap_unloading (rp_unloading (rin_params i));
  sw_check_weight : rp_check_weight (rin_params j) = rp_check_weight (rin_params i);
  sw_items : length (rin_items j) = length (rin_items i) /\
    forall x, (x < length (rin_items i))%nat ->
      let t := ritem i x in let t' := ritem j x in
      ri_x t' = ri_y t /\ ri_y t' = ri_x t /\ ri_profit t' = ri_profit t /\ ri_copies t' = ri_copies t /\
      ri_group t' = ri_group t /\ ri_oriented t' = ri_oriented t /\ ri_weight t' = ri_weight t;
  sw_bins : length (rin_bins j) = length (rin_bins i) /\
    forall k, (k < length (rin_bins i))%nat ->
      let t := rbin i k in let t' := rbin j k in
      rb_x t' = rb_y t /\ rb_y t' = rb_x t /\ rb_cost t' = rb_cost t /\ rb_copies t' = rb_copies t /\
      rb_copies_min t' = rb_copies_min t /\ rb_max_weight t' = rb_max_weight t /\ rb_truck t' = rb_truck t /\
      rb_defects t' = map swap_defect (rb_defects t) /\
      length (rb_resources t') = length (rb_resources t) /\
      forall r, let res := nth r (rb_resources t) dummy_resource in let res' := nth r (rb_resources t') dummy_resource in
        res_capacity res' = res_capacity res /\ res_penalize res' = res_penalize res /\ res_penalty res' = res_penalty res /\
        forall x, schedule res' x = schedule res x
}.

(** Instances whose flip every call accepts. *)
Record flippable (i : RInstance) : Prop := {
  fl_bins : forall t, In t (rin_bins i) -> 0 < rb_x t /\ 0 < rb_y t /\ (0 < rb_cost t)%Q /\
    0 <= rb_copies_min t <= rb_copies t /\ 1 <= rb_copies t;
  fl_items : forall t, In t (rin_items i) -> 0 < ri_x t /\ 0 < ri_y t /\ 1 <= ri_copies t;
  (** schedules of item types of the instance only *)
  fl_schedules : forall t r x, In t (rin_bins i) -> In r (rb_resources t) -> (length (rin_items i) <= x)%nat -> schedule r x = [];
  (** one bin when a dimension is open *)
  fl_open : rin_objective i = OOpenDimensionX \/ rin_objective i = OOpenDimensionY -> zsum rb_copies (rin_bins i) = 1
}.
