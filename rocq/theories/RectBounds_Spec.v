(** * What the cheap bounds of the rectangle optimize function claim *)

From Coq Require Import List ZArith QArith Bool.
From Verif Require Import Util Common_Model OneDim_Model OneDim_Spec OneDimBuilder_Model OneDimDff_Spec OneDimBounds_Spec
  Rect_Model Rect_Spec RectSol_Model RectSol_Spec Bar_Spec RectBounds_Model.
Import ListNotations.
Open Scope Z_scope.

(** Bins are used in the order of the instance: no bin of a type before the previous
    types are used up. *)
Definition rin_order (i : RInstance) (ds : list RDesc) : Prop :=
  forall t u, (t < u < length (rin_bins i))%nat -> 0 < rused_bins u ds -> rused_bins t ds = rb_copies (rbin i t).

(** What a claim says about the valid packings ([bar_packing]: inside the bins, without
    overlap, eligible, numbers of bins and items within their limits). *)
Definition rclaim_right (i : RInstance) (c : RClaim) : Prop :=
  match c with
  | RcProfit q => forall ds, bar_packing i ds -> (rnet_profit i ds <= q)%Q
  | RcBins n => forall ds, bar_packing i ds -> rall_packed i ds -> rin_order i ds -> n <= rbins_used ds
  | RcCost q => forall ds, bar_packing i ds -> rall_packed i ds -> (q <= packing_cost i ds)%Q
  | RcX n => forall items, bar_packing i [mkRD 0 1 items] -> rall_packed i [mkRD 0 1 items] -> n <= rightmost i items
  | RcY n => forall items, bar_packing i [mkRD 0 1 items] -> rall_packed i [mkRD 0 1 items] -> n <= topmost i items
  | RcNothing => True
  | RcThrow => False
  end.

(** The bounds of a onedimensional solve are right. *)
Record bounds1_right (i1 : Instance) (out : Bounds1) : Prop := {
  br_bins : forall ds, PackingOK i1 ds -> available_bins i1 ds -> all_packed i1 ds -> OrderOK i1 ds -> b1_bins out <= zsum bd_copies ds;
  br_profit : in_objective i1 = OKnapsack -> forall ds, PackingOK i1 ds -> available_bins i1 ds -> (profit_of i1 ds <= b1_profit out)%Q;
  br_cost : forall ds, PackingOK i1 ds -> available_bins i1 ds -> all_packed i1 ds ->
    (forall t, (t < length (in_bin_types i1))%nat -> bt_copies_min (bin_type i1 t) <= used_bins t ds) -> (b1_cost out <= cost_of i1 ds)%Q
}.

(** Instances with items of positive size and limited bins of positive cost, whose number
    of items is in the range of the type of numbers of items. *)
Record relaxable (i : RInstance) : Prop := {
  re_items : positive_items i;
  re_bins : forall bt, In bt (rin_bins i) -> 1 <= rb_x bt /\ 1 <= rb_y bt /\ 1 <= rb_copies bt
    /\ 0 <= rb_copies_min bt <= rb_copies bt /\ (0 < rb_cost bt)%Q;
  re_size : rnumber_of_items i <= max_item_pos
}.

(** A packing seen as a packing of lengths. *)
Definition relax_desc (d : RDesc) : BinDesc := mkBD (rd_type d) (rd_copies d) (map pl_type (rd_items d)).
