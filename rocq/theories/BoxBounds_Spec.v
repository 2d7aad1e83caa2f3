(** * What the cheap bounds of the box optimize function claim *)

From Coq Require Import List ZArith QArith Bool.
From Verif Require Import Util Common_Model OneDim_Model OneDim_Spec OneDimBuilder_Model OneDimDff_Spec OneDimBounds_Spec
  Box_Model Box_Spec BoxBounds_Model.
Import ListNotations.
Open Scope Z_scope.

(** A packing within the limits: inside the bins, without overlap, numbers of bins and
    items between their minimum and their number of copies. *)
Record xbox_packing (i : BInstance) (ds : list XDesc) : Prop := {
  xbp_packing : bpacking_ok i ds;
  xbp_bins : forall t, (t < length (bx_bins i))%nat -> bn_copies_min (bxbin i t) <= bused_bins t ds <= bn_copies (bxbin i t);
  xbp_items : forall x, (x < length (bx_items i))%nat -> bi_copies_min (bxitem i x) <= bpacked x ds
}.

Definition xpacking_cost (i : BInstance) (ds : list XDesc) : Q := qsum (fun d => inject_Z (xd_copies d) * bn_cost (bxbin i (xd_type d)))%Q ds.
Definition xnumber_of_items (i : BInstance) : Z := zsum bi_copies (bx_items i).

(** Bins are used in the order of the instance: no bin of a type before the previous
    types are used up. *)
Definition xin_order (i : BInstance) (ds : list XDesc) : Prop :=
  forall t u, (t < u < length (bx_bins i))%nat -> 0 < bused_bins u ds -> bused_bins t ds = bn_copies (bxbin i t).

(** What a claim says about the valid packings ([xbox_packing]). *)
Definition xclaim_right (i : BInstance) (c : XClaim) : Prop :=
  match c with
  | XcProfit q => forall ds, xbox_packing i ds -> (bnet_profit i ds <= q)%Q
  | XcBins n => forall ds, xbox_packing i ds -> ball_packed i ds -> xin_order i ds -> n <= bbins_used ds
  | XcCost q => forall ds, xbox_packing i ds -> ball_packed i ds -> (q <= xpacking_cost i ds)%Q
  | XcExtent a n => forall items, xbox_packing i [mkXD 0 1 items] -> ball_packed i [mkXD 0 1 items] -> n <= extent i a items
  | XcNothing => True
  | XcThrow => False
  end.

(** Instances with items of positive size and limited bins of positive cost, whose number
    of items is in the range of the type of numbers of items. *)
Record xrelaxable (i : BInstance) : Prop := {
  xre_items : bpositive_items i;
  xre_bins : forall bt, In bt (bx_bins i) -> (forall a, 1 <= vat (bn_box bt) a) /\ 1 <= bn_copies bt
    /\ 0 <= bn_copies_min bt <= bn_copies bt /\ (0 < bn_cost bt)%Q;
  xre_size : xnumber_of_items i <= max_item_pos
}.

(** A packing seen as a packing of lengths. *)
Definition xrelax_desc (d : XDesc) : BinDesc := mkBD (xd_type d) (xd_copies d) (map bp_type (xd_items d)).
