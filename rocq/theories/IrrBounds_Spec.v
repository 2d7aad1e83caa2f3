(** * What the cheap bounds of the irregular optimize function claim *)

From Coq Require Import List ZArith QArith Qround Bool.
From Verif Require Import Util Common_Model OneDim_Model OneDim_Spec OneDimBuilder_Model OneDimDff_Spec OneDimBounds_Spec
  Irr_Model Irr_Spec IrrBounds_Model.
Import ListNotations.
Open Scope Z_scope.

Section Spec.
Variable i : IrInstance.

(** A bin whose items are inside, in allowed orientations, without overlap.  Shapes are
    not modelled; what is kept of "inside and without overlap" is that the boxes of the
    items are inside the box of the bin and that the items together have at most the area
    of every region that holds them: the bin (real and scaled shapes), the part of its
    box left of some x and the part of its box below some y. *)
Record irgeometry (d : IrDesc) : Prop := {
  ig_type : (ird_type d < length (ir_bins i))%nat;
  ig_items : forall p, In p (ird_items d) -> (ip_type p < length (ir_items i))%nat;
  ig_orientation : forall p, In p (ird_items d) -> exists r, In r (ii_rotations (iritem i (ip_type p))) /\ irr_mirror r = ip_mirror p /\
    (irr_start r <= ip_angle p /\ ip_angle p <= irr_end r)%Q;
  ig_inside : forall p, In p (ird_items d) -> box_in (place_box i p) (ib_aabb (irbin i (ird_type d)));
  ig_area : (irarea i (ird_items d) <= ib_area (irbin i (ird_type d)))%Q;
  ig_scaled : (qsum (fun p => ii_scaled (iritem i (ip_type p))) (ird_items d) <= ib_scaled (irbin i (ird_type d)))%Q;
  ig_left : forall x, let b := ib_aabb (irbin i (ird_type d)) in
    (forall p, In p (ird_items d) -> (ix_max (place_box i p) <= x)%Q) -> (ix_min b <= x)%Q ->
    (irarea i (ird_items d) <= (x - ix_min b) * (iy_max b - iy_min b))%Q;
  ig_below : forall y, let b := ib_aabb (irbin i (ird_type d)) in
    (forall p, In p (ird_items d) -> (iy_max (place_box i p) <= y)%Q) -> (iy_min b <= y)%Q ->
    (irarea i (ird_items d) <= (y - iy_min b) * (ix_max b - ix_min b))%Q
}.

(** A valid packing: geometry, numbers of bins and of items within their limits. *)
Record irvalid (ds : list IrDesc) : Prop := {
  iv_bins : forall d, In d ds -> 1 <= ird_copies d /\ irgeometry d;
  iv_used : forall t, (t < length (ir_bins i))%nat -> ib_copies_min (irbin i t) <= irused_bins t ds <= ib_copies (irbin i t);
  iv_copies : forall x, (x < length (ir_items i))%nat -> irpacked x ds <= ii_copies (iritem i x)
}.

(** All copies of all items are packed. *)
Definition irall_packed (ds : list IrDesc) : Prop :=
  forall x, (x < length (ir_items i))%nat -> irpacked x ds = ii_copies (iritem i x).

(** Bins are used in the order of the instance: no bin of a type before the previous
    types are used up. *)
Definition irin_order (ds : list IrDesc) : Prop :=
  forall t u, (t < u < length (ir_bins i))%nat -> 0 < irused_bins u ds -> irused_bins t ds = ib_copies (irbin i t).

Definition irbins_used (ds : list IrDesc) : Z := zsum ird_copies ds.
Definition irpacking_cost (ds : list IrDesc) : Q := qsum (fun d => inject_Z (ird_copies d) * ib_cost (irbin i (ird_type d)))%Q ds.

(** What a claim says about the valid packings; for the open dimensions, about the
    largest coordinate of the items of the only bin, which is the value of a solution. *)
Definition irclaim_right (c : IrClaim) : Prop :=
  match c with
  | IcProfit q => forall ds, irvalid ds -> (irnet_profit i ds <= q)%Q
  | IcBins n => forall ds, irvalid ds -> irall_packed ds -> irin_order ds -> n <= irbins_used ds
  | IcCost q => forall ds, irvalid ds -> irall_packed ds -> (q <= irpacking_cost ds)%Q
  | IcX q => forall items v, irvalid [mkIrD 0 1 items] -> irall_packed [mkIrD 0 1 items] ->
      LargestOf (fun p => ix_max (place_box i p)) items (Some v) -> (q <= v)%Q
  | IcY q => forall items v, irvalid [mkIrD 0 1 items] -> irall_packed [mkIrD 0 1 items] ->
      LargestOf (fun p => iy_max (place_box i p)) items (Some v) -> (q <= v)%Q
  | IcNothing => True
  | IcThrow => False
  end.

(** Boxes have a non-negative size and depend on the angle only, bins have an area and a positive cost, items have an
    area; numbers of copies are right. *)
Record irproper : Prop := {
  ipr_items : forall it, In it (ir_items i) -> (0 < ii_area it)%Q /\ 1 <= ii_copies it /\ (forall a m, box_proper (ii_aabb it a m))
    /\ forall a b m, (a == b)%Q -> ii_aabb it a m = ii_aabb it b m;
  ipr_bins : forall bt, In bt (ir_bins i) -> (0 < ib_area bt)%Q /\ box_proper (ib_aabb bt) /\ 1 <= ib_copies bt
    /\ 0 <= ib_copies_min bt <= ib_copies bt /\ (0 < ib_cost bt)%Q
}.

(** No item type is lost by the rounding of the areas. *)
Record irroundable : Prop := {
  iro_items : forall it, In it (ir_items i) -> (1 <= ii_scaled it)%Q;
  iro_bins : forall bt, In bt (ir_bins i) -> (0 < ib_scaled bt)%Q;
  iro_size : zsum ii_copies (ir_items i) <= max_item_pos
}.

End Spec.

(** A packing seen as a packing of lengths. *)
Definition irrelax_desc (d : IrDesc) : BinDesc := mkBD (ird_type d) (ird_copies d) (map ip_type (ird_items d)).
