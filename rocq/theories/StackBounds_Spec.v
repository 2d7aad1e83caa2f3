(** * What the cheap bounds of the boxstacks optimize function claim *)

From Coq Require Import List ZArith QArith Bool.
From Verif Require Import Util Common_Model OneDim_Model OneDimBuilder_Model Tree1D_Spec Rect_Model Box_Model Box_Spec Stack_Model Stack_Spec BoxBounds_Model BoxBounds_Spec.
Import ListNotations.
Open Scope Z_scope.

(** The items of a stack are items of the instance, in an allowed orientation, that cover
    its base. *)
Definition kstack_items (i : KInstance) (s : KSDesc) : Prop := forall p, In p (sd_items s) ->
  (fst p < length (kx_items i))%nat /\ In (snd p) (ki_rotations (kitem i (fst p))) /\
  let b := rotate (ki_box (kitem i (fst p))) (snd p) in v_x b = sd_xe s - sd_x s /\ v_y b = sd_ye s - sd_y s.

(** What is needed of a valid packing: stacks in the bins, apart from each other and not
    too high ([kgeom]), the weight of each bin ([total_ok]), numbers of bins and items
    within their limits.  Defects, axles, density, stackability and unloading only leave
    fewer packings. *)
Record kpacking (i : KInstance) (ds : list KDesc) : Prop := {
  kk_bins : forall d, In d ds -> (kd_type d < length (kx_bins i))%nat /\ 1 <= kd_copies d /\ kgeom i d /\ total_ok i d /\
    forall s, In s (kd_stacks d) -> kstack_items i s;
  kk_used : forall t, (t < length (kx_bins i))%nat -> kb_copies_min (kbin i t) <= kused t ds <= kb_copies (kbin i t);
  kk_items : kcopies_ok i ds
}.
Definition kall_packed (i : KInstance) (ds : list KDesc) : Prop :=
  forall x, (x < length (kx_items i))%nat -> kpacked x ds = ki_copies (kitem i x).
(** Bins are used in the order of the instance. *)
Definition kin_order (i : KInstance) (ds : list KDesc) : Prop :=
  forall t u, (t < u < length (kx_bins i))%nat -> 0 < kused u ds -> kused t ds = kb_copies (kbin i t).
Definition kbins_used (ds : list KDesc) : Z := zsum kd_copies ds.
Definition kprofit_of (i : KInstance) (ds : list KDesc) : Q := qsum (fun d => inject_Z (kd_copies d) * qsum (kprofit i) (kd_items d))%Q ds.
Definition kcost_of (i : KInstance) (ds : list KDesc) : Q := qsum (fun d => inject_Z (kd_copies d) * kb_cost (kbin i (kd_type d)))%Q ds.

(** What a claim says about the valid packings. *)
Definition kclaim_right (i : KInstance) (c : XClaim) : Prop :=
  match c with
  | XcProfit q => forall ds, kpacking i ds -> (kprofit_of i ds <= q)%Q
  | XcBins n => forall ds, kpacking i ds -> kall_packed i ds -> kin_order i ds -> n <= kbins_used ds
  | XcCost q => forall ds, kpacking i ds -> kall_packed i ds -> (q <= kcost_of i ds)%Q
  | XcExtent _ _ => False
  | XcNothing => True
  | XcThrow => False
  end.

(** The bounds of a box solve are right: for the valid box packings that respect the
    maximum weights of the bins (with the tolerance of the code). *)
Definition xweights_ok (j : BInstance) (ds : list XDesc) : Prop := forall d, In d ds ->
  within_tol (qsum (fun p => bi_weight (bxitem j (bp_type p))) (xd_items d)) (bn_max_weight (bxbin j (xd_type d))).
Record xbounds_right (j : BInstance) (out : Bounds1) : Prop := {
  xr_bins : bx_objective j = OBinPacking -> forall ds, xbox_packing j ds -> xweights_ok j ds -> ball_packed j ds -> xin_order j ds -> b1_bins out <= bbins_used ds;
  xr_profit : bx_objective j = OKnapsack -> forall ds, xbox_packing j ds -> xweights_ok j ds -> (bnet_profit j ds <= b1_profit out)%Q;
  xr_cost : bx_objective j = OVariableSizedBinPacking -> forall ds, xbox_packing j ds -> xweights_ok j ds -> ball_packed j ds -> (b1_cost out <= xpacking_cost j ds)%Q
}.

(** Instances with items of positive size (also without their nested part) and limited
    bins of positive cost, whose number of items is in the range of its type. *)
Record krelaxable (i : KInstance) : Prop := {
  kre_items : forall it, In it (kx_items i) -> (forall a, 0 < vat (ki_box it) a) /\ ki_nesting it < v_z (ki_box it) /\ 1 <= ki_copies it /\ ki_rotations it <> [];
  kre_bins : forall bt, In bt (kx_bins i) -> (forall a, 1 <= vat (kb_box bt) a) /\ 1 <= kb_copies bt
    /\ 0 <= kb_copies_min bt <= kb_copies bt /\ (0 < kb_cost bt)%Q;
  kre_size : knumber_of_items i <= max_item_pos
}.

(** Items that keep their full height in a stack. *)
Definition unnested (i : KInstance) : Prop := forall it, In it (kx_items i) -> ki_nesting it <= 0.
(** Nested items stay upright. *)
Definition nested_upright (i : KInstance) : Prop := forall it r, In it (kx_items i) -> In r (ki_rotations it) ->
  0 < ki_nesting it -> r = XYZ \/ r = YXZ.
