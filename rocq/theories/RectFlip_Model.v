(** * Model of the rectangle instance flipper
    (/repo/src/rectangle/instance_flipper.cpp) *)

From Coq Require Import List ZArith QArith Bool.
From Verif Require Import Util Common_Model OneDim_Model OneDim_Spec Rect_Model Rect_Spec RectSol_Model RectBuilder_Model.
Import ListNotations.
Open Scope Z_scope.

(** :12-16. *)
Definition flip_objective (o : Objective) : Objective :=
  match o with OOpenDimensionY => OOpenDimensionX | _ => o end.

(** :17-27: the other parameters are copied. *)
Definition flip_unloading (u : Unloading) : Unloading :=
  match u with
  | UIncreasingX => UIncreasingY | UIncreasingY => UIncreasingX
  | UOnlyX => UOnlyY | UOnlyY => UOnlyX
  | UNone => UNone
  end.
Definition flip_params (p : RParams) : RParams := mkRP (flip_unloading (rp_unloading p)) (rp_leftover p) (rp_check_weight p).

(** The calls for a bin type, :31-69; the ids returned by the builder are the
    positions of the bin types.  The eligibility ids are not copied. *)
Definition flip_bin_calls (id : Z) (t : RBin) : list UCall :=
  [UAddBin (rb_y t) (rb_x t); USetBinCost id (rb_cost t); USetBinCopies id (rb_copies t); USetBinCopiesMin id (rb_copies_min t);
   USetBinWeight id (rb_max_weight t); USetBinTruck id (rb_truck t)]
  ++ map (fun d => UAddDefect id (df_y d) (df_x d) (df_ly d) (df_lx d)) (rb_defects t)
  ++ map (fun r => UAddResource id (res_capacity r) (res_penalize r) (res_penalty r)) (rb_resources t).

(** The calls for an item type, :74-91.  Neither the eligibility nor the
    minimum number of copies is copied. *)
Definition flip_item_calls (id : Z) (t : RItem) : list UCall :=
  [UAddItem (ri_y t) (ri_x t) (ri_oriented t); USetItemProfit id (ri_profit t); USetItemCopies id (ri_copies t);
   USetItemGroup id (Z.of_nat (ri_group t)); USetItemWeight id (ri_weight t)].

(** The consumptions of a resource for an item type, :107-117; of a resource,
    :103-118; of a bin type, :98-118. *)
Definition flip_schedule_calls (k r x : nat) (s : list Q) : list UCall :=
  map (fun c => UAddConsumption (Z.of_nat k) (Z.of_nat r) (Z.of_nat x) (Z.of_nat c) (nth c s 0%Q)) (seq 0 (length s)).
Definition flip_resource_calls (k r : nat) (res : Resource) : list UCall :=
  flat_map (fun x => flip_schedule_calls k r x (nth x (res_item_consumptions res) []))
    (seq 0 (length (res_item_consumptions res))).
Definition flip_consumption_calls (k : nat) (t : RBin) : list UCall :=
  flat_map (fun r => flip_resource_calls k r (nth r (rb_resources t) dummy_resource)) (seq 0 (length (rb_resources t))).

(** InstanceFlipper::flip, :9-121 (fixed items are not copied). *)
Definition flip_calls (i : RInstance) : list UCall :=
  [USetObjective (flip_objective (rin_objective i)); USetParams (flip_params (rin_params i))]
  ++ flat_map (fun k => flip_bin_calls (Z.of_nat k) (rbin i k)) (seq 0 (length (rin_bins i)))
  ++ flat_map (fun x => flip_item_calls (Z.of_nat x) (ritem i x)) (seq 0 (length (rin_items i)))
  ++ flat_map (fun k => flip_consumption_calls k (rbin i k)) (seq 0 (length (rin_bins i))).
Definition rflip (i : RInstance) : UBuild :=
  match ucalls_from u_new (flip_calls i) with
  | UOk b => u_build b
  | UThrow _ => UBuildThrow
  | UUndef => UBuildUndef
  end.

(** InstanceFlipper::unflip_solution, :123-144: the calls to the solution
    builder of the original instance. *)
Definition unflip_bin_calls (pos : nat) (b : RSBin) : list RBuilderCall :=
  RAddBin (rs_type b) (rs_copies b)
  :: map (fun p => RAddItem pos (mkPl (pl_type p) (pl_y p) (pl_x p) (pl_rot p))) (rs_items b).
Definition unflip_calls (s : RSolution) : list RBuilderCall :=
  flat_map (fun pos => unflip_bin_calls pos (nth pos (rc_bins (rs_core s)) (rraw_bin 0 0 [])))
    (seq 0 (length (rc_bins (rs_core s)))).
Definition unflip_solution (i : RInstance) (cb : RCallback) (s : RSolution) : option RSolution :=
  rhistory i cb (unflip_calls s) [].
