(** * Model of the box instance flipper
    (/repo/src/box/instance_flipper.cpp).  [Direction::Any], for which the
    conversions throw, is not modelled. *)

From Coq Require Import List ZArith QArith Bool.
From Verif Require Import Util Common_Model OneDim_Model Box_Model Box_Spec BoxSol_Model BoxBuilder_Model.
Import ListNotations.
Open Scope Z_scope.

(** convert_point_back, :9-22. *)
Definition convert_point_back (p : Vec) (d : Axis) : Vec :=
  match d with
  | AX => mkV (v_x p) (v_y p) (v_z p)
  | AY => mkV (v_y p) (v_x p) (v_z p)
  | AZ => mkV (v_z p) (v_y p) (v_x p)
  end.

(** [(int)r] and [static_cast<Rotation>], values of instance.hpp:30-38. *)
Definition rot_to_int (r : Rotation) : nat :=
  match r with XYZ => 0 | YXZ => 1 | ZYX => 2 | YZX => 3 | XZY => 4 | ZXY => 5 end.
Definition rot_of_int (n : nat) : Rotation := nth n [XYZ; YXZ; ZYX; YZX; XZY; ZXY] XYZ.

(** The tables, :24-25, and get_flipped_rotation, :27-40. *)
Definition map_y : list nat := [1; 0; 3; 2; 5; 4]%nat.
Definition map_z : list nat := [2; 5; 0; 4; 3; 1]%nat.
Definition get_flipped_rotation (r : Rotation) (d : Axis) : Rotation :=
  match d with
  | AX => r
  | AY => rot_of_int (nth (rot_to_int r) map_y 0%nat)
  | AZ => rot_of_int (nth (rot_to_int r) map_z 0%nat)
  end.

(** InstanceFlipper::flip_rotations, :42-49. *)
Definition flip_rotations (d : Axis) (l : list Rotation) : list Rotation :=
  fold_left (fun acc r => acc ++ [get_flipped_rotation r d]) l [].

(** :55-60. *)
Definition bflip_objective (o : Objective) : Objective :=
  match o with OOpenDimensionY | OOpenDimensionZ => OOpenDimensionX | _ => o end.

(** :67-76. *)
Definition flip_box (d : Axis) (v : Vec) : Vec :=
  match d with
  | AX => mkV (v_x v) (v_y v) (v_z v)
  | AY => mkV (v_y v) (v_x v) (v_z v)
  | AZ => mkV (v_z v) (v_y v) (v_x v)
  end.

(** The calls for a bin type, :77-89; the ids returned by the builder are the
    positions of the bin types.  The minimum number of copies and the resources
    are not copied. *)
Definition bflip_bin_calls (d : Axis) (id : Z) (t : BBin) : list WCall :=
  [WAddBin (flip_box d (bn_box t)); WSetBinCost id (bn_cost t); WSetBinCopies id (bn_copies t);
   WSetBinWeight id (bn_max_weight t)].

(** The calls for an item type, :95-109.  The minimum number of copies is not
    copied. *)
Definition bflip_item_calls (d : Axis) (id : Z) (t : BItem) : list WCall :=
  [WAddItem (bi_box t); WSetItemProfit id (bi_profit t); WSetItemCopies id (bi_copies t)]
  ++ map (WAddRotation id) (flip_rotations d (bi_rotations t))
  ++ [WSetItemWeight id (bi_weight t)].

(** InstanceFlipper::flip, :51-112.  The parameters are empty
    (instance.hpp:259-261).  The new builder holds any objective, which is set
    first. *)
Definition bflip_calls (d : Axis) (i : BInstance) : list WCall :=
  [WSetObjective (bflip_objective (bx_objective i))]
  ++ flat_map (fun k => bflip_bin_calls d (Z.of_nat k) (bxbin i k)) (seq 0 (length (bx_bins i)))
  ++ flat_map (fun x => bflip_item_calls d (Z.of_nat x) (bxitem i x)) (seq 0 (length (bx_items i))).
Definition bflip (o : Objective) (d : Axis) (i : BInstance) : WBuild :=
  match wcalls_from (w_new o) (bflip_calls d i) with
  | WOk b => w_build b
  | WThrow _ => WBuildThrow
  | WUndef => WBuildUndef
  end.

(** InstanceFlipper::unflip_solution, :114-135: the calls to the solution
    builder of the original instance. *)
Definition bunflip_bin_calls (d : Axis) (pos : nat) (b : XSBin) : list XBuilderCall :=
  XAddBin (xs_type b) (xs_copies b)
  :: map (fun p => XAddItem pos (mkBP (bp_type p) (convert_point_back (bp_pos p) d) (get_flipped_rotation (bp_rot p) d)))
       (xs_items b).
Definition bunflip_calls (d : Axis) (s : XSolution) : list XBuilderCall :=
  flat_map (fun pos => bunflip_bin_calls d pos (nth pos (xc_bins (xsol_core s)) (xraw_bin 0 0 [])))
    (seq 0 (length (xc_bins (xsol_core s)))).
Definition bunflip_solution (d : Axis) (i : BInstance) (cb : XCallback) (s : XSolution) : option XSolution :=
  xhistory i cb (bunflip_calls d s) [].
