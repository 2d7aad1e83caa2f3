(** * Model of the cheap bounds of the boxstacks optimize function

    /repo/src/boxstacks/optimize.cpp, lines 18-178 (trivial bounds, box relaxation).
    [box::optimize] on the relaxed instance is a parameter.  Doubles are rationals. *)

From Coq Require Import List ZArith QArith Bool.
From Verif Require Import Util Common_Model OneDim_Model Rect_Model Box_Model Stack_Model BoxBuilder_Model BoxBounds_Model.
Import ListNotations.
Open Scope Z_scope.

(** ** Trivial bounds, :18-101 *)

(** BinType::volume and ItemType::volume, instance.hpp:234: the nesting height is not
    subtracted. *)
Definition kb_vol (bt : KBin) : Z := vol (kb_box bt).
Definition ki_vol (it : KItem) : Z := vol (ki_box it).

(** :33-39, total_capacity. *)
Definition ktotal_capacity (i : KInstance) : Z :=
  fold_left (fun c bt => c + kb_vol bt * kb_copies bt) (kx_bins i) 0.

(** Instance::fits_some_bin, instance.cpp:80-97. *)
Definition kfits (it : KItem) (bt : KBin) : bool :=
  existsb (fun r => (v_x (rotate (ki_box it) r) <=? v_x (kb_box bt)) && (v_y (rotate (ki_box it) r) <=? v_y (kb_box bt))
    && (v_z (rotate (ki_box it) r) <=? v_z (kb_box bt))) (ki_rotations it).
Definition kfits_some_bin (i : KInstance) (x : nat) : bool := existsb (kfits (kitem i x)) (kx_bins i).

(** sorted_item_types before the sort, :40-46. *)
Definition ktrivial_items (i : KInstance) : list nat :=
  filter (kfits_some_bin i) (seq 0 (length (kx_items i))).

(** The comparator of std::sort, :47-56.  The sort itself is not modelled: the bound
    takes any order, the theorems ask it to be sorted for this comparator. *)
Definition ktrivial_before (i : KInstance) (x y : nat) : bool :=
  Qltb (ki_profit (kitem i y) * inject_Z (ki_vol (kitem i x)))
       (ki_profit (kitem i x) * inject_Z (ki_vol (kitem i y))).

(** The loop, :59-74. *)
Fixpoint ktrivial_fill (i : KInstance) (order : list nat) (remaining : Z) (bound : Q) : Q :=
  match order with
  | [] => bound
  | x :: order' =>
      if remaining <=? 0 then bound
      else
        let it := kitem i x in
        if ki_vol it <=? 0 then ktrivial_fill i order' remaining bound
        else if ki_vol it * ki_copies it <=? remaining
        then ktrivial_fill i order' (remaining - ki_vol it * ki_copies it) (bound + ki_profit it * inject_Z (ki_copies it))
        else ktrivial_fill i order' 0 (bound + ki_profit it * (inject_Z remaining / inject_Z (ki_vol it)))
  end.

(** Instance::item_volume(), instance_builder.cpp:978. *)
Definition kitem_volume (i : KInstance) : Z := fold_left (fun a it => a + ki_copies it * ki_vol it) (kx_items i) 0.

(** The loop on the bin types, :85-98. *)
Fixpoint ktrivial_bins (bts : list KBin) (remaining bound : Z) : Z :=
  match bts with
  | [] => bound
  | bt :: bts' =>
      if remaining <=? 0 then bound
      else if kb_vol bt <=? 0 then ktrivial_bins bts' remaining bound
      else
        let needed := Z.quot (remaining + kb_vol bt - 1) (kb_vol bt) in
        let used := Z.min needed (kb_copies bt) in
        ktrivial_bins bts' (remaining - used * kb_vol bt) (bound + used)
  end.

(** What is given to the algorithm formatter ([XClaim] is that of BoxBounds_Model). *)
Definition koptimize_trivial_bound (i : KInstance) (order : list nat) : XClaim :=
  match kx_objective i with
  | OKnapsack => XcProfit (ktrivial_fill i order (ktotal_capacity i) 0)
  | OBinPacking => XcBins (ktrivial_bins (kx_bins i) (kitem_volume i) 0)
  | _ => XcNothing
  end.

(** ** Box relaxation, :103-178 *)

(** The calls of the box builder for a bin type, :117-128, and for an item type,
    :133-154; [static_cast<box::Rotation>] is the identity, the two enumerations being the
    same. *)
Definition kbox_bin_calls (id : nat) (bt : KBin) : list WCall :=
  [WAddBin (kb_box bt); WSetBinCost (Z.of_nat id) (kb_cost bt); WSetBinCopies (Z.of_nat id) (kb_copies bt);
   WSetBinCopiesMin (Z.of_nat id) (kb_copies_min bt); WSetBinWeight (Z.of_nat id) (kb_max_weight bt)].
(** item_z, :138. *)
Definition kitem_z (it : KItem) : Z := v_z (ki_box it) - Z.max (ki_nesting it) 0.
Definition kbox_item_calls (id : nat) (it : KItem) : list WCall :=
  [WAddItem (mkV (v_x (ki_box it)) (v_y (ki_box it)) (kitem_z it)); WSetItemProfit (Z.of_nat id) (ki_profit it);
   WSetItemCopies (Z.of_nat id) (ki_copies it); WSetItemWeight (Z.of_nat id) (ki_weight it)]
  ++ map (WAddRotation (Z.of_nat id)) (ki_rotations it).
Definition kbox_calls (i : KInstance) : list WCall :=
  WSetObjective (kx_objective i)
  :: flat_map (fun t => kbox_bin_calls t (kbin i t)) (seq 0 (length (kx_bins i)))
  ++ flat_map (fun x => kbox_item_calls x (kitem i x)) (seq 0 (length (kx_items i))).

(** :103-178, called for the three objectives below only, :188-192.  An exception of the
    builder is not caught. *)
Definition koptimize_box_bound (solve : BInstance -> Bounds1) (i : KInstance) : XClaim :=
  match wcalls_from (w_new ODefault) (kbox_calls i) with
  | WOk b =>
      match w_build b with
      | WBuilt j _ =>
          let out := solve j in
          match kx_objective i with
          | OKnapsack => XcProfit (b1_profit out)
          | OBinPacking => XcBins (b1_bins out)
          | OVariableSizedBinPacking => XcCost (b1_cost out)
          | _ => XcNothing
          end
      | _ => XcThrow
      end
  | _ => XcThrow
  end.
