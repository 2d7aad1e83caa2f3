(** * Model of the cheap bounds of the box optimize function

    /repo/src/box/optimize.cpp, lines 21-229 (trivial bounds, onedimensional
    relaxation).  The onedimensional solve is a parameter.  Doubles are rationals. *)

From Coq Require Import List ZArith QArith Bool.
From Verif Require Import Util Common_Model OneDim_Model OneDimBuilder_Model OneDimBuilder_Spec Box_Model Box_Spec BoxDff_Model.
From Verif Require RectBounds_Model BoxBuilder_Model.
Import ListNotations.
Open Scope Z_scope.

(** ** Trivial bounds, :21-161 *)

(** :35-42, total_capacity. *)
Definition xtotal_capacity (i : BInstance) : Z :=
  fold_left (fun c bt => c + bn_vol bt * bn_copies bt) (bx_bins i) 0.

(** sorted_item_types before the sort, :43-49. *)
Definition xtrivial_items (i : BInstance) : list nat :=
  filter (bfits_some_bin i) (seq 0 (length (bx_items i))).

(** The comparator of std::sort, :50-60.  The sort itself is not modelled: the bound
    takes any order, the theorems ask it to be sorted for this comparator. *)
Definition xtrivial_before (i : BInstance) (x y : nat) : bool :=
  Qltb (bi_profit (bxitem i y) * inject_Z (bi_vol (bxitem i x)))
       (bi_profit (bxitem i x) * inject_Z (bi_vol (bxitem i y))).

(** The loop, :62-76. *)
Fixpoint xtrivial_fill (i : BInstance) (order : list nat) (remaining : Z) (bound : Q) : Q :=
  match order with
  | [] => bound
  | x :: order' =>
      if remaining <=? 0 then bound
      else
        let it := bxitem i x in
        if bi_vol it <=? 0 then xtrivial_fill i order' remaining bound
        else if bi_vol it * bi_copies it <=? remaining
        then xtrivial_fill i order' (remaining - bi_vol it * bi_copies it) (bound + bi_profit it * inject_Z (bi_copies it))
        else xtrivial_fill i order' 0 (bound + bi_profit it * (inject_Z remaining / inject_Z (bi_vol it)))
  end.
(** :61-84. *)
Definition xtrivial_knapsack (i : BInstance) (order : list nat) : Q :=
  (xtrivial_fill i order (xtotal_capacity i) 0 + xnegative_penalty_sum i)%Q.

(** Instance::item_volume(), instance_builder.cpp:911. *)
Definition xitem_volume (i : BInstance) : Z := fold_left (fun a it => a + bi_copies it * bi_vol it) (bx_items i) 0.

(** The loop on the bin types, :96-108. *)
Fixpoint xtrivial_bins (bts : list BBin) (remaining bound : Z) : Z :=
  match bts with
  | [] => bound
  | bt :: bts' =>
      if remaining <=? 0 then bound
      else if bn_vol bt <=? 0 then xtrivial_bins bts' remaining bound
      else
        let needed := Z.quot (remaining + bn_vol bt - 1) (bn_vol bt) in
        let used := Z.min needed (bn_copies bt) in
        xtrivial_bins bts' (remaining - used * bn_vol bt) (bound + used)
  end.

(** The smallest extent of an item type along an axis, :142-150: Box::max and the minimum
    over the rotations. *)
Definition xmin_extent (a : Axis) (it : BItem) : Z :=
  fold_left (fun e r => Z.min e (vat (rotate (bi_box it) r) a)) (bi_rotations it) (BoxBuilder_Model.box_max (bi_box it)).
(** cross_section, :126-133. *)
Definition cross_section (a : Axis) (bt : BBin) : Z :=
  match a with
  | AX => v_y (bn_box bt) * v_z (bn_box bt)
  | AY => v_x (bn_box bt) * v_z (bn_box bt)
  | AZ => v_x (bn_box bt) * v_y (bn_box bt)
  end.
(** :125-152. *)
Definition xtrivial_open (i : BInstance) (a : Axis) : Z :=
  let c := cross_section a (bxbin i 0) in
  fold_left (fun b it => Z.max b (xmin_extent a it)) (bx_items i)
    (if 0 <? c then Z.quot (xitem_volume i + c - 1) c else 0).

(** What is given to the algorithm formatter. *)
Inductive XClaim : Type := XcProfit (q : Q) | XcBins (n : Z) | XcCost (q : Q) | XcExtent (a : Axis) (n : Z) | XcNothing | XcThrow.

Definition xoptimize_trivial_bound (i : BInstance) (order : list nat) : XClaim :=
  match bx_objective i with
  | OKnapsack => XcProfit (xtrivial_knapsack i order)
  | OBinPacking => XcBins (xtrivial_bins (bx_bins i) (xitem_volume i) 0)
  | OOpenDimensionX => XcExtent AX (xtrivial_open i AX)
  | OOpenDimensionY => XcExtent AY (xtrivial_open i AY)
  | OOpenDimensionZ => XcExtent AZ (xtrivial_open i AZ)
  | _ => XcNothing
  end.

(** ** Onedimensional relaxation, :163-229 *)

(** The calls of the onedimensional builder, :172-193. *)
Definition xrelax_bin_calls (id : nat) (bt : BBin) : list BCall :=
  [AddBinType (bn_vol bt); SetBinCost (Z.of_nat id) (bn_cost bt); SetBinCopies (Z.of_nat id) (bn_copies bt);
   SetBinCopiesMin (Z.of_nat id) (bn_copies_min bt)].
Definition xrelax_item_calls (id : nat) (it : BItem) : list BCall :=
  [AddItemType (bi_vol it); SetItemProfit (Z.of_nat id) (bi_profit it); SetItemCopies (Z.of_nat id) (bi_copies it)].
(** Item types with a volume, :187-188. *)
Definition xrelaxed_items (i : BInstance) : list BItem := filter (fun it => negb (bi_vol it <=? 0)) (bx_items i).
Definition xrelax_calls (i : BInstance) : list BCall :=
  SetObjective (bx_objective i)
  :: flat_map (fun p => xrelax_bin_calls (fst p) (snd p)) (combine (seq 0 (length (bx_bins i))) (bx_bins i))
  ++ flat_map (fun p => xrelax_item_calls (fst p) (snd p)) (combine (seq 0 (length (xrelaxed_items i))) (xrelaxed_items i)).

(** The bounds that the onedimensional solve reports. *)
Notation Bounds1 := RectBounds_Model.Bounds1.
Notation b1_bins := RectBounds_Model.b1_bins.
Notation b1_profit := RectBounds_Model.b1_profit.
Notation b1_cost := RectBounds_Model.b1_cost.

(** :163-229, called for the three objectives below only, :538-545.  An exception of the
    builder is not caught. *)
Definition xoptimize_onedimensional_bound (solve : Instance -> Bounds1) (i : BInstance) : XClaim :=
  match calls_from b_new (xrelax_calls i) with
  | BOk b =>
      match b_build b with
      | Built i1 =>
          let out := solve i1 in
          match bx_objective i with
          | OBinPacking => XcBins (b1_bins out)
          | OKnapsack => XcProfit (b1_profit out + xnegative_penalty_sum i)
          | OVariableSizedBinPacking => XcCost (b1_cost out)
          | _ => XcThrow
          end
      | _ => XcThrow
      end
  | _ => XcThrow
  end.

