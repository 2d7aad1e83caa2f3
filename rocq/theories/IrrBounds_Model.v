(** * Model of the cheap bounds of the irregular optimize function

    /repo/src/irregular/optimize.cpp, lines 23-211, and the accessors of
    /repo/src/irregular/instance.cpp it uses.  The onedimensional solve is a
    parameter.  Doubles are exact rationals. *)

From Coq Require Import List ZArith QArith Qround Bool.
From Verif Require Import Util Common_Model OneDim_Model OneDimBuilder_Model OneDimBuilder_Spec Irr_Model.
From Verif Require RectBounds_Model.
Import ListNotations.
Open Scope Z_scope.

(** ItemType::has_only_discrete_rotations, instance.cpp:201-207. *)
Definition only_discrete (it : IrItem) : bool := forallb (fun r => Qeq_bool (irr_start r) (irr_end r)) (ii_rotations it).

Definition box_width (b : IrBox) : Q := (ix_max b - ix_min b)%Q.
Definition box_height (b : IrBox) : Q := (iy_max b - iy_min b)%Q.

(** Instance::fits_some_bin, instance.cpp:373-396. *)
Definition irfits_some_bin (i : IrInstance) (x : nat) : bool :=
  let it := iritem i x in
  if negb (only_discrete it) then true
  else existsb (fun r =>
         let b := ii_aabb it (irr_start r) (irr_mirror r) in
         existsb (fun bt => Qle_bool (box_width b) (box_width (ib_aabb bt)) && Qle_bool (box_height b) (box_height (ib_aabb bt)))
           (ir_bins i)) (ii_rotations it).

(** Instance::resources_matter, instance.cpp:398-402. *)
Definition irresources_matter (i : IrInstance) : bool :=
  Nat.eqb (length (ir_bins i)) 1 && Nat.ltb 0 (length (ib_resources (irbin i 0))).

(** ** Trivial bounds, :23-137 *)

(** total_capacity, :43-49. *)
Definition ircapacity (i : IrInstance) : Q :=
  fold_left (fun c bt => (c + ib_area bt * inject_Z (ib_copies bt))%Q) (ir_bins i) 0%Q.

(** sorted_item_types before the sort, :50-56. *)
Definition irtrivial_items (i : IrInstance) : list nat :=
  filter (irfits_some_bin i) (seq 0 (length (ir_items i))).

(** The comparator of std::sort, :57-67.  The sort itself is not modelled: the bound
    takes any order, the theorems ask it to be sorted for this comparator. *)
Definition irtrivial_before (i : IrInstance) (x y : nat) : bool :=
  Qltb (ii_profit (iritem i y) * ii_area (iritem i x)) (ii_profit (iritem i x) * ii_area (iritem i y)).

(** The loop, :69-85. *)
Fixpoint irtrivial_fill (i : IrInstance) (order : list nat) (remaining bound : Q) : Q :=
  match order with
  | [] => bound
  | x :: order' =>
      if Qle_bool remaining 0 then bound
      else
        let it := iritem i x in
        if Qle_bool (ii_area it) 0 then irtrivial_fill i order' remaining bound
        else if Qle_bool (ii_area it * inject_Z (ii_copies it)) remaining
        then irtrivial_fill i order' (remaining - ii_area it * inject_Z (ii_copies it)) (bound + ii_profit it * inject_Z (ii_copies it))
        else irtrivial_fill i order' 0 (bound + ii_profit it * (remaining / ii_area it))
  end.

(** negative_penalty_sum(instance), include/packingsolver/algorithms/common.hpp:346-357. *)
Definition irnegative_penalty_sum (i : IrInstance) : Q :=
  fold_left (fun sum bt => (sum + inject_Z (ib_copies bt) * negative_penalty_sum (ib_resources bt))%Q)
    (ir_bins i) 0%Q.

(** :68-90. *)
Definition irtrivial_knapsack (i : IrInstance) (order : list nat) : Q :=
  (irtrivial_fill i order (ircapacity i) 0 + irnegative_penalty_sum i)%Q.

(** Instance::item_area(), instance_builder.cpp (build). *)
Definition iritem_area (i : IrInstance) : Q :=
  fold_left (fun a it => (a + inject_Z (ii_copies it) * ii_area it)%Q) (ir_items i) 0%Q.

(** The loop on the bin types, :98-112. *)
Fixpoint irtrivial_bins (bts : list IrBin) (remaining : Q) (bound : Z) : Z :=
  match bts with
  | [] => bound
  | bt :: bts' =>
      if Qle_bool remaining 0 then bound
      else if Qle_bool (ib_area bt) 0 then irtrivial_bins bts' remaining bound
      else
        let needed := Qceiling (remaining / ib_area bt) in
        let used := Z.min needed (ib_copies bt) in
        irtrivial_bins bts' (remaining - inject_Z used * ib_area bt) (bound + used)
  end.

(** What is given to the algorithm formatter. *)
Inductive IrClaim : Type := IcProfit (q : Q) | IcBins (n : Z) | IcCost (q : Q) | IcX (q : Q) | IcY (q : Q) | IcNothing | IcThrow.

Definition iroptimize_trivial_bound (i : IrInstance) (order : list nat) : IrClaim :=
  match ir_objective i with
  | OKnapsack => IcProfit (irtrivial_knapsack i order)
  | OBinPacking => IcBins (irtrivial_bins (ir_bins i) (iritem_area i) 0)
  | OOpenDimensionX =>
      let fixed := box_height (ib_aabb (irbin i 0)) in
      if Qle_bool fixed 0 then IcNothing else IcX (iritem_area i / fixed)
  | OOpenDimensionY =>
      let fixed := box_width (ib_aabb (irbin i 0)) in
      if Qle_bool fixed 0 then IcNothing else IcY (iritem_area i / fixed)
  | _ => IcNothing
  end.

(** ** Onedimensional relaxation, :139-211 *)

(** Lengths: std::ceil and std::floor of the scaled areas, :152 and :162. *)
Definition ib_length (bt : IrBin) : Z := Qceiling (ib_scaled bt).
Definition ii_length (it : IrItem) : Z := Qfloor (ii_scaled it).

(** The calls of the onedimensional builder, :145-170. *)
Definition irrelax_bin_calls (id : nat) (bt : IrBin) : list BCall :=
  [AddBinType (ib_length bt); SetBinCost (Z.of_nat id) (ib_cost bt); SetBinCopies (Z.of_nat id) (ib_copies bt);
   SetBinCopiesMin (Z.of_nat id) (ib_copies_min bt)].
Definition irrelax_item_calls (id : nat) (it : IrItem) : list BCall :=
  [AddItemType (ii_length it); SetItemProfit (Z.of_nat id) (ii_profit it); SetItemCopies (Z.of_nat id) (ii_copies it)].
(** Item types whose length is not 0, :163-164. *)
Definition irrelaxed_items (i : IrInstance) : list IrItem := filter (fun it => negb (ii_length it =? 0)) (ir_items i).
Definition irrelax_calls (i : IrInstance) : list BCall :=
  SetObjective (ir_objective i)
  :: flat_map (fun p => irrelax_bin_calls (fst p) (snd p)) (combine (seq 0 (length (ir_bins i))) (ir_bins i))
  ++ flat_map (fun p => irrelax_item_calls (fst p) (snd p)) (combine (seq 0 (length (irrelaxed_items i))) (irrelaxed_items i)).

(** The bounds that the onedimensional solve reports. *)
Notation Bounds1 := RectBounds_Model.Bounds1.
Notation b1_bins := RectBounds_Model.b1_bins.
Notation b1_profit := RectBounds_Model.b1_profit.
Notation b1_cost := RectBounds_Model.b1_cost.

(** :139-211, called for the three objectives below only, :731-738.  An exception of the
    builder is not caught. *)
Definition iroptimize_onedimensional_bound (solve : Instance -> Bounds1) (i : IrInstance) : IrClaim :=
  match calls_from b_new (irrelax_calls i) with
  | BOk b =>
      match b_build b with
      | Built i1 =>
          let out := solve i1 in
          match ir_objective i with
          | OBinPacking => IcBins (b1_bins out)
          | OKnapsack => IcProfit (b1_profit out + irnegative_penalty_sum i)
          | OVariableSizedBinPacking => IcCost (b1_cost out)
          | _ => IcThrow
          end
      | _ => IcThrow
      end
  | _ => IcThrow
  end.
