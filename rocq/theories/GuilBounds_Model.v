(** * Model of the cheap bounds of the rectangleguillotine optimize function

    /repo/src/rectangleguillotine/optimize.cpp, lines 28-274 (trivial bounds,
    onedimensional relaxation, dual feasible functions) and 680-699 (when they run).
    The onedimensional solve is a parameter.  Doubles are rationals.  Fixed items are not
    modelled. *)

From Coq Require Import List ZArith QArith Bool.
From Verif Require Import Util Common_Model OneDim_Model OneDimBuilder_Model OneDimBuilder_Spec Rect_Model RectBuilder_Model OneDimDff_Model RectDff_Model Bar_Model
  Guil_Model RectBounds_Model.
Import ListNotations.
Open Scope Z_scope.

(** ** Trivial bounds, :28-152 *)

(** total_capacity, :39-45. *)
Definition gtotal_capacity (i : GInstance) : Z :=
  fold_left (fun c bt => c + gb_area bt * gb_copies bt) (gin_bins i) 0.

(** The comparator of std::sort, :48-57: all the item types are sorted, whether they fit
    a bin or not.  The sort itself is not modelled: the bound takes any order, the theorems
    ask it to be sorted for this comparator. *)
Definition gtrivial_before (i : GInstance) (x y : nat) : bool :=
  Qltb (gi_profit (gitem i y) * inject_Z (gi_area (gitem i x)))
       (gi_profit (gitem i x) * inject_Z (gi_area (gitem i y))).

(** The loop, :60-75. *)
Fixpoint gtrivial_fill (i : GInstance) (order : list nat) (remaining : Z) (bound : Q) : Q :=
  match order with
  | [] => bound
  | x :: order' =>
      if remaining <=? 0 then bound
      else
        let it := gitem i x in
        if gi_area it <=? 0 then gtrivial_fill i order' remaining bound
        else if gi_area it * gi_copies it <=? remaining
        then gtrivial_fill i order' (remaining - gi_area it * gi_copies it) (bound + gi_profit it * inject_Z (gi_copies it))
        else gtrivial_fill i order' 0 (bound + gi_profit it * (inject_Z remaining / inject_Z (gi_area it)))
  end.
(** negative_penalty_sum, include/packingsolver/algorithms/common.hpp:346-357. *)
Definition gnegative_penalty_sum (i : GInstance) : Q :=
  qsum (fun bt => inject_Z (gb_copies bt) * negative_penalties (gb_resources bt))%Q (gin_bins i).
(** :58-82. *)
Definition gtrivial_knapsack (i : GInstance) (order : list nat) : Q :=
  (gtrivial_fill i order (gtotal_capacity i) 0 + gnegative_penalty_sum i)%Q.

(** Instance::item_area(). *)
Definition gitem_area (i : GInstance) : Z := fold_left (fun a it => a + gi_copies it * gi_area it) (gin_items i) 0.

(** The loop on the bin types, :91-106. *)
Fixpoint gtrivial_bins (bts : list GBinType) (remaining bound : Z) : Z :=
  match bts with
  | [] => bound
  | bt :: bts' =>
      if remaining <=? 0 then bound
      else if gb_area bt <=? 0 then gtrivial_bins bts' remaining bound
      else
        let needed := Z.quot (remaining + gb_area bt - 1) (gb_area bt) in
        let used := Z.min needed (gb_copies bt) in
        gtrivial_bins bts' (remaining - used * gb_area bt) (bound + used)
  end.

(** The smallest extent of an item type, :134-144. *)
Definition gmin_extent (horizontal : bool) (it : GItem) : Z :=
  let e := if horizontal then gi_w it else gi_h it in
  if gi_oriented it then e else Z.min e (if horizontal then gi_h it else gi_w it).
(** :122-145: the fixed dimension is that of the whole plate, with its trims. *)
Definition gtrivial_open (i : GInstance) (horizontal : bool) : Z :=
  let fixed := if horizontal then gb_h (gbin i 0) else gb_w (gbin i 0) in
  fold_left (fun b it => Z.max b (gmin_extent horizontal it)) (gin_items i)
    (if 0 <? fixed then Z.quot (gitem_area i + fixed - 1) fixed else 0).

Definition goptimize_trivial_bound (i : GInstance) (order : list nat) : RClaim :=
  match gin_objective i with
  | OKnapsack => RcProfit (gtrivial_knapsack i order)
  | OBinPacking => RcBins (gtrivial_bins (gin_bins i) (gitem_area i) 0)
  | OOpenDimensionX => RcX (gtrivial_open i true)
  | OOpenDimensionY => RcY (gtrivial_open i false)
  | _ => RcNothing
  end.

(** ** Onedimensional relaxation, :154-220 *)

(** The calls of the onedimensional builder, :162-184. *)
Definition grelax_bin_calls (id : nat) (bt : GBinType) : list BCall :=
  [AddBinType (gb_area bt); SetBinCost (Z.of_nat id) (gb_cost bt); SetBinCopies (Z.of_nat id) (gb_copies bt);
   SetBinCopiesMin (Z.of_nat id) (gb_copies_min bt)].
Definition grelax_item_calls (id : nat) (it : GItem) : list BCall :=
  [AddItemType (gi_area it); SetItemProfit (Z.of_nat id) (gi_profit it); SetItemCopies (Z.of_nat id) (gi_copies it)].
(** Item types with an area, :178-179. *)
Definition grelaxed_items (i : GInstance) : list GItem := filter (fun it => negb (gi_area it <=? 0)) (gin_items i).
Definition grelax_calls (i : GInstance) : list BCall :=
  SetObjective (gin_objective i)
  :: flat_map (fun p => grelax_bin_calls (fst p) (snd p)) (combine (seq 0 (length (gin_bins i))) (gin_bins i))
  ++ flat_map (fun p => grelax_item_calls (fst p) (snd p)) (combine (seq 0 (length (grelaxed_items i))) (grelaxed_items i)).

(** :154-220, called for the three objectives below only, :680-687.  An exception of the
    builder is not caught. *)
Definition goptimize_onedimensional_bound (solve : Instance -> Bounds1) (i : GInstance) : RClaim :=
  match calls_from b_new (grelax_calls i) with
  | BOk b =>
      match b_build b with
      | Built i1 =>
          let out := solve i1 in
          match gin_objective i with
          | OBinPacking => RcBins (b1_bins out)
          | OKnapsack => RcProfit (b1_profit out + gnegative_penalty_sum i)
          | OVariableSizedBinPacking => RcCost (b1_cost out)
          | _ => RcThrow
          end
      | _ => RcThrow
      end
  | _ => RcThrow
  end.

(** ** Dual feasible functions, :222-274 *)

(** The calls of the rectangle builder, :227-256: whole plates, without the trims. *)
Definition gdff_bin_calls (id : nat) (bt : GBinType) : list UCall :=
  [UAddBin (gb_w bt) (gb_h bt); USetBinCost (Z.of_nat id) (gb_cost bt); USetBinCopies (Z.of_nat id) (gb_copies bt)].
Definition gdff_item_calls (id : nat) (it : GItem) : list UCall :=
  [UAddItem (gi_w it) (gi_h it) (gi_oriented it); USetItemProfit (Z.of_nat id) (gi_profit it); USetItemCopies (Z.of_nat id) (gi_copies it)].
Definition gdff_calls (i : GInstance) : list UCall :=
  USetObjective (gin_objective i)
  :: flat_map (fun p => gdff_bin_calls (fst p) (snd p)) (combine (seq 0 (length (gin_bins i))) (gin_bins i))
  ++ flat_map (fun p => gdff_item_calls (fst p) (snd p)) (combine (seq 0 (length (gin_items i))) (gin_items i)).

(** What reaches the algorithm formatter, :258-273: a proof of infeasibility, or a number
    of bins, which is 0 for the feasibility objective.  [GdThrow]: an exception. *)
Inductive GDffClaim : Type := GdInfeasible | GdBins (n : Z) | GdThrow.

Definition goptimize_dff (nan : Z) (iterations : nat) (i : GInstance) : GDffClaim :=
  match ucalls_from u_new (gdff_calls i) with
  | UOk b =>
      match u_build b with
      | UBuilt j _ =>
          match rdual_feasible_functions nan iterations j with
          | Some (BinPackingBound b) => GdBins b
          | Some (ProvenInfeasible v) => if v then GdInfeasible else GdBins 0
          | _ => GdThrow
          end
      | _ => GdThrow
      end
  | _ => GdThrow
  end.
