(** * Model of the cheap bounds and of the last step of the rectangle optimize function

    /repo/src/rectangle/optimize.cpp, lines 25-228 (trivial bounds, onedimensional
    relaxation) and 1127-1197 (second solve of the last bin).  The onedimensional
    solve and the second solve are parameters.  Doubles are rationals. *)

From Coq Require Import List ZArith QArith Bool.
From Verif Require Import Util Common_Model OneDim_Model OneDimBuilder_Model OneDimBuilder_Spec Rect_Model Rect_Spec RectSol_Model RectSol_Spec
  Bar_Model.
Import ListNotations.
Open Scope Z_scope.

(** ** Trivial bounds, :25-160 *)

(** total_capacity, :44-50. *)
Definition rtotal_capacity (i : RInstance) : Z :=
  fold_left (fun c bt => c + rb_area bt * rb_copies bt) (rin_bins i) 0.

(** sorted_item_types before the sort, :51-57. *)
Definition rtrivial_items (i : RInstance) : list nat :=
  filter (rfits_some_bin i) (seq 0 (length (rin_items i))).

(** The comparator of std::sort, :58-68.  The sort itself is not modelled: the bound
    takes any order, the theorems ask it to be sorted for this comparator. *)
Definition rtrivial_before (i : RInstance) (x y : nat) : bool :=
  Qltb (ri_profit (ritem i y) * inject_Z (ri_area (ritem i x)))
       (ri_profit (ritem i x) * inject_Z (ri_area (ritem i y))).

(** The loop, :71-86. *)
Fixpoint rtrivial_fill (i : RInstance) (order : list nat) (remaining : Z) (bound : Q) : Q :=
  match order with
  | [] => bound
  | x :: order' =>
      if remaining <=? 0 then bound
      else
        let it := ritem i x in
        if ri_area it <=? 0 then rtrivial_fill i order' remaining bound
        else if ri_area it * ri_copies it <=? remaining
        then rtrivial_fill i order' (remaining - ri_area it * ri_copies it) (bound + ri_profit it * inject_Z (ri_copies it))
        else rtrivial_fill i order' 0 (bound + ri_profit it * (inject_Z remaining / inject_Z (ri_area it)))
  end.
(** :69-91. *)
Definition rtrivial_knapsack (i : RInstance) (order : list nat) : Q :=
  (rtrivial_fill i order (rtotal_capacity i) 0 + negative_penalty_sum i)%Q.

(** Instance::item_area(), instance_builder.cpp:1066. *)
Definition ritem_area (i : RInstance) : Z := fold_left (fun a it => a + ri_copies it * ri_area it) (rin_items i) 0.

(** The loop on the bin types, :99-114. *)
Fixpoint rtrivial_bins (bts : list RBin) (remaining bound : Z) : Z :=
  match bts with
  | [] => bound
  | bt :: bts' =>
      if remaining <=? 0 then bound
      else if rb_area bt <=? 0 then rtrivial_bins bts' remaining bound
      else
        let needed := Z.quot (remaining + rb_area bt - 1) (rb_area bt) in
        let used := Z.min needed (rb_copies bt) in
        rtrivial_bins bts' (remaining - used * rb_area bt) (bound + used)
  end.

(** The smallest extent of an item type, :140-151. *)
Definition min_extent (horizontal : bool) (it : RItem) : Z :=
  let e := if horizontal then ri_x it else ri_y it in
  if ri_oriented it then e else Z.min e (if horizontal then ri_y it else ri_x it).
(** :131-152. *)
Definition rtrivial_open (i : RInstance) (horizontal : bool) : Z :=
  let fixed := if horizontal then rb_y (rbin i 0) else rb_x (rbin i 0) in
  fold_left (fun b it => Z.max b (min_extent horizontal it)) (rin_items i)
    (if 0 <? fixed then Z.quot (ritem_area i + fixed - 1) fixed else 0).

(** What is given to the algorithm formatter. *)
Inductive RClaim : Type := RcProfit (q : Q) | RcBins (n : Z) | RcCost (q : Q) | RcX (n : Z) | RcY (n : Z) | RcNothing | RcThrow.

Definition optimize_trivial_bound (i : RInstance) (order : list nat) : RClaim :=
  match rin_objective i with
  | OKnapsack => RcProfit (rtrivial_knapsack i order)
  | OBinPacking => RcBins (rtrivial_bins (rin_bins i) (ritem_area i) 0)
  | OOpenDimensionX => RcX (rtrivial_open i true)
  | OOpenDimensionY => RcY (rtrivial_open i false)
  | _ => RcNothing
  end.

(** ** Onedimensional relaxation, :162-228 *)

(** The calls of the onedimensional builder, :171-192. *)
Definition relax_bin_calls (id : nat) (bt : RBin) : list BCall :=
  [AddBinType (rb_area bt); SetBinCost (Z.of_nat id) (rb_cost bt); SetBinCopies (Z.of_nat id) (rb_copies bt);
   SetBinCopiesMin (Z.of_nat id) (rb_copies_min bt)].
Definition relax_item_calls (id : nat) (it : RItem) : list BCall :=
  [AddItemType (ri_area it); SetItemProfit (Z.of_nat id) (ri_profit it); SetItemCopies (Z.of_nat id) (ri_copies it)].
(** Item types with an area, :186-187. *)
Definition relaxed_items (i : RInstance) : list RItem := filter (fun it => negb (ri_area it <=? 0)) (rin_items i).
Definition relax_calls (i : RInstance) : list BCall :=
  SetObjective (rin_objective i)
  :: flat_map (fun p => relax_bin_calls (fst p) (snd p)) (combine (seq 0 (length (rin_bins i))) (rin_bins i))
  ++ flat_map (fun p => relax_item_calls (fst p) (snd p)) (combine (seq 0 (length (relaxed_items i))) (relaxed_items i)).

(** The bounds that the onedimensional solve reports. *)
Record Bounds1 : Type := mkB1 { b1_bins : Z; b1_profit : Q; b1_cost : Q }.

(** :162-228, called for the three objectives below only, :708-715.  An exception of the
    builder is not caught. *)
Definition optimize_onedimensional_bound (solve : Instance -> Bounds1) (i : RInstance) : RClaim :=
  match calls_from b_new (relax_calls i) with
  | BOk b =>
      match b_build b with
      | Built i1 =>
          let out := solve i1 in
          match rin_objective i with
          | OBinPacking => RcBins (b1_bins out)
          | OKnapsack => RcProfit (b1_profit out + negative_penalty_sum i)
          | OVariableSizedBinPacking => RcCost (b1_cost out)
          | _ => RcThrow
          end
      | _ => RcThrow
      end
  | _ => RcThrow
  end.

(** ** Second solve of the last bin, :1127-1197 *)

(** The item types of the last bin, :1143-1157: [last_bin_to_orig]. *)
Definition last_item_types (i : RInstance) (last : RSBin) : list nat :=
  filter (fun x => 0 <? rcount x (rs_items last)) (seq 0 (length (rin_items i))).

(** The calls on the new solution, :1170-1187: bins of the best solution for the
    positions below [number_of_different_bins() - 2], then the first bin of the second
    solution. *)
Definition rebuild_calls (i : RInstance) (best sub : RSolution) (last : RSBin) : list RSolutionCall :=
  let bins := rc_bins (rs_core best) in
  map (fun pos => RAppendBin best pos (rs_copies (nth pos bins last)) [] [])
    (seq 0 (Z.to_nat (Z.of_nat (length bins) - 2)))
  ++ [RAppendBin sub 0 (rs_copies last) [rs_type last] (last_item_types i last)].

(** The solution given to update_solution at the end, :1127-1193; [None]: no second
    solve, or its solution does not pack all the items of the last bin.  The instance of
    the second solve has the items of the last bin, each with its number of copies there:
    its solution [sub] is full when it has as many items as the last bin.  The tests on the
    optimization mode and on the guides, :1128-1129, which select when this step runs, are
    left out; [Some None] is undefined behaviour. *)
Definition post_process (i : RInstance) (cb : RCallback) (best sub : RSolution) : option (option RSolution) :=
  match rin_objective i with
  | OBinPackingWithLeftovers =>
      match rev (rc_bins (rs_core best)) with
      | [] => None
      | last :: _ =>
          if negb (0 <? rc_number_of_bins (rs_core best)) then None
          else if negb (rs_copies last =? 1) then None
          else if rc_number_of_items (rs_core sub) =? Z.of_nat (length (rs_items last))
          then Some (rsol_run i cb (rsol_new i) (rebuild_calls i best sub last))
          else None
      end
  | _ => None
  end.
