(** * The rectangle dual feasible functions algorithm
    [src/rectangle/dual_feasible_functions.cpp].

    [None] is an exception, undefined behaviour, or exhausted fuel.  The
    algorithm formatter calls are replaced by the value they receive. *)

From Coq Require Import List ZArith QArith Qminmax Bool.
From Verif Require Import Util Common_Model OneDim_Model Dff_Model OneDimDff_Model Rect_Model.
Import ListNotations.
Open Scope Z_scope.

(** The code has every loop twice, for the widths and for the heights: [w] is
    [true] for the width axis.  [rect.x] for the width axis, [rect.y] for the
    height axis; and the other one. *)
Definition own (w : bool) (it : RItem) : Z := if w then ri_x it else ri_y it.
Definition other (w : bool) (it : RItem) : Z := if w then ri_y it else ri_x it.
Definition bin_side (w : bool) (bt : RBin) : Z := if w then rb_x bt else rb_y bt.

(** medium_pool_length, :109-128 *)
Definition medium_pool_length (oriented : bool) (own_dimension other_dimension k half : Z) : Z :=
  if oriented then
    if (k <=? own_dimension) && (own_dimension <=? half) then own_dimension else -1
  else
    let lo := Z.min own_dimension other_dimension in
    let hi := Z.max own_dimension other_dimension in
    if (k <=? lo) && (lo <=? half) then lo
    else if (k <=? hi) && (hi <=? half) then hi
    else -1.

(** f_ccm_1_axis, :136-148 *)
Definition f_ccm_1_axis (capacity k length full : Z) (excluded : list (Z * Z)) : option Z :=
  if Z.quot capacity 2 <? length then
    let* e := map_at excluded length in f_ccm_1 capacity k length (full - e)
  else f_ccm_1 capacity k length 0.

(** eval_w, eval_h, :173-188 *)
Definition eval_axis (family : nat) (capacity k full : Z) (excluded : list (Z * Z)) (length : Z) : option Z :=
  match family with
  | O => Some (f_ccm_0 capacity k length)
  | 1%nat => f_ccm_1_axis capacity k length full excluded
  | _ => f_ccm_2 capacity k length
  end.

(** item_coefficient, :160-195.  [ew], [eh]: the two lambdas. *)
Definition ritem_coefficient (ew eh : Z -> option Z) (it : RItem) : option Z :=
  let* a1 := ew (ri_x it) in
  let* a2 := eh (ri_y it) in
  if ri_oriented it then Some (a1 * a2)
  else
    let* b1 := ew (ri_y it) in
    let* b2 := eh (ri_x it) in
    Some (Z.min (a1 * a2) (b1 * b2)).

(** Candidate dimensions of an item type on an axis, :230-232, 254-256. *)
Definition candidates (w : bool) (it : RItem) : list Z :=
  if ri_oriented it then [own w it] else [ri_x it; ri_y it].

(** compute_dual_feasible_functions_tables, :217-363: breakpoints, big values
    and pool of an axis. *)
Definition rbreakpoints (its : list RItem) (w : bool) (capacity : Z) : list Z :=
  sort_unique
    (flat_map (fun it => flat_map (fold_breakpoint capacity) (candidates w it)) its
     ++ (if 0 <? Z.quot capacity 2 then [Z.quot capacity 2] else [])).

Definition rbig_values (its : list RItem) (w : bool) (capacity : Z) : list Z :=
  sort_unique (flat_map (fun it =>
      (if Z.quot capacity 2 <? own w it then [own w it] else [])
      ++ (if negb (ri_oriented it) && (Z.quot capacity 2 <? other w it) then [other w it] else []))
    its).

Definition rpool (its : list RItem) (w : bool) (capacity k : Z) : list (Z * Z) :=
  sort_pairs (flat_map (fun it =>
      let length := medium_pool_length (ri_oriented it) (own w it) (other w it) k (Z.quot capacity 2) in
      if 0 <=? length then [(length, ri_copies it)] else [])
    its).

(** One row of the tables: full_cardinality, excluded_cardinality. *)
Definition rtable (its : list RItem) (w : bool) (capacity k : Z) : option (Z * list (Z * Z)) :=
  let pool := rpool its w capacity k in
  let* full := greedy_maximum_cardinality capacity pool in
  let* excluded := mapo (fun big =>
      let* e := greedy_maximum_cardinality (capacity - big) pool in Some (big, e))
    (rbig_values its w capacity) in
  Some (full, excluded).

(** f_w_bin, f_h_bin, :596-603, 716-723. *)
Definition bin_value (family : nat) (capacity k full : Z) : option Z :=
  match family with
  | O => Some (f_ccm_0 capacity k capacity)
  | 1%nat => f_ccm_1 capacity k capacity full
  | _ => f_ccm_2 capacity k capacity
  end.

(** The pairs (family_w, family_h) in loop order. *)
Definition family_pairs : list (nat * nat) :=
  [(0, 0); (0, 1); (0, 2); (1, 0); (1, 1); (1, 2); (2, 0); (2, 1); (2, 2)]%nat.

(** One combination: value of the bin and coefficients of the item types,
    :596-632. *)
Definition rcombo (its : list RItem) (bt : RBin) (k l : Z) (tw th : Z * list (Z * Z))
    (f : nat * nat) : option (Z * list Z) :=
  let* bw := bin_value (fst f) (rb_x bt) k (fst tw) in
  let* bh := bin_value (snd f) (rb_y bt) l (fst th) in
  let* cs := mapo (ritem_coefficient (eval_axis (fst f) (rb_x bt) k (fst tw) (snd tw))
                                     (eval_axis (snd f) (rb_y bt) l (fst th) (snd th))) its in
  Some (bw * bh, cs).

(** All the combinations of the sweep, :585-672 and 704-767. *)
Definition rcombos (its : list RItem) (bt : RBin) : option (list (Z * list Z)) :=
  let* rows := mapo (fun k =>
      let* tw := rtable its true (rb_x bt) k in
      let* cells := mapo (fun l =>
          let* th := rtable its false (rb_y bt) l in
          mapo (rcombo its bt k l tw th) family_pairs)
        (rbreakpoints its false (rb_y bt)) in
      Some (concat cells))
    (rbreakpoints its true (rb_x bt)) in
  Some (concat rows).

(** Bound of a combination for bin packing, :660-668.  The division is done on
    doubles, without a guard on the denominator: 0/0 is a NaN whose conversion
    to an integer is [nan] (unspecified by the language); any other division by
    zero is an infinity whose conversion is undefined. *)
Definition rbound_combo (nan : Z) (its : list RItem) (fc : Z * list Z) : option Z :=
  let sum := zsum (fun p => ri_copies (fst p) * snd p) (combine its (snd fc)) in
  if fst fc =? 0 then if sum =? 0 then Some nan else None
  else Some (ceil_div sum (fst fc)).

Definition rsweep_bound (nan : Z) (i : RInstance) : option Z :=
  let* combos := rcombos (rin_items i) (rbin i 0) in
  let* bounds := mapo (rbound_combo nan (rin_items i)) combos in
  Some (fold_left Z.max bounds 0).

(** The modified instance of clautiaux2007, :480-556.  The dummy item type is
    added without the [oriented] flag. *)
Definition clautiaux_bin (bt : RBin) (copies : Z) : RBin :=
  let side := Z.max (rb_x bt) (rb_y bt) in
  mkRB side side (inject_Z (side * side)) copies 0 None no_truck [] [] [].

Definition clautiaux_item (x y : Z) (oriented : bool) (copies : Z) (profit : Q) : RItem :=
  mkRI x y profit copies copies 0 oriented 0 (-1) [[]].

Definition clautiaux_dummy (bt : RBin) (bound : Z) : list RItem :=
  if rb_y bt <? rb_x bt then
    if 0 <? bound then
      [clautiaux_item (rb_x bt) (rb_x bt - rb_y bt) false bound (inject_Z (rb_x bt * (rb_x bt - rb_y bt)))]
    else []
  else if rb_x bt <? rb_y bt then
    if 0 <? bound then
      [clautiaux_item (rb_y bt - rb_x bt) (rb_y bt) false bound (inject_Z ((rb_y bt - rb_x bt) * rb_y bt))]
    else []
  else [].

Definition clautiaux_items (it : RItem) : list RItem :=
  if ri_x it =? ri_y it then
    [clautiaux_item (ri_x it) (ri_y it) true (2 * ri_copies it) (ri_profit it)]
  else
    [clautiaux_item (ri_x it) (ri_y it) true (ri_copies it) (ri_profit it);
     clautiaux_item (ri_y it) (ri_x it) true (ri_copies it) (ri_profit it)].

Definition modified_instance (i : RInstance) (bound : Z) : RInstance :=
  let bt := rbin i 0 in
  mkRInst OBinPacking (rin_params i)
    (clautiaux_dummy bt bound ++ flat_map clautiaux_items (rin_items i))
    [clautiaux_bin bt (2 * rnumber_of_items i + (if rb_x bt =? rb_y bt then 0 else bound))].

(** The loop, :479-576; [rec]: the recursive call. *)
Fixpoint clautiaux_loop (rec : RInstance -> option Z) (i : RInstance) (iterations : nat) (bound : Z) : option Z :=
  match iterations with
  | O => None
  | S iterations' =>
      let* b := rec (modified_instance i bound) in
      let current := Z.quot (b - 1) 2 + 1 in
      if current <=? bound then Some bound
      else if rb_x (rbin i 0) =? rb_y (rbin i 0) then Some current
      else clautiaux_loop rec i iterations' current
  end.

(** Bound on the number of bins for BinPacking and Feasibility, :448-687. *)
Fixpoint rbin_bound (nan : Z) (iterations depth : nat) (i : RInstance) : option Z :=
  match depth with
  | O => None
  | S depth' =>
      let* c := if all_oriented i then Some 0
                else clautiaux_loop (rbin_bound nan iterations depth') i iterations 0 in
      let* b := rsweep_bound nan i in
      Some (Z.max b c)
  end.

(** Items of the Dantzig bound, :381-396. *)
Definition rdantzig_items (i : RInstance) (volumes : list Z) : list DItem :=
  flat_map (fun id =>
      if rfits_some_bin i id
      then [mkDI (ri_profit (ritem i id)) (nth id volumes 0) (ri_copies (ritem i id))]
      else [])
    (seq 0 (length (rin_items i))).

(** Knapsack combination, :636-649. *)
Definition rknapsack_combo (i : RInstance) (fc : Z * list Z) : list Q :=
  if fst fc <=? 0 then []
  else [dantzig_profit_bound (rdantzig_items i (snd fc))
          (inject_Z (fst fc) * inject_Z (rb_copies (rbin i 0)))].

(** negative_penalty_sum(instance), common.hpp:346-357 *)
Definition rnegative_penalty_sum (i : RInstance) : Q :=
  fold_left (fun sum bt => (sum + inject_Z (rb_copies bt) * negative_penalty_sum (rb_resources bt))%Q)
    (rin_bins i) 0%Q.

(** dual_feasible_functions, :429-689 *)
Definition rdual_feasible_functions (nan : Z) (iterations : nat) (i : RInstance) : option DffOutput :=
  if negb (Nat.eqb (length (rin_bins i)) 1) then None else
  match rin_objective i with
  | OBinPacking => let* b := rbin_bound nan iterations 3 i in Some (BinPackingBound b)
  | OFeasibility =>
      let* b := rbin_bound nan iterations 3 i in
      Some (ProvenInfeasible (rnumber_of_bins i <? b))
  | OKnapsack =>
      let* combos := rcombos (rin_items i) (rbin i 0) in
      let b := fold_left min_bound (flat_map (rknapsack_combo i) combos) None in
      Some (KnapsackBound (match b with
        | None => None
        | Some q => Some (q + rnegative_penalty_sum i)%Q end))
  | _ => None
  end.

(** ** The cut *)

(** DualFeasibleFunctionsCut, dual_feasible_functions.hpp:45-70. *)
Record DffCut : Type := mkCut {
  cut_found : bool;
  cut_coefficients : list Z;
  cut_bound : Z;
  cut_violation : Z
}.
Definition no_cut : DffCut := mkCut false [] 0 0.

(** One combination, :727-763.  [coef]: coefficient of an item type. *)
Definition cut_step (selected : list (nat * Z)) (best : DffCut) (fc : Z * list Z) : DffCut :=
  if fst fc <=? 0 then best else
  let sum := zsum (fun p => snd p * nth (fst p) (snd fc) 0) selected in
  let violation := sum - fst fc in
  if cut_violation best <? violation then mkCut true (snd fc) (fst fc) violation else best.

(** find_most_violated_dual_feasible_function_cut, :691-770.  Simplification:
    the coefficients of all the item types are computed for every combination,
    the code computes those of the selected ones first. *)
Definition find_most_violated_cut (i : RInstance) (bin_type_id : nat) (selected : list (nat * Z)) : option DffCut :=
  match nth_error (rin_bins i) bin_type_id with
  | None => None
  | Some bt =>
      let* combos := rcombos (rin_items i) bt in
      Some (fold_left (cut_step selected) combos no_cut)
  end.
