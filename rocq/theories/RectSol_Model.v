(** * Model of the rectangle solution and solution builder
    (/repo/include/packingsolver/rectangle/solution.hpp,
    /repo/src/rectangle/solution.cpp, /repo/src/rectangle/solution_builder.cpp).

    Integers are unbounded, doubles are exact rationals; a possibly infinite or
    NaN double is an option.  A [SolutionItem] (solution.hpp:10-20) is a [Place]. *)

From Coq Require Import List ZArith QArith Bool.
From Verif Require Import Util Common_Model OneDim_Model Rect_Model Rect_Spec.
Import ListNotations.
Open Scope Z_scope.

(** SolutionBin, solution.hpp:25-49. *)
Record RSBin : Type := mkRSB {
  rs_type : nat;
  rs_copies : Z;
  rs_items : list Place;
  rs_weight : list Q;
  rs_moment : list Q;
  rs_resources : list Q
}.

(** The attributes the feasibility callback may look at, solution.hpp:263-331. *)
Record RCore : Type := mkRC {
  rc_bins : list RSBin;
  rc_number_of_bins : Z;
  rc_number_of_items : Z;
  rc_area : Z;
  rc_leftover : Z;
  rc_bin_area : Z;
  rc_bin_weight : option Q;
  rc_item_area : Z;
  rc_item_weight : Q;
  rc_item_profit : Q;
  rc_bin_cost : Q;
  rc_x_max : Z;
  rc_y_max : Z;
  rc_bin_copies : list Z;
  rc_item_copies : list Z;
  rc_missing : Z;
  rc_item_copies_ok : bool;
  rc_resource_ok : bool;
  rc_middle : option Q;
  rc_rear : option Q
}.

Record RSolution : Type := mkRS { rs_core : RCore; rs_callback_ok : bool; rs_feasible : bool }.

Definition RCallback : Type := RCore -> bool.

(** Number of item types with fewer than [copies_min] copies,
    solution.cpp:111-119 and solution.hpp:70-75. *)
Definition rcount_missing (i : RInstance) (item_copies : list Z) : Z :=
  fold_left (fun n x => if nth x item_copies 0 <? ri_copies_min (ritem i x) then n + 1 else n)
    (seq 0 (length (rin_items i))) 0.

(** Constructor, solution.hpp:65-77. *)
Definition rsol_new (i : RInstance) : RSolution :=
  let missing := fold_left (fun n it => if 0 <? ri_copies_min it then n + 1 else n) (rin_items i) 0 in
  mkRS (mkRC [] 0 0 0 0 0 (Some 0%Q) 0 0 0 0 0 0
          (repeat 0 (length (rin_bins i))) (repeat 0 (length (rin_items i))) missing true true
          (Some 0%Q) (Some 0%Q))
    true (missing =? 0).

(** The loop on the items of a bin: local variables and updated members. *)
Record RLoop : Type := mkRL {
  rl_weight : list Q;
  rl_moment : list Q;
  rl_resources : list Q;
  rl_copies_in_bin : list nat;
  rl_number_of_items : Z;
  rl_item_area : Z;
  rl_item_weight : Q;
  rl_item_profit : Q;
  rl_item_copies : list Z;
  rl_resource_ok : bool;
  rl_middle : option Q;
  rl_rear : option Q;
  rl_x_max : Z;
  rl_y_max : Z;
  rl_area : Z;
  rl_leftover : Z
}.

(** Loop on the resources, solution.cpp:56-75 (the code of the onedimensional
    solution again): consumptions, profit and feasibility flag. *)
Definition rresource_step (bt : RBin) (id copy : nat) (st : list Q * Q * bool) (r : nat)
    : list Q * Q * bool :=
  let '(used, profit, ok) := st in
  let resource := nth r (rb_resources bt) dummy_resource in
  let previous := nth r used 0%Q in
  let current := (previous + item_consumption resource id copy)%Q in
  let used' := upd r (fun _ => current) used in
  if Qltb (res_capacity resource) current then
    if res_penalize resource then
      if Qle_bool previous (res_capacity resource)
      then (used', (profit - res_penalty resource)%Q, ok)
      else (used', profit, ok)
    else (used', profit, false)
  else (used', profit, ok).

(** [PSTOL], /repo/include/packingsolver/algorithms/common.hpp:20. *)
Definition pstol : Q := 1000000001 # 1000000000.

(** [if (axle > maximum * PSTOL) overweight += axle - maximum], solution.cpp:87-90.
    [None]: the axle weight is infinite or not a number. *)
Definition add_overweight (axle : option Q) (maximum over : option Q) : option Q :=
  match axle, over with
  | Some a, Some o =>
      match maximum with
      | Some m => if Qltb (m * pstol) a then Some (o + (a - m))%Q else Some o
      | None => Some o
      end
  | _, _ => None
  end.

(** Loop on the groups, solution.cpp:78-91.  [half] is the x of the middle of
    the item. *)
Definition group_step (truck : Truck) (weight : Q) (mid : Q)
    (st : list Q * list Q * option Q * option Q) (g : nat) : list Q * list Q * option Q * option Q :=
  let '(ws, ms, middle, rear) := st in
  let ws := upd g (fun w => w + weight)%Q ws in
  let ms := upd g (fun m => m + mid * weight)%Q ms in
  let axles := compute_axle_weights truck (nth g ms 0%Q) (nth g ws 0%Q) in
  (ws, ms, add_overweight (option_map fst axles) (tr_middle_maximum truck) middle,
   add_overweight (option_map snd axles) (tr_rear_maximum truck) rear).

(** Body of the loop on the items, solution.cpp:43-108. *)
Definition ritem_step (i : RInstance) (t : nat) (copies : Z) (last_bin : bool) (bin_area : Z)
    (lo : RLoop) (item : Place) : RLoop :=
  let id := pl_type item in
  let it := ritem i id in
  let bt := rbin i t in
  let xe := pl_x item + ri_width it (pl_rot item) in
  let ye := pl_y item + ri_height it (pl_rot item) in
  let profit := (rl_item_profit lo + inject_Z copies * ri_profit it)%Q in
  let '(resources, profit, resource_ok) :=
    fold_left (rresource_step bt id (nth id (rl_copies_in_bin lo) 0%nat))
      (nth t (ri_resource_ids it) []) (rl_resources lo, profit, rl_resource_ok lo) in
  let mid := (inject_Z (pl_x item) + inject_Z (xe - pl_x item) / 2)%Q in
  let '(ws, ms, middle, rear) :=
    fold_left (group_step (rb_truck bt) (ri_weight it) mid) (seq 0 (S (ri_group it)))
      (rl_weight lo, rl_moment lo, Some 0%Q, Some 0%Q) in
  let x_max := if last_bin then Z.max (rl_x_max lo) xe else rl_x_max lo in
  let y_max := if last_bin then Z.max (rl_y_max lo) ye else rl_y_max lo in
  let area := if last_bin then bin_area - rb_area bt + x_max * y_max else rl_area lo in
  let leftover :=
    if last_bin then
      match rp_leftover (rin_params i) with
      | LArea => bin_area - area
      | LX => rb_x bt - x_max
      | LY => rb_y bt - y_max
      end
    else rl_leftover lo in
  mkRL ws ms resources (upd id S (rl_copies_in_bin lo)) (rl_number_of_items lo + copies)
    (rl_item_area lo + copies * ri_area it) (rl_item_weight lo + inject_Z copies * ri_weight it)%Q
    profit (upd id (fun c => c + copies) (rl_item_copies lo)) resource_ok middle rear
    x_max y_max area leftover.

(** [bin_weight_ += copies * maximum_weight]. *)
Definition add_bin_weight (total : option Q) (copies : Z) (maximum : option Q) : option Q :=
  match total, maximum with
  | Some w, Some m => Some (w + inject_Z copies * m)%Q
  | _, _ => None
  end.

Definition ritem_copies_ok (i : RInstance) (item_copies : list Z) : bool :=
  forallb (fun x => nth x item_copies 0 <=? ri_copies (ritem i x)) (seq 0 (length (rin_items i))).

(** Solution::update_indicators, solution.cpp:21-129. *)
Definition rupdate (i : RInstance) (cb : RCallback) (bin_pos : nat) (s : RSolution) : RSolution :=
  let c := rs_core s in
  match nth_error (rc_bins c) bin_pos with
  | None => s
  | Some b =>
      let t := rs_type b in
      let bt := rbin i t in
      let n := rs_copies b in
      let bin_area := rc_bin_area c + n * rb_area bt in
      let last_bin := Nat.eqb (bin_pos + 1) (length (rc_bins c)) in
      let groups := rnumber_of_groups i in
      let lo0 := mkRL (repeat 0%Q groups) (repeat 0%Q groups)
        (repeat 0%Q (length (rb_resources bt))) (repeat 0%nat (length (rin_items i)))
        (rc_number_of_items c) (rc_item_area c) (rc_item_weight c) (rc_item_profit c)
        (rc_item_copies c) (rc_resource_ok c) (rc_middle c) (rc_rear c) 0 0 (rc_area c) (rc_leftover c) in
      let lo := fold_left (ritem_step i t n last_bin bin_area) (rs_items b) lo0 in
      let missing := rcount_missing i (rl_item_copies lo) in
      let copies_ok := ritem_copies_ok i (rl_item_copies lo) in
      let c' := mkRC
        (upd bin_pos (fun _ => mkRSB t n (rs_items b) (rl_weight lo) (rl_moment lo) (rl_resources lo)) (rc_bins c))
        (rc_number_of_bins c + n) (rl_number_of_items lo) (rl_area lo) (rl_leftover lo) bin_area
        (add_bin_weight (rc_bin_weight c) n (rb_max_weight bt)) (rl_item_area lo) (rl_item_weight lo)
        (rl_item_profit lo) (rc_bin_cost c + inject_Z n * rb_cost bt)%Q (rl_x_max lo) (rl_y_max lo)
        (upd t (fun k => k + n) (rc_bin_copies c)) (rl_item_copies lo) missing copies_ok
        (rl_resource_ok lo) (rl_middle lo) (rl_rear lo) in
      let callback_ok := cb c' in
      mkRS c' callback_ok (copies_ok && callback_ok && rl_resource_ok lo && (missing =? 0))
  end.

Definition rwith_bins (c : RCore) (bins : list RSBin) : RCore :=
  mkRC bins (rc_number_of_bins c) (rc_number_of_items c) (rc_area c) (rc_leftover c) (rc_bin_area c)
    (rc_bin_weight c) (rc_item_area c) (rc_item_weight c) (rc_item_profit c) (rc_bin_cost c)
    (rc_x_max c) (rc_y_max c) (rc_bin_copies c) (rc_item_copies c) (rc_missing c)
    (rc_item_copies_ok c) (rc_resource_ok c) (rc_middle c) (rc_rear c).

(** A bin before its indicators are computed. *)
Definition rraw_bin (t : nat) (copies : Z) (items : list Place) : RSBin := mkRSB t copies items [] [] [].

(** [bins_.push_back] then [update_indicators(bins_.size() - 1)]. *)
Definition rpush_bin (i : RInstance) (cb : RCallback) (s : RSolution) (b : RSBin) : RSolution :=
  rupdate i cb (length (rc_bins (rs_core s)))
    (mkRS (rwith_bins (rs_core s) (rc_bins (rs_core s) ++ [b])) (rs_callback_ok s) (rs_feasible s)).

(** Out-of-range ids are undefined behaviour in the code. *)
Definition rin_range (i : RInstance) (t : nat) (ps : list Place) : bool :=
  Nat.ltb t (length (rin_bins i)) && forallb (fun p => Nat.ltb (pl_type p) (length (rin_items i))) ps.

Definition place_with (p : Place) (id : nat) : Place := mkPl id (pl_x p) (pl_y p) (pl_rot p).

Fixpoint rmap_ids (ids : list nat) (l : list Place) : option (list Place) :=
  match l with
  | [] => Some []
  | p :: l' =>
      match map_id ids (pl_type p), rmap_ids ids l' with
      | Some id, Some r => Some (place_with p id :: r)
      | _, _ => None
      end
  end.

(** Solution::append_bin, solution.cpp:131-155. *)
Definition rappend_bin (i : RInstance) (cb : RCallback) (s source : RSolution) (bin_pos : nat)
    (copies : Z) (bin_type_ids item_type_ids : list nat) : option RSolution :=
  match nth_error (rc_bins (rs_core source)) bin_pos with
  | None => None
  | Some b =>
      match map_id bin_type_ids (rs_type b), rmap_ids item_type_ids (rs_items b) with
      | Some t, Some items =>
          if rin_range i t items then Some (rpush_bin i cb s (rraw_bin t copies items)) else None
      | _, _ => None
      end
  end.

(** Solution::append_bins, solution.cpp:157-166. *)
Fixpoint rappend_from (i : RInstance) (cb : RCallback) (s source : RSolution)
    (bin_type_ids item_type_ids : list nat) (positions : list nat) : option RSolution :=
  match positions with
  | [] => Some s
  | pos :: rest =>
      match nth_error (rc_bins (rs_core source)) pos with
      | None => None
      | Some b =>
          match rappend_bin i cb s source pos (rs_copies b) bin_type_ids item_type_ids with
          | None => None
          | Some s' => rappend_from i cb s' source bin_type_ids item_type_ids rest
          end
      end
  end.
Definition rappend_bins (i : RInstance) (cb : RCallback) (s source : RSolution)
    (bin_type_ids item_type_ids : list nat) : option RSolution :=
  rappend_from i cb s source bin_type_ids item_type_ids (seq 0 (length (rc_bins (rs_core source)))).

(** Solution::append_empty_bin, solution.cpp:168-177. *)
Definition rappend_empty (i : RInstance) (cb : RCallback) (s : RSolution) (t : nat) (copies : Z)
    : option RSolution :=
  if rin_range i t [] then Some (rpush_bin i cb s (rraw_bin t copies [])) else None.

(** ** SolutionBuilder, solution_builder.cpp *)

(** add_bin, :8-21.  The id is not checked: out of range is undefined. *)
Definition rb_add_bin (i : RInstance) (bins : list RSBin) (t : nat) (copies : Z) : option (list RSBin) :=
  if rin_range i t [] then Some (bins ++ [rraw_bin t copies []]) else None.

(** add_item, :23-64: throws if the position or the item type is out of range
    or if an oriented item is rotated. *)
Definition rb_add_item (i : RInstance) (bins : list RSBin) (bin_pos : nat) (p : Place) : option (list RSBin) :=
  if Nat.ltb bin_pos (length bins) && Nat.ltb (pl_type p) (length (rin_items i))
     && negb (pl_rot p && ri_oriented (ritem i (pl_type p)))
  then Some (upd bin_pos (fun b => mkRSB (rs_type b) (rs_copies b) (rs_items b ++ [p]) (rs_weight b)
                                     (rs_moment b) (rs_resources b)) bins)
  else None.

(** build, :135-145. *)
Definition rb_build (i : RInstance) (cb : RCallback) (bins : list RSBin) : RSolution :=
  fold_left (fun s pos => rupdate i cb pos s) (seq 0 (length bins))
    (mkRS (rwith_bins (rs_core (rsol_new i)) bins) (rs_callback_ok (rsol_new i)) (rs_feasible (rsol_new i))).

Inductive RBuilderCall : Type :=
| RAddBin (t : nat) (copies : Z)
| RAddItem (bin_pos : nat) (p : Place).

Definition rb_call (i : RInstance) (bins : list RSBin) (c : RBuilderCall) : option (list RSBin) :=
  match c with
  | RAddBin t copies => rb_add_bin i bins t copies
  | RAddItem pos p => rb_add_item i bins pos p
  end.

Fixpoint rb_run (i : RInstance) (bins : list RSBin) (calls : list RBuilderCall) : option (list RSBin) :=
  match calls with
  | [] => Some bins
  | c :: rest => match rb_call i bins c with Some bins' => rb_run i bins' rest | None => None end
  end.

Inductive RSolutionCall : Type :=
| RAppendBin (source : RSolution) (bin_pos : nat) (copies : Z) (bin_type_ids item_type_ids : list nat)
| RAppendBins (source : RSolution) (bin_type_ids item_type_ids : list nat)
| RAppendEmpty (t : nat) (copies : Z).

Definition rsol_call (i : RInstance) (cb : RCallback) (s : RSolution) (c : RSolutionCall) : option RSolution :=
  match c with
  | RAppendBin source pos copies bids iids => rappend_bin i cb s source pos copies bids iids
  | RAppendBins source bids iids => rappend_bins i cb s source bids iids
  | RAppendEmpty t copies => rappend_empty i cb s t copies
  end.

Fixpoint rsol_run (i : RInstance) (cb : RCallback) (s : RSolution) (calls : list RSolutionCall) : option RSolution :=
  match calls with
  | [] => Some s
  | c :: rest => match rsol_call i cb s c with Some s' => rsol_run i cb s' rest | None => None end
  end.

(** Builder calls, [build], then appends. *)
Definition rhistory (i : RInstance) (cb : RCallback) (calls1 : list RBuilderCall)
    (calls2 : list RSolutionCall) : option RSolution :=
  match rb_run i [] calls1 with
  | None => None
  | Some bins => rsol_run i cb (rb_build i cb bins) calls2
  end.

(** Solution::waste, full_waste, solution.hpp:198-207. *)
Definition rwaste (s : RSolution) : Z := rc_area (rs_core s) - rc_item_area (rs_core s).
Definition rfull_waste (s : RSolution) : Z := rc_bin_area (rs_core s) - rc_item_area (rs_core s).

(** middle_axle_overweight(), rear_axle_overweight(), solution.hpp:213-216: the
    return type is an integer type, the double is truncated. *)
Definition truncate (q : Q) : Z := Z.quot (Qnum q) (Zpos (Qden q)).
Definition middle_overweight (s : RSolution) : option Z := option_map truncate (rc_middle (rs_core s)).
Definition rear_overweight (s : RSolution) : option Z := option_map truncate (rc_rear (rs_core s)).

(** Solution::operator<, solution.cpp:195-243.  [None]: logic_error, or an
    overweight that is not a finite number. *)
Definition rsol_lt (i : RInstance) (s1 s2 : RSolution) : option bool :=
  let c1 := rs_core s1 in
  let c2 := rs_core s2 in
  if negb (rs_feasible s2) then Some false
  else if negb (rs_feasible s1) then Some true
  else match rin_objective i with
  | ODefault =>
      if strictly_lesser_profit (rc_item_profit c2) (rc_item_profit c1) then Some false
      else if strictly_greater_profit (rc_item_profit c2) (rc_item_profit c1) then Some true
      else Some (rwaste s2 <? rwaste s1)
  | OBinPacking => Some (rc_number_of_bins c2 <? rc_number_of_bins c1)
  | OBinPackingWithLeftovers =>
      if negb (rc_number_of_bins c2 =? rc_number_of_bins c1)
      then Some (rc_number_of_bins c2 <? rc_number_of_bins c1)
      else Some (strictly_greater (inject_Z (rc_leftover c2)) (inject_Z (rc_leftover c1)))
  | OOpenDimensionX => Some (rc_x_max c2 <? rc_x_max c1)
  | OOpenDimensionY => Some (rc_y_max c2 <? rc_y_max c1)
  | OKnapsack => Some (strictly_greater_profit (rc_item_profit c2) (rc_item_profit c1))
  | OFeasibility => Some (strictly_greater_profit (rc_item_profit c2) (rc_item_profit c1))
  | OVariableSizedBinPacking => Some (strictly_lesser_cost (rc_bin_cost c2) (rc_bin_cost c1))
  | OSequentialOneDimensionalRectangleSubproblem =>
      if negb (equal_profit (rc_item_profit c2) (rc_item_profit c1))
      then Some (strictly_greater_profit (rc_item_profit c2) (rc_item_profit c1))
      else match middle_overweight s1, rear_overweight s1, middle_overweight s2, rear_overweight s2 with
      | Some m1, Some r1, Some m2, Some r2 =>
          if negb (m2 + r2 =? m1 + r1) then Some (m2 + r2 <? m1 + r1)
          else Some (rc_x_max c2 <? rc_x_max c1)
      | _, _, _, _ => None
      end
  | _ => None
  end.
