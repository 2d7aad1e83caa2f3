(** * Model of the box solution and solution builder
    (/repo/include/packingsolver/box/solution.hpp, /repo/src/box/solution.cpp,
    /repo/src/box/solution_builder.cpp).

    Integers are unbounded, doubles are exact rationals; a possibly infinite
    double is an option.  A [SolutionItem] (solution.hpp:10-20) is a [BPlace]. *)

From Coq Require Import List ZArith QArith Bool.
From Verif Require Import Util Common_Model OneDim_Model Box_Model Box_Spec.
Import ListNotations.
Open Scope Z_scope.

(** SolutionBin, solution.hpp:25-45. *)
Record XSBin : Type := mkXSB {
  xs_type : nat;
  xs_copies : Z;
  xs_items : list BPlace;
  xs_weight : Q;
  xs_profit : Q;
  xs_resources : list Q
}.

(** The attributes the feasibility callback may look at, solution.hpp:283-358. *)
Record XCore : Type := mkXC {
  xc_bins : list XSBin;
  xc_number_of_bins : Z;
  xc_number_of_items : Z;
  xc_volume : Z;
  xc_leftover : Z;
  xc_bin_volume : Z;
  xc_bin_area : Z;
  xc_bin_weight : option Q;
  xc_item_volume : Z;
  xc_item_weight : Q;
  xc_item_profit : Q;
  xc_bin_cost : Q;
  xc_max : Vec;
  xc_bin_copies : list Z;
  xc_item_copies : list Z;
  xc_missing : Z;
  xc_item_copies_ok : bool;
  xc_resource_ok : bool
}.

Record XSolution : Type := mkXS { xsol_core : XCore; xsol_callback_ok : bool; xsol_feasible : bool }.

Definition XCallback : Type := XCore -> bool.

(** Number of item types with fewer than [copies_min] copies,
    solution.cpp:94-102 and solution.hpp:68-73. *)
Definition xcount_missing (i : BInstance) (item_copies : list Z) : Z :=
  fold_left (fun n x => if nth x item_copies 0 <? bi_copies_min (bxitem i x) then n + 1 else n)
    (seq 0 (length (bx_items i))) 0.

(** Constructor, solution.hpp:62-75. *)
Definition xsol_new (i : BInstance) : XSolution :=
  let missing := fold_left (fun n it => if 0 <? bi_copies_min it then n + 1 else n) (bx_items i) 0 in
  mkXS (mkXC [] 0 0 0 0 0 0 (Some 0%Q) 0 0 0 0 (mkV 0 0 0)
          (repeat 0 (length (bx_bins i))) (repeat 0 (length (bx_items i))) missing true true)
    true (missing =? 0).

(** The loop on the items of a bin: local variables and updated members. *)
Record XLoop : Type := mkXL {
  xl_weight : Q;
  xl_profit : Q;
  xl_resources : list Q;
  xl_copies_in_bin : list nat;
  xl_number_of_items : Z;
  xl_item_volume : Z;
  xl_item_weight : Q;
  xl_item_profit : Q;
  xl_item_copies : list Z;
  xl_resource_ok : bool;
  xl_max : Vec;
  xl_volume : Z;
  xl_leftover : Z
}.

(** Loop on the resources, solution.cpp:57-77 (the code of the onedimensional
    solution again): consumptions, profit and feasibility flag. *)
Definition xresource_step (bt : BBin) (id copy : nat) (st : list Q * Q * bool) (r : nat)
    : list Q * Q * bool :=
  let '(used, profit, ok) := st in
  let resource := nth r (bn_resources bt) dummy_resource in
  let previous := nth r used 0%Q in
  let current := (previous + item_consumption resource id copy)%Q in
  let used' := upd r (fun _ => current) used in
  if Qltb (res_capacity resource) current then
    if res_penalize resource then
      if Qle_bool previous (res_capacity resource)
      then (used', (profit - res_penalty resource)%Q, ok)
      else (used', profit, ok)
    else (used', profit, false)
  else (used', profit, ok).

(** BinType::volume, instance.hpp:237, and ItemType's Box::volume, :91. *)
Definition vmax (a b : Vec) : Vec := mkV (Z.max (v_x a) (v_x b)) (Z.max (v_y a) (v_y b)) (Z.max (v_z a) (v_z b)).
Definition vadd (a b : Vec) : Vec := mkV (v_x a + v_x b) (v_y a + v_y b) (v_z a + v_z b).

(** Body of the loop on the items, solution.cpp:41-90. *)
Definition xitem_step (i : BInstance) (t : nat) (copies : Z) (last_bin : bool) (bin_volume : Z)
    (lo : XLoop) (item : BPlace) : XLoop :=
  let id := bp_type item in
  let it := bxitem i id in
  let bt := bxbin i t in
  let ends := vadd (bp_pos item) (rotate (bi_box it) (bp_rot item)) in
  let profit := (xl_item_profit lo + inject_Z copies * bi_profit it)%Q in
  let '(resources, profit, resource_ok) :=
    fold_left (xresource_step bt id (nth id (xl_copies_in_bin lo) 0%nat))
      (nth t (bi_resource_ids it) []) (xl_resources lo, profit, xl_resource_ok lo) in
  let mx := if last_bin then vmax (xl_max lo) ends else xl_max lo in
  let volume := if last_bin then bin_volume - vol (bn_box bt) + vol mx else xl_volume lo in
  let leftover := if last_bin then bin_volume - volume else xl_leftover lo in
  mkXL (xl_weight lo + bi_weight it)%Q (xl_profit lo + bi_profit it)%Q resources
    (upd id S (xl_copies_in_bin lo)) (xl_number_of_items lo + copies)
    (xl_item_volume lo + copies * vol (bi_box it)) (xl_item_weight lo + inject_Z copies * bi_weight it)%Q
    profit (upd id (fun c => c + copies) (xl_item_copies lo)) resource_ok mx volume leftover.

(** [bin_weight_ += copies * maximum_weight], :30. *)
Definition xadd_bin_weight (total : option Q) (copies : Z) (maximum : option Q) : option Q :=
  match total, maximum with
  | Some w, Some m => Some (w + inject_Z copies * m)%Q
  | _, _ => None
  end.

Definition xitem_copies_ok (i : BInstance) (item_copies : list Z) : bool :=
  forallb (fun x => nth x item_copies 0 <=? bi_copies (bxitem i x)) (seq 0 (length (bx_items i))).

(** Solution::update_indicators, solution.cpp:21-112.  [x_max_] and [y_max_] are
    reset, [z_max_] is not. *)
Definition xupdate (i : BInstance) (cb : XCallback) (bin_pos : nat) (s : XSolution) : XSolution :=
  let c := xsol_core s in
  match nth_error (xc_bins c) bin_pos with
  | None => s
  | Some b =>
      let t := xs_type b in
      let bt := bxbin i t in
      let n := xs_copies b in
      let bin_volume := xc_bin_volume c + n * vol (bn_box bt) in
      let last_bin := Nat.eqb (bin_pos + 1) (length (xc_bins c)) in
      let lo0 := mkXL (xs_weight b) (xs_profit b)
        (repeat 0%Q (length (bn_resources bt))) (repeat 0%nat (length (bx_items i)))
        (xc_number_of_items c) (xc_item_volume c) (xc_item_weight c) (xc_item_profit c)
        (xc_item_copies c) (xc_resource_ok c) (mkV 0 0 (v_z (xc_max c))) (xc_volume c) (xc_leftover c) in
      let lo := fold_left (xitem_step i t n last_bin bin_volume) (xs_items b) lo0 in
      let missing := xcount_missing i (xl_item_copies lo) in
      let copies_ok := xitem_copies_ok i (xl_item_copies lo) in
      let c' := mkXC
        (upd bin_pos (fun _ => mkXSB t n (xs_items b) (xl_weight lo) (xl_profit lo) (xl_resources lo)) (xc_bins c))
        (xc_number_of_bins c + n) (xl_number_of_items lo) (xl_volume lo) (xl_leftover lo) bin_volume
        (xc_bin_area c + n * (v_x (bn_box bt) * v_y (bn_box bt)))
        (xadd_bin_weight (xc_bin_weight c) n (bn_max_weight bt)) (xl_item_volume lo) (xl_item_weight lo)
        (xl_item_profit lo) (xc_bin_cost c + inject_Z n * bn_cost bt)%Q (xl_max lo)
        (upd t (fun k => k + n) (xc_bin_copies c)) (xl_item_copies lo) missing copies_ok
        (xl_resource_ok lo) in
      let callback_ok := cb c' in
      mkXS c' callback_ok (copies_ok && callback_ok && xl_resource_ok lo && (missing =? 0))
  end.

Definition xwith_bins (c : XCore) (bins : list XSBin) : XCore :=
  mkXC bins (xc_number_of_bins c) (xc_number_of_items c) (xc_volume c) (xc_leftover c) (xc_bin_volume c)
    (xc_bin_area c) (xc_bin_weight c) (xc_item_volume c) (xc_item_weight c) (xc_item_profit c) (xc_bin_cost c)
    (xc_max c) (xc_bin_copies c) (xc_item_copies c) (xc_missing c)
    (xc_item_copies_ok c) (xc_resource_ok c).

(** A bin before its indicators are computed. *)
Definition xraw_bin (t : nat) (copies : Z) (items : list BPlace) : XSBin := mkXSB t copies items 0 0 [].

(** [bins_.push_back] then [update_indicators(bins_.size() - 1)]. *)
Definition xpush_bin (i : BInstance) (cb : XCallback) (s : XSolution) (b : XSBin) : XSolution :=
  xupdate i cb (length (xc_bins (xsol_core s)))
    (mkXS (xwith_bins (xsol_core s) (xc_bins (xsol_core s) ++ [b])) (xsol_callback_ok s) (xsol_feasible s)).

(** Out-of-range ids are undefined behaviour in the code. *)
Definition xin_range (i : BInstance) (t : nat) (ps : list BPlace) : bool :=
  Nat.ltb t (length (bx_bins i)) && forallb (fun p => Nat.ltb (bp_type p) (length (bx_items i))) ps.

Definition bplace_with (p : BPlace) (id : nat) : BPlace := mkBP id (bp_pos p) (bp_rot p).

Fixpoint xmap_ids (ids : list nat) (l : list BPlace) : option (list BPlace) :=
  match l with
  | [] => Some []
  | p :: l' =>
      match map_id ids (bp_type p), xmap_ids ids l' with
      | Some id, Some r => Some (bplace_with p id :: r)
      | _, _ => None
      end
  end.

(** Solution::append_bin, solution.cpp:114-136. *)
Definition xappend_bin (i : BInstance) (cb : XCallback) (s source : XSolution) (bin_pos : nat)
    (copies : Z) (bin_type_ids item_type_ids : list nat) : option XSolution :=
  match nth_error (xc_bins (xsol_core source)) bin_pos with
  | None => None
  | Some b =>
      match map_id bin_type_ids (xs_type b), xmap_ids item_type_ids (xs_items b) with
      | Some t, Some items =>
          if xin_range i t items then Some (xpush_bin i cb s (xraw_bin t copies items)) else None
      | _, _ => None
      end
  end.

(** Solution::append_bins, solution.cpp:138-147. *)
Fixpoint xappend_from (i : BInstance) (cb : XCallback) (s source : XSolution)
    (bin_type_ids item_type_ids : list nat) (positions : list nat) : option XSolution :=
  match positions with
  | [] => Some s
  | pos :: rest =>
      match nth_error (xc_bins (xsol_core source)) pos with
      | None => None
      | Some b =>
          match xappend_bin i cb s source pos (xs_copies b) bin_type_ids item_type_ids with
          | None => None
          | Some s' => xappend_from i cb s' source bin_type_ids item_type_ids rest
          end
      end
  end.
Definition xappend_bins (i : BInstance) (cb : XCallback) (s source : XSolution)
    (bin_type_ids item_type_ids : list nat) : option XSolution :=
  xappend_from i cb s source bin_type_ids item_type_ids (seq 0 (length (xc_bins (xsol_core source)))).

(** Solution::append_empty_bin, solution.cpp:149-158. *)
Definition xappend_empty (i : BInstance) (cb : XCallback) (s : XSolution) (t : nat) (copies : Z)
    : option XSolution :=
  if xin_range i t [] then Some (xpush_bin i cb s (xraw_bin t copies [])) else None.

(** ** SolutionBuilder, solution_builder.cpp *)

(** add_bin, :10-24.  The id is not checked: out of range is undefined. *)
Definition xb_add_bin (i : BInstance) (bins : list XSBin) (t : nat) (copies : Z) : option (list XSBin) :=
  if xin_range i t [] then Some (bins ++ [xraw_bin t copies []]) else None.

(** add_item, :26-64: throws if the position or the item type is out of range
    or if the orientation is not allowed. *)
Definition xb_add_item (i : BInstance) (bins : list XSBin) (bin_pos : nat) (p : BPlace) : option (list XSBin) :=
  if Nat.ltb bin_pos (length bins) && Nat.ltb (bp_type p) (length (bx_items i))
     && can_rotate (bxitem i (bp_type p)) (bp_rot p)
  then Some (upd bin_pos (fun b => mkXSB (xs_type b) (xs_copies b) (xs_items b ++ [p]) (xs_weight b)
                                     (xs_profit b) (xs_resources b)) bins)
  else None.

(** build, :132-143. *)
Definition xb_build (i : BInstance) (cb : XCallback) (bins : list XSBin) : XSolution :=
  fold_left (fun s pos => xupdate i cb pos s) (seq 0 (length bins))
    (mkXS (xwith_bins (xsol_core (xsol_new i)) bins) (xsol_callback_ok (xsol_new i)) (xsol_feasible (xsol_new i))).

Inductive XBuilderCall : Type :=
| XAddBin (t : nat) (copies : Z)
| XAddItem (bin_pos : nat) (p : BPlace).

Definition xb_call (i : BInstance) (bins : list XSBin) (c : XBuilderCall) : option (list XSBin) :=
  match c with
  | XAddBin t copies => xb_add_bin i bins t copies
  | XAddItem pos p => xb_add_item i bins pos p
  end.

Fixpoint xb_run (i : BInstance) (bins : list XSBin) (calls : list XBuilderCall) : option (list XSBin) :=
  match calls with
  | [] => Some bins
  | c :: rest => match xb_call i bins c with Some bins' => xb_run i bins' rest | None => None end
  end.

Inductive XSolutionCall : Type :=
| XAppendBin (source : XSolution) (bin_pos : nat) (copies : Z) (bin_type_ids item_type_ids : list nat)
| XAppendBins (source : XSolution) (bin_type_ids item_type_ids : list nat)
| XAppendEmpty (t : nat) (copies : Z).

Definition xsol_call (i : BInstance) (cb : XCallback) (s : XSolution) (c : XSolutionCall) : option XSolution :=
  match c with
  | XAppendBin source pos copies bids iids => xappend_bin i cb s source pos copies bids iids
  | XAppendBins source bids iids => xappend_bins i cb s source bids iids
  | XAppendEmpty t copies => xappend_empty i cb s t copies
  end.

Fixpoint xsol_run (i : BInstance) (cb : XCallback) (s : XSolution) (calls : list XSolutionCall) : option XSolution :=
  match calls with
  | [] => Some s
  | c :: rest => match xsol_call i cb s c with Some s' => xsol_run i cb s' rest | None => None end
  end.

(** Builder calls, [build], then appends. *)
Definition xhistory (i : BInstance) (cb : XCallback) (calls1 : list XBuilderCall)
    (calls2 : list XSolutionCall) : option XSolution :=
  match xb_run i [] calls1 with
  | None => None
  | Some bins => xsol_run i cb (xb_build i cb bins) calls2
  end.

(** Solution::waste, full_waste, solution.hpp:229-235. *)
Definition xwaste (s : XSolution) : Z := xc_volume (xsol_core s) - xc_item_volume (xsol_core s).
Definition xfull_waste (s : XSolution) : Z := xc_bin_volume (xsol_core s) - xc_item_volume (xsol_core s).

(** Solution::operator<, solution.cpp:160-198.  [None]: logic_error. *)
Definition xsol_lt (i : BInstance) (s1 s2 : XSolution) : option bool :=
  let c1 := xsol_core s1 in
  let c2 := xsol_core s2 in
  if negb (xsol_feasible s2) then Some false
  else if negb (xsol_feasible s1) then Some true
  else match bx_objective i with
  | ODefault =>
      if strictly_lesser_profit (xc_item_profit c2) (xc_item_profit c1) then Some false
      else if strictly_greater_profit (xc_item_profit c2) (xc_item_profit c1) then Some true
      else Some (xwaste s2 <? xwaste s1)
  | OBinPacking => Some (xc_number_of_bins c2 <? xc_number_of_bins c1)
  | OBinPackingWithLeftovers =>
      if negb (xc_number_of_bins c2 =? xc_number_of_bins c1)
      then Some (xc_number_of_bins c2 <? xc_number_of_bins c1)
      else Some (strictly_greater (inject_Z (xc_leftover c2)) (inject_Z (xc_leftover c1)))
  | OOpenDimensionX => Some (v_x (xc_max c2) <? v_x (xc_max c1))
  | OOpenDimensionY => Some (v_y (xc_max c2) <? v_y (xc_max c1))
  | OOpenDimensionZ => Some (v_z (xc_max c2) <? v_z (xc_max c1))
  | OKnapsack => Some (strictly_greater_profit (xc_item_profit c2) (xc_item_profit c1))
  | OFeasibility => Some (strictly_greater_profit (xc_item_profit c2) (xc_item_profit c1))
  | _ => None
  end.
