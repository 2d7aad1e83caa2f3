(** * Model of the onedimensional instance and solution

    [include/packingsolver/onedimensional/instance.hpp],
    [include/packingsolver/onedimensional/solution.hpp],
    [src/onedimensional/solution.cpp], [src/onedimensional/solution_builder.cpp].

    Integers are unbounded, doubles are exact rationals, an infinite weight is
    [None].  Not modelled: item type precedences, fixed items (no builder
    function of this problem type adds any). *)

From Coq Require Import List ZArith QArith Qminmax Bool.
From Verif Require Import Util Common_Model.
Import ListNotations.
Open Scope Z_scope.

(** ** Instance *)

(** ItemType, instance.hpp:36-116.  [it_copies_min] is -1 before [build]. *)
Record ItemType : Type := mkIT {
  it_length : Z;
  it_profit : Q;
  it_copies : Z;
  it_copies_min : Z;
  it_weight : Q;
  it_nesting : Z;
  it_stackability : Z;
  it_max_weight_after : option Q;
  it_eligibility : Z;
  it_resource_ids : list (list nat)
}.

(** BinType, instance.hpp:145-186. *)
Record BinType : Type := mkBT {
  bt_length : Z;
  bt_cost : Q;
  bt_copies : Z;
  bt_copies_min : Z;
  bt_max_weight : option Q;
  bt_eligibility_ids : list Z;
  bt_resources : list Resource;
  bt_item_type_ids : list nat
}.

(** Instance, instance.hpp:213-398. *)
Record Instance : Type := mkInst {
  in_objective : Objective;
  in_item_types : list ItemType;
  in_bin_types : list BinType;
  in_bin_type_ids : list nat;
  in_previous_bins_length : list Z;
  in_bin_length : Z;
  in_largest_bin_cost : Q;
  in_number_of_items : Z;
  in_item_length : Z;
  in_item_profit : Q;
  in_largest_item_profit : Q;
  in_largest_efficiency : option nat;
  in_largest_item_copies : Z;
  in_all_infinite : bool
}.

(** Values returned by the total lookups below when out of range; every use is
    guarded by a range check. *)
Definition dummy_item : ItemType := mkIT 0 0 0 0 0 0 0 None (-1) [].
Definition dummy_bin : BinType := mkBT 0 0 0 0 None [] [] [].
Definition dummy_resource : Resource := mkResource 0 [] false 0.

(** Instance::item_type, instance.hpp:279; Instance::bin_type, :246. *)
Definition item_type (i : Instance) (id : nat) : ItemType := nth id (in_item_types i) dummy_item.
Definition bin_type (i : Instance) (id : nat) : BinType := nth id (in_bin_types i) dummy_bin.

(** [std::find(eligibility_ids, eligibility_id) == end] test of
    solution.cpp:56-64 and instance.cpp:52-62, negated. *)
Definition eligible (it : ItemType) (bt : BinType) : bool :=
  (it_eligibility it =? -1) || existsb (Z.eqb (it_eligibility it)) (bt_eligibility_ids bt).

(** Instance::item_type_fits_bin_type, instance.cpp:47-65. *)
Definition item_type_fits_bin_type (i : Instance) (id bid : nat) : bool :=
  (it_length (item_type i id) <=? bt_length (bin_type i bid))
  && eligible (item_type i id) (bin_type i bid).

(** Instance::fits_some_bin, instance.cpp:35-45. *)
Definition fits_some_bin (i : Instance) (id : nat) : bool :=
  existsb (item_type_fits_bin_type i id) (seq 0 (length (in_bin_types i))).

(** ** Solution *)

(** SolutionItem, solution.hpp:10-17. *)
Record SItem : Type := mkSI { si_type : nat; si_start : Z }.

(** SolutionBin, solution.hpp:22-52. *)
Record SBin : Type := mkSB {
  sb_type : nat;
  sb_copies : Z;
  sb_end : Z;
  sb_weight : Q;
  sb_items : list SItem;
  sb_max_items : Z;
  sb_remaining : option Q;
  sb_resources : list Q
}.

(** Solution, solution.hpp:229-309, without the two flags that the feasibility
    callback may change. *)
Record Core : Type := mkCore {
  c_bins : list SBin;
  c_number_of_bins : Z;
  c_number_of_items : Z;
  c_length : Z;
  c_bin_length : Z;
  c_item_length : Z;
  c_item_profit : Q;
  c_bin_cost : Q;
  c_bin_copies : list Z;
  c_item_copies : list Z;
  c_copies_min_missing : Z;
  c_capacity_ok : bool;
  c_weight_ok : bool;
  c_stackability_ok : bool;
  c_max_weight_after_ok : bool;
  c_item_copies_ok : bool;
  c_bin_type_order_ok : bool;
  c_resource_ok : bool;
  c_eligibility_ok : bool
}.

Record Solution : Type := mkSol {
  s_core : Core;
  s_callback_ok : bool;
  s_feasible : bool
}.

(** The user callback.  Simplification: it cannot observe the two flags being
    computed. *)
Definition Callback : Type := Core -> bool.

(** Number of item types with fewer than [copies_min] copies,
    solution.cpp:151-158. *)
Definition count_copies_min_missing (i : Instance) (item_copies : list Z) : Z :=
  fold_left (fun n id =>
      if nth id item_copies 0 <? it_copies_min (item_type i id) then n + 1 else n)
    (seq 0 (length (in_item_types i))) 0.

(** Constructor, solution.hpp:69-81. *)
Definition sol_new (i : Instance) : Solution :=
  let missing := fold_left (fun n it => if 0 <? it_copies_min it then n + 1 else n)
                   (in_item_types i) 0 in
  mkSol
    (mkCore [] 0 0 0 0 0 0%Q 0%Q
       (repeat 0 (length (in_bin_types i))) (repeat 0 (length (in_item_types i)))
       missing true true true true true true true true)
    true (missing =? 0).

(** Local variables of the loop on the items of a bin (solution.cpp:32-118)
    together with the members the loop updates. *)
Record Loop : Type := mkLoop {
  lo_end : Z;
  lo_weight : Q;
  lo_items : list SItem;
  lo_n : Z;
  lo_max_items : Z;
  lo_remaining : option Q;
  lo_resources : list Q;
  lo_copies_in_bin : list nat;
  lo_number_of_items : Z;
  lo_item_copies : list Z;
  lo_item_length : Z;
  lo_item_profit : Q;
  lo_capacity_ok : bool;
  lo_weight_ok : bool;
  lo_stackability_ok : bool;
  lo_max_weight_after_ok : bool;
  lo_item_copies_ok : bool;
  lo_resource_ok : bool;
  lo_eligibility_ok : bool
}.

(** [w > maximum_weight] with an infinite maximum. *)
Definition exceeds (w : Q) (maximum : option Q) : bool :=
  match maximum with None => false | Some m => Qltb m w end.

(** [std::min] on possibly infinite weights. *)
Definition omin (a b : option Q) : option Q :=
  match a, b with
  | None, _ => b
  | _, None => a
  | Some x, Some y => Some (Qmin x y)
  end.

(** Loop on the resources, solution.cpp:67-88: consumptions, profit and
    feasibility flag. *)
Definition resource_step (bt : BinType) (id copy : nat)
    (st : list Q * Q * bool) (r : nat) : list Q * Q * bool :=
  let '(used, profit, ok) := st in
  let resource := nth r (bt_resources bt) dummy_resource in
  let previous := nth r used 0%Q in
  let current := (previous + item_consumption resource id copy)%Q in
  let used' := upd r (fun _ => current) used in
  if Qltb (res_capacity resource) current then
    if res_penalize resource then
      if Qle_bool previous (res_capacity resource)
      then (used', (profit - res_penalty resource)%Q, ok)
      else (used', profit, ok)
    else (used', profit, false)
  else (used', profit, ok).

(** Body of the loop on the items, solution.cpp:39-118.  [t], [copies] are the
    bin type id and the copies of the bin. *)
Definition item_step (i : Instance) (t : nat) (copies : Z) (lo : Loop) (item : SItem) : Loop :=
  let id := si_type item in
  let it := item_type i id in
  let bt := bin_type i t in
  let start := if 0 <? lo_n lo then lo_end lo - it_nesting it else lo_end lo in
  let end_ := start + it_length it in
  let weight := (lo_weight lo + it_weight it)%Q in
  let '(resources, profit, resource_ok) :=
    fold_left (resource_step bt id (nth id (lo_copies_in_bin lo) 0%nat))
      (nth t (it_resource_ids it) []) (lo_resources lo, lo_item_profit lo, lo_resource_ok lo) in
  let n := lo_n lo + 1 in
  let max_items :=
    if n =? 1 then it_stackability it else Z.min (lo_max_items lo) (it_stackability it) in
  let remaining :=
    if n =? 1 then it_max_weight_after it
    else omin (match lo_remaining lo with None => None | Some w => Some (w - it_weight it)%Q end)
              (it_max_weight_after it) in
  let item_copies := upd id (fun c => c + copies) (lo_item_copies lo) in
  mkLoop end_ weight (lo_items lo ++ [mkSI id start]) n max_items remaining resources
    (upd id S (lo_copies_in_bin lo))
    (lo_number_of_items lo + copies)
    item_copies
    (lo_item_length lo + copies * it_length it)
    (profit + inject_Z copies * it_profit it)%Q
    (if bt_length bt <? end_ then false else lo_capacity_ok lo)
    (if exceeds weight (bt_max_weight bt) then false else lo_weight_ok lo)
    (if max_items <? n then false else lo_stackability_ok lo)
    (match remaining with
     | Some w => if Qltb w 0 then false else lo_max_weight_after_ok lo
     | None => lo_max_weight_after_ok lo
     end)
    (if it_copies it <? nth id item_copies 0 then false else lo_item_copies_ok lo)
    resource_ok
    (if eligible it bt then lo_eligibility_ok lo else false).

(** Bin type order check, solution.cpp:128-148: [false] iff a type before the
    last used one is not used up. *)
Definition last_used (bin_copies : list Z) : Z :=
  fold_left (fun last t => if 0 <? nth t bin_copies 0 then Z.of_nat t else last)
    (seq 0 (length bin_copies)) (-1).

Definition order_ok (i : Instance) (bin_copies : list Z) : bool :=
  forallb (fun t => nth t bin_copies 0 =? bt_copies (bin_type i t))
    (seq 0 (Z.to_nat (last_used bin_copies))).

(** The bin written back by the loop. *)
Definition finish_bin (b : SBin) (lo : Loop) : SBin :=
  mkSB (sb_type b) (sb_copies b) (lo_end lo) (lo_weight lo) (lo_items lo)
    (lo_max_items lo) (lo_remaining lo) (lo_resources lo).

Definition is_bin_packing (o : Objective) : bool :=
  match o with OBinPacking => true | _ => false end.

(** Solution::update_indicators, solution.cpp:21-171. *)
Definition update_indicators (i : Instance) (cb : Callback) (bin_pos : nat) (s : Solution)
    : Solution :=
  let c := s_core s in
  match nth_error (c_bins c) bin_pos with
  | None => s
  | Some b =>
      let t := sb_type b in
      let bt := bin_type i t in
      let bin_copies := upd t (fun n => n + sb_copies b) (c_bin_copies c) in
      let bin_length := c_bin_length c + sb_copies b * bt_length bt in
      let lo0 := mkLoop 0 (sb_weight b) [] 0 (sb_max_items b) (sb_remaining b)
        (repeat 0%Q (length (bt_resources bt)))
        (repeat 0%nat (length (in_item_types i)))
        (c_number_of_items c) (c_item_copies c) (c_item_length c) (c_item_profit c)
        (c_capacity_ok c) (c_weight_ok c) (c_stackability_ok c) (c_max_weight_after_ok c)
        (c_item_copies_ok c) (c_resource_ok c) (c_eligibility_ok c) in
      let lo := fold_left (item_step i t (sb_copies b)) (sb_items b) lo0 in
      let len := match sb_items b with
                 | [] => c_length c
                 | _ => bin_length - bt_length bt + lo_end lo
                 end in
      let bto := if is_bin_packing (in_objective i)
                    && Nat.eqb (bin_pos + 1) (length (c_bins c))
                    && negb (order_ok i bin_copies)
                 then false else c_bin_type_order_ok c in
      let missing := count_copies_min_missing i (lo_item_copies lo) in
      let c' := mkCore (upd bin_pos (fun _ => finish_bin b lo) (c_bins c))
        (c_number_of_bins c + sb_copies b) (lo_number_of_items lo) len bin_length
        (lo_item_length lo) (lo_item_profit lo)
        (c_bin_cost c + inject_Z (sb_copies b) * bt_cost bt)%Q
        bin_copies (lo_item_copies lo) missing
        (lo_capacity_ok lo) (lo_weight_ok lo) (lo_stackability_ok lo)
        (lo_max_weight_after_ok lo) (lo_item_copies_ok lo) bto (lo_resource_ok lo)
        (lo_eligibility_ok lo) in
      let callback_ok := cb c' in
      mkSol c' callback_ok
        (c_capacity_ok c' && c_weight_ok c' && c_stackability_ok c'
         && c_max_weight_after_ok c' && c_item_copies_ok c' && c_resource_ok c'
         && c_eligibility_ok c' && callback_ok && (missing =? 0))
  end.

(** A bin before its indicators are computed ([SolutionBin] initialisers). *)
Definition raw_bin (t : nat) (copies : Z) (items : list SItem) : SBin :=
  mkSB t copies 0 0%Q items (-1) (Some (-1)%Q) [].

(** [bins_.push_back] followed by [update_indicators] of the last bin. *)
Definition push_bin (i : Instance) (cb : Callback) (s : Solution) (b : SBin) : Solution :=
  let c := s_core s in
  let c' := mkCore (c_bins c ++ [b]) (c_number_of_bins c) (c_number_of_items c) (c_length c)
    (c_bin_length c) (c_item_length c) (c_item_profit c) (c_bin_cost c) (c_bin_copies c)
    (c_item_copies c) (c_copies_min_missing c) (c_capacity_ok c) (c_weight_ok c)
    (c_stackability_ok c) (c_max_weight_after_ok c) (c_item_copies_ok c)
    (c_bin_type_order_ok c) (c_resource_ok c) (c_eligibility_ok c) in
  update_indicators i cb (length (c_bins c)) (mkSol c' (s_callback_ok s) (s_feasible s)).

(** Range checks: an out-of-range id is undefined behaviour in the code. *)
Definition in_range (i : Instance) (t : nat) (ids : list nat) : bool :=
  Nat.ltb t (length (in_bin_types i))
  && forallb (fun id => Nat.ltb id (length (in_item_types i))) ids.

(** [item_type_ids.empty()? id : item_type_ids[id]] *)
Definition map_id (ids : list nat) (id : nat) : option nat :=
  match ids with [] => Some id | _ => nth_error ids id end.

Fixpoint map_ids (ids : list nat) (l : list SItem) : option (list SItem) :=
  match l with
  | [] => Some []
  | x :: l' =>
      match map_id ids (si_type x), map_ids ids l' with
      | Some id, Some r => Some (mkSI id (si_start x) :: r)
      | _, _ => None
      end
  end.

(** Solution::append_bin, solution.cpp:173-205.  [None]: exception or
    out-of-range access. *)
Definition append_bin (i : Instance) (cb : Callback) (s : Solution)
    (source : Solution) (bin_pos : nat) (copies : Z)
    (bin_type_ids item_type_ids : list nat) : option Solution :=
  match nth_error (c_bins (s_core source)) bin_pos with
  | None => None
  | Some b =>
      match map_id bin_type_ids (sb_type b), map_ids item_type_ids (sb_items b) with
      | Some t, Some items =>
          if in_range i t (map si_type items)
          then Some (push_bin i cb s (raw_bin t copies items))
          else None
      | _, _ => None
      end
  end.

(** Solution::append_bins, solution.cpp:207-216. *)
Fixpoint append_bins_from (i : Instance) (cb : Callback) (s source : Solution)
    (bin_type_ids item_type_ids : list nat) (positions : list nat) : option Solution :=
  match positions with
  | [] => Some s
  | pos :: rest =>
      match nth_error (c_bins (s_core source)) pos with
      | None => None
      | Some b =>
          match append_bin i cb s source pos (sb_copies b) bin_type_ids item_type_ids with
          | None => None
          | Some s' => append_bins_from i cb s' source bin_type_ids item_type_ids rest
          end
      end
  end.

Definition append_bins (i : Instance) (cb : Callback) (s source : Solution)
    (bin_type_ids item_type_ids : list nat) : option Solution :=
  append_bins_from i cb s source bin_type_ids item_type_ids
    (seq 0 (length (c_bins (s_core source)))).

(** Solution::append_empty_bin, solution.cpp:218-227. *)
Definition append_empty_bin (i : Instance) (cb : Callback) (s : Solution)
    (t : nat) (copies : Z) : option Solution :=
  if in_range i t [] then Some (push_bin i cb s (raw_bin t copies [])) else None.

(** ** SolutionBuilder (solution_builder.cpp) *)

(** SolutionBuilder::add_bin, :10-22: the builder state is the list of bins. *)
Definition sb_add_bin (i : Instance) (bins : list SBin) (t : nat) (copies : Z)
    : option (list SBin) :=
  if in_range i t [] then Some (bins ++ [raw_bin t copies []]) else None.

(** SolutionBuilder::add_item, :25-36.  [None] is the exception or an
    out-of-range item type (undefined behaviour at [build]). *)
Definition sb_add_item (i : Instance) (bins : list SBin) (bin_pos : nat) (id : nat)
    : option (list SBin) :=
  if Nat.ltb bin_pos (length bins) && Nat.ltb id (length (in_item_types i))
  then Some (upd bin_pos
    (fun b => mkSB (sb_type b) (sb_copies b) (sb_end b) (sb_weight b)
       (sb_items b ++ [mkSI id 0]) (sb_max_items b) (sb_remaining b) (sb_resources b)) bins)
  else None.

(** Solution with the given bins and no indicators computed. *)
Definition with_bins (s : Solution) (bins : list SBin) : Solution :=
  let c := s_core s in
  mkSol (mkCore bins (c_number_of_bins c) (c_number_of_items c) (c_length c)
    (c_bin_length c) (c_item_length c) (c_item_profit c) (c_bin_cost c) (c_bin_copies c)
    (c_item_copies c) (c_copies_min_missing c) (c_capacity_ok c) (c_weight_ok c)
    (c_stackability_ok c) (c_max_weight_after_ok c) (c_item_copies_ok c)
    (c_bin_type_order_ok c) (c_resource_ok c) (c_eligibility_ok c))
    (s_callback_ok s) (s_feasible s).

(** SolutionBuilder::build, :131-141. *)
Definition sb_build (i : Instance) (cb : Callback) (bins : list SBin) : Solution :=
  fold_left (fun s pos => update_indicators i cb pos s) (seq 0 (length bins))
    (with_bins (sol_new i) bins).

(** Calls on a solution builder, then on the solution it returns. *)
Inductive BuilderCall : Type :=
| AddBin (t : nat) (copies : Z)
| AddItem (bin_pos id : nat).

Fixpoint sb_run (i : Instance) (bins : list SBin) (calls : list BuilderCall)
    : option (list SBin) :=
  match calls with
  | [] => Some bins
  | AddBin t copies :: rest =>
      match sb_add_bin i bins t copies with
      | Some bins' => sb_run i bins' rest | None => None end
  | AddItem pos id :: rest =>
      match sb_add_item i bins pos id with
      | Some bins' => sb_run i bins' rest | None => None end
  end.

Inductive SolutionCall : Type :=
| AppendBin (source : Solution) (bin_pos : nat) (copies : Z)
    (bin_type_ids item_type_ids : list nat)
| AppendBins (source : Solution) (bin_type_ids item_type_ids : list nat)
| AppendEmptyBin (t : nat) (copies : Z).

Fixpoint sol_run (i : Instance) (cb : Callback) (s : Solution) (calls : list SolutionCall)
    : option Solution :=
  match calls with
  | [] => Some s
  | call :: rest =>
      match (match call with
             | AppendBin source pos copies bids iids => append_bin i cb s source pos copies bids iids
             | AppendBins source bids iids => append_bins i cb s source bids iids
             | AppendEmptyBin t copies => append_empty_bin i cb s t copies
             end) with
      | Some s' => sol_run i cb s' rest
      | None => None
      end
  end.

(** A whole history: builder calls, [build], then appends. *)
Definition history (i : Instance) (cb : Callback)
    (calls1 : list BuilderCall) (calls2 : list SolutionCall) : option Solution :=
  match sb_run i [] calls1 with
  | None => None
  | Some bins => sol_run i cb (sb_build i cb bins) calls2
  end.

(** ** Comparison (solution.cpp:229-262) *)

(** Solution::waste, solution.hpp:176. *)
Definition waste (s : Solution) : Z := c_length (s_core s) - c_item_length (s_core s).

(** Solution::operator<; [None] is the [logic_error] for other objectives. *)
Definition sol_lt (i : Instance) (s1 s2 : Solution) : option bool :=
  if negb (s_feasible s2) then Some false
  else if negb (s_feasible s1) then Some true
  else
    match in_objective i with
    | ODefault =>
        if strictly_lesser_profit (c_item_profit (s_core s2)) (c_item_profit (s_core s1)) then Some false
        else if strictly_greater_profit (c_item_profit (s_core s2)) (c_item_profit (s_core s1)) then Some true
        else Some (waste s2 <? waste s1)
    | OBinPacking => Some (c_number_of_bins (s_core s2) <? c_number_of_bins (s_core s1))
    | OBinPackingWithLeftovers => Some (waste s2 <? waste s1)
    | OKnapsack | OFeasibility =>
        Some (strictly_greater_profit (c_item_profit (s_core s2)) (c_item_profit (s_core s1)))
    | OVariableSizedBinPacking =>
        Some (strictly_lesser_cost (c_bin_cost (s_core s2)) (c_bin_cost (s_core s1)))
    | _ => None
    end.
