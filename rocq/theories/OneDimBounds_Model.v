(** * Model of the cheap bounds of the onedimensional optimize function

    /repo/src/onedimensional/optimize.cpp, lines 24-281: the trivial bounds and
    the dynamic programming for one bin.  The exact knapsack solver
    (knapsacksolver library) and the recursive call of optimize are parameters.
    Doubles are rationals. *)

From Coq Require Import List ZArith QArith Bool.
From Verif Require Import Util Common_Model OneDim_Model OneDimDff_Model.
Import ListNotations.
Open Scope Z_scope.

(** ** Knapsack, :29-95 *)

(** total_capacity, :46-52 *)
Definition total_capacity (i : Instance) : Z :=
  fold_left (fun c bt => c + bt_length bt * bt_copies bt) (in_bin_types i) 0.

(** sorted_item_types before the sort, :53-59 *)
Definition trivial_items (i : Instance) : list nat :=
  filter (fits_some_bin i) (seq 0 (length (in_item_types i))).

(** The comparator of std::sort, :60-71.  The sort itself is not modelled: the
    bound below takes any order, the theorems ask it to be sorted for this
    comparator. *)
Definition trivial_before (i : Instance) (x y : nat) : bool :=
  Qltb (it_profit (item_type i y) * inject_Z (reduced_length (item_type i x)))
       (it_profit (item_type i x) * inject_Z (reduced_length (item_type i y))).

(** The loop, :74-90. *)
Fixpoint trivial_fill (i : Instance) (order : list nat) (remaining : Z) (bound : Q) : Q :=
  match order with
  | [] => bound
  | x :: order' =>
      if remaining <=? 0 then bound
      else
        let it := item_type i x in
        let l := reduced_length it in
        if l <=? 0 then trivial_fill i order' remaining bound
        else if l * it_copies it <=? remaining
        then trivial_fill i order' (remaining - l * it_copies it) (bound + it_profit it * inject_Z (it_copies it))
        else trivial_fill i order' 0 (bound + it_profit it * (inject_Z remaining / inject_Z l))
  end.

(** :72-95 *)
Definition trivial_knapsack_bound (i : Instance) (order : list nat) : Q :=
  (trivial_fill i order (total_capacity i) 0 + instance_negative_penalty_sum i)%Q.

(** ** Bin packing, :98-129 *)

(** The reduced length of all the items, :107-114 and :163-170. *)
Definition items_reduced_length (i : Instance) : Z :=
  fold_left (fun l it => l + it_copies it * reduced_length it) (in_item_types i) 0.

(** The loop on the bin types, :116-128. *)
Fixpoint trivial_bins (bts : list BinType) (remaining bound : Z) : Z :=
  match bts with
  | [] => bound
  | bt :: bts' =>
      if remaining <=? 0 then bound
      else if bt_length bt <=? 0 then trivial_bins bts' remaining bound
      else
        let needed := Z.quot (remaining + bt_length bt - 1) (bt_length bt) in
        let used := Z.min needed (bt_copies bt) in
        trivial_bins bts' (remaining - used * bt_length bt) (bound + used)
  end.
Definition trivial_bin_packing_bound (i : Instance) : Z :=
  trivial_bins (in_bin_types i) (items_reduced_length i) 0.

(** ** Variable-sized bin packing, :133-204 *)

(** :149-161 *)
Definition min_bins_length (i : Instance) : Z :=
  fold_left (fun c bt => c + bt_length bt * bt_copies_min bt) (in_bin_types i) 0.
Definition total_cost (i : Instance) : Q :=
  fold_left (fun c bt => (c + bt_cost bt * inject_Z (bt_copies bt))%Q) (in_bin_types i) 0%Q.
(** :172 *)
Definition kp_capacity (i : Instance) : Z :=
  total_capacity i - min_bins_length i - items_reduced_length i.
(** The knapsack items: the optional copies of the bin types not longer than
    the capacity, :183-195; profit, length, copies. *)
Definition kp_items (i : Instance) : list (Q * Z * Z) :=
  flat_map (fun bt =>
      let optional := bt_copies bt - bt_copies_min bt in
      if (optional <=? 0) || (bt_length bt <=? 0) || (kp_capacity i <? bt_length bt) then []
      else [(bt_cost bt, bt_length bt, optional)])
    (in_bin_types i).
(** The bound, given the profit of the best solution that the recursive call
    returns for the knapsack, :173-178 and :205. *)
Definition trivial_variable_sized_bound (i : Instance) (kp_profit : Q) : Q :=
  if kp_capacity i <=? 0 then total_cost i else (total_cost i - kp_profit)%Q.

(** ** Dynamic programming for one bin, :225-281 *)

(** The copies of an item type split into powers of two, :237-255; the
    iterations are bounded by [fuel], enough when it is the number of copies. *)
Fixpoint split_copies (fuel : nat) (capacity weight max_copies total copies : Z) : list Z :=
  match fuel with
  | O => []
  | S fuel' =>
      if max_copies <=? total then []
      else
        let copies := if max_copies <? total + copies then max_copies - total else copies in
        if capacity <? copies * weight then []
        else copies :: split_copies fuel' capacity weight max_copies (total + copies) (copies * 2)
  end.

(** kp2ps: item type and number of copies of each knapsack item, :233-255. *)
Definition dp_items (i : Instance) : list (nat * Z) :=
  flat_map (fun x =>
      let it := item_type i x in
      map (fun c => (x, c))
        (split_copies (Z.to_nat (it_copies it)) (bt_length (bin_type i 0)) (reduced_length it) (it_copies it) 0 1))
    (bt_item_type_ids (bin_type i 0)).
(** The knapsack instance, :246-252: profits and weights. *)
Definition dp_knapsack (i : Instance) : list (Q * Z) :=
  map (fun p => ((inject_Z (snd p) * it_profit (item_type i (fst p)))%Q, snd p * reduced_length (item_type i (fst p))))
    (dp_items i).

(** The solution built from the selected knapsack items, :264-276. *)
Definition dp_calls (i : Instance) (selected : list bool) : list BuilderCall :=
  AddBin 0 1 ::
  flat_map (fun sp => if fst sp : bool then repeat (AddItem 0 (fst (snd sp))) (Z.to_nat (snd (snd sp))) else [])
    (combine selected (dp_items i)).
Definition dp_solution (i : Instance) (cb : Callback) (solver : list (Q * Z) -> Z -> list bool) : option Solution :=
  history i cb (dp_calls i (solver (dp_knapsack i) (bt_length (bin_type i 0)))) [].
(** What is reported, :278-283: the solution if feasible, and its profit as a
    bound. *)
Definition dp_reports (i : Instance) (cb : Callback) (solver : list (Q * Z) -> Z -> list bool) : option (option Solution * Q) :=
  match dp_solution i cb solver with
  | None => None
  | Some s => Some (if s_feasible s then Some s else None, c_item_profit (s_core s))
  end.
