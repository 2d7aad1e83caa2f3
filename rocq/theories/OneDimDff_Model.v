(** * The onedimensional dual feasible functions algorithm
    [src/onedimensional/dual_feasible_functions.cpp].  The algorithm formatter
    calls are replaced by the value they receive. *)

From Coq Require Import List ZArith QArith Qminmax Bool.
From Verif Require Import Util Common_Model OneDim_Model Dff_Model.
Import ListNotations.
Open Scope Z_scope.

(** reduced_length, :100-103 *)
Definition reduced_length (it : ItemType) : Z := it_length it - Z.max (it_nesting it) 0.

(** item_coefficient, :109-127 *)
Definition item_coefficient (length : Z) (family : nat) (k capacity full : Z)
    (excluded : list (Z * Z)) : option Z :=
  match family with
  | O => Some (f_ccm_0 capacity k length)
  | 1%nat =>
      if Z.quot capacity 2 <? length then
        let* e := map_at excluded length in f_ccm_1 capacity k length (full - e)
      else f_ccm_1 capacity k length 0
  | _ => f_ccm_2 capacity k length
  end.

(** compute_dual_feasible_functions_tables, :142-218, in three parts. *)
Definition dff_breakpoints (i : Instance) (capacity : Z) : list Z :=
  sort_unique
    (flat_map (fun it => fold_breakpoint capacity (reduced_length it)) (in_item_types i)
     ++ (if 0 <? Z.quot capacity 2 then [Z.quot capacity 2] else [])).

Definition dff_big_values (i : Instance) (capacity : Z) : list Z :=
  sort_unique (filter (fun l => Z.quot capacity 2 <? l) (map reduced_length (in_item_types i))).

Definition dff_pool (i : Instance) (capacity k : Z) : list (Z * Z) :=
  sort_pairs (flat_map (fun it =>
      if (k <=? reduced_length it) && (reduced_length it <=? Z.quot capacity 2)
      then [(reduced_length it, it_copies it)] else [])
    (in_item_types i)).

(** One breakpoint of the sweep, :314-345: for each family, the value of the bin
    and the coefficients of the item types. *)
Definition dff_sweep_k (i : Instance) (capacity k : Z) : option (list (Z * list Z)) :=
  let pool := dff_pool i capacity k in
  let* full := greedy_maximum_cardinality capacity pool in
  let* excluded := mapo (fun big =>
      let* e := greedy_maximum_cardinality (capacity - big) pool in Some (big, e))
    (dff_big_values i capacity) in
  mapo (fun family =>
      let* f_bin := match family with
        | O => Some (f_ccm_0 capacity k capacity)
        | 1%nat => f_ccm_1 capacity k capacity full
        | _ => f_ccm_2 capacity k capacity
        end in
      let* cs := mapo (fun it =>
          item_coefficient (reduced_length it) family k capacity full excluded)
        (in_item_types i) in
      Some (f_bin, cs))
    [0; 1; 2]%nat.

(** Bin packing combination, :360-366; [None]: skipped. *)
Definition bin_packing_combo (i : Instance) (fc : Z * list Z) : list Z :=
  if fst fc <=? 0 then []
  else [ceil_div (zsum (fun p => it_copies (fst p) * snd p) (combine (in_item_types i) (snd fc))) (fst fc)].

(** Items of the Dantzig bound, :238-253. *)
Definition dantzig_items (i : Instance) (volumes : list Z) : list DItem :=
  flat_map (fun id =>
      if fits_some_bin i id
      then [mkDI (it_profit (item_type i id)) (nth id volumes 0) (it_copies (item_type i id))]
      else [])
    (seq 0 (length (in_item_types i))).

(** Knapsack combination, :348-359. *)
Definition knapsack_combo (i : Instance) (fc : Z * list Z) : list Q :=
  if fst fc <=? 0 then []
  else [dantzig_profit_bound (dantzig_items i (snd fc))
          (inject_Z (fst fc) * inject_Z (bt_copies (bin_type i 0)))].

(** negative_penalty_sum(instance), common.hpp:346-357 *)
Definition instance_negative_penalty_sum (i : Instance) : Q :=
  fold_left (fun sum bt => (sum + inject_Z (bt_copies bt) * negative_penalty_sum (bt_resources bt))%Q)
    (in_bin_types i) 0%Q.

(** What the formatter receives.  [None] in [KnapsackBound]: infinity. *)
Inductive DffOutput : Type :=
| BinPackingBound (b : Z)
| ProvenInfeasible (b : bool)
| KnapsackBound (q : option Q).

Definition min_bound (bound : option Q) (q : Q) : option Q :=
  Some (match bound with None => q | Some b => Qmin b q end).

(** dual_feasible_functions, :284-385 *)
Definition dual_feasible_functions (i : Instance) : option DffOutput :=
  if negb (Nat.eqb (length (in_bin_types i)) 1) then None else
  let capacity := bt_length (bin_type i 0) in
  let run := let* r := mapo (dff_sweep_k i capacity) (dff_breakpoints i capacity) in Some (concat r) in
  let bound combos := fold_left Z.max (flat_map (bin_packing_combo i) combos) 0 in
  match in_objective i with
  | OBinPacking => let* combos := run in Some (BinPackingBound (bound combos))
  | OFeasibility =>
      let* combos := run in
      Some (ProvenInfeasible (Z.of_nat (length (in_bin_type_ids i)) <? bound combos))
  | OKnapsack =>
      let* combos := run in
      let b := fold_left min_bound (flat_map (knapsack_combo i) combos) None in
      Some (KnapsackBound (match b with
        | None => None
        | Some q => Some (q + instance_negative_penalty_sum i)%Q end))
  | _ => None
  end.
