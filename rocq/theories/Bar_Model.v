(** * Bar relaxation

    src/rectangle/bar_relaxation.cpp.

    The linear program solved by column generation: unit-height rows and unit-width
    columns of the bins are filled with bars of items.  The rows of the program are
    named by what they stand for instead of by the index at which they are pushed.
    Doubles are exact rationals.  The knapsack solver, the linear programming solver and
    the column generation algorithm are external. *)

From Coq Require Import List ZArith QArith Qround Bool.
From Verif Require Import Util Common_Model OneDim_Model Rect_Model Scale_Model.
Import ListNotations.
Open Scope Z_scope.

(** OrientedVariant, :23-28. *)
Record Variant : Type := mkVar { va_type : nat; va_w : Z; va_h : Z }.
Definition dummy_variant : Variant := mkVar 0 0 0.

Inductive BRow : Type := RowCap (t : nat) | ColCap (t : nat) | Link1 (t v : nat) | Link2 (t v : nat) | ItemRow (x : nat).

(** A column of the program; [None]: no upper bound. *)
Record BCol : Type := mkBC { bc_lower : Q; bc_upper : option Q; bc_obj : Q; bc_terms : list (BRow * Q) }.

Section Bar.
Variable i : RInstance.

(** The variants, :333-342. *)
Definition variants : list Variant :=
  flat_map (fun x => let it := ritem i x in
      mkVar x (ri_x it) (ri_y it) :: (if ri_oriented it then [] else [mkVar x (ri_y it) (ri_x it)]))
    (seq 0 (length (rin_items i))).
Definition variant (v : nat) : Variant := nth v variants dummy_variant.

(** The variants that fit a bin type and may be packed in it, :344-363. *)
Definition eligible_variants (t : nat) : list nat :=
  let bt := rbin i t in
  filter (fun v =>
      let va := variant v in
      let it := ritem i (va_type va) in
      negb ((rb_x bt <? va_w va) || (rb_y bt <? va_h va))
      && ((ri_eligibility it =? -1) || existsb (Z.eqb (ri_eligibility it)) (rb_eligibility_ids bt)))
    (seq 0 (length variants)).

Definition nbins : nat := length (rin_bins i).
Definition qcopies (x : nat) : Q := inject_Z (ri_copies (ritem i x)).

(** The rows with their bounds ([None]: infinite), :380-453. *)
Definition bar_rows : list (BRow * option Q * option Q) :=
  flat_map (fun t =>
      (RowCap t, None, Some 0%Q) :: (ColCap t, None, Some 0%Q)
      :: flat_map (fun v => [(Link1 t v, Some 0%Q, Some 0%Q); (Link2 t v, Some 0%Q, Some 0%Q)]) (eligible_variants t))
    (seq 0 nbins)
  ++ map (fun x => (ItemRow x, Some (inject_Z (ri_copies_min (ritem i x))), Some (qcopies x))) (seq 0 (length (rin_items i))).

Definition knapsack : bool := match rin_objective i with OKnapsack => true | _ => false end.
Definition costs_bins : bool := match rin_objective i with OBinPacking | OVariableSizedBinPacking => true | _ => false end.

(** The static columns, :455-556. *)
Definition k_column (t : nat) : BCol :=
  let bt := rbin i t in
  mkBC (inject_Z (rb_copies_min bt)) (Some (inject_Z (rb_copies bt))) (if costs_bins then rb_cost bt else 0%Q)
    [(RowCap t, - inject_Z (rb_y bt))%Q; (ColCap t, - inject_Z (rb_x bt))%Q].
Definition n_column (t v : nat) : BCol :=
  let va := variant v in
  mkBC 0 (Some (qcopies (va_type va))) (if knapsack then ri_profit (ritem i (va_type va)) else 0%Q)
    [(Link1 t v, - inject_Z (va_h va))%Q; (Link2 t v, - inject_Z (va_w va))%Q; (ItemRow (va_type va), 1%Q)].
Definition static_columns : list BCol :=
  flat_map (fun t => k_column t :: map (n_column t) (eligible_variants t)) (seq 0 nbins).

(** ** Pricing *)

(** Answers of the knapsack solver: whether the bars are rows, the bin type, the
    capacity and the items (with the ids of the variants) to the copies selected. *)
Variable solver : bool -> nat -> Z -> list KItem -> nat -> Z.
Variable duals : BRow -> Q.

(** A bar direction ([true]: rows, of the width of the bin): capacity, row of the
    program that bounds their number, number per bin, length of a variant and row of the
    program that links them with the items. *)
Definition bar_capacity (rows : bool) (t : nat) : Z := if rows then rb_x (rbin i t) else rb_y (rbin i t).
Definition bar_number (rows : bool) (t : nat) : Z := if rows then rb_y (rbin i t) else rb_x (rbin i t).
Definition bar_cap (rows : bool) (t : nat) : BRow := if rows then RowCap t else ColCap t.
Definition bar_link (rows : bool) (t v : nat) : BRow := if rows then Link1 t v else Link2 t v.
Definition bar_length (rows : bool) (v : nat) : Z := if rows then va_w (variant v) else va_h (variant v).

(** Profit of a variant, :124-137. *)
Definition bar_profit (rows : bool) (t v : nat) : Q := if knapsack then (- duals (bar_link rows t v))%Q else duals (bar_link rows t v).

(** The items of the knapsack, :119-150. *)
Definition bar_items (rows : bool) (t : nat) : list KItem :=
  map (fun v => mkKI v (bar_length rows v) (bar_profit rows t v) (ri_copies (ritem i (va_type (variant v)))))
    (filter (fun v => negb (Qle_bool (bar_profit rows t v) 0)) (eligible_variants t)).

(** [selected_copies], :156-172; a bin type without items to select is not solved. *)
Definition bar_selected (rows : bool) (t v : nat) : Z :=
  match bar_items rows t with
  | [] => 0
  | ks => Z.max 0 (solver rows t (bar_capacity rows t) ks v)
  end.

(** [achieved], :157-189. *)
Definition bar_achieved (rows : bool) (t : nat) : Q :=
  qsum (fun k => inject_Z (bar_selected rows t (ki_id k)) * bar_profit rows t (ki_id k))%Q (bar_items rows t).

(** [price_bars], :101-228: reduced cost and column. *)
Definition price_bars (rows : bool) (t : nat) : Q * BCol :=
  ((if knapsack then bar_achieved rows t - duals (bar_cap rows t) else - bar_achieved rows t - duals (bar_cap rows t))%Q,
   mkBC 0 None 0
     ((bar_cap rows t, 1%Q)
      :: map (fun k => (bar_link rows t (ki_id k), inject_Z (bar_selected rows t (ki_id k))))
           (filter (fun k => negb (bar_selected rows t (ki_id k) <=? 0)) (bar_items rows t)))).

(** Part of the overcost, :255-299. *)
Definition bar_overcost (rows : bool) (t : nat) : Q :=
  let r := fst (price_bars rows t) in
  let r := if knapsack then (if Qltb 0 r then r else 0%Q) else (if Qltb r 0 then r else 0%Q) in
  (r * inject_Z (bar_number rows t) * inject_Z (rb_copies (rbin i t)))%Q.

(** [solve_pricing], :230-304. *)
Definition priced_bins : list nat :=
  filter (fun t => negb ((rb_copies (rbin i t) <=? 0) || match eligible_variants t with [] => true | _ => false end)) (seq 0 nbins).
Definition bar_pricing : list BCol * Q :=
  (flat_map (fun t => [snd (price_bars true t); snd (price_bars false t)]) priced_bins,
   qsum (fun t => bar_overcost true t + bar_overcost false t)%Q priced_bins).
End Bar.

(** ** Claims *)

(** A bound of the column generation solver. *)
Inductive CgBound : Type := CgMinusInf | CgFinite (b : Q) | CgPlusInf.

(** What is given to the algorithm formatter. *)
Inductive BarClaim : Type := BarInfeasible | BarProfit (b : Q) | BarCost (b : Q) | BarBins (n : Z) | BarNothing | BarUndefined.

(** negative_penalty_sum, include/packingsolver/algorithms/common.hpp:330-357. *)
Definition negative_penalties (rs : list Resource) : Q :=
  qsum (fun r => if res_penalize r && Qltb (res_penalty r) 0 then (- res_penalty r)%Q else 0%Q) rs.
Definition negative_penalty_sum (i : RInstance) : Q :=
  qsum (fun bt => inject_Z (rb_copies bt) * negative_penalties (rb_resources bt))%Q (rin_bins i).

(** [new_bound_callback], :573-623.  A bound that is infinite on the side of no
    information is not passed on (the update ignores it); for bin packing its conversion
    to an integer is undefined. *)
Definition bar_claim (i : RInstance) (bound : CgBound) : BarClaim :=
  match rin_objective i, bound with
  | OKnapsack, CgMinusInf => BarInfeasible
  | OKnapsack, CgFinite b => BarProfit (b + negative_penalty_sum i)
  | OKnapsack, CgPlusInf => BarNothing
  | _, CgPlusInf => BarInfeasible
  | OFeasibility, _ => BarNothing
  | OVariableSizedBinPacking, CgFinite b => BarCost b
  | OVariableSizedBinPacking, CgMinusInf => BarNothing
  | OBinPacking, CgFinite b => BarBins (Qceiling (b / rb_cost (rbin i 0) - (1 # 1000)))
  | _, _ => BarUndefined
  end.

(** The conditions at the start of [bar_relaxation], :312-323: otherwise
    invalid_argument. *)
Definition bar_accepts (i : RInstance) : bool :=
  match rin_objective i with
  | OKnapsack | OFeasibility | OVariableSizedBinPacking => true
  | OBinPacking => (length (rin_bins i) =? 1)%nat
  | _ => false
  end.
