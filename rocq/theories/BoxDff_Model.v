(** * The box dual feasible functions algorithm
    [src/box/dual_feasible_functions.cpp].

    [None] is an exception or undefined behaviour.  The algorithm formatter
    calls are replaced by the value they receive.  The functions f_ccm_0,
    f_ccm_1, f_ccm_2 (:18-67), greedy_maximum_cardinality (:158-176) and
    dantzig_profit_bound (:82-129) are the same as for the other problem types
    (Dff_Model). *)

From Coq Require Import List ZArith QArith Qminmax Bool.
From Verif Require Import Util Common_Model OneDim_Model Dff_Model OneDimDff_Model Box_Model.
Import ListNotations.
Open Scope Z_scope.

(** std::array of three values, indexed by the axis. *)
Definition tri {A : Type} (x y z : A) (a : Axis) : A := match a with AX => x | AY => y | AZ => z end.

(** possible_axis_values, :140-150; axis_component, :131-134, is [vat]. *)
Definition axis_values (it : BItem) (a : Axis) : list Z :=
  sort_unique (map (fun r => vat (rotate (bi_box it) r) a) (bi_rotations it)).

(** medium_pool_length, :190-202 *)
Definition xmedium_step (k half best v : Z) : Z :=
  if (k <=? v) && (v <=? half) && ((best <? 0) || (v <? best)) then v else best.
Definition xmedium_pool_length (it : BItem) (a : Axis) (k half : Z) : Z :=
  fold_left (xmedium_step k half) (axis_values it a) (-1).

(** compute_axis_tables, :216-305.  Thresholds, :223-259: half the capacity is
    always one of them. *)
Definition xthresholds (its : list BItem) (a : Axis) (capacity : Z) : list Z :=
  sort_unique
    (flat_map (fun it => flat_map (fold_breakpoint capacity) (axis_values it a)) its ++ [Z.quot capacity 2]).

(** big_values, :261-279 *)
Definition xbig_values (its : list BItem) (a : Axis) (capacity : Z) : list Z :=
  sort_unique (flat_map (fun it =>
      filter (fun v => (Z.quot capacity 2 <? v) && (v <=? capacity)) (axis_values it a)) its).

(** pool, :284-294 *)
Definition xpool (its : list BItem) (a : Axis) (capacity k : Z) : list (Z * Z) :=
  sort_pairs (flat_map (fun it =>
      let length := xmedium_pool_length it a k (Z.quot capacity 2) in
      if 0 <=? length then [(length, bi_copies it)] else []) its).

(** One position of the tables: threshold, full_cardinality,
    excluded_cardinality, :284-301. *)
Record XRow : Type := mkXRow { xr_k : Z; xr_full : Z; xr_excluded : list (Z * Z) }.

Definition xrow (its : list BItem) (a : Axis) (capacity k : Z) : option XRow :=
  let pool := xpool its a capacity k in
  let* full := greedy_maximum_cardinality capacity pool in
  let* excluded := mapo (fun big =>
      let* e := greedy_maximum_cardinality (capacity - big) pool in Some (big, e))
    (xbig_values its a capacity) in
  Some (mkXRow k full excluded).

Definition xtables (its : list BItem) (a : Axis) (capacity : Z) : option (list XRow) :=
  mapo (xrow its a capacity) (xthresholds its a capacity).

(** f_ccm_1_axis, :313-336 *)
Definition xf_ccm_1_axis (capacity k length full : Z) (excluded : list (Z * Z)) : option Z :=
  if capacity <=? length then f_ccm_1 capacity k capacity full
  else if Z.quot capacity 2 <? length then
    let* e := map_at excluded length in f_ccm_1 capacity k length (full - e)
  else f_ccm_1 capacity k length 0.

(** eval_axis, :357-374: the length is clamped to the capacity. *)
Definition xeval_axis (family : nat) (capacity : Z) (row : XRow) (length0 : Z) : option Z :=
  let length := Z.min length0 capacity in
  match family with
  | O => Some (f_ccm_0 capacity (xr_k row) length)
  | 1%nat => xf_ccm_1_axis capacity (xr_k row) length (xr_full row) (xr_excluded row)
  | _ => f_ccm_2 capacity (xr_k row) length
  end.

(** Product over the three axes. *)
Definition prod3 (f : Axis -> option Z) : option Z :=
  let* x := f AX in let* y := f AY in let* z := f AZ in Some (x * y * z).

(** The smallest value, -1 if there is none, :376-384. *)
Definition xbest_step (best v : Z) : Z := if (best <? 0) || (v <? best) then v else best.

(** item_coefficient, :349-386 *)
Definition xitem_coefficient (bt : BBin) (rows : Axis -> XRow) (fam : Axis -> nat) (it : BItem) : option Z :=
  let* values := mapo (fun r =>
      prod3 (fun a => xeval_axis (fam a) (vat (bn_box bt) a) (rows a) (vat (rotate (bi_box it) r) a)))
    (bi_rotations it) in
  Some (fold_left xbest_step values (-1)).

(** f_bin, :435-445 *)
Definition xbin_value (family : nat) (capacity : Z) (row : XRow) : option Z :=
  match family with
  | O => Some (f_ccm_0 capacity (xr_k row) capacity)
  | 1%nat => f_ccm_1 capacity (xr_k row) capacity (xr_full row)
  | _ => f_ccm_2 capacity (xr_k row) capacity
  end.

(** One combination: value of the bin, coefficients of the item types. *)
Definition xcombo (its : list BItem) (bt : BBin) (rows : Axis -> XRow) (fam : Axis -> nat) : option (Z * list Z) :=
  let* b := prod3 (fun a => xbin_value (fam a) (vat (bn_box bt) a) (rows a)) in
  let* cs := mapo (xitem_coefficient bt rows fam) its in
  Some (b, cs).

(** The triples (fx, fy, fz), in loop order. *)
Definition xfamilies : list (nat * (nat * nat)) :=
  list_prod [0; 1; 2]%nat (list_prod [0; 1; 2]%nat [0; 1; 2]%nat).

(** All the combinations, :415-533. *)
Definition xcombos (its : list BItem) (bt : BBin) : option (list (Z * list Z)) :=
  let* tx := xtables its AX (v_x (bn_box bt)) in
  let* ty := xtables its AY (v_y (bn_box bt)) in
  let* tz := xtables its AZ (v_z (bn_box bt)) in
  mapo (fun p =>
      let '((rx, (ry, rz)), (fx, (fy, fz))) := p in
      xcombo its bt (tri rx ry rz) (tri fx fy fz))
    (list_prod (list_prod tx (list_prod ty tz)) xfamilies).

(** Bin packing bound of a combination, :519-530. *)
Definition xbound_combo (its : list BItem) (fc : Z * list Z) : list Z :=
  if fst fc <=? 0 then []
  else [ceil_div (zsum (fun p => bi_copies (fst p) * snd p) (combine its (snd fc))) (fst fc)].

(** Items of the Dantzig bound, :87-104. *)
Definition xdantzig_items (i : BInstance) (volumes : list Z) : list DItem :=
  flat_map (fun id =>
      if bfits_some_bin i id
      then [mkDI (bi_profit (bxitem i id)) (nth id volumes 0) (bi_copies (bxitem i id))]
      else [])
    (seq 0 (length (bx_items i))).

(** Knapsack bound of a combination, :503-517. *)
Definition xknapsack_combo (i : BInstance) (fc : Z * list Z) : list Q :=
  if fst fc <=? 0 then []
  else [dantzig_profit_bound (xdantzig_items i (snd fc))
          (inject_Z (fst fc) * inject_Z (bn_copies (bxbin i 0)))].

(** negative_penalty_sum(instance), common.hpp:346-357 *)
Definition xnegative_penalty_sum (i : BInstance) : Q :=
  fold_left (fun sum bt => (sum + inject_Z (bn_copies bt) * negative_penalty_sum (bn_resources bt))%Q)
    (bx_bins i) 0%Q.

(** Instance::number_of_bins *)
Definition xnumber_of_bins (i : BInstance) : Z := zsum bn_copies (bx_bins i).

(** dual_feasible_functions, :390-551 *)
Definition xdual_feasible_functions (i : BInstance) : option DffOutput :=
  if negb (Nat.eqb (length (bx_bins i)) 1) then None else
  let run := xcombos (bx_items i) (bxbin i 0) in
  let bound combos := fold_left Z.max (flat_map (xbound_combo (bx_items i)) combos) 0 in
  match bx_objective i with
  | OBinPacking => let* combos := run in Some (BinPackingBound (bound combos))
  | OFeasibility => let* combos := run in Some (ProvenInfeasible (xnumber_of_bins i <? bound combos))
  | OKnapsack =>
      let* combos := run in
      let b := fold_left min_bound (flat_map (xknapsack_combo i) combos) None in
      Some (KnapsackBound (match b with
        | None => None
        | Some q => Some (q + xnegative_penalty_sum i)%Q end))
  | _ => None
  end.
