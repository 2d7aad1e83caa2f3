(** * Model of the assignment MILP of the onedimensional solver

    [src/onedimensional/milp_assignment.cpp]: the model built, the warm start,
    the solution read back, the bounds on the number of bins of each type, the
    claims made from the answer of the MILP solver and the sequential
    feasibility loop.

    Simplifications.  The variables of the C++ model are columns numbered in
    the order of their creation; here they are named ([MVar]), and the rows are
    grouped by kind instead of following the C++ order.  Bin type bounds are
    natural numbers, doubles are exact rationals.  The MILP solver (HiGHS), the
    nested calls to [optimize] and the timer are parameters. *)

From Coq Require Import List ZArith QArith Qround Bool Lia.
From Verif Require Import Util Common_Model OneDim_Model.
Import ListNotations.
Open Scope Z_scope.

(** Columns, milp_assignment.cpp:139-192: [VY t k] bin [k] of type [t] is used,
    [VX x t k c] at least [c + 1] copies of item type [x] are in it,
    [VPsi t r k] its penalised resource [r] is exceeded (:454-459), [VZ p] the
    indicator of precedence [p] (:960-965). *)
Inductive MVar : Type :=
| VY (t k : nat)
| VX (x t k c : nat)
| VPsi (t r k : nat)
| VZ (p : nat).

(** A binary column: lower bound (the upper bound is 1), objective. *)
Record MCol : Type := mkCol { col_var : MVar; col_lower : Q; col_obj : Q }.

(** A row; [None] is an infinite bound. *)
Record MRow : Type := mkRow { row_terms : list (MVar * Q); row_lower : option Q; row_upper : option Q }.

Record Milp : Type := mkMilp { m_maximize : bool; m_cols : list MCol; m_rows : list MRow }.

Section Build.

Variable i : Instance.
(** Instance::precedences: (dominated, dominating). *)
Variable prec : list (nat * nat).
(** [bin_type_upper_bounds]. *)
Variable ub : list nat.
(** [multiplier_length], [multiplier_profit]. *)
Variables ml mp : Q.

Let ni := length (in_item_types i).
Let nb := length (in_bin_types i).
Let it x := item_type i x.
Let bt t := bin_type i t.
Let fits x t := item_type_fits_bin_type i x t.

(** [is_knapsack], [is_bin_packing], [needs_y], :498-508. *)
Definition is_knapsack : bool := match in_objective i with OKnapsack => true | _ => false end.
Definition is_bin_packing : bool := match in_objective i with OBinPacking => true | _ => false end.
Definition needs_y : bool :=
  match in_objective i with OVariableSizedBinPacking | OBinPacking => true | _ => false end.

Definition ub_of (t : nat) : nat := nth t ub 0%nat.

(** [item_copies_bound], :540-560. *)
Definition copies_bound (x t : nat) : Z :=
  if fits x t then Z.min (it_copies (it x)) (Z.quot (bt_length (bt t)) (it_length (it x))) else 0.

(** The comparator of [item_type_order], :637-645. *)
Definition order_less (x y : nat) : bool :=
  if negb (it_copies (it x) =? it_copies (it y)) then it_copies (it x) <? it_copies (it y) else (x <? y)%nat.

(** [std::sort], :634-646, as an insertion sort: the comparator is a total
    order on distinct item types, so every sort gives the same result. *)
Fixpoint order_insert (x : nat) (l : list nat) : list nat :=
  match l with
  | [] => [x]
  | y :: l' => if order_less x y then x :: l else y :: order_insert x l'
  end.
Definition item_type_order : list nat := fold_right order_insert [] (seq 0 ni).

(** [item_cumulative_supply] of an item type, :653-663; [acc] is
    [cumulative_supply]. *)
Fixpoint supply_walk (t x : nat) (l : list nat) (acc : Z) : Z :=
  match l with
  | [] => 0
  | y :: l' =>
      if fits y t then
        let acc' := acc + it_copies (it y) in
        if Nat.eqb y x then acc' else supply_walk t x l' acc'
      else supply_walk t x l' acc
  end.
Definition cumulative_supply (x t : nat) : Z := supply_walk t x item_type_order 0.

(** Number of columns [VX x t k _], :681-686. *)
Definition slots (x t k : nat) : nat :=
  if fits x t
  then Z.to_nat (Z.min (copies_bound x t) (Z.max 0 (cumulative_supply x t - Z.of_nat k)))
  else 0%nat.

(** ** Columns *)

(** :571-597. *)
Definition y_cols : list MCol :=
  if needs_y then
    flat_map (fun t => map (fun k =>
      mkCol (VY t k) (if Z.of_nat k <? bt_copies_min (bt t) then 1%Q else 0%Q)
        (if is_bin_packing then 1%Q else bt_cost (bt t))) (seq 0 (ub_of t))) (seq 0 nb)
  else [].

(** :665-697. *)
Definition x_cols : list MCol :=
  flat_map (fun x => flat_map (fun t => flat_map (fun k => map (fun c =>
      mkCol (VX x t k c) 0 (if is_knapsack then (it_profit (it x) / mp)%Q else 0%Q))
    (seq 0 (slots x t k))) (seq 0 (ub_of t))) (seq 0 nb)) (seq 0 ni).

(** ** Rows *)

(** The columns of an item type in a bin. *)
Definition bin_slots (x t k : nat) : list MVar := map (VX x t k) (seq 0 (slots x t k)).

(** All the columns of an item type. *)
Definition all_slots (x : nat) : list MVar :=
  flat_map (fun t => flat_map (fun k => bin_slots x t k) (seq 0 (ub_of t))) (seq 0 nb).

(** Dominated copies, :702-728. *)
Definition copy_rows : list MRow :=
  flat_map (fun x => flat_map (fun t => flat_map (fun k => map (fun c =>
      mkRow [(VX x t k c, 1%Q); (VX x t k (S c), (-1)%Q)] (Some 0%Q) None)
    (seq 0 (slots x t k - 1))) (seq 0 (ub_of t))) (seq 0 nb)) (seq 0 ni).

(** Demand, :735-758. *)
Definition demand_rows : list MRow :=
  map (fun x => mkRow (map (fun v => (v, 1%Q)) (all_slots x))
    (Some (inject_Z (it_copies_min (it x)))) (Some (inject_Z (it_copies (it x))))) (seq 0 ni).

(** The end of a capacity row, :766-779. *)
Definition capacity_row (t k : nat) (terms : list (MVar * Q)) (capacity : Q) : MRow :=
  if needs_y then mkRow (terms ++ [(VY t k, - capacity)%Q]) None (Some 0%Q)
  else mkRow terms None (Some capacity).

(** Length capacity, :764-780. *)
Definition length_terms (t k : nat) : list (MVar * Q) :=
  flat_map (fun x => map (fun v => (v, (inject_Z (it_length (it x)) / ml)%Q)) (bin_slots x t k)) (seq 0 ni).
Definition length_rows : list MRow :=
  flat_map (fun t => map (fun k =>
    capacity_row t k (length_terms t k) (inject_Z (bt_length (bt t)) / ml)%Q) (seq 0 (ub_of t))) (seq 0 nb).

(** Weight capacity, :787-826. *)
Definition weight_terms (t k : nat) : list (MVar * Q) :=
  flat_map (fun x => if Qeq_bool (it_weight (it x)) 0 then [] else
    map (fun v => (v, it_weight (it x))) (bin_slots x t k)) (seq 0 ni).
Definition weight_rows : list MRow :=
  flat_map (fun t =>
    match bt_max_weight (bt t) with
    | None => []
    | Some w => map (fun k => capacity_row t k (weight_terms t k) w) (seq 0 (ub_of t))
    end) (seq 0 nb).

(** Resource capacity, :848-903, without the penalised resources. *)
Definition resource_terms (r : Resource) (t k : nat) : list (MVar * Q) :=
  flat_map (fun x => flat_map (fun c =>
      if Qeq_bool (item_consumption r x c) 0 then [] else [(VX x t k c, item_consumption r x c)])
    (seq 0 (slots x t k))) (seq 0 ni).
Definition resource_rows : list MRow :=
  flat_map (fun t => flat_map (fun r =>
      if res_penalize r then [] else
      map (fun k => capacity_row t k (resource_terms r t k) (res_capacity r)) (seq 0 (ub_of t)))
    (bt_resources (bt t))) (seq 0 nb).

(** ** Penalised resources, add_penalize_resource_constraints, :392-485 *)

(** while (threshold <= copies_bound && consumption == 1) ++threshold, :428-433.
    [fuel] is the number of iterations left; [copies + 2] are enough. *)
Fixpoint threshold_loop (fuel : nat) (r : Resource) (x : nat) (threshold : nat) : nat :=
  match fuel with
  | O => threshold
  | S fuel' =>
      if (Z.of_nat threshold <=? it_copies (it x)) && Qeq_bool (item_consumption r x threshold) 1
      then threshold_loop fuel' r x (S threshold) else threshold
  end.
Definition threshold (r : Resource) (x : nat) : nat :=
  threshold_loop (S (S (Z.to_nat (it_copies (it x))))) r x 0.

(** [resource_units], :414-447; [None] is the exception. *)
Fixpoint resource_units (r : Resource) (xs : list nat) : option (list (nat * nat)) :=
  match xs with
  | [] => Some []
  | x :: xs' =>
      if Qeq_bool (item_consumption r x 0) 0 then resource_units r xs'
      else if negb (Qeq_bool (item_consumption r x (threshold r x)) 0) then None
      else match resource_units r xs' with
           | None => None
           | Some us => Some (map (fun c => (x, c)) (seq 0 (threshold r x)) ++ us)
           end
  end.

(** [presence_variable_ids] without the -1, :452-467. *)
Definition presence (t k : nat) (us : list (nat * nat)) : list MVar :=
  flat_map (fun u => if (snd u <? slots (fst u) t k)%nat then [VX (fst u) t k (snd u)] else []) us.

(** Pairs of a list, in order, :477-481. *)
Fixpoint pairs {A : Type} (l : list A) : list (A * A) :=
  match l with
  | [] => []
  | a :: l' => map (pair a) l' ++ pairs l'
  end.

(** Columns and rows of one penalised resource, :448-485. *)
Definition penalize_part (t r : nat) (resource : Resource) (us : list (nat * nat)) : list MCol * list MRow :=
  if (length us <? 2)%nat then ([], [])
  else (map (fun k => mkCol (VPsi t r k) 0 (- res_penalty resource / mp)%Q) (seq 0 (ub_of t)),
        flat_map (fun k => map (fun ab =>
            mkRow [(fst ab, 1%Q); (snd ab, 1%Q); (VPsi t r k, (-1)%Q)] None (Some 1%Q))
          (pairs (presence t k us))) (seq 0 (ub_of t))).

(** The penalised resources of a bin type from position [r] on. *)
Fixpoint penalize_bin (t r : nat) (rs : list Resource) : option (list MCol * list MRow) :=
  match rs with
  | [] => Some ([], [])
  | resource :: rs' =>
      match penalize_bin t (S r) rs' with
      | None => None
      | Some (cols, rows) =>
          if res_penalize resource then
            if negb (Qeq_bool (res_capacity resource) 1) then None else
            match resource_units resource (seq 0 ni) with
            | None => None
            | Some us =>
                let p := penalize_part t r resource us in
                Some (fst p ++ cols, snd p ++ rows)
            end
          else Some (cols, rows)
      end
  end.

(** All the penalised resources (Knapsack only), :853-868. *)
Fixpoint penalize_all (ts : list nat) : option (list MCol * list MRow) :=
  match ts with
  | [] => Some ([], [])
  | t :: ts' =>
      match penalize_bin t 0 (bt_resources (bt t)), penalize_all ts' with
      | Some (c1, r1), Some (c2, r2) => Some (c1 ++ c2, r1 ++ r2)
      | _, _ => None
      end
  end.
Definition penalize_model : option (list MCol * list MRow) :=
  if is_knapsack then penalize_all (seq 0 nb) else Some ([], []).

(** ** Precedences, :934-1024 *)

(** [single_bin], [single_bin_type_id], :935-946. *)
Definition single_bin : bool := (length (in_bin_type_ids i) <=? 1)%nat.
Definition single_bin_type : option nat := find (fun t => (0 <? ub_of t)%nat) (seq 0 nb).

(** :954-982; the outer [None] is [back()] on an empty vector (undefined). *)
Definition single_precedence (dominated dominating : nat) : option (list MRow) :=
  match single_bin_type with
  | None => Some []
  | Some t =>
      if negb (fits dominated t) || negb (fits dominating t) then Some []
      else match slots dominating t 0 with
           | O => None
           | S c => Some [mkRow (map (fun v => (v, 1%Q)) (bin_slots dominated t 0)
                           ++ [(VX dominating t 0 c, - inject_Z (it_copies (it dominated)))%Q]) None (Some 0%Q)]
           end
  end.

(** :985-1024. *)
Definition multiple_precedence (p dominated dominating : nat) : list MRow :=
  [mkRow (map (fun v => (v, 1%Q)) (all_slots dominating)
      ++ [(VZ p, - inject_Z (it_copies (it dominating)))%Q]) (Some 0%Q) None;
   mkRow (map (fun v => (v, 1%Q)) (all_slots dominated)
      ++ [(VZ p, - inject_Z (it_copies (it dominated)))%Q]) None (Some 0%Q)].

Fixpoint precedence_model (p : nat) (ps : list (nat * nat)) : option (list MCol * list MRow) :=
  match ps with
  | [] => Some ([], [])
  | (dominated, dominating) :: ps' =>
      match precedence_model (S p) ps' with
      | None => None
      | Some (cols, rows) =>
          if single_bin then
            match single_precedence dominated dominating with
            | None => None
            | Some rows' => Some (cols, rows' ++ rows)
            end
          else Some (mkCol (VZ p) 0 0 :: cols, multiple_precedence p dominated dominating ++ rows)
      end
  end.

(** ** Order of the bins, :1026-1095 *)

Fixpoint chain_rows (l : list MVar) : list MRow :=
  match l with
  | a :: ((b :: _) as l') => mkRow [(a, 1%Q); (b, (-1)%Q)] (Some 0%Q) None :: chain_rows l'
  | _ => []
  end.
Definition type_ys (t : nat) : list MVar := map (VY t) (seq 0 (ub_of t)).
Definition order_rows : list MRow :=
  if negb needs_y then []
  else if is_bin_packing then chain_rows (flat_map type_ys (seq 0 nb))
  else flat_map (fun t => chain_rows (type_ys t)) (seq 0 nb).

(** build_milp_model, :493-1115, without the warm start.  [None]: an integer
    division by zero (:556), [back()] on an empty vector (:968) or the
    exceptions of the penalised resources. *)
Definition divides_by_zero : bool :=
  existsb (fun x => (it_length (it x) =? 0) && existsb (fits x) (seq 0 nb)) (seq 0 ni).
Definition build_model : option Milp :=
  if divides_by_zero then None else
  match penalize_model, precedence_model 0 prec with
  | Some (c1, r1), Some (c2, r2) =>
      Some (mkMilp is_knapsack (y_cols ++ x_cols ++ c1 ++ c2)
        (copy_rows ++ demand_rows ++ length_rows ++ weight_rows ++ resource_rows ++ r1 ++ r2 ++ order_rows))
  | _, _ => None
  end.

(** ** Reading a solution back, retrieve_solution, :1118-1205 *)

(** [copies] of an item type, :1143-1147. *)
Definition chosen_copies (v : MVar -> Q) (x t k : nat) : nat :=
  length (filter (fun c => Qltb (1 # 2) (v (VX x t k c))) (seq 0 (slots x t k))).

(** The items of a bin, in the order in which they are added. *)
Definition chosen_items (v : MVar -> Q) (t k : nat) : list nat :=
  flat_map (fun x => repeat x (chosen_copies v x t k)) (seq 0 ni).

(** The bin is skipped, :1131-1132 and :1152-1154. *)
Definition skipped (v : MVar -> Q) (t k : nat) : bool :=
  if needs_y then Qltb (v (VY t k)) (1 # 2)
  else match chosen_items v t k with [] => true | _ => false end.

(** The bins added, with their items. *)
Definition chosen_bins (v : MVar -> Q) : list (nat * list nat) :=
  flat_map (fun t => flat_map (fun k => if skipped v t k then [] else [(t, chosen_items v t k)])
    (seq 0 (ub_of t))) (seq 0 nb).

(** [add_bin] and [add_item] calls, :1156-1160. *)
Fixpoint bin_calls (pos : nat) (bs : list (nat * list nat)) : list BuilderCall :=
  match bs with
  | [] => []
  | (t, items) :: bs' => AddBin t 1 :: map (AddItem pos) items ++ bin_calls (S pos) bs'
  end.

(** The checks, :1165-1202. *)
Definition retrieve_checks (s : Solution) : bool :=
  let c := s_core s in
  c_item_copies_ok c && (is_knapsack || (c_number_of_items c =? in_number_of_items i))
  && c_capacity_ok c && c_weight_ok c && c_resource_ok c && c_eligibility_ok c && c_bin_type_order_ok c.

(** [None] is the exception. *)
Definition retrieve (cb : Callback) (v : MVar -> Q) : option Solution :=
  match history i cb (bin_calls 0 (chosen_bins v)) [] with
  | None => None
  | Some s => if retrieve_checks s then Some s else None
  end.

(** ** Warm start, build_initial_solution, :206-353 *)

(** BinSortKey, :247-253: item type and number of copies of it; [None] is
    [empty]. *)
Definition sort_key (items : list nat) : option (nat * nat) :=
  fold_left (fun key x =>
      let n := count_occ Nat.eq_dec items x in
      if Nat.eqb n 0 then key
      else match key with
           | None => Some (x, n)
           | Some (y, m) =>
               if (it_copies (it x) <? it_copies (it y)) || ((it_copies (it x) =? it_copies (it y)) && (x <? y)%nat)
               then Some (x, n) else key
           end) (seq 0 ni) None.

(** The comparator, :302-315. *)
Definition key_less (k1 k2 : option (nat * nat)) : bool :=
  match k1, k2 with
  | Some _, None => true
  | None, _ => false
  | Some (x, n), Some (y, m) =>
      if negb (it_copies (it x) =? it_copies (it y)) then it_copies (it x) <? it_copies (it y)
      else if negb (Nat.eqb x y) then (x <? y)%nat
      else (m <? n)%nat
  end.

(** [std::stable_sort], :298-316, as a stable insertion sort. *)
Fixpoint load_insert (l : list nat) (ls : list (list nat)) : list (list nat) :=
  match ls with
  | [] => [l]
  | m :: ls' => if key_less (sort_key m) (sort_key l) then m :: load_insert l ls' else l :: ls
  end.
Definition load_sort (ls : list (list nat)) : list (list nat) := fold_right load_insert [] ls.

(** One entry per physical bin of a type, :286-296. *)
Definition type_loads (bins : list (nat * Z * list nat)) (t : nat) : list (list nat) :=
  flat_map (fun b => if Nat.eqb (fst (fst b)) t then repeat (snd b) (Z.to_nat (snd (fst b))) else []) bins.

(** The values set for sorted loads, :318-351. *)
Definition loads_point (loads : nat -> list (list nat)) (v : MVar) : Q :=
  match v with
  | VY t k => if (k <? length (loads t))%nat then 1%Q else 0%Q
  | VX x t k c => if (c <? count_occ Nat.eq_dec (nth k (loads t) []) x)%nat then 1%Q else 0%Q
  | VPsi _ _ _ | VZ _ => 0%Q
  end.

(** What [build_initial_solution] reads of a solution: the bins (type, copies,
    items). *)
Definition solution_bins (s : Solution) : list (nat * Z * list nat) :=
  map (fun b => (sb_type b, sb_copies b, map si_type (sb_items b))) (c_bins (s_core s)).

(** The checks of :212-237. *)
Definition warm_checks (s : Solution) : bool :=
  forallb (fun t =>
      let n := zsum (fun b => if Nat.eqb (fst (fst b)) t then snd (fst b) else 0) (solution_bins s) in
      (n <=? bt_copies (bt t)) && (bt_copies_min (bt t) <=? n) && (n <=? Z.of_nat (ub_of t))) (seq 0 nb)
  && forallb (fun x => it_copies_min (it x) <=? nth x (c_item_copies (s_core s)) 0) (seq 0 ni).

Definition warm_start (s : Solution) : option (MVar -> Q) :=
  if warm_checks s
  then Some (loads_point (fun t => load_sort (type_loads (solution_bins s) t)))
  else None.

End Build.

(** ** Bounds on the number of bins of each type *)

Section Bounds.

Variable i : Instance.

(** The sub-solve of compute_bin_instance_upper_bound, :43-130: the number of
    bins of its best solution, or [None] when it is not full.  [None] result of
    the whole function: no item type fits. *)
Definition instance_upper_bound (sub : nat -> option nat) (t : nat) : nat :=
  let items := filter (fun x => item_type_fits_bin_type i x t) (seq 0 (length (in_item_types i))) in
  match items with
  | [] => 0%nat
  | _ =>
      let copies := bt_copies (bin_type i t) in
      match sub t with
      | None =>
          if negb (copies =? -1) then Z.to_nat copies
          else Z.to_nat (zsum (fun x => it_copies (item_type i x)) items)
      | Some n => if negb (copies =? -1) then Nat.min n (Z.to_nat copies) else n
      end
  end.

(** :1216-1236, when the timer does not end. *)
Definition vsbp_upper_bounds (sub : nat -> option nat) : list nat :=
  map (instance_upper_bound sub) (seq 0 (length (in_bin_types i))).

(** :1264-1302: the copies, or the bins of a full solution. *)
Definition copies_upper_bounds : list nat :=
  map (fun b => Z.to_nat (bt_copies b)) (in_bin_types i).
Definition solution_counts (bins : list (nat * Z * list nat)) : list nat :=
  map (fun t => Z.to_nat (zsum (fun b => if Nat.eqb (fst (fst b)) t then snd (fst b) else 0) bins))
    (seq 0 (length (in_bin_types i))).
Definition bin_packing_upper_bounds (best : Solution) : list nat :=
  if c_number_of_items (s_core best) =? in_number_of_items i
  then solution_counts (solution_bins best) else copies_upper_bounds.

(** compute_bin_type_upper_bounds, :1310-1333. *)
Definition upper_bounds (sub : nat -> option nat) (best : Solution) : list nat :=
  match in_objective i with
  | OVariableSizedBinPacking => vsbp_upper_bounds sub
  | OBinPacking => bin_packing_upper_bounds best
  | _ => copies_upper_bounds
  end.

(** Mandatory item type without a bin it fits in, :1484-1510. *)
Definition trivially_infeasible (ub : list nat) : bool :=
  existsb (fun x =>
      negb (it_copies_min (item_type i x) =? 0)
      && negb (existsb (fun t => (0 <? nth t ub 0%nat)%nat && item_type_fits_bin_type i x t)
                 (seq 0 (length (in_bin_types i)))))
    (seq 0 (length (in_item_types i))).

(** ** Claims *)

Inductive MilpClaim : Type :=
| CostBound (b : Q)
| ProfitBound (b : Q)
| BinsBound (n : Z)
| NoClaim
| Infeasible.

(** Answer of the MILP solver: a dual bound (from the callback or at the end),
    or infeasible. *)
Inductive MilpAnswer : Type :=
| DualBound (b : Q)
| ProvenInfeasible.

(** The updates of the bounds, :1558-1578 and :1622-1660; [eps] is 0.001 in the
    callback and 1e-6 at the end. *)
Definition milp_claim (mp eps : Q) (a : MilpAnswer) : MilpClaim :=
  match a with
  | ProvenInfeasible => Infeasible
  | DualBound b =>
      match in_objective i with
      | OVariableSizedBinPacking => CostBound b
      | OKnapsack => ProfitBound (b * mp)%Q
      | OBinPacking => BinsBound (Qceiling (b - eps)%Q)
      | _ => NoClaim
      end
  end.

(** ** Sequential feasibility, :1419-1482 *)

(** Copies of the bin types of the sub-instance with the first bins,
    build_sequential_feasibility_sub_instance, :1350-1370: the bin types stop
    when no bin remains. *)
Fixpoint first_bins (bts : list BinType) (remaining : Z) : list Z :=
  match bts with
  | [] => []
  | b :: bts' =>
      if remaining <=? 0 then []
      else
        let copies := if bt_copies b =? -1 then remaining else Z.min (bt_copies b) remaining in
        copies :: first_bins bts' (remaining - copies)
  end.

(** Answer of the nested call for a number of bins. *)
Inductive SubAnswer : Type :=
| SubFeasible (s : Solution)
| SubInfeasible
| SubInconclusive.

(** The loop: [n] is [number_of_bins], [fuel] the number of candidates left,
    [bound] is [output.bin_packing_bound].  Returns the bound and the solution
    of the sub-instance that ends the loop. *)
Fixpoint sequential_loop (sub : Z -> SubAnswer) (fuel : nat) (n bound : Z) : Z * option Solution :=
  match fuel with
  | O => (bound, None)
  | S fuel' =>
      match sub n with
      | SubFeasible s => (bound, Some s)
      | SubInfeasible => sequential_loop sub fuel' (n + 1) (Z.max bound (n + 1))
      | SubInconclusive => sequential_loop sub fuel' (n + 1) bound
      end
  end.

(** :1421-1435: from the best of the two bounds to the number of bins. *)
Definition sequential_feasibility (sub : Z -> SubAnswer) (lower bound : Z) : Z * option Solution :=
  let start := Z.max bound lower in
  let available := zsum bt_copies (in_bin_types i) in
  sequential_loop sub (Z.to_nat (available - start + 1)) start bound.

End Bounds.
