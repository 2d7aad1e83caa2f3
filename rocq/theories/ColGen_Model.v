(** * The column generation template

    src/algorithms/column_generation.hpp: the rows of the master, the pricing
    solver (sub-problems, columns, bound on the reduced costs), the cap on the
    number of bins and the subset-row cuts.

    The template only looks at an instance through costs, profits and numbers of
    copies, and at a bin of a solution through its type and its items: a pattern
    is a bin type with the list of its items.  The linear programming solver, the
    search of columngenerationsolver and the solver of the sub-problems are
    external: they appear as arbitrary values and functions.  Doubles are exact
    rationals.  The multipliers (a power of two below the largest cost or profit,
    property C07) are any numbers.  Bin types carry no penalised resource of
    their own. *)

From Coq Require Import List ZArith QArith Qround Bool Lia.
From Verif Require Import Util Common_Model OneDim_Model.
Import ListNotations.
Open Scope Z_scope.

(** ** Instances and columns *)

Record CBin : Type := mkCB { cb_cost : Q; cb_copies : Z; cb_copies_min : Z; cb_fixed : list nat }.
Record CItem : Type := mkCI { ci_profit : Q; ci_copies : Z; ci_copies_min : Z; ci_copies_fixed : Z }.
Record CInst : Type := mkCN {
  cn_objective : Objective;
  cn_bins : list CBin;
  cn_items : list CItem;
  cn_mult_cost : Q;
  cn_mult_profit : Q
}.
Definition cbin (i : CInst) (t : nat) : CBin := nth t (cn_bins i) (mkCB 0 0 0 []).
Definition citem (i : CInst) (x : nat) : CItem := nth x (cn_items i) (mkCI 0 0 0 0).
Definition cnb (i : CInst) : nat := length (cn_bins i).
Definition cni (i : CInst) : nat := length (cn_items i).
Definition cnumber_of_items (i : CInst) : Z := zsum ci_copies (cn_items i).
Definition cnumber_of_bins (i : CInst) : Z := zsum cb_copies (cn_bins i).

(** The number of copies of an item type in a list of items. *)
Definition occ (l : list nat) (x : nat) : Z := Z.of_nat (count_occ Nat.eq_dec l x).

(** columngenerationsolver::Column: the objective coefficient, the terms (row,
    coefficient), and the packed bin kept in [extra]. *)
Record CCol : Type := mkCC {
  cc_objective : Q;
  cc_elements : list (nat * Q);
  cc_type : nat;
  cc_items : list nat
}.

(** Conversion of a double to an integer type. *)
Definition qtrunc (q : Q) : Z := Z.quot (Qnum q) (Zpos (Qden q)).

(** get_model, :221-268: the bounds of the rows, bin types then item types. *)
Definition crows (i : CInst) : list (Z * Z) :=
  map (fun b => (cb_copies_min b, cb_copies b)) (cn_bins i)
  ++ map (fun x => (ci_copies_min x, ci_copies x)) (cn_items i).

(** ** Columns *)

(** The columns of solution_to_columns, :303-359, and of solve_pricing,
    :509-544, for a bin of type [t] with items [items]; [counted] are the numbers
    of copies written in the terms. *)
Definition ccolumn (i : CInst) (t : nat) (items : list nat) (counted : nat -> Z) (ids : list nat) : CCol :=
  mkCC
    (match cn_objective i with
     | OVariableSizedBinPacking | OBinPacking => cb_cost (cbin i t) / cn_mult_cost i
     | OFeasibility => 1%Q
     | OKnapsack => qsum (fun x => ci_profit (citem i x)) items / cn_mult_profit i
     | _ => 0
     end)%Q
    ((t, 1%Q) :: flat_map (fun x => if 0 <? counted x then [(cnb i + x, inject_Z (counted x))%nat] else []) ids)
    t items.

(** A bin of a solution: its type, number of copies and items. *)
Definition csolution_to_columns (i : CInst) (bins : list (nat * Z * list nat)) : list CCol :=
  map (fun '(t, _, items) => ccolumn i t items (occ items) (seq 0 (cni i))) bins.

(** ** The pricing solver *)

(** The state set by initialize_pricing, :270-301. *)
Record CFix : Type := mkFX { fx_bins : list Z; fx_filled : list Q; fx_fixed : list Q }.

Definition cfix0 (i : CInst) : CFix := mkFX (repeat 0 (cnb i)) (repeat 0%Q (cni i)) (repeat 0%Q (cni i)).
Definition cfix_element (i : CInst) (value : Q) (fx : CFix) (e : nat * Q) : CFix :=
  if (fst e <? cnb i)%nat
  then mkFX (upd (fst e) (fun n => qtrunc (inject_Z n + value)) (fx_bins fx))
            (fx_filled fx)
            (fold_left (fun l x => upd x (fun q => q + value)%Q l) (cb_fixed (cbin i (fst e))) (fx_fixed fx))
  else let x := (fst e - cnb i)%nat in
       mkFX (fx_bins fx) (upd x (fun q => q + value * snd e)%Q (fx_filled fx)) (fx_fixed fx).
Definition cinitialize (i : CInst) (columns : list (CCol * Q)) : CFix :=
  fold_left (fun fx p => if Qltb (snd p) (1 # 2) then fx
    else fold_left (cfix_element i (snd p)) (cc_elements (fst p)) fx) columns (cfix0 i).

(** A cut: three item types.  build_subset_row_cut, :99-116, sorts them. *)
Definition Triple := (nat * nat * nat)%type.
Definition tmembers (c : Triple) : list nat := [fst (fst c); snd (fst c); snd c].

(** Profit of an item type in the sub-problem, :390-408. *)
Definition cprofit (i : CInst) (solve_feasibility : bool) (duals : list Q) (x : nat) : Q :=
  match cn_objective i with
  | OVariableSizedBinPacking | OBinPacking | OFeasibility => nth (cnb i + x) duals 0%Q
  | OKnapsack => ((if solve_feasibility then 0 else ci_profit (citem i x)) - nth (cnb i + x) duals 0%Q * cn_mult_profit i)%Q
  | _ => 0%Q
  end.

(** Copies of an item type in the sub-problem of bin type [t], :410-420. *)
Definition ckp_copies (i : CInst) (fx : CFix) (t x : nat) (profit : Q) : Z :=
  let fixed := occ (cb_fixed (cbin i t)) x in
  if Qle_bool profit 0 then fixed
  else qtrunc (inject_Z (ci_copies (citem i x)) - inject_Z (ci_copies_fixed (citem i x))
               - (nth x (fx_filled fx) 0 - nth x (fx_fixed fx) 0) + inject_Z fixed)%Q.

(** The sub-problem: one bin of type [kp_bin], the item types (original id,
    profit, copies) and the resources added for the cuts.  Items of a solution of
    the sub-problem are positions in [kp_items]. *)
Record CKp : Type := mkKP { kp_bin : nat; kp_items : list (nat * Q * Z); kp_resources : list Resource }.

Definition ckp_items (i : CInst) (fx : CFix) (sf : bool) (duals : list Q) (t : nat) : list (nat * Q * Z) :=
  flat_map (fun x =>
    let profit := cprofit i sf duals x in
    let copies := ckp_copies i fx t x profit in
    if copies <=? 0 then [] else [(x, profit, copies)]) (seq 0 (cni i)).

(** kp2vbpp, and its inverse vbpp2kp, :429-440. *)
Definition kp_ids (items : list (nat * Q * Z)) : list nat := map (fun e => fst (fst e)) items.
Fixpoint kp_position (ids : list nat) (x : nat) : option nat :=
  match ids with
  | [] => None
  | y :: r => if (y =? x)%nat then Some O else option_map S (kp_position r x)
  end.

(** One penalising resource per cut with at least two item types in the
    sub-problem, :441-499. *)
Definition ckp_present (ids : list nat) (c : Triple) : list nat :=
  flat_map (fun x => match kp_position ids x with Some k => [k] | None => [] end) (tmembers c).
Definition ckp_resource (i : CInst) (ids : list nat) (cd : Triple * Q) : list Resource :=
  let present := ckp_present ids (fst cd) in
  if (length present <? 2)%nat then []
  else [mkResource 1
          (map (fun k => if existsb (Nat.eqb k) present then [1%Q] else []) (seq 0 (length ids)))
          true
          (match cn_objective i with OKnapsack => snd cd * cn_mult_profit i | _ => - snd cd end)%Q].

Definition ckp (i : CInst) (fx : CFix) (sf : bool) (duals : list Q) (cut_duals : list (Triple * Q)) (t : nat) : CKp :=
  let items := ckp_items i fx sf duals t in
  mkKP t items (flat_map (ckp_resource i (kp_ids items)) cut_duals).

(** The answer of the solver of the sub-problems: solutions, each a list of bins
    (copies, items), and a bound on the profit. *)
Record KAns : Type := mkKA { ka_solutions : list (list (Z * list nat)); ka_bound : Q }.

Definition ksol_copies (s : list (Z * list nat)) (k : nat) : Z := zsum (fun b => fst b * occ (snd b) k) s.
Definition ksol_bins (s : list (Z * list nat)) : Z := zsum fst s.

(** The column of a solution of the sub-problem, :509-544: the bin kept is the
    first one; the terms are written from the numbers of copies of the solution. *)
Definition ckp_column (i : CInst) (k : CKp) (s : list (Z * list nat)) : CCol :=
  let ids := kp_ids (kp_items k) in
  let items := match s with [] => [] | b :: _ => map (fun p => nth p ids O) (snd b) end in
  ccolumn i (kp_bin k) items
    (fun x => match kp_position ids x with Some p => ksol_copies s p | None => 0 end) ids.

Definition qmin (a b : Q) : Q := if Qltb b a then b else a.
Definition qmax (a b : Q) : Q := if Qltb a b then b else a.

(** The bound on the reduced costs, :546-572. *)
Definition cbound_step (i : CInst) (sf : bool) (duals : list Q) (t : nat) (kb bound : Q) : Q :=
  match cn_objective i with
  | OVariableSizedBinPacking | OBinPacking =>
      qmin bound ((if sf then 0 else cb_cost (cbin i t) / cn_mult_cost i) - nth t duals 0%Q - kb)
  | OFeasibility => qmin bound ((if sf then 0 else 1) - nth t duals 0%Q - kb)
  | OKnapsack => qmax bound (kb / cn_mult_profit i - nth t duals 0)
  | _ => bound
  end%Q.

(** The loop over the bin types, :371-578: the columns and the bound. *)
Definition cprice_bin (i : CInst) (solver : CKp -> KAns) (fx : CFix) (sf : bool) (duals : list Q)
    (cut_duals : list (Triple * Q)) (acc : list CCol * Q) (t : nat) : list CCol * Q :=
  if nth t (fx_bins fx) 0 =? cb_copies (cbin i t) then acc
  else
    let k := ckp i fx sf duals cut_duals t in
    let a := solver k in
    fold_left (fun acc s =>
      if ksol_bins s =? 0 then acc
      else (fst acc ++ [ckp_column i k s], cbound_step i sf duals t (ka_bound a) (snd acc)))
      (ka_solutions a) acc.
Definition cprice (i : CInst) (solver : CKp -> KAns) (fx : CFix) (sf : bool) (duals : list Q)
    (cut_duals : list (Triple * Q)) : list CCol * Q :=
  fold_left (cprice_bin i solver fx sf duals cut_duals) (seq 0 (cnb i)) ([], 0%Q).

(** ** The cap on the number of bins, :610-665 *)

Definition qz_leb (a b : Q * Z) : bool :=
  Qltb (fst a) (fst b) || (Qeq_bool (fst a) (fst b) && (snd a <=? snd b)).
Fixpoint qz_insert (a : Q * Z) (l : list (Q * Z)) : list (Q * Z) :=
  match l with [] => [a] | b :: r => if qz_leb a b then a :: b :: r else b :: qz_insert a r end.
Definition qz_sort (l : list (Q * Z)) : list (Q * Z) := fold_right qz_insert [] l.

Definition cgreedy_step (acc : Z * Q) (p : Q * Z) : Z * Q :=
  let '(count, budget) := acc in
  let '(cost, copies) := p in
  if Qle_bool cost 0 then (count + copies, budget)
  else let take := Z.min copies (qtrunc (budget / cost)) in
       (count + take, (budget - inject_Z take * cost)%Q).

Definition cmaximum_number_of_bins (i : CInst) (best_cost : Q) : Z :=
  let count := zsum cb_copies_min (cn_bins i) in
  let budget := fold_left (fun r b => r - cb_cost b * inject_Z (cb_copies_min b))%Q (cn_bins i) best_cost in
  let budget := if Qltb budget 0 then 0%Q else budget in
  let optional := flat_map (fun b =>
    let copies := cb_copies b - cb_copies_min b in if 0 <? copies then [(cb_cost b, copies)] else []) (cn_bins i) in
  Z.min (fst (fold_left cgreedy_step (qz_sort optional) (count, budget))) (cnumber_of_items i).

(** The cache, :612-616 and :661-664: the last cost and its value. *)
Definition cmaximum_cached (i : CInst) (cache : option (Q * Z)) (best_cost : Q) : option (Q * Z) * Z :=
  match cache with
  | Some (c, v) => if Qeq_bool best_cost c then (cache, v)
                   else let v := cmaximum_number_of_bins i best_cost in (Some (best_cost, v), v)
  | None => let v := cmaximum_number_of_bins i best_cost in (Some (best_cost, v), v)
  end.

(** The cap of solve_pricing, :590-604, and the overcost.  [best] is the number
    of bins and the cost of the best solution known, when it is feasible. *)
Definition cpricing_cap (i : CInst) (best : option (Z * Q)) : Z :=
  let generic := Z.min (cnumber_of_items i) (cnumber_of_bins i) in
  match cn_objective i, best with
  | OBinPacking, Some (n, _) => n
  | OVariableSizedBinPacking, Some (_, c) => Z.min generic (cmaximum_number_of_bins i c)
  | _, _ => generic
  end.
Definition covercost (i : CInst) (best : option (Z * Q)) (reduced_cost_bound : Q) : Q :=
  (inject_Z (cpricing_cap i best) * reduced_cost_bound)%Q.

(** ** Subset-row cuts *)

(** coefficient, :957-972: from the bin kept in the column. *)
Definition ccoefficient (c : Triple) (col : CCol) : Q :=
  if (2 <=? length (filter (fun x => (0 <? occ (cc_items col) x)%Z) (tmembers c)))%nat then 1%Q else 0%Q.

(** equal, :974-985 *)
Definition ccut_equal (c1 c2 : Triple) : bool :=
  (fst (fst c1) =? fst (fst c2))%nat && (snd (fst c1) =? snd (fst c2))%nat && (snd c1 =? snd c2)%nat.

(** std::sort on item type ids. *)
Fixpoint nat_insert (a : nat) (l : list nat) : list nat :=
  match l with [] => [a] | b :: r => if (a <=? b)%nat then a :: b :: r else b :: nat_insert a r end.
Definition nat_sort (l : list nat) : list nat := fold_right nat_insert [] l.

Definition csort3 (a b c : nat) : Triple :=
  match nat_sort [a; b; c] with [x; y; z] => (x, y, z) | _ => (a, b, c) end.

(** column_items, :697-718: the value and the sorted single-copy item types of
    every column that is not negligible. *)
Definition ccolumn_ids (i : CInst) (col : CCol) : list nat :=
  nat_sort (flat_map (fun e =>
    if (fst e <? cnb i)%nat then []
    else if Qle_bool (snd e) (1 # 2) then []
    else let x := (fst e - cnb i)%nat in
         if ci_copies (citem i x) =? 1 then [x] else []) (cc_elements col)).
Definition ccolumn_items (i : CInst) (sol : list (CCol * Q)) : list (Q * list nat) :=
  flat_map (fun p => if Qltb (snd p) (1 # 1000000) then [] else [(snd p, ccolumn_ids i (fst p))]) sol.

(** The item types in fewer than two columns are dropped, :731-747. *)
Definition cnumber_of_columns (cols : list (Q * list nat)) (x : nat) : Z := zsum (fun e => occ (snd e) x) cols.
Definition ckept (cols : list (Q * list nat)) : list (Q * list nat) :=
  map (fun e => (fst e, filter (fun x => 2 <=? cnumber_of_columns cols x) (snd e))) cols.

(** The pairs of a sorted list, in the order of the two nested loops. *)
Fixpoint cpairs (l : list nat) : list (nat * nat) :=
  match l with [] => [] | a :: r => map (fun b => (a, b)) r ++ cpairs r end.

Definition pair_eqb (p q : nat * nat) : bool := (fst p =? fst q)%nat && (snd p =? snd q)%nat.

(** neighbors, pair_weight and pair_columns, :759-795.  The two hash tables are
    functions of the pair: the sum of the values and the list of the positions
    pushed under that pair. *)
Definition cneighbors (cols : list (Q * list nat)) (x : nat) : list nat :=
  nat_sort (nodup Nat.eq_dec (flat_map (fun e => flat_map (fun p =>
    (if (fst p =? x)%nat then [snd p] else []) ++ (if (snd p =? x)%nat then [fst p] else [])) (cpairs (snd e))) cols)).
Definition cpair_weight (cols : list (Q * list nat)) (p : nat * nat) : Q :=
  qsum (fun e => qsum (fun q => if pair_eqb q p then fst e else 0%Q) (cpairs (snd e))) cols.
Definition cpair_columns (cols : list (Q * list nat)) (p : nat * nat) : list nat :=
  flat_map (fun c => flat_map (fun q => if pair_eqb q p then [c] else [])
    (cpairs (snd (nth c cols (0%Q, []))))) (seq 0 (length cols)).

(** The candidate triples, :808-846: attempts in the order of the loops, into a
    std::set; nothing is inserted any more once the set holds [cap] triples. *)
Definition cattempts (cols : list (Q * list nat)) : list Triple :=
  flat_map (fun e => flat_map (fun p =>
    flat_map (fun z => if (z =? fst p)%nat || (z =? snd p)%nat then [] else [csort3 (fst p) (snd p) z])
      (cneighbors cols (fst p) ++ cneighbors cols (snd p))) (cpairs (snd e))) cols.
Definition triple_ltb (c1 c2 : Triple) : bool :=
  let '(a1, b1, d1) := c1 in
  let '(a2, b2, d2) := c2 in
  (a1 <? a2)%nat || ((a1 =? a2)%nat && ((b1 <? b2)%nat || ((b1 =? b2)%nat && (d1 <? d2)%nat))).
Fixpoint triple_insert (c : Triple) (l : list Triple) : list Triple :=
  match l with
  | [] => [c]
  | d :: r => if triple_ltb c d then c :: d :: r else if triple_ltb d c then d :: triple_insert c r else d :: r
  end.
Definition ccandidates (cap : nat) (cols : list (Q * list nat)) : list Triple :=
  fold_left (fun set c => if (cap <=? length set)%nat then set else triple_insert c set) (cattempts cols) [].

(** maximum_number_of_candidate_triples, :675. *)
Definition candidates_cap : nat := Z.to_nat 10000.

(** The three-way merge, :897-921. *)
Fixpoint cmerge (fuel : nat) (value : nat -> Q) (ab ac bc : list nat) : option Q :=
  match ab, ac, bc with
  | x :: ab', y :: ac', z :: bc' =>
      match fuel with
      | O => None
      | S fuel =>
          if (x =? y)%nat && (y =? z)%nat
          then option_map (fun r => value x + r)%Q (cmerge fuel value ab' ac' bc')
          else let m := Nat.max x (Nat.max y z) in
               cmerge fuel value (if (x <? m)%nat then ab' else ab) (if (y <? m)%nat then ac' else ac)
                 (if (z <? m)%nat then bc' else bc)
      end
  | _, _, _ => Some 0%Q
  end.

(** The violation of a triple, :889-930. *)
Definition cviolation (cols : list (Q * list nat)) (c : Triple) : option Q :=
  let '(x, y, z) := c in
  let ab := cpair_columns cols (x, y) in
  let ac := cpair_columns cols (x, z) in
  let bc := cpair_columns cols (y, z) in
  option_map (fun w => cpair_weight cols (x, y) + cpair_weight cols (x, z) + cpair_weight cols (y, z) - 2 * w - 1)%Q
    (cmerge (length ab + length ac + length bc) (fun c => fst (nth c cols (0%Q, []))) ab ac bc).

(** separate_cuts, :667-955.  [sort] is std::sort on the violated triples by
    decreasing violation (ties in any order); one cut at most is returned.
    [None]: the merge does not end. *)
Fixpoint cviolated (cols : list (Q * list nat)) (l : list Triple) : option (list (Triple * Q)) :=
  match l with
  | [] => Some []
  | c :: r =>
      match cviolation cols c, cviolated cols r with
      | Some v, Some vs => Some (if Qltb (1 # 1000000) v then (c, v) :: vs else vs)
      | _, _ => None
      end
  end.
Definition cseparate (i : CInst) (sort : list (Triple * Q) -> list (Triple * Q)) (cap : nat) (sol : list (CCol * Q))
    : option (list Triple) :=
  let cols := ckept (ccolumn_items i sol) in
  option_map (fun vs => map (fun v => csort3 (fst (fst (fst v))) (snd (fst (fst v))) (snd (fst v))) (firstn 1 (sort vs)))
    (cviolated cols (ccandidates cap cols)).

(** ** The sequential feasibility sub-instance, :1053-1085: the first bins. *)
Fixpoint csub_bins (bins : list CBin) (remaining : Z) : list CBin :=
  match bins with
  | [] => []
  | b :: r => if 0 <? remaining
              then let copies := Z.min (cb_copies b) remaining in
                   mkCB (cb_cost b) copies 0 (cb_fixed b) :: csub_bins r (remaining - copies)
              else []
  end.
