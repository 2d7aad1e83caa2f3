(** * Model of [include/packingsolver/algorithms/common.hpp] and
      [src/algorithms/common.cpp].

    Doubles are modelled by exact rationals [Q]; infinities by the constructors
    [PInf] and [MInf] of [xQ].  NaN does not occur in the modelled expressions
    (the comparators test equality first, see the comment of
    common.hpp:82-88). *)

From Coq Require Import Ascii String List ZArith QArith Qminmax Qabs Bool.
Import ListNotations.
Open Scope Q_scope.

(** Boolean strict comparison on rationals ([<] on doubles). *)
Definition Qltb (x y : Q) : bool := negb (Qle_bool y x).

(** The constant 1e-6 of common.hpp:54-65 and 96-118. *)
Definition tol : Q := 1 # 1000000.

(** The constant PSTOL = 1 + 1e-9 (common.hpp:20). *)
Definition PSTOL : Q := 1 + (1 # 1000000000).

(** ** Absolute comparisons *)

(** common.hpp:52-55 *)
Definition strictly_lesser (v1 v2 : Q) : bool := Qltb tol (v2 - v1).
(** common.hpp:57-60 *)
Definition strictly_greater (v1 v2 : Q) : bool := Qltb tol (v1 - v2).
(** common.hpp:62-65 ([std::abs(v1 - v2) <= 1e-6]) *)
Definition equal_abs (v1 v2 : Q) : bool := Qle_bool (Qabs (v1 - v2)) tol.

(** ** Relative comparisons (common.hpp:67-128) *)

(** common.hpp:90-98, finite arguments (the [isfinite] test is true). *)
Definition strictly_greater_profit (v1 v2 : Q) : bool :=
  if Qeq_bool v1 v2 then false
  else
    let denominator := Qmax v1 v2 in
    if negb (Qeq_bool denominator 0)
    then Qltb tol ((v1 - v2) / denominator)
    else Qltb tol (v1 - v2).

(** common.hpp:100-103 *)
Definition strictly_lesser_profit (v1 v2 : Q) : bool := strictly_greater_profit v2 v1.
(** common.hpp:105-108 *)
Definition equal_profit (v1 v2 : Q) : bool :=
  negb (strictly_greater_profit v1 v2) && negb (strictly_greater_profit v2 v1).

(** common.hpp:110-118, finite arguments. *)
Definition strictly_greater_cost (v1 v2 : Q) : bool :=
  if Qeq_bool v1 v2 then false
  else
    let denominator := Qmin v1 v2 in
    if negb (Qeq_bool denominator 0)
    then Qltb tol ((v1 - v2) / denominator)
    else Qltb tol (v1 - v2).

(** common.hpp:120-123 *)
Definition strictly_lesser_cost (v1 v2 : Q) : bool := strictly_greater_cost v2 v1.
(** common.hpp:125-128 *)
Definition equal_cost (v1 v2 : Q) : bool :=
  negb (strictly_greater_cost v1 v2) && negb (strictly_greater_cost v2 v1).

(** Doubles with infinities, for the bounds that default to +/-infinity. *)
Inductive xQ : Type :=
| Fin (q : Q)
| PInf
| MInf.

(** common.hpp:90-98 on extended values.  A finite maximum with a [-inf]
    partner gives [(+-inf)/d], whose sign is that of [+-d]. *)
Definition strictly_greater_profit_x (v1 v2 : xQ) : bool :=
  match v1, v2 with
  | Fin a, Fin b => strictly_greater_profit a b
  | PInf, PInf => false
  | MInf, MInf => false
  | PInf, _ => true
  | _, PInf => false
  | Fin a, MInf => if Qeq_bool a 0 then true else Qltb 0 a
  | MInf, Fin b => if Qeq_bool b 0 then false else Qltb b 0
  end.

(** common.hpp:105-108 on extended values. *)
Definition equal_profit_x (v1 v2 : xQ) : bool :=
  negb (strictly_greater_profit_x v1 v2) && negb (strictly_greater_profit_x v2 v1).

(** ** Powers of two (common.hpp:130-156).

    The C++ loops have no bound; they are modelled with a number of steps
    [n], and [None] means "still running after [n] iterations". *)

(** while (res > value) res /= 2;   common.hpp:135-136 *)
Fixpoint halve_while_greater (n : nat) (res value : Q) : option Q :=
  if Qltb value res then
    match n with O => None | S n' => halve_while_greater n' (res / 2) value end
  else Some res.

(** while (res * 2 < value) res *= 2;   common.hpp:138-139 *)
Fixpoint double_while_lesser (n : nat) (res value : Q) : option Q :=
  if Qltb (res * 2) value then
    match n with O => None | S n' => double_while_lesser n' (res * 2) value end
  else Some res.

(** common.hpp:130-142 *)
Definition largest_power_of_two_lesser_or_equal (n : nat) (value : Q) : option Q :=
  if Qltb value 1 then halve_while_greater n 1 value
  else double_while_lesser n 1 value.

(** while (res < value) res *= 2;   common.hpp:149-150 *)
Fixpoint double_until_greater (n : nat) (res value : Q) : option Q :=
  if Qltb res value then
    match n with O => None | S n' => double_until_greater n' (res * 2) value end
  else Some res.

(** while (res / 2 > value) res /= 2;   common.hpp:152-153 *)
Fixpoint halve_until_lesser (n : nat) (res value : Q) : option Q :=
  if Qltb value (res / 2) then
    match n with O => None | S n' => halve_until_lesser n' (res / 2) value end
  else Some res.

(** common.hpp:144-156 *)
Definition smallest_power_of_two_greater_or_equal (n : nat) (value : Q) : option Q :=
  if Qltb 1 value then double_until_greater n 1 value
  else halve_until_lesser n 1 value.

(** ** Enumerations and their text (common.hpp:159-232, common.cpp) *)

(** common.hpp:159-166 *)
Inductive OptimizationMode : Type :=
| Anytime | NotAnytime | NotAnytimeDeterministic | NotAnytimeSequential.

(** common.hpp:177-185 *)
Inductive ProblemType : Type :=
| PRectangleGuillotine | PRectangle | POneDimensional | PBox | PBoxStacks | PIrregular.

(** common.hpp:214-228 *)
Inductive Objective : Type :=
| ODefault | OBinPacking | OBinPackingWithLeftovers | OOpenDimensionX
| OOpenDimensionY | OOpenDimensionZ | OOpenDimensionXY | OKnapsack
| OVariableSizedBinPacking | OSequentialOneDimensionalRectangleSubproblem
| OFeasibility | OBinPackingCuttingCost.

Open Scope string_scope.

(** common.cpp:29-49 *)
Definition print_mode (m : OptimizationMode) : string :=
  match m with
  | Anytime => "Anytime"
  | NotAnytime => "Not anytime"
  | NotAnytimeDeterministic => "Not anytime, deterministic"
  | NotAnytimeSequential => "Not anytime, sequential"
  end.

(** [in >> token]: the characters up to the first white space (the leading
    white space skipped by iostreams never occurs in the printed names). *)
Fixpoint first_token (s : string) : string :=
  match s with
  | EmptyString => EmptyString
  | String c s' =>
      if Ascii.eqb c " "%char then EmptyString else String c (first_token s')
  end.

(** common.cpp:5-27; [None] is the failbit. *)
Definition parse_mode (input : string) : option OptimizationMode :=
  let token := first_token input in
  if (token =? "anytime") || (token =? "Anytime") then Some Anytime
  else if (token =? "not-anytime") || (token =? "NotAnytime") then Some NotAnytime
  else if (token =? "not-anytime-deterministic") || (token =? "NotAnytimeDeterministic")
  then Some NotAnytimeDeterministic
  else if (token =? "not-anytime-sequential") || (token =? "NotAnytimeSequential")
  then Some NotAnytimeSequential
  else None.

(** common.cpp:87-113 *)
Definition print_problem_type (t : ProblemType) : string :=
  match t with
  | PRectangleGuillotine => "RectangleGuillotine"
  | PRectangle => "Rectangle"
  | POneDimensional => "OneDimensional"
  | PBox => "Box"
  | PBoxStacks => "BoxStacks"
  | PIrregular => "Irregular"
  end.

(** common.cpp:51-85 *)
Definition parse_problem_type (input : string) : option ProblemType :=
  let token := first_token input in
  if (token =? "rectangleguillotine") || (token =? "RectangleGuillotine") || (token =? "RG")
  then Some PRectangleGuillotine
  else if (token =? "rectangle") || (token =? "Rectangle") || (token =? "R")
  then Some PRectangle
  else if (token =? "onedimensional") || (token =? "OneDimensional") || (token =? "1")
  then Some POneDimensional
  else if (token =? "box") || (token =? "Box") || (token =? "B")
  then Some PBox
  else if (token =? "boxstacks") || (token =? "BoxStacks") || (token =? "BS")
  then Some PBoxStacks
  else if (token =? "irregular") || (token =? "Irregular") || (token =? "I")
  then Some PIrregular
  else None.

(** common.cpp:174-218 *)
Definition print_objective (o : Objective) : string :=
  match o with
  | ODefault => "Default"
  | OFeasibility => "Feasibility"
  | OBinPacking => "BinPacking"
  | OBinPackingWithLeftovers => "BinPackingWithLeftovers"
  | OOpenDimensionX => "OpenDimensionX"
  | OOpenDimensionY => "OpenDimensionY"
  | OOpenDimensionZ => "OpenDimensionZ"
  | OOpenDimensionXY => "OpenDimensionXY"
  | OKnapsack => "Knapsack"
  | OVariableSizedBinPacking => "VariableSizedBinPacking"
  | OSequentialOneDimensionalRectangleSubproblem =>
      "SequentialOneDimensionalRectangleSubproblem"
  | OBinPackingCuttingCost => "BinPackingCuttingCost"
  end.

(** common.cpp:115-172 *)
Definition parse_objective (input : string) : option Objective :=
  let token := first_token input in
  if (token =? "default") || (token =? "Default") then Some ODefault
  else if (token =? "feasibility") || (token =? "Feasibility") || (token =? "F")
  then Some OFeasibility
  else if (token =? "bin-packing") || (token =? "BinPacking") || (token =? "BPP")
  then Some OBinPacking
  else if (token =? "bin-packing-with-leftovers") || (token =? "BinPackingWithLeftovers")
          || (token =? "BPPL")
  then Some OBinPackingWithLeftovers
  else if (token =? "open-dimension-x") || (token =? "OpenDimensionX") || (token =? "ODX")
  then Some OOpenDimensionX
  else if (token =? "open-dimension-y") || (token =? "OpenDimensionY") || (token =? "ODY")
  then Some OOpenDimensionY
  else if (token =? "open-dimension-z") || (token =? "OpenDimensionZ") || (token =? "ODZ")
  then Some OOpenDimensionZ
  else if (token =? "open-dimension-xy") || (token =? "OpenDimensionXY") || (token =? "ODXY")
  then Some OOpenDimensionXY
  else if (token =? "knapsack") || (token =? "Knapsack") || (token =? "KP")
  then Some OKnapsack
  else if (token =? "variable-sized-bin-packing") || (token =? "VariableSizedBinPacking")
          || (token =? "VBPP")
  then Some OVariableSizedBinPacking
  else if (token =? "sequential-onedimensional-rectangle-subproblem")
          || (token =? "SequentialOneDimensionalRectangleSubproblem") || (token =? "BDRS")
  then Some OSequentialOneDimensionalRectangleSubproblem
  else if (token =? "bin-packing-cutting-cost") || (token =? "BinPackingCuttingCost")
          || (token =? "BPPCC")
  then Some OBinPackingCuttingCost
  else None.

Close Scope string_scope.

(** ** Resources (common.hpp:270-316) *)

Record Resource : Type := mkResource {
  res_capacity : Q;
  res_item_consumptions : list (list Q);
  res_penalize : bool;
  res_penalty : Q
}.

(** common.hpp:303-315.  [copy >= 0] always, so [copy] is a [nat]. *)
Definition item_consumption (r : Resource) (item_type_id copy : nat) : Q :=
  match nth_error (res_item_consumptions r) item_type_id with
  | None => 0
  | Some schedule =>
      match nth_error schedule copy with
      | Some q => q
      | None => last schedule 0
      end
  end.

(** common.hpp:330-337 *)
Definition negative_penalty_sum (resources : list Resource) : Q :=
  fold_left (fun sum r =>
      if res_penalize r && Qltb (res_penalty r) 0 then sum - res_penalty r else sum)
    resources 0.

(** ** Solution pool (common.hpp:359-456)

    [std::set] with comparator [cmp] is a list kept sorted by insertion: with a
    strict weak order as comparator the tree and the list hold the same
    sequence.  Labels are dropped. *)
Section Pool.

Variable Sol : Type.
(** [lt s1 s2] is [s1 < s2], i.e. [s2] is better. *)
Variable lt : Sol -> Sol -> bool.
(** [item_copies()] for all item types. *)
Variable copies : Sol -> list Z.

(** common.hpp:378-385: lexicographic comparison of the item copies. *)
Fixpoint lex_lt (a b : list Z) : bool :=
  match a, b with
  | x :: a', y :: b' => if Z.eqb x y then lex_lt a' b' else Z.ltb x y
  | _, _ => false
  end.

(** EntryComparator, common.hpp:372-387. *)
Definition entry_cmp (e1 e2 : Sol) : bool :=
  if lt e1 e2 then false
  else if lt e2 e1 then true
  else lex_lt (copies e1) (copies e2).

(** [std::set::insert]: [None] if an equivalent element is present, otherwise
    the new sequence and whether the element went to [begin()]. *)
Fixpoint set_insert (e : Sol) (l : list Sol) : option (list Sol) :=
  match l with
  | [] => Some [e]
  | x :: l' =>
      if entry_cmp e x then Some (e :: x :: l')
      else if entry_cmp x e then
        match set_insert e l' with
        | Some l'' => Some (x :: l'')
        | None => None
        end
      else None
  end.

Record Pool : Type := mkPool {
  pool_size_max : nat;
  pool_solutions : list Sol;
  pool_best : Sol;
  pool_worst : Sol
}.

(** Constructor, common.hpp:391-397. *)
Definition pool_new (size_max : nat) (empty : Sol) : Pool :=
  mkPool size_max [empty] empty empty.

(** [res.first == solutions_.begin()]: the new element is first iff it is
    before the old first element. *)
Definition goes_first (e : Sol) (l : list Sol) : bool :=
  match l with [] => true | x :: _ => entry_cmp e x end.

(** SolutionPool::add, common.hpp:414-447 (the repeated size test is the same
    test twice). *)
Definition pool_add (p : Pool) (s : Sol) : Z * Pool :=
  if Nat.leb (pool_size_max p) (length (pool_solutions p))
     && negb (lt (pool_worst p) s)
  then ((-1)%Z, p)
  else
    match set_insert s (pool_solutions p) with
    | None => ((-1)%Z, p)
    | Some l =>
        let new_best := goes_first s (pool_solutions p) in
        let l' := if Nat.ltb (pool_size_max p) (length l) then removelast l else l in
        let p' := mkPool (pool_size_max p) l' (hd s l') (last l' s) in
        ((if new_best then 1 else 0)%Z, p')
    end.

(** A history of additions. *)
Fixpoint pool_run (p : Pool) (h : list Sol) : Pool :=
  match h with
  | [] => p
  | s :: h' => pool_run (snd (pool_add p s)) h'
  end.

End Pool.

Arguments lex_lt : simpl never.

(** ** group_identical_bins (common.hpp:550-588)

    [B] is the bin content compared by the domain's [operator==] (bin type and
    items), [Z] the number of copies. *)
Section Group.

Variable B : Type.
Variable beq : B -> B -> bool.

(** Inner loop, common.hpp:572-581: add the copies to the first equal group, or
    push a new group. *)
Fixpoint group_add (groups : list (B * Z)) (b : B) (copies : Z) : list (B * Z) :=
  match groups with
  | [] => [(b, copies)]
  | (g, c) :: groups' =>
      if beq g b then (g, (c + copies)%Z) :: groups'
      else (g, c) :: group_add groups' b copies
  end.

(** common.hpp:566-582 (the appends of :584-587 rebuild a solution from these
    groups in this order). *)
Definition group_identical_bins (bins : list (B * Z)) : list (B * Z) :=
  fold_left (fun groups bc => group_add groups (fst bc) (snd bc)) bins [].

End Group.

(** ** enforce_bin_type_order (common.hpp:613-657)

    Bins are (bin type, content, copies).  [empty] is the empty content. *)
Section Enforce.

Variable C : Type.
Variable empty : C.

Record ebin : Type := mkEbin { eb_type : nat; eb_content : C; eb_copies : nat }.

(** common.hpp:617-624: maximum used bin type id; [None] is -1. *)
Definition last_used_bin_type (bins : list ebin) : option nat :=
  fold_left (fun m b =>
      match m with None => Some (eb_type b) | Some t => Some (Nat.max t (eb_type b)) end)
    bins None.

(** common.hpp:631-638: the physical bins of type [t], in order. *)
Definition positions (bins : list ebin) (t : nat) : list C :=
  flat_map (fun b => if Nat.eqb (eb_type b) t then repeat (eb_content b) (eb_copies b) else [])
    bins.

(** Body of the loop on types, common.hpp:641-655. *)
Definition enforce_type (bin_type_copies : nat -> nat) (bins : list ebin)
    (last t : nat) : list ebin :=
  let pos := positions bins t in
  let target := if Nat.ltb t last then bin_type_copies t else length pos in
  map (fun c => mkEbin t c 1) (firstn target pos)
  ++ (if Nat.ltb (length pos) target then [mkEbin t empty (target - length pos)] else []).

(** common.hpp:613-657. *)
Definition enforce_bin_type_order (bin_type_copies : nat -> nat) (bins : list ebin)
    : list ebin :=
  match last_used_bin_type bins with
  | None => bins
  | Some last => flat_map (enforce_type bin_type_copies bins last) (seq 0 (last + 1))
  end.

End Enforce.
