(** * Dual feasible functions: the functions shared by the three problem types

    The code repeats these functions in
    [src/onedimensional/dual_feasible_functions.cpp] (cited as 1D),
    [src/rectangle/dual_feasible_functions.cpp] (2D) and
    [src/box/dual_feasible_functions.cpp] (3D).
    [None] is an exception or undefined behaviour (division by zero, missing
    map entry).  C++ integer division is [Z.quot]. *)

From Coq Require Import List ZArith QArith Qround Bool.
From Verif Require Import Util.
Import ListNotations.
Open Scope Z_scope.

Definition bind {A B : Type} (a : option A) (f : A -> option B) : option B :=
  match a with Some x => f x | None => None end.
Notation "'let*' x ':=' a 'in' b" := (bind a (fun x => b)) (at level 200, x pattern, right associativity).

(** Loop over a vector whose body may throw. *)
Fixpoint mapo {A B : Type} (f : A -> option B) (l : list A) : option (list B) :=
  match l with
  | [] => Some []
  | x :: l' => let* y := f x in let* ys := mapo f l' in Some (y :: ys)
  end.

(** [std::map::at] on a map given as a list of bindings. *)
Fixpoint map_at (m : list (Z * Z)) (x : Z) : option Z :=
  match m with
  | [] => None
  | (y, v) :: m' => if x =? y then Some v else map_at m' x
  end.

(** [a / b] on integers. *)
Definition cdiv (a b : Z) : option Z := if b =? 0 then None else Some (Z.quot a b).

(** f_ccm_0: 1D :14-26, 2D :15-27, 3D :18-30. *)
Definition f_ccm_0 (capacity k length : Z) : Z :=
  if capacity - k <? length then capacity
  else if length <? k then 0
  else length.

(** f_ccm_1: 1D :28-49, 2D :29-50, 3D :32-53.  [None]: the exception on a
    negative value. *)
Definition f_ccm_1 (capacity k length value : Z) : option Z :=
  if Z.quot capacity 2 <? length then
    if value <? 0 then None else Some value
  else if length <? k then Some 0
  else Some 1.

(** f_ccm_2: 1D :51-63, 2D :52-64, 3D :55-67. *)
Definition f_ccm_2 (capacity k length : Z) : option Z :=
  if Z.quot capacity 2 <? length then
    let* a := cdiv capacity k in
    let* b := cdiv (capacity - length) k in
    Some (2 * (a - b))
  else if (length =? Z.quot capacity 2) && (Z.rem capacity 2 =? 0) then
    cdiv capacity k
  else
    let* a := cdiv length k in Some (2 * a).

(** greedy_maximum_cardinality: 1D :71-89, 2D :72-90, 3D :158-176. *)
Fixpoint greedy_from (capacity used count : Z) (pool : list (Z * Z)) : option Z :=
  match pool with
  | [] => Some count
  | (length, copies) :: pool' =>
      if used + copies * length <? capacity
      then greedy_from capacity (used + copies * length) (count + copies) pool'
      else let* q := cdiv (capacity - used) length in Some (count + q)
  end.
Definition greedy_maximum_cardinality (capacity : Z) (pool : list (Z * Z)) : option Z :=
  greedy_from capacity 0 0 pool.

(** [sort] followed by [erase(unique(...))]. *)
Fixpoint insert_unique (x : Z) (l : list Z) : list Z :=
  match l with
  | [] => [x]
  | y :: l' => if x <? y then x :: l else if x =? y then l else y :: insert_unique x l'
  end.
Definition sort_unique (l : list Z) : list Z := fold_right insert_unique [] l.

(** [sort] of (length, copies) pairs: lexicographic order. *)
Definition pair_le (p q : Z * Z) : bool :=
  (fst p <? fst q) || ((fst p =? fst q) && (snd p <=? snd q)).
Fixpoint insert_pair (x : Z * Z) (l : list (Z * Z)) : list (Z * Z) :=
  match l with
  | [] => [x]
  | y :: l' => if pair_le x y then x :: l else y :: insert_pair x l'
  end.
Definition sort_pairs (l : list (Z * Z)) : list (Z * Z) := fold_right insert_pair [] l.

(** A candidate dimension folded to a breakpoint: 1D :148-166, 2D :234-252 and
    :256-265, 3D :231-249. *)
Definition fold_breakpoint (capacity d : Z) : list Z :=
  if capacity <? d then []
  else if d =? capacity then []
  else if d <=? Z.quot capacity 2 then [d]
  else [capacity - d].

(** std::ceil of a quotient of integers converted to double; the double
    division is exact here. *)
Definition ceil_div (a b : Z) : Z := Qceiling (inject_Z a / inject_Z b).

(** ** Dantzig bound (1D :231-280, 2D :376-425, 3D :82-129) *)

(** Item of the bound: profit, scaled volume, copies. *)
Record DItem : Type := mkDI { di_profit : Q; di_volume : Z; di_copies : Z }.

(** The comparator of [std::sort]: [true] iff the first goes strictly first. *)
Definition dantzig_before (a b : DItem) : bool :=
  negb (Qle_bool (di_profit a * inject_Z (di_volume b)) (di_profit b * inject_Z (di_volume a))).

(** [std::sort]; ties in any order, here insertion order. *)
Fixpoint insert_ditem (x : DItem) (l : list DItem) : list DItem :=
  match l with
  | [] => [x]
  | y :: l' => if dantzig_before y x then y :: insert_ditem x l' else x :: l
  end.
Definition sort_ditems (l : list DItem) : list DItem := fold_right insert_ditem [] l.

(** Loop on the sorted items, 1D :265-278. *)
Fixpoint dantzig_fill (l : list DItem) (remaining bound : Q) : Q :=
  match l with
  | [] => bound
  | it :: l' =>
      if Qle_bool remaining 0 then bound
      else
        let total := inject_Z (di_volume it * di_copies it) in
        if Qle_bool total remaining
        then dantzig_fill l' (remaining - total) (bound + di_profit it * inject_Z (di_copies it))
        else dantzig_fill l' 0 (bound + di_profit it * (remaining / inject_Z (di_volume it)))
  end.

(** dantzig_profit_bound; [items] are the item types that fit some bin. *)
Definition dantzig_profit_bound (items : list DItem) (capacity : Q) : Q :=
  let free := filter (fun it => di_volume it <=? 0) items in
  let others := filter (fun it => negb (di_volume it <=? 0)) items in
  dantzig_fill (sort_ditems others) capacity
    (fold_left (fun b it => (b + di_profit it * inject_Z (di_copies it))%Q) free 0%Q).
