(** * Model of the onedimensional branching scheme

    [src/onedimensional/tree_search.hpp], [src/onedimensional/tree_search.cpp].

    The beam search itself ([treesearchsolver::iterative_beam_search_2], an external
    library) is not modelled: it only calls [root], [insertions], [child], [leaf],
    [better], [bound], [dominates] and [to_solution], which are.  The guides
    (tree_search.hpp:347-417) only order the nodes of a queue and are not modelled.
    Weights and consumptions are exact rationals; node ids are left out. *)

From Coq Require Import List ZArith QArith Bool Arith.
From Verif Require Import Util Common_Model OneDim_Model.
Import ListNotations.
Open Scope Z_scope.

(** ** Order of the bins *)

(** One insertion of a stable sort by increasing length. *)
Fixpoint insert_bin (i : Instance) (t : nat) (l : list nat) : list nat :=
  match l with
  | [] => [t]
  | u :: r => if bt_length (bin_type i t) <? bt_length (bin_type i u) then t :: l else u :: insert_bin i t r
  end.

(** Bin types in the order they are tried, tree_search.cpp:31-42; [space()] is the
    length (instance.hpp:182). *)
Definition bin_order (i : Instance) : list nat :=
  match in_objective i with
  | OKnapsack => fold_left (fun acc t => insert_bin i t acc) (seq 0 (length (in_bin_types i))) []
  | _ => seq 0 (length (in_bin_types i))
  end.

(** [bin_type_ids_], tree_search.cpp:43-51. *)
Definition ts_bins (i : Instance) : list nat :=
  flat_map (fun t => repeat t (Z.to_nat (bt_copies (bin_type i t)))) (bin_order i).

(** [previous_bins_length_] at position [k], tree_search.cpp:43-51. *)
Definition ts_previous (i : Instance) (k : nat) : Z := zsum (fun t => bt_length (bin_type i t)) (firstn k (ts_bins i)).

(** ** Nodes *)

(** BranchingScheme::Node, tree_search.hpp:55-127.  The chain of parents is only read
    by [to_solution], which uses the item type and the number of bins of each
    ancestor: [tn_path] lists them from the root to the node. *)
Record Node : Type := mkNode {
  tn_path : list (nat * nat);
  tn_copies : list Z;
  tn_bins : nat;
  tn_items : Z;
  tn_item_length : Z;
  tn_current : Z;
  tn_waste : Z;
  tn_profit : Q;
  tn_last_length : Z;
  tn_last_weight : Q;
  tn_last_items : Z;
  tn_last_max : Z;
  tn_last_remaining : option Q;
  tn_last_resources : list Q;
  tn_last_copies : list nat
}.

(** root, tree_search.cpp:330-336. *)
Definition root (i : Instance) : Node :=
  mkNode [] (repeat 0 (length (in_item_types i))) 0 0 0 0 0 0%Q 0 0%Q 0 (-1) (Some (-1)%Q) [] [].

(** Insertion, tree_search.hpp:26-50: an item type, and the position of the new bin if
    it opens one. *)
Definition Insertion : Type := (nat * option nat)%type.

(** [m * PSTOL] for a possibly infinite [m]. *)
Definition times_tol (m : option Q) : option Q := match m with None => None | Some q => Some (q * PSTOL)%Q end.

(** ** Children *)

(** Loop on the resources of a new bin, tree_search.cpp:103-111. *)
Definition new_resource_step (bt : BinType) (x : nat) (st : list Q * Q) (r : nat) : list Q * Q :=
  let resource := nth r (bt_resources bt) dummy_resource in
  let consumption := item_consumption resource x 0 in
  (upd r (fun _ => consumption) (fst st),
   if res_penalize resource && Qltb (res_capacity resource) consumption then (snd st - res_penalty resource)%Q else snd st).

(** The same in the last bin, tree_search.cpp:130-140. *)
Definition same_resource_step (bt : BinType) (x copy : nat) (st : list Q * Q) (r : nat) : list Q * Q :=
  let resource := nth r (bt_resources bt) dummy_resource in
  let previous := nth r (fst st) 0%Q in
  let current := (previous + item_consumption resource x copy)%Q in
  (upd r (fun _ => current) (fst st),
   if res_penalize resource && Qltb (res_capacity resource) current && Qle_bool previous (res_capacity resource)
   then (snd st - res_penalty resource)%Q else snd st).

(** child_tmp, tree_search.cpp:58-153. *)
Definition child (i : Instance) (n : Node) (ins : Insertion) : Node :=
  let (x, pos) := ins in
  let it := item_type i x in
  let copies := upd x (fun c => c + 1) (tn_copies n) in
  let items := tn_items n + 1 in
  let item_length := tn_item_length n + it_length it in
  let profit := (tn_profit n + it_profit it)%Q in
  match pos with
  | Some p =>
      let t := nth p (ts_bins i) 0%nat in
      let bt := bin_type i t in
      let st := fold_left (new_resource_step bt x) (nth t (it_resource_ids it) [])
                  (repeat 0%Q (length (bt_resources bt)), profit) in
      let current := ts_previous i p + it_length it in
      mkNode (tn_path n ++ [(x, S p)]) copies (S p) items item_length current (current - item_length)
        (if (length (bt_resources bt) =? 0)%nat then profit else snd st)
        (it_length it) (it_weight it) 1 (it_stackability it) (it_max_weight_after it)
        (if (length (bt_resources bt) =? 0)%nat then [] else fst st)
        (if (length (bt_resources bt) =? 0)%nat then [] else upd x (fun _ => 1%nat) (repeat 0%nat (length (in_item_types i))))
  | None =>
      let p := (tn_bins n - 1)%nat in
      let t := nth p (ts_bins i) 0%nat in
      let bt := bin_type i t in
      let st := fold_left (same_resource_step bt x (nth x (tn_last_copies n) 0%nat)) (nth t (it_resource_ids it) [])
                  (tn_last_resources n, profit) in
      let last_length := tn_last_length n + it_length it - it_nesting it in
      let current := ts_previous i p + last_length in
      mkNode (tn_path n ++ [(x, tn_bins n)]) copies (tn_bins n) items item_length current (current - item_length)
        (if (length (bt_resources bt) =? 0)%nat then profit else snd st)
        last_length (tn_last_weight n + it_weight it)%Q (tn_last_items n + 1)
        (Z.min (tn_last_max n) (it_stackability it))
        (omin (match tn_last_remaining n with None => None | Some w => Some (w - it_weight it)%Q end) (it_max_weight_after it))
        (if (length (bt_resources bt) =? 0)%nat then [] else fst st)
        (if (length (bt_resources bt) =? 0)%nat then [] else upd x S (tn_last_copies n))
  end.

(** insertion_item_same_bin, tree_search.cpp:203-247: the item may be added to the last
    bin. *)
Definition same_bin_ok (i : Instance) (n : Node) (x : nat) : bool :=
  let it := item_type i x in
  let t := nth (tn_bins n - 1) (ts_bins i) 0%nat in
  let bt := bin_type i t in
  negb (bt_length bt <? tn_last_length n + it_length it - it_nesting it)
  && negb (exceeds (tn_last_weight n + it_weight it)%Q (times_tol (bt_max_weight bt)))
  && negb (Z.min (tn_last_max n) (it_stackability it) <? tn_last_items n + 1)
  && negb (exceeds (it_weight it) (times_tol (tn_last_remaining n)))
  && (if (length (bt_resources bt) =? 0)%nat then true
      else forallb (fun r => let resource := nth r (bt_resources bt) dummy_resource in
             res_penalize resource
             || negb (Qltb (res_capacity resource * PSTOL) (nth r (tn_last_resources n) 0 + item_consumption resource x (nth x (tn_last_copies n) 0%nat))%Q))
             (nth t (it_resource_ids it) [])).

(** insertion_item_new_bin, tree_search.cpp:249-282. *)
Definition new_bin_ok (i : Instance) (x p : nat) : bool :=
  let it := item_type i x in
  let t := nth p (ts_bins i) 0%nat in
  let bt := bin_type i t in
  negb (bt_length bt <? it_length it)
  && negb (exceeds (it_weight it) (times_tol (bt_max_weight bt)))
  && forallb (fun r => let resource := nth r (bt_resources bt) dummy_resource in
       res_penalize resource || negb (Qltb (res_capacity resource * PSTOL) (item_consumption resource x 0)))
       (nth t (it_resource_ids it) []).

(** Copies of the item type remain, tree_search.cpp:178 and :194. *)
Definition remains (i : Instance) (n : Node) (x : nat) : bool := negb (nth x (tn_copies n) 0 =? it_copies (item_type i x)).

(** Insertions in the bin at position [p], tree_search.cpp:190-197. *)
Definition new_bin_insertions (i : Instance) (n : Node) (p : nat) : list Insertion :=
  map (fun x => (x, Some p))
    (filter (fun x => remains i n x && new_bin_ok i x p) (bt_item_type_ids (bin_type i (nth p (ts_bins i) 0%nat)))).

(** The first of the positions with an insertion, tree_search.cpp:187-198. *)
Fixpoint first_insertions (i : Instance) (n : Node) (positions : list nat) : list Insertion :=
  match positions with
  | [] => []
  | p :: rest => match new_bin_insertions i n p with [] => first_insertions i n rest | l => l end
  end.

(** insertions, tree_search.cpp:165-201. *)
Definition insertions (i : Instance) (n : Node) : list Insertion :=
  let same := if (tn_bins n =? 0)%nat then []
    else map (fun x => (x, None))
      (filter (fun x => remains i n x && same_bin_ok i n x)
         (bt_item_type_ids (bin_type i (nth (tn_bins n - 1) (ts_bins i) 0%nat)))) in
  match same with
  | [] => first_insertions i n (seq (tn_bins n) (length (in_bin_type_ids i) - tn_bins n))
  | _ => same
  end.

(** leaf, tree_search.hpp:173-177. *)
Definition leaf (i : Instance) (n : Node) : bool := tn_items n =? in_number_of_items i.

(** ** Solutions *)

(** Calls to the solution builder, tree_search.cpp:440-450; [n] is the number of bins
    added before. *)
Fixpoint path_calls (i : Instance) (n : nat) (path : list (nat * nat)) : list BuilderCall :=
  match path with
  | [] => []
  | (x, nb) :: rest =>
      map (fun k => AddBin (nth k (ts_bins i) 0%nat) 1) (seq n (nb - n))
      ++ AddItem (Nat.max n nb - 1) x :: path_calls i (Nat.max n nb) rest
  end.

(** to_solution, tree_search.cpp:428-488.  [None]: one of the [logic_error]s. *)
Definition to_solution (i : Instance) (cb : Callback) (n : Node) : option Solution :=
  match sb_run i [] (path_calls i 0 (tn_path n)) with
  | None => None
  | Some bins =>
      let s := sb_build i cb bins in
      let c := s_core s in
      if c_item_copies_ok c && c_capacity_ok c && c_weight_ok c && c_stackability_ok c
         && c_max_weight_after_ok c && c_resource_ok c && c_eligibility_ok c && c_bin_type_order_ok c
      then Some s else None
  end.

(** ** Comparisons *)

(** ubkp, tree_search.hpp:333-345.  [None]: no item type, or a division by zero. *)
Definition ubkp (i : Instance) (n : Node) : option Q :=
  let remaining_item_length := in_item_length i - tn_item_length n in
  let remaining_length := in_bin_length i - tn_current n in
  if remaining_item_length <=? remaining_length then Some (in_item_profit i)
  else match in_largest_efficiency i with
       | None => None
       | Some k => if it_length (item_type i k) =? 0 then None
                   else Some (tn_profit n + inject_Z remaining_length * it_profit (item_type i k) / inject_Z (it_length (item_type i k)))%Q
       end.

(** better, tree_search.cpp:338-374.  [None]: exception. *)
Definition better (i : Instance) (n1 n2 : Node) : option bool :=
  match in_objective i with
  | ODefault =>
      if Qltb (tn_profit n1) (tn_profit n2) then Some false
      else if Qltb (tn_profit n2) (tn_profit n1) then Some true
      else Some (tn_waste n1 <? tn_waste n2)
  | OBinPacking | OVariableSizedBinPacking =>
      if negb (leaf i n1) then Some false
      else if negb (leaf i n2) then Some true
      else Some (tn_bins n1 <? tn_bins n2)%nat
  | OBinPackingWithLeftovers =>
      if negb (leaf i n1) then Some false
      else if negb (leaf i n2) then Some true
      else Some (tn_waste n1 <? tn_waste n2)
  | OKnapsack | OFeasibility => Some (Qltb (tn_profit n2) (tn_profit n1))
  | _ => None
  end.

(** The loop of [bound] for bin packing, tree_search.cpp:392-401: [None] if the bins
    are not long enough ([return true]), otherwise the number of bins. *)
Fixpoint bins_needed (i : Instance) (bins : list nat) (k : nat) (a : Z) : option nat :=
  if a <=? 0 then Some k
  else match bins with
       | [] => None
       | t :: rest => bins_needed i rest (S k) (a - bt_length (bin_type i t))
       end.

(** bound, tree_search.cpp:376-422: [Some true] cuts [n1] given the solution [n2].
    [None]: exception. *)
Definition bound (i : Instance) (n1 n2 : Node) : option bool :=
  match in_objective i with
  | ODefault =>
      match ubkp i n1 with
      | None => None
      | Some u =>
          if negb (leaf i n2) then Some (Qle_bool u (tn_profit n2))
          else if negb (Qeq_bool u (tn_profit n2)) then Some (Qle_bool u (tn_profit n2))
          else Some (tn_waste n2 <=? tn_waste n1)
      end
  | OBinPacking | OVariableSizedBinPacking =>
      if negb (leaf i n2) then Some false
      else match bins_needed i (ts_bins i) 0 (in_item_length i + tn_waste n1) with
           | None => Some true
           | Some k => Some (tn_bins n2 <=? k)%nat
           end
  | OBinPackingWithLeftovers => if negb (leaf i n2) then Some false else Some (tn_waste n2 <=? tn_waste n1)
  | OKnapsack => Some false
  | OFeasibility => Some (leaf i n2)
  | _ => None
  end.

(** Item type of the last insertion (-1 at the root). *)
Definition last_item (n : Node) : option nat := match rev (tn_path n) with [] => None | (x, _) :: _ => Some x end.

(** dominates, tree_search.cpp:284-324, called for nodes with the same copies
    (tree_search.hpp:209-214). *)
Definition dominates (n1 n2 : Node) : bool :=
  match last_item n1, last_item n2 with
  | Some x, Some y => (x =? y)%nat
  | None, None => true
  | _, _ => false
  end
  && (tn_bins n1 =? tn_bins n2)%nat
  && negb (tn_current n2 <? tn_current n1)
  && negb (Qltb (tn_profit n1) (tn_profit n2))
  && forallb (fun r => negb (Qltb (nth r (tn_last_resources n2) 0%Q) (nth r (tn_last_resources n1) 0%Q)))
       (seq 0 (length (tn_last_resources n1))).

(** ** The tree *)

(** Nodes below [n]. *)
Inductive below (i : Instance) (n : Node) : Node -> Prop :=
| below_refl : below i n n
| below_child m ins : below i n m -> In ins (insertions i m) -> below i n (child i m ins).

(** Nodes of the tree. *)
Definition reachable (i : Instance) (n : Node) : Prop := below i (root i) n.
