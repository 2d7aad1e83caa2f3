(** * Specification for the onedimensional branching scheme *)

From Coq Require Import List ZArith QArith Bool.
From Verif Require Import Util Common_Model Common_Spec OneDim_Model OneDim_Spec OneDimBuilder_Spec.
Import ListNotations.
Open Scope Z_scope.

Section Spec.
Variable i : Instance.

(** At most [m * PSTOL]. *)
Definition within_tol (q : Q) (m : option Q) : Prop := match m with None => True | Some m => (q <= m * PSTOL)%Q end.

(** The constraints on a bin, where weights and resource consumptions may exceed
    their limits by the relative tolerance; lengths and stackability are exact. *)
Record TolBinOK (d : BinDesc) : Prop := {
  tb_length : PrefAll (fun p x => start_of i p x + it_length (item_type i x) <= bt_length (bin_type i (bd_type d))) (bd_items d);
  tb_weight : PrefAll (fun p x => within_tol (total_weight i (p ++ [x])) (bt_max_weight (bin_type i (bd_type d)))) (bd_items d);
  tb_stackability : forall x, In x (bd_items d) -> Z.of_nat (length (bd_items d)) <= it_stackability (item_type i x);
  tb_weight_after : forall a x after, bd_items d = a ++ x :: after -> within_tol (total_weight i after) (it_max_weight_after (item_type i x));
  tb_eligibility : forall x, In x (bd_items d) -> is_eligible i x (bd_type d);
  tb_resources : forall r, In r (bt_resources (bin_type i (bd_type d))) -> res_penalize r = false ->
    PrefAll (fun p x => schedule r x <> [] -> (consumption i r (p ++ [x]) <= res_capacity r * PSTOL)%Q) (bd_items d)
}.

(** A packing: item and bin copies are exact. *)
Record TolPackingOK (ds : list BinDesc) : Prop := {
  tp_bins : forall d, In d ds -> TolBinOK d;
  tp_copies : forall x, (x < length (in_item_types i))%nat -> packed x ds <= it_copies (item_type i x);
  tp_bin_copies : forall t, (t < length (in_bin_types i))%nat -> used_bins t ds <= bt_copies (bin_type i t)
}.

(** Integer weights, weight limits, consumptions and capacities, the limits being
    less than 1e9. *)
Definition is_int (q : Q) : Prop := exists z, (q == inject_Z z)%Q.
Definition small_int (m : option Q) : Prop := match m with None => True | Some m => is_int m /\ (m < 1000000000)%Q end.
Record integral : Prop := {
  ig_weight : forall x, is_int (it_weight (item_type i x));
  ig_weight_after : forall x, small_int (it_max_weight_after (item_type i x));
  ig_max_weight : forall t, small_int (bt_max_weight (bin_type i t));
  ig_resources : forall bt r, In bt (in_bin_types i) -> In r (bt_resources bt) ->
    is_int (res_capacity r) /\ (res_capacity r < 1000000000)%Q /\ forall s q, In s (res_item_consumptions r) -> In q s -> is_int q
}.

(** No copies below zero. *)
Definition sane_copies : Prop := (forall x, 0 <= it_copies (item_type i x)) /\ (forall t, 0 <= bt_copies (bin_type i t)).
End Spec.

(** The instances the branching scheme is meant for: built by the instance builder,
    with non-negative sizes, weights, limits and copies, and a stackability of at
    least 1. *)
Record tree_domain (i : Instance) : Prop := {
  td_consistent : consistent i;
  td_sane : sane_instance i;
  td_copies : sane_copies i;
  td_stackability : forall x, (x < length (in_item_types i))%nat -> 1 <= it_stackability (item_type i x)
}.

(** No nesting, positive lengths, non-negative profits and penalties. *)
Record plain (i : Instance) : Prop := {
  pl_nesting : forall x, it_nesting (item_type i x) = 0;
  pl_length : forall x, (x < length (in_item_types i))%nat -> 0 < it_length (item_type i x);
  pl_profit : forall x, (0 <= it_profit (item_type i x))%Q;
  pl_penalty : forall t r, In r (bt_resources (bin_type i t)) -> (0 <= res_penalty r)%Q
}.
