(** * What the assignment MILP should mean *)

From Coq Require Import List ZArith QArith Bool.
From Verif Require Import Util Common_Model Common_Spec OneDim_Model OneDim_Spec OneDimBounds_Spec Milp_Model.
Import ListNotations.
Open Scope Z_scope.

(** ** Points of a 0-1 program *)

Definition binary (q : Q) : Prop := (q == 0 \/ q == 1)%Q.
Definition row_value (v : MVar -> Q) (r : MRow) : Q := qsum (fun p => (snd p * v (fst p))%Q) (row_terms r).
Definition row_holds (v : MVar -> Q) (r : MRow) : Prop :=
  match row_lower r with None => True | Some l => (l <= row_value v r)%Q end /\
  match row_upper r with None => True | Some u => (row_value v r <= u)%Q end.

(** Every column is 0 or 1 and at least its lower bound, every row holds. *)
Record MilpPoint (m : Milp) (v : MVar -> Q) : Prop := {
  pt_columns : forall c, In c (m_cols m) -> binary (v (col_var c)) /\ (col_lower c <= v (col_var c))%Q;
  pt_rows : forall r, In r (m_rows m) -> row_holds v r
}.

Definition milp_value (m : Milp) (v : MVar -> Q) : Q :=
  qsum (fun c => (col_obj c * v (col_var c))%Q) (m_cols m).

(** What a MILP solver may answer. *)
Definition honest_answer (m : Milp) (a : MilpAnswer) : Prop :=
  match a with
  | ProvenInfeasible => forall v, ~ MilpPoint m v
  | DualBound b => forall v, MilpPoint m v ->
      if m_maximize m then (milp_value m v <= b)%Q else (b <= milp_value m v)%Q
  end.

(** ** Packings *)

(** Profit of a packing; a bin with several copies pays its penalties for each
    of them. *)
Definition net_profit (i : Instance) (ds : list BinDesc) : Q :=
  qsum (fun d => (inject_Z (bd_copies d) *
    (qsum (fun x => it_profit (item_type i x)) (bd_items d) - penalties i d))%Q) ds.

(** No copy of a dominated item type unless all the copies of the dominating
    one are packed (Precedence, instance.hpp). *)
Definition PrecOK (i : Instance) (prec : list (nat * nat)) (ds : list BinDesc) : Prop :=
  forall a b, In (a, b) prec -> 0 < packed a ds -> packed b ds = it_copies (item_type i b).

(** A packing of the instance: ids in range, bins between their two limits, all
    the constraints on items and bins. *)
Record Packing (i : Instance) (prec : list (nat * nat)) (ds : list BinDesc) : Prop := {
  pk_types : forall d, In d ds -> (bd_type d < length (in_bin_types i))%nat /\ 0 <= bd_copies d;
  pk_items : forall d x, In d ds -> In x (bd_items d) -> (x < length (in_item_types i))%nat;
  pk_ok : PackingOK i ds;
  pk_copies : forall x, (x < length (in_item_types i))%nat -> packed x ds <= it_copies (item_type i x);
  pk_bins : forall t, (t < length (in_bin_types i))%nat -> used_bins t ds <= bt_copies (bin_type i t);
  pk_mandatory : needs_y i = true -> forall t, (t < length (in_bin_types i))%nat -> bt_copies_min (bin_type i t) <= used_bins t ds;
  pk_order : in_objective i = OBinPacking -> OrderOK i ds;
  pk_prec : PrecOK i prec ds
}.

(** Schedules "1 for the first [n] copies, then 0" (threshold_schedule). *)
Definition threshold_resources (i : Instance) : Prop :=
  forall t r x, (t < length (in_bin_types i))%nat -> In r (bt_resources (bin_type i t)) -> res_penalize r = true ->
    (x < length (in_item_types i))%nat ->
    exists n, forall c, (item_consumption r x c == if (c <? n)%nat then 1 else 0)%Q.

(** Instances: positive lengths, numbers of copies, known item types in the
    schedules and in the precedences. *)
Record milp_domain (i : Instance) (prec : list (nat * nat)) : Prop := {
  md_sane : sane_instance i;
  md_ids : wf_resource_ids i;
  md_items : forall x, (x < length (in_item_types i))%nat -> 0 < it_length (item_type i x) /\
    1 <= it_copies (item_type i x) /\ 0 <= it_copies_min (item_type i x) <= it_copies (item_type i x);
  md_bins : forall t, (t < length (in_bin_types i))%nat -> 0 <= bt_copies (bin_type i t) /\ 0 <= bt_copies_min (bin_type i t);
  md_prec : forall a b, In (a, b) prec -> (a < length (in_item_types i))%nat /\ (b < length (in_item_types i))%nat;
  md_number : in_number_of_items i = zsum it_copies (in_item_types i);
  md_bin_list : Z.of_nat (length (in_bin_type_ids i)) = zsum bt_copies (in_bin_types i)
}.

(** Nested items, not in the model. *)
Definition no_nesting (i : Instance) : Prop := forall x, it_nesting (item_type i x) = 0.

(** All copies of every item type are mandatory (the default but for
    Knapsack). *)
Definition all_mandatory (i : Instance) : Prop :=
  forall x, (x < length (in_item_types i))%nat -> it_copies_min (item_type i x) = it_copies (item_type i x).

(** What a claim says of the packings of the instance. *)
Definition claim_right (i : Instance) (prec : list (nat * nat)) (c : MilpClaim) : Prop :=
  forall ds, Packing i prec ds ->
    match c with
    | Infeasible => False
    | CostBound b => (b <= cost_of i ds)%Q
    | ProfitBound b => (net_profit i ds <= b)%Q
    | BinsBound n => n <= zsum bd_copies ds
    | NoClaim => True
    end.

(** The constraints the MILP knows of, for the items of one bin. *)
Record MilpBinOK (i : Instance) (d : BinDesc) : Prop := {
  mb_length : zsum (fun x => it_length (item_type i x)) (bd_items d) <= bt_length (bin_type i (bd_type d));
  mb_weight : within (total_weight i (bd_items d)) (bt_max_weight (bin_type i (bd_type d)));
  mb_eligible : forall x, In x (bd_items d) -> is_eligible i x (bd_type d);
  mb_resources : forall r, In r (bt_resources (bin_type i (bd_type d))) -> res_penalize r = false ->
    (consumption i r (bd_items d) <= res_capacity r)%Q
}.

(** ** What the other solvers called are assumed to answer *)

(** The bound found for a bin type comes from a packing of all the items that
    fit in that type, one list of items per bin. *)
Definition one_type_right (i : Instance) (sub : nat -> option nat) : Prop :=
  forall t n, (t < length (in_bin_types i))%nat -> sub t = Some n ->
    exists ls, length ls = n /\
      (forall l, In l ls -> MilpBinOK i (mkBD t 1 l) /\ forall x, In x l -> (x < length (in_item_types i))%nat) /\
      forall x, (x < length (in_item_types i))%nat -> item_type_fits_bin_type i x t = true ->
        zsum (fun l => Z.of_nat (count_occ Nat.eq_dec l x)) ls = it_copies (item_type i x).

(** A full best solution of a BinPacking instance is a packing. *)
Definition best_valid (i : Instance) (prec : list (nat * nat)) (best : Solution) : Prop :=
  in_objective i = OBinPacking -> c_number_of_items (s_core best) = in_number_of_items i -> Packing i prec (view best).

(** When the nested call says "infeasible" for the first [n] bins, no packing
    uses only these bins. *)
Definition nested_right (i : Instance) (prec : list (nat * nat)) (sub : Z -> SubAnswer) : Prop :=
  forall n, sub n = SubInfeasible -> forall ds, Packing i prec ds ->
    (forall t, (t < length (in_bin_types i))%nat -> used_bins t ds <= nth t (first_bins (in_bin_types i) n) 0) -> False.

(** Bounds on the bins that follow the order of the bin types (BinPacking). *)
Definition bounds_in_order (i : Instance) (ub : list nat) : Prop :=
  forall t u, (t < u < length (in_bin_types i))%nat -> (0 < nth u ub 0)%nat -> Z.of_nat (nth t ub 0%nat) = bt_copies (bin_type i t).

(** A point no other point is better than. *)
Definition best_point (m : Milp) (v : MVar -> Q) : Prop :=
  MilpPoint m v /\ forall w, MilpPoint m w ->
    if m_maximize m then (milp_value m w <= milp_value m v)%Q else (milp_value m v <= milp_value m w)%Q.

(** One packing is at least as good as another for the objective of the
    instance. *)
Definition as_good (i : Instance) (ds' ds : list BinDesc) : Prop :=
  match in_objective i with
  | OBinPacking => zsum bd_copies ds' <= zsum bd_copies ds
  | OVariableSizedBinPacking => (cost_of i ds' <= cost_of i ds)%Q
  | OKnapsack => (net_profit i ds <= net_profit i ds')%Q
  | _ => True
  end.

(** Penalties are paid, not received. *)
Definition penalties_nonneg (i : Instance) : Prop :=
  forall t r, (t < length (in_bin_types i))%nat -> In r (bt_resources (bin_type i t)) -> (0 <= res_penalty r)%Q.

(** Limits on stacks that the MILP does not know of. *)
Definition no_stack_limits (i : Instance) : Prop :=
  forall x, (x < length (in_item_types i))%nat ->
    it_max_weight_after (item_type i x) = None /\ in_number_of_items i <= it_stackability (item_type i x).
