(** * What the cuts, the master problem and the claims of the Benders decomposition mean *)

From Coq Require Import List ZArith QArith Bool.
From Verif Require Import Util Common_Model Common_Spec OneDim_Model OneDim_Spec OneDimBuilder_Model OneDimBounds_Spec Milp_Model Milp_Spec
  Rect_Model Rect_Spec RectSol_Spec Bar_Spec RectBounds_Spec Benders_Model.
Import ListNotations.
Open Scope Z_scope.

Section Spec.
Variable i : RInstance.

(** Constraints on one bin besides geometry, eligibility and resources: weight limits,
    unloading rules, ... *)
Variable extra : nat -> list Place -> Prop.

(** What may be packed in one bin of type [t]. *)
Record bin_ok (t : nat) (ps : list Place) : Prop := {
  bo_geometry : geometry_ok i (rbin i t) ps;
  bo_eligible : forall p, In p ps -> ri_eligibility (ritem i (pl_type p)) = -1
    \/ In (ri_eligibility (ritem i (pl_type p))) (rb_eligibility_ids (rbin i t));
  bo_resources : forall r, In r (rb_resources (rbin i t)) -> res_penalize r = false -> (rconsumption i r ps <= res_capacity r)%Q;
  bo_copies : forall x, (x < length (rin_items i))%nat -> rcount x ps <= ri_copies (ritem i x);
  bo_extra : extra t ps
}.

(** Taking an item out of a bin breaks none of them. *)
Definition monotone : Prop := forall t a p b, extra t (a ++ p :: b) -> extra t (a ++ b).

(** A packing. *)
Record bd_packing (ds : list RDesc) : Prop := {
  bk_bins : forall d, In d ds -> (rd_type d < length (rin_bins i))%nat /\ 1 <= rd_copies d /\ bin_ok (rd_type d) (rd_items d);
  bk_copies : forall x, (x < length (rin_items i))%nat -> ri_copies_min (ritem i x) <= rpacked x ds <= ri_copies (ritem i x);
  bk_used : forall t, (t < length (rin_bins i))%nat -> rb_copies_min (rbin i t) <= rused_bins t ds <= rb_copies (rbin i t);
  bk_order : rin_objective i = OBinPacking -> rin_order i ds
}.

(** A packing that may leave out mandatory items and bins. *)
Record bd_solution (ds : list RDesc) : Prop := {
  sn_bins : forall d, In d ds -> (rd_type d < length (rin_bins i))%nat /\ 1 <= rd_copies d /\ bin_ok (rd_type d) (rd_items d);
  sn_copies : forall x, (x < length (rin_items i))%nat -> rpacked x ds <= ri_copies (ritem i x);
  sn_used : forall t, (t < length (rin_bins i))%nat -> rused_bins t ds <= rb_copies (rbin i t)
}.

(** Profit of a packing, every copy of a bin paying its penalties. *)
Definition bd_profit (ds : list RDesc) : Q :=
  qsum (fun d => (inject_Z (rd_copies d) * (qsum (fun p => ri_profit (ritem i (pl_type p))) (rd_items d) - rpenalties i d))%Q) ds.

(** What a claim says of the packings. *)
Definition bd_claim_right (c : MilpClaim) : Prop :=
  forall ds, bd_packing ds ->
    match c with
    | Infeasible => False
    | ProfitBound b => (bd_profit ds <= b)%Q
    | BinsBound n => n <= rbins_used ds
    | CostBound b => (b <= packing_cost i ds)%Q
    | NoClaim => True
    end.

(** ** Selections and cuts *)

(** Number of copies of [x] in a selection. *)
Definition selected (sel : list (nat * Z)) (x : nat) : Z := zsum (fun p => if Nat.eqb (fst p) x then snd p else 0) sel.

(** No bin contains the selection. *)
Definition never_together (t : nat) (sel : list (nat * Z)) : Prop :=
  forall ps, bin_ok t ps -> ~ forall x, (x < length (rin_items i))%nat -> selected sel x <= rcount x ps.

(** A cut that excludes no bin. *)
Definition cut_valid (t : nat) (c : RCut) : Prop :=
  forall ps, bin_ok t ps -> (cut_consumption c (fun x => rcount x ps) <= ct_capacity c)%Q.

(** ** What the solvers called are assumed to answer *)

(** The solve of one bin: its items can be in the bin and are among the selected ones;
    "full" means that they are all there, "infeasible" that they cannot be. *)
Definition sub_right (sub : nat -> list (nat * Z) -> SubOut) : Prop :=
  forall t sel,
    (forall ps, so_places (sub t sel) = Some ps -> bin_ok t ps
       /\ forall x, (x < length (rin_items i))%nat -> rcount x ps <= selected sel x) /\
    (so_full (sub t sel) = true -> forall x, (x < length (rin_items i))%nat ->
       selected sel x = match so_places (sub t sel) with Some ps => rcount x ps | None => 0 end) /\
    (so_infeasible (sub t sel) = true ->
       forall ps, bin_ok t ps -> ~ forall x, (x < length (rin_items i))%nat -> rcount x ps = selected sel x).

(** The claims of the master are right. *)
Definition master_right (o : Oracles) : Prop :=
  forall k i1 prec, Milp_Spec.claim_right i1 prec (mo_claim (or_master o k i1 prec)).

(** The bins of the solution of the master satisfy its constraints. *)
Definition master_valid (o : Oracles) : Prop :=
  forall k i1 prec, (forall x, (x < length (in_item_types i1))%nat -> 0 <= it_copies (item_type i1 x)) ->
    (forall t, (t < length (in_bin_types i1))%nat -> 0 <= bt_copies (bin_type i1 t)) ->
    let sol := mo_solution (or_master o k i1 prec) in
    (forall d, In d sol -> (bd_type d < length (in_bin_types i1))%nat /\ 1 <= bd_copies d /\ MilpBinOK i1 d
       /\ forall x, In x (bd_items d) -> (x < length (in_item_types i1))%nat) /\
    (forall x, (x < length (in_item_types i1))%nat -> packed x sol <= it_copies (item_type i1 x)) /\
    (forall t, (t < length (in_bin_types i1))%nat -> used_bins t sol <= bt_copies (bin_type i1 t)).

(** ** Instances *)

(** Limited bins, sizes and costs positive, resources with non-negative capacities and
    consumptions. *)
Record bd_domain : Prop := {
  do_relax : relaxable i;
  do_min : forall it, In it (rin_items i) -> 0 <= ri_copies_min it <= ri_copies it;
  do_resources : rsane_resources i;
  do_schedules : forall bt r, In bt (rin_bins i) -> In r (rb_resources bt) -> (length (res_item_consumptions r) <= length (rin_items i))%nat
}.

(** No item that may be rotated next to one that may not. *)
Definition same_orientation : Prop :=
  (forall it, In it (rin_items i) -> ri_oriented it = true) \/ (forall it, In it (rin_items i) -> ri_oriented it = false).

(** Items told apart by their size, profit and eligibility only. *)
Record plain_items : Prop := {
  pl_no_resources : forall bt, In bt (rin_bins i) -> rb_resources bt = [];
  pl_no_extra : forall t ps, extra t ps;
  pl_optional : forall it, In it (rin_items i) -> ri_copies_min it = 0
}.

End Spec.

(** The bound of the bar relaxation is at least the profit of every packing. *)
Definition bar_right (bar : RInstance -> option Q) : Prop :=
  forall sub b, bar sub = Some b -> forall ds, bar_packing sub ds -> (rprofit sub ds <= b)%Q.

(** A selection of items of the instance. *)
Record selection_ok (i : RInstance) (sel : list (nat * Z)) : Prop := {
  sl_distinct : NoDup (map fst sel);
  sl_items : forall p, In p sel -> (fst p < length (rin_items i))%nat /\ 1 <= snd p <= ri_copies (ritem i (fst p))
}.

(** At most one item type is added to a cut by the lifting. *)
Definition lifts_at_most_one (i : RInstance) (bar : RInstance -> option Q) : Prop :=
  forall t sel, selection_ok i sel ->
    (length (ct_consumption (lift_no_good_cut i bar t (no_good_cut sel))) <= S (length sel))%nat.

(** The solution of the master is as good as what it claims, and packs the mandatory
    items, unless it claims that there is none. *)
Definition master_exact (i1 : Instance) (out : MasterOut) : Prop :=
  mo_claim out = Infeasible \/
  (forall x, (x < length (in_item_types i1))%nat -> it_copies_min (item_type i1 x) <= packed x (mo_solution out)) /\
  match in_objective i1 with
  | OKnapsack => mo_claim out = ProfitBound (net_profit i1 (mo_solution out))
  | OBinPacking => mo_claim out = BinsBound (zsum bd_copies (mo_solution out))
  | OVariableSizedBinPacking => mo_claim out = CostBound (cost_of i1 (mo_solution out))
  | _ => True
  end.

(** One solution is at least as good as another. *)
Definition bd_as_good (i : RInstance) (sol ds : list RDesc) : Prop :=
  match rin_objective i with
  | OKnapsack => (bd_profit i ds <= bd_profit i sol)%Q
  | OBinPacking => rbins_used sol <= rbins_used ds
  | OVariableSizedBinPacking => (packing_cost i sol <= packing_cost i ds)%Q
  | _ => True
  end.
