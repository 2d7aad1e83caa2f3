(** * What a built rectangle instance must satisfy *)

From Coq Require Import List ZArith QArith Bool Sorted.
From Verif Require Import Util Common_Model OneDim_Model OneDim_Spec OneDimBuilder_Model OneDimBuilder_Spec
  Rect_Model RectBuilder_Model.
Import ListNotations.
Open Scope Z_scope.

(** Widths (heights) an item type can be placed with. *)
Definition can_width (t : RItem) (w : Z) : Prop := w = ri_x t \/ (ri_oriented t = false /\ w = ri_y t).
Definition can_height (t : RItem) (h : Z) : Prop := h = ri_y t \/ (ri_oriented t = false /\ h = ri_x t).

(** [m] is the smallest width (height) of an item, if there is an item. *)
Definition is_smallest (can : RItem -> Z -> Prop) (items : list RItem) (m : option Z) : Prop :=
  match m with
  | None => items = []
  | Some v => (exists t, In t items /\ can t v) /\ forall t w, In t items -> can t w -> v <= w
  end.

(** The computed attributes of an instance. *)
Record rconsistent (i : RInstance) (d : RDerived) : Prop := {
  rc_number_of_items : dv_number_of_items d = zsum ri_copies (rin_items i);
  rc_item_area : dv_item_area d = zsum (fun t => ri_copies t * (ri_x t * ri_y t)) (rin_items i);
  rc_total_width : dv_total_width d = zsum (fun t => ri_copies t * ri_x t) (rin_items i);
  rc_total_height : dv_total_height d = zsum (fun t => ri_copies t * ri_y t) (rin_items i);
  rc_smallest_width : is_smallest can_width (rin_items i) (dv_smallest_width d);
  rc_smallest_height : is_smallest can_height (rin_items i) (dv_smallest_height d);
  rc_item_weight : (dv_item_weight d == qsum (fun t => inject_Z (ri_copies t) * ri_weight t) (rin_items i))%Q;
  rc_item_profit : (dv_item_profit d == qsum (fun t => inject_Z (ri_copies t) * ri_profit t) (rin_items i))%Q;
  rc_largest_profit : is_largest ri_profit (rin_items i) (dv_largest_profit d);
  rc_largest_copies : 0 <= dv_largest_copies d
    /\ (forall t, In t (rin_items i) -> ri_copies t <= dv_largest_copies d)
    /\ (dv_largest_copies d = 0 \/ exists t, In t (rin_items i) /\ ri_copies t = dv_largest_copies d);
  (** the item type with the largest profit per area *)
  rc_efficiency : match dv_largest_efficiency d with
    | None => rin_items i = []
    | Some k => (k < length (rin_items i))%nat /\
        forall t, In t (rin_items i) ->
          (ri_profit t / inject_Z (ri_x t * ri_y t)
           <= ri_profit (ritem i k) / inject_Z (ri_x (ritem i k) * ri_y (ritem i k)))%Q
    end;
  rc_bin_area : dv_bin_area d = zsum (fun t => rb_copies t * (rb_x t * rb_y t)) (rin_bins i);
  rc_bin_weight : match dv_bin_weight d with
    | Some w => (forall t, In t (rin_bins i) -> rb_max_weight t <> None) /\
        (w == qsum (fun t => inject_Z (rb_copies t) * match rb_max_weight t with Some m => m | None => 0 end) (rin_bins i))%Q
    | None => exists t, In t (rin_bins i) /\ rb_max_weight t = None
    end;
  rc_largest_cost : is_largest rb_cost (rin_bins i) (dv_largest_cost d);
  rc_defects : Z.of_nat (dv_defects d) = zsum (fun t => Z.of_nat (length (rb_defects t))) (rin_bins i);
  (** each bin type as many times as it has copies, in order *)
  rc_bin_type_ids : dv_bin_type_ids d =
    flat_map (fun t => repeat t (Z.to_nat (rb_copies (rbin i t)))) (seq 0 (length (rin_bins i)));
  (** total area of the bins before each bin *)
  rc_previous : length (dv_previous d) = length (dv_bin_type_ids d) /\
    forall k, (k < length (dv_bin_type_ids d))%nat ->
      nth k (dv_previous d) 0 =
      zsum (fun t => rb_x (rbin i t) * rb_y (rbin i t)) (firstn k (dv_bin_type_ids d));
  (** exactly the eligible item types, in increasing order *)
  rc_item_type_ids : length (dv_item_type_ids d) = length (rin_bins i) /\
    forall t, (t < length (rin_bins i))%nat ->
    StronglySorted lt (nth t (dv_item_type_ids d) []) /\
    forall x, In x (nth t (dv_item_type_ids d) []) <->
      (x < length (rin_items i))%nat /\
      (ri_eligibility (ritem i x) = -1 \/ In (ri_eligibility (ritem i x)) (rb_eligibility_ids (rbin i t)));
  (** the resources of a bin type consumed by an item type *)
  rc_resource_ids : forall x t, (x < length (rin_items i))%nat -> (t < length (rin_bins i))%nat ->
    NoDup (nth t (ri_resource_ids (ritem i x)) []) /\
    forall r, In r (nth t (ri_resource_ids (ritem i x)) []) <->
      (r < length (rb_resources (rbin i t)))%nat /\
      nth x (res_item_consumptions (nth r (rb_resources (rbin i t)) dummy_resource)) [] <> [];
  (** the item types and the number of items of each group *)
  rc_groups : forall g, (g < length (dv_groups d))%nat ->
    StronglySorted lt (fst (nth g (dv_groups d) ([], 0))) /\
    (forall x, In x (fst (nth g (dv_groups d) ([], 0))) <->
      (x < length (rin_items i))%nat /\ ri_group (ritem i x) = g) /\
    snd (nth g (dv_groups d) ([], 0)) = zsum (fun t => if Nat.eqb (ri_group t) g then ri_copies t else 0) (rin_items i);
  rc_groups_all : (forall t, In t (rin_items i) -> (ri_group t < length (dv_groups d))%nat) /\
    (dv_groups d = [] \/ exists t, In t (rin_items i) /\ length (dv_groups d) = S (ri_group t));
  (** one bin when a dimension is open *)
  rc_open : rin_objective i = OOpenDimensionX \/ rin_objective i = OOpenDimensionY -> length (dv_bin_type_ids d) = 1%nat
}.

(** The bounds on the entered values. *)
Record rwell_bounded (i : RInstance) : Prop := {
  rw_items : forall t, In t (rin_items i) -> 0 < ri_x t /\ 0 < ri_y t /\ ri_copies_min t <= ri_copies t /\
    (0 <= ri_copies t -> 0 <= ri_copies_min t);
  rw_bins : forall t, In t (rin_bins i) -> 0 <= rb_copies_min t
}.

(** The instance holds the data entered in the builder. *)
Record rholds_data (b : RBuilder) (i : RInstance) : Prop := {
  rh_objective : rin_objective i = u_objective b;
  rh_params : rin_params i = u_params b;
  rh_items : length (rin_items i) = length (u_items b) /\
    forall x, (x < length (u_items b))%nat ->
      let entered := nth x (u_items b) dummy_ritem in
      let t := ritem i x in
      ri_x t = ri_x entered /\ ri_y t = ri_y entered /\ ri_profit t = ri_profit entered /\
      ri_copies t = ri_copies entered /\ ri_group t = ri_group entered /\ ri_oriented t = ri_oriented entered /\
      ri_weight t = ri_weight entered /\ ri_eligibility t = ri_eligibility entered /\
      (* the minimum is the one entered or the default of the objective *)
      ri_copies_min t =
        (if ri_copies_min entered =? -1
         then match rin_objective i with OKnapsack => 0 | _ => ri_copies entered end
         else ri_copies_min entered);
  rh_bins : length (rin_bins i) = length (u_bins b) /\
    forall t, (t < length (u_bins b))%nat ->
      let entered := nth t (u_bins b) dummy_rbin in
      let bt := rbin i t in
      rb_x bt = rb_x entered /\ rb_y bt = rb_y entered /\ rb_cost bt = rb_cost entered /\
      rb_copies_min bt = rb_copies_min entered /\ rb_max_weight bt = rb_max_weight entered /\
      rb_truck bt = rb_truck entered /\ rb_eligibility_ids bt = rb_eligibility_ids entered /\
      rb_defects bt = rb_defects entered /\ rb_resources bt = rb_resources entered /\
      (* unlimited copies become the number of items *)
      rb_copies bt = (if rb_copies entered =? -1 then zsum ri_copies (u_items b) else rb_copies entered)
}.

(** When a call on builder [b] is accepted. *)
Definition raccepted (b : RBuilder) (c : UCall) : Prop :=
  match c with
  | UAddBin x y => 0 < x /\ 0 < y
  | USetBinCost id q => in_range id (u_bins b) /\ ((0 < q)%Q \/ (q == -1)%Q)
  | USetBinWeight id _ | USetBinTruck id _ | UAddEligibility id _ | UAddDefect id _ _ _ _
  | UAddResource id _ _ _ => in_range id (u_bins b)
  | UAddConsumption id rid x k _ =>
      in_range id (u_bins b) /\ in_range rid (rb_resources (nth (Z.to_nat id) (u_bins b) dummy_rbin)) /\ 0 <= k
  | USetBinCopies id n => in_range id (u_bins b) /\
      (n = -1 \/ (0 < n /\ rb_copies_min (nth (Z.to_nat id) (u_bins b) dummy_rbin) <= n))
  | USetBinCopiesMin id n => in_range id (u_bins b) /\ 0 <= n /\
      (rb_copies (nth (Z.to_nat id) (u_bins b) dummy_rbin) = -1 \/ n <= rb_copies (nth (Z.to_nat id) (u_bins b) dummy_rbin))
  | UAddItem x y _ => 0 <= x /\ 0 <= y
  | USetItemGroup _ g => 0 <= g
  | USetItemWeight id _ | USetItemEligibility id _ | USetItemProfit id _ => in_range id (u_items b)
  | USetItemCopies id n => in_range id (u_items b) /\ (n = -1 \/ 0 < n)
  | USetItemCopiesMin id n => in_range id (u_items b) /\ -1 <= n
  | _ => True
  end.

(** Calls that enter data directly. *)
Definition rdirect (c : UCall) : bool :=
  match c with UCopyBin _ _ | UCopyItem _ _ => false | _ => true end.

(** Out of range or dividing by zero, which the builder does not check. *)
Definition runchecked (b : RBuilder) (c : UCall) : Prop :=
  match c with
  | USetGroupWeight g _ => g < 0
  | UAddConsumption id rid x k _ => raccepted b c /\ x < 0
  | USetItemGroup id g => raccepted b c /\ ~ in_range id (u_items b)
  | UItemsInfinite => exists t, In t (u_items b) /\ ri_x t * ri_y t = 0
  | _ => False
  end.
