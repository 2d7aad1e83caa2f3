(** * What a onedimensional instance must satisfy *)

From Coq Require Import List ZArith QArith Bool Sorted.
From Verif Require Import Util Common_Model OneDim_Model OneDim_Spec OneDimBuilder_Model.
Import ListNotations.
Open Scope Z_scope.

(** [m] is the largest of the values, or 0 if none is positive. *)
Definition is_largest {A : Type} (f : A -> Q) (l : list A) (m : Q) : Prop :=
  (0 <= m)%Q /\ (forall a, In a l -> (f a <= m)%Q) /\ (m = 0%Q \/ exists a, In a l /\ f a = m).

(** The totals and derived tables of an instance. *)
Record consistent (i : Instance) : Prop := {
  co_number_of_items : in_number_of_items i = zsum it_copies (in_item_types i);
  co_item_length : in_item_length i = zsum (fun t => it_copies t * it_length t) (in_item_types i);
  co_item_profit : (in_item_profit i == qsum (fun t => inject_Z (it_copies t) * it_profit t) (in_item_types i))%Q;
  co_largest_profit : is_largest it_profit (in_item_types i) (in_largest_item_profit i);
  co_largest_copies : 0 <= in_largest_item_copies i
    /\ (forall t, In t (in_item_types i) -> it_copies t <= in_largest_item_copies i)
    /\ (in_largest_item_copies i = 0 \/ exists t, In t (in_item_types i) /\ it_copies t = in_largest_item_copies i);
  (** the item type with the largest profit per length *)
  co_efficiency : match in_largest_efficiency i with
    | None => in_item_types i = []
    | Some k => (k < length (in_item_types i))%nat /\
        forall t, In t (in_item_types i) ->
          (it_profit t / inject_Z (it_length t)
           <= it_profit (item_type i k) / inject_Z (it_length (item_type i k)))%Q
    end;
  co_bin_length : in_bin_length i = zsum (fun t => bt_copies t * bt_length t) (in_bin_types i);
  co_largest_cost : is_largest bt_cost (in_bin_types i) (in_largest_bin_cost i);
  (** each bin type as many times as it has copies, in order *)
  co_bin_type_ids : in_bin_type_ids i =
    flat_map (fun t => repeat t (Z.to_nat (bt_copies (bin_type i t)))) (seq 0 (length (in_bin_types i)));
  (** total length of the bins before each bin *)
  co_previous : length (in_previous_bins_length i) = length (in_bin_type_ids i) /\
    forall k, (k < length (in_bin_type_ids i))%nat ->
      nth k (in_previous_bins_length i) 0 =
      zsum (fun t => bt_length (bin_type i t)) (firstn k (in_bin_type_ids i));
  (** exactly the eligible item types, in increasing order *)
  co_item_type_ids : forall t, (t < length (in_bin_types i))%nat ->
    StronglySorted lt (bt_item_type_ids (bin_type i t)) /\
    forall x, In x (bt_item_type_ids (bin_type i t)) <->
      (x < length (in_item_types i))%nat /\ is_eligible i x t;
  co_resource_ids : wf_resource_ids i
}.

(** The bounds on the entered values. *)
Record well_bounded (i : Instance) : Prop := {
  wb_items : forall t, In t (in_item_types i) -> it_length t <> 0 /\ it_copies_min t <= it_copies t /\
    (0 <= it_copies t -> 0 <= it_copies_min t);
  wb_bins : forall t, In t (in_bin_types i) -> 0 < bt_length t /\ (0 < bt_cost t)%Q /\ 0 <= bt_copies_min t;
  wb_bin_packing : in_objective i = OBinPacking -> forall t, In t (in_bin_types i) -> bt_copies_min t = 0
}.

(** The instance holds the data entered in the builder. *)
Record holds_data (b : Builder) (i : Instance) : Prop := {
  hd_objective : b_objective b = Some (in_objective i);
  hd_items : length (in_item_types i) = length (b_items b) /\
    forall x, (x < length (b_items b))%nat ->
      let entered := nth x (b_items b) dummy_item in
      let t := item_type i x in
      it_length t = it_length entered /\ it_profit t = it_profit entered /\ it_copies t = it_copies entered /\
      it_weight t = it_weight entered /\ it_nesting t = it_nesting entered /\
      it_stackability t = it_stackability entered /\ it_max_weight_after t = it_max_weight_after entered /\
      it_eligibility t = it_eligibility entered /\
      (* the minimum is the one entered or the default of the objective *)
      it_copies_min t =
        (if it_copies_min entered =? -1
         then match in_objective i with OKnapsack => 0 | _ => it_copies entered end
         else it_copies_min entered);
  hd_bins : length (in_bin_types i) = length (b_bins b) /\
    forall t, (t < length (b_bins b))%nat ->
      let entered := nth t (b_bins b) dummy_bin in
      let bt := bin_type i t in
      bt_length bt = bt_length entered /\ bt_cost bt = bt_cost entered /\ bt_copies_min bt = bt_copies_min entered /\
      bt_max_weight bt = bt_max_weight entered /\ bt_eligibility_ids bt = bt_eligibility_ids entered /\
      bt_resources bt = bt_resources entered /\
      (* unlimited copies become the number of items *)
      bt_copies bt = (if bt_copies entered =? -1 then in_number_of_items i else bt_copies entered)
}.

(** When a call on builder [b] is accepted. *)
Definition in_range {A : Type} (id : Z) (l : list A) : Prop := 0 <= id < Z.of_nat (length l).
Definition accepted (b : Builder) (c : BCall) : Prop :=
  match c with
  | AddBinType l => 0 < l
  | SetBinCost id q => in_range id (b_bins b) /\ ((0 < q)%Q \/ (q == -1)%Q)
  | SetBinMaxWeight id _ | AddBinEligibility id _ | AddBinResource id _ _ _ => in_range id (b_bins b)
  | AddConsumption id rid x k _ =>
      in_range id (b_bins b) /\ in_range rid (bt_resources (nth (Z.to_nat id) (b_bins b) dummy_bin)) /\ 0 <= k
  | SetBinCopies id n => in_range id (b_bins b) /\
      (n = -1 \/ (0 < n /\ bt_copies_min (nth (Z.to_nat id) (b_bins b) dummy_bin) <= n))
  | SetBinCopiesMin id n => in_range id (b_bins b) /\ 0 <= n /\
      (bt_copies (nth (Z.to_nat id) (b_bins b) dummy_bin) = -1 \/ n <= bt_copies (nth (Z.to_nat id) (b_bins b) dummy_bin))
  | SetItemWeight id _ | SetItemNesting id _ | SetItemStackability id _ | SetItemWeightAfter id _
  | SetItemEligibility id _ | SetItemProfit id _ => in_range id (b_items b)
  | SetItemCopies id n => in_range id (b_items b) /\ (n = -1 \/ 0 < n)
  | SetItemCopiesMin id n => in_range id (b_items b) /\ -1 <= n
  | _ => True
  end.

(** Calls that enter data directly. *)
Definition direct (c : BCall) : bool :=
  match c with CopyBinType _ _ | CopyItemType _ _ => false | _ => true end.

(** Out of range or dividing by zero, which the builder does not check. *)
Definition unchecked (b : Builder) (c : BCall) : Prop :=
  match c with
  | AddConsumption id rid x k _ => accepted b c /\ x < 0
  | SetItemsInfinite => exists t, In t (b_items b) /\ it_length t = 0
  | _ => False
  end.

(** ** Sub-instances *)

(** Bin type [t'] is a copy of bin type [t], resources included but without the
    consumptions. *)
Definition same_bin_type (t t' : BinType) : Prop :=
  bt_length t' = bt_length t /\ bt_cost t' = bt_cost t /\ bt_copies t' = bt_copies t /\
  bt_copies_min t' = bt_copies_min t /\ bt_max_weight t' = bt_max_weight t /\
  bt_eligibility_ids t' = bt_eligibility_ids t /\
  length (bt_resources t') = length (bt_resources t) /\
  forall r, (r < length (bt_resources t))%nat ->
    let res := nth r (bt_resources t) dummy_resource in
    let res' := nth r (bt_resources t') dummy_resource in
    res_capacity res' = res_capacity res /\ res_penalize res' = res_penalize res /\ res_penalty res' = res_penalty res.

(** Item type [t'] is a copy of item type [t], except for copies_min. *)
Definition same_item_type (t t' : ItemType) : Prop :=
  it_length t' = it_length t /\ it_profit t' = it_profit t /\ it_copies t' = it_copies t /\
  it_weight t' = it_weight t /\ it_nesting t' = it_nesting t /\ it_stackability t' = it_stackability t /\
  it_max_weight_after t' = it_max_weight_after t /\ it_eligibility t' = it_eligibility t.

(** The builder holds the sub-instance of [i] with bin types [bins] and item
    types [items], in this order. *)
Record sub_instance (i : Instance) (bins items : list nat) (b : Builder) : Prop := {
  si_bins : length (b_bins b) = length bins /\
    forall k, (k < length bins)%nat ->
      same_bin_type (bin_type i (nth k bins 0%nat)) (nth k (b_bins b) dummy_bin);
  si_items : length (b_items b) = length items /\
    forall k, (k < length items)%nat ->
      same_item_type (item_type i (nth k items 0%nat)) (nth k (b_items b) dummy_item);
  si_consumptions : forall k r x, (k < length bins)%nat -> (x < length items)%nat ->
    (r < length (bt_resources (bin_type i (nth k bins 0%nat))))%nat ->
    schedule (nth r (bt_resources (nth k (b_bins b) dummy_bin)) dummy_resource) x =
    schedule (nth r (bt_resources (bin_type i (nth k bins 0%nat))) dummy_resource) (nth x items 0%nat)
}.

(** Types whose copy every setter accepts. *)
Record copyable (i : Instance) : Prop := {
  cp_bins : forall t, In t (in_bin_types i) ->
    0 < bt_length t /\ (0 < bt_cost t)%Q /\ 0 <= bt_copies_min t <= bt_copies t /\ 1 <= bt_copies t;
  cp_items : forall t, In t (in_item_types i) -> 1 <= it_copies t
}.

(** The calls in order, stopping at the first exception. *)
Definition calls_from (b : Builder) (calls : list BCall) : BRes :=
  fold_left (fun r c => bthen r (fun b => bstep b c)) calls (BOk b).

(** Instance [i'] is the sub-instance of [i] with bin types [bins] and item
    types [items]. *)
Record is_sub_instance (i : Instance) (bins items : list nat) (i' : Instance) : Prop := {
  is_bins : length (in_bin_types i') = length bins /\
    forall k, (k < length bins)%nat ->
      same_bin_type (bin_type i (nth k bins 0%nat)) (bin_type i' k);
  is_items : length (in_item_types i') = length items /\
    forall x, (x < length items)%nat ->
      same_item_type (item_type i (nth x items 0%nat)) (item_type i' x) /\
      it_copies_min (item_type i' x) =
        match in_objective i' with OKnapsack => 0 | _ => it_copies (item_type i (nth x items 0%nat)) end;
  is_consumptions : forall k r x, (k < length bins)%nat -> (x < length items)%nat ->
    (r < length (bt_resources (bin_type i (nth k bins 0%nat))))%nat ->
    schedule (nth r (bt_resources (bin_type i' k)) dummy_resource) x =
    schedule (nth r (bt_resources (bin_type i (nth k bins 0%nat))) dummy_resource) (nth x items 0%nat)
}.
