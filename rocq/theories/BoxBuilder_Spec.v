(** * What a built box instance must satisfy *)

From Coq Require Import List ZArith QArith Bool.
From Verif Require Import Util Common_Model OneDim_Model OneDim_Spec OneDimBuilder_Model OneDimBuilder_Spec
  Box_Model Box_Spec BoxBuilder_Model.
Import ListNotations.
Open Scope Z_scope.

(** Sizes along an axis an item type can be placed with. *)
Definition can_size (a : Axis) (t : BItem) (s : Z) : Prop :=
  exists r, In r (bi_rotations t) /\ s = vat (rotate (bi_box t) r) a.

(** [m] is the smallest size of an item along the axis, 0 without items. *)
Definition is_smallest_along (a : Axis) (items : list BItem) (m : Z) : Prop :=
  (items = [] /\ m = 0) \/
  ((exists t, In t items /\ can_size a t m) /\ forall t s, In t items -> can_size a t s -> m <= s).

(** The computed attributes of an instance. *)
Record wconsistent (i : BInstance) (d : BDerived) : Prop := {
  wc_number_of_items : db_number_of_items d = zsum bi_copies (bx_items i);
  wc_item_volume : db_item_volume d = zsum (fun t => bi_copies t * bi_vol t) (bx_items i);
  wc_smallest_x : is_smallest_along AX (bx_items i) (db_smallest_x d);
  wc_smallest_y : is_smallest_along AY (bx_items i) (db_smallest_y d);
  wc_smallest_z : is_smallest_along AZ (bx_items i) (db_smallest_z d);
  wc_item_weight : (db_item_weight d == qsum (fun t => inject_Z (bi_copies t) * bi_weight t) (bx_items i))%Q;
  wc_item_profit : (db_item_profit d == qsum (fun t => inject_Z (bi_copies t) * bi_profit t) (bx_items i))%Q;
  wc_largest_profit : is_largest bi_profit (bx_items i) (db_largest_profit d);
  wc_largest_copies : 0 <= db_largest_copies d
    /\ (forall t, In t (bx_items i) -> bi_copies t <= db_largest_copies d)
    /\ (db_largest_copies d = 0 \/ exists t, In t (bx_items i) /\ bi_copies t = db_largest_copies d);
  (** the item type with the largest profit per volume *)
  wc_efficiency : match db_largest_efficiency d with
    | None => bx_items i = []
    | Some k => (k < length (bx_items i))%nat /\
        forall t, In t (bx_items i) ->
          (bi_profit t / inject_Z (bi_vol t) <= bi_profit (bxitem i k) / inject_Z (bi_vol (bxitem i k)))%Q
    end;
  (** whether every item type has at least as many copies as its volume allows
      in the largest bin *)
  wc_all_infinite : bx_bins i <> [] -> (forall bt, In bt (bx_bins i) -> 0 < bn_vol bt) ->
    (db_all_infinite d = true <->
     forall t bt, In t (bx_items i) -> In bt (bx_bins i) -> bn_vol bt <= bi_copies t * bi_vol t);
  wc_bin_volume : db_bin_volume d = zsum (fun t => bn_copies t * bn_vol t) (bx_bins i);
  wc_bin_area : db_bin_area d = zsum (fun t => bn_copies t * (v_x (bn_box t) * v_y (bn_box t))) (bx_bins i);
  wc_bin_weight : match db_bin_weight d with
    | Some w => (forall t, In t (bx_bins i) -> bn_max_weight t <> None) /\
        (w == qsum (fun t => inject_Z (bn_copies t) * match bn_max_weight t with Some m => m | None => 0 end) (bx_bins i))%Q
    | None => exists t, In t (bx_bins i) /\ bn_max_weight t = None
    end;
  wc_largest_cost : is_largest bn_cost (bx_bins i) (db_largest_cost d);
  (** each bin type as many times as it has copies, in order *)
  wc_bin_type_ids : db_bin_type_ids d =
    flat_map (fun t => repeat t (Z.to_nat (bn_copies (bxbin i t)))) (seq 0 (length (bx_bins i)));
  (** total volume of the bins before each bin *)
  wc_previous : length (db_previous d) = length (db_bin_type_ids d) /\
    forall k, (k < length (db_bin_type_ids d))%nat ->
      nth k (db_previous d) 0 = zsum (fun t => bn_vol (bxbin i t)) (firstn k (db_bin_type_ids d));
  (** the resources of a bin type consumed by an item type *)
  wc_resource_ids : forall x t, (x < length (bx_items i))%nat -> (t < length (bx_bins i))%nat ->
    NoDup (nth t (bi_resource_ids (bxitem i x)) []) /\
    forall r, In r (nth t (bi_resource_ids (bxitem i x)) []) <->
      (r < length (bn_resources (bxbin i t)))%nat /\
      nth x (res_item_consumptions (nth r (bn_resources (bxbin i t)) dummy_resource)) [] <> [];
  (** one bin when dimension x or y is open *)
  wc_open : bx_objective i = OOpenDimensionX \/ bx_objective i = OOpenDimensionY -> length (db_bin_type_ids d) = 1%nat
}.

(** The bounds on the entered values. *)
Record wwell_bounded (i : BInstance) : Prop := {
  ww_items : forall t, In t (bx_items i) -> (forall a, 0 < vat (bi_box t) a) /\ bi_rotations t <> [] /\
    bi_copies_min t <= bi_copies t /\ (0 <= bi_copies t -> 0 <= bi_copies_min t);
  ww_bins : forall t, In t (bx_bins i) -> 0 <= bn_copies_min t
}.

(** The instance holds the data entered in the builder. *)
Record wholds_data (b : BBuilder) (i : BInstance) : Prop := {
  wh_objective : bx_objective i = w_objective b;
  wh_items : length (bx_items i) = length (w_items b) /\
    forall x, (x < length (w_items b))%nat ->
      let entered := nth x (w_items b) dummy_bitem in
      let t := bxitem i x in
      bi_box t = bi_box entered /\ bi_profit t = bi_profit entered /\
      bi_copies t = bi_copies entered /\ bi_weight t = bi_weight entered /\
      (* without rotation, the item keeps its orientation *)
      bi_rotations t = (match bi_rotations entered with [] => [XYZ] | l => l end) /\
      (* the minimum is the one entered or the default of the objective *)
      bi_copies_min t =
        (if bi_copies_min entered =? -1
         then match bx_objective i with OKnapsack => 0 | _ => bi_copies entered end
         else bi_copies_min entered);
  wh_bins : length (bx_bins i) = length (w_bins b) /\
    forall t, (t < length (w_bins b))%nat ->
      let entered := nth t (w_bins b) dummy_bbin in
      let bt := bxbin i t in
      bn_box bt = bn_box entered /\ bn_cost bt = bn_cost entered /\
      bn_copies_min bt = bn_copies_min entered /\ bn_max_weight bt = bn_max_weight entered /\
      bn_resources bt = bn_resources entered /\
      (* unlimited copies become the number of items *)
      bn_copies bt = (if bn_copies entered =? -1 then zsum bi_copies (w_items b) else bn_copies entered)
}.

(** When a call on builder [b] is accepted. *)
Definition waccepted (b : BBuilder) (c : WCall) : Prop :=
  match c with
  | WAddBin v => forall a, 0 < vat v a
  | WSetBinCost id q => in_range id (w_bins b) /\ ((0 < q)%Q \/ (q == -1)%Q)
  | WSetBinWeight id _ | WAddResource id _ _ _ => in_range id (w_bins b)
  | WAddConsumption id rid x k _ =>
      in_range id (w_bins b) /\ in_range rid (bn_resources (nth (Z.to_nat id) (w_bins b) dummy_bbin)) /\ 0 <= k
  | WSetBinCopies id n => in_range id (w_bins b) /\
      (n = -1 \/ (0 < n /\ bn_copies_min (nth (Z.to_nat id) (w_bins b) dummy_bbin) <= n))
  | WSetBinCopiesMin id n => in_range id (w_bins b) /\ 0 <= n /\
      (bn_copies (nth (Z.to_nat id) (w_bins b) dummy_bbin) = -1 \/ n <= bn_copies (nth (Z.to_nat id) (w_bins b) dummy_bbin))
  | WAddItem v => forall a, 0 <= vat v a
  | WAddRotation id _ | WSetItemWeight id _ | WSetItemProfit id _ => in_range id (w_items b)
  | WSetItemCopies id n => in_range id (w_items b) /\ (n = -1 \/ 0 < n)
  | WSetItemCopiesMin id n => in_range id (w_items b) /\ -1 <= n
  | _ => True
  end.

(** Calls that enter data directly. *)
Definition wdirect (c : WCall) : bool :=
  match c with WCopyBin _ _ | WCopyItem _ _ => false | _ => true end.

(** Out of range or dividing by zero, which the builder does not check; the last
    three cases of the automatic profits divide zero by zero or add infinities
    of opposite signs. *)
Definition wunchecked (b : BBuilder) (c : WCall) : Prop :=
  match c with
  | WAddConsumption id rid x k _ => waccepted b c /\ x < 0
  | WProfitsAuto => w_items b <> [] /\
      (zsum (fun t => bn_copies t * bn_vol t) (w_bins b) = 0 \/
       ((exists t, In t (w_bins b) /\ bn_max_weight t = None /\ 0 < bn_copies t) /\
        (exists t, In t (w_bins b) /\ bn_max_weight t = None /\ bn_copies t < 0)) \/
       ((forall t, In t (w_bins b) -> bn_max_weight t = None -> bn_copies t = 0) /\
        (qsum (fun t => inject_Z (bn_copies t) * match bn_max_weight t with Some m => m | None => 0 end) (w_bins b) == 0)%Q))
  | WItemsInfinite => exists t, In t (w_items b) /\ bi_vol t = 0
  | _ => False
  end.
