(** * What a built boxstacks instance must satisfy *)

From Coq Require Import List ZArith QArith Bool Sorted.
From Verif Require Import Util Common_Model OneDim_Model OneDim_Spec OneDimBuilder_Model OneDimBuilder_Spec
  Rect_Model Box_Model Box_Spec Stack_Model StackBuilder_Model.
Import ListNotations.
Open Scope Z_scope.

Definition yi_vol (t : KItem) : Z := v_x (ki_box t) * v_y (ki_box t) * v_z (ki_box t).
Definition yb_vol (t : KBin) : Z := v_x (kb_box t) * v_y (kb_box t) * v_z (kb_box t).

(** The computed attributes of an instance. *)
Record yconsistent (i : KInstance) (d : KDerived) : Prop := {
  yc_number_of_items : dk_number_of_items d = zsum ki_copies (kx_items i);
  yc_item_volume : dk_item_volume d = zsum (fun t => ki_copies t * yi_vol t) (kx_items i);
  yc_item_weight : (dk_item_weight d == qsum (fun t => inject_Z (ki_copies t) * ki_weight t) (kx_items i))%Q;
  yc_item_profit : (dk_item_profit d == qsum (fun t => inject_Z (ki_copies t) * ki_profit t) (kx_items i))%Q;
  (** the item type with the largest profit per volume *)
  yc_efficiency : match dk_largest_efficiency d with
    | None => kx_items i = []
    | Some k => (k < length (kx_items i))%nat /\
        forall t, In t (kx_items i) ->
          (ki_profit t / inject_Z (yi_vol t) <= ki_profit (kitem i k) / inject_Z (yi_vol (kitem i k)))%Q
    end;
  (** whether every item type has at least as many copies as its volume allows
      in the largest bin *)
  yc_all_infinite : kx_bins i <> [] -> (forall bt, In bt (kx_bins i) -> 0 < yb_vol bt) ->
    (dk_all_infinite d = true <->
     forall t bt, In t (kx_items i) -> In bt (kx_bins i) -> yb_vol bt <= ki_copies t * yi_vol t);
  yc_bin_volume : dk_bin_volume d = zsum (fun t => kb_copies t * yb_vol t) (kx_bins i);
  yc_bin_area : dk_bin_area d = zsum (fun t => kb_copies t * (v_x (kb_box t) * v_y (kb_box t))) (kx_bins i);
  yc_bin_weight : match dk_bin_weight d with
    | Some w => (forall t, In t (kx_bins i) -> kb_max_weight t <> None) /\
        (w == qsum (fun t => inject_Z (kb_copies t) * match kb_max_weight t with Some m => m | None => 0 end) (kx_bins i))%Q
    | None => exists t, In t (kx_bins i) /\ kb_max_weight t = None
    end;
  yc_defects : Z.of_nat (dk_defects d) = zsum (fun t => Z.of_nat (length (kb_defects t))) (kx_bins i);
  (** each bin type as many times as it has copies, in order *)
  yc_bin_type_ids : dk_bin_type_ids d =
    flat_map (fun t => repeat t (Z.to_nat (kb_copies (kbin i t)))) (seq 0 (length (kx_bins i)));
  (** total volume of the bins before each bin *)
  yc_previous : length (dk_previous d) = length (dk_bin_type_ids d) /\
    forall k, (k < length (dk_bin_type_ids d))%nat ->
      nth k (dk_previous d) 0 = zsum (fun t => yb_vol (kbin i t)) (firstn k (dk_bin_type_ids d));
  (** the item types and the number of items of each group *)
  yc_groups : forall g, (g < length (dk_groups d))%nat ->
    StronglySorted lt (fst (nth g (dk_groups d) ([], 0))) /\
    (forall x, In x (fst (nth g (dk_groups d) ([], 0))) <->
      (x < length (kx_items i))%nat /\ ki_group (kitem i x) = g) /\
    snd (nth g (dk_groups d) ([], 0)) = zsum (fun t => if Nat.eqb (ki_group t) g then ki_copies t else 0) (kx_items i);
  yc_groups_all : (forall t, In t (kx_items i) -> (ki_group t < length (dk_groups d))%nat) /\
    (dk_groups d = [] \/ exists t, In t (kx_items i) /\ length (dk_groups d) = S (ki_group t));
  (** one bin when dimension x or y is open *)
  yc_open : kx_objective i = OOpenDimensionX \/ kx_objective i = OOpenDimensionY -> length (dk_bin_type_ids d) = 1%nat
}.

(** The bounds on the entered values. *)
Record ywell_bounded (i : KInstance) : Prop := {
  yw_items : forall t, In t (kx_items i) -> (forall a, 0 < vat (ki_box t) a) /\ ki_rotations t <> [] /\
    ki_copies_min t <= ki_copies t /\ (0 <= ki_copies t -> 0 <= ki_copies_min t);
  yw_bins : forall t, In t (kx_bins i) -> 0 <= kb_copies_min t
}.

(** The instance holds the data entered in the builder. *)
Record yholds_data (b : KBuilder) (i : KInstance) (d : KDerived) : Prop := {
  yh_objective : kx_objective i = y_objective b;
  yh_unloading : dk_unloading d = y_unloading b;
  yh_check_weight : kx_check_weight i = y_check_weight b;
  yh_items : length (kx_items i) = length (y_items b) /\
    forall x, (x < length (y_items b))%nat ->
      let entered := nth x (y_items b) dummy_kitem in
      let t := kitem i x in
      ki_box t = ki_box entered /\ ki_profit t = ki_profit entered /\
      ki_copies t = ki_copies entered /\ ki_group t = ki_group entered /\ ki_weight t = ki_weight entered /\
      ki_stackability t = ki_stackability entered /\ ki_nesting t = ki_nesting entered /\
      ki_max_stackability t = ki_max_stackability entered /\ ki_max_above t = ki_max_above entered /\
      (* without rotation, the item keeps its orientation *)
      ki_rotations t = (match ki_rotations entered with [] => [XYZ] | l => l end) /\
      (* the minimum is the one entered or the default of the objective *)
      ki_copies_min t =
        (if ki_copies_min entered =? -1
         then match kx_objective i with OKnapsack => 0 | _ => ki_copies entered end
         else ki_copies_min entered);
  yh_bins : length (kx_bins i) = length (y_bins b) /\
    forall t, (t < length (y_bins b))%nat ->
      let entered := nth t (y_bins b) dummy_kbin in
      let bt := kbin i t in
      kb_box bt = kb_box entered /\ kb_cost bt = kb_cost entered /\
      kb_copies_min bt = kb_copies_min entered /\ kb_defects bt = kb_defects entered /\
      kb_max_weight bt = kb_max_weight entered /\ kb_max_density bt = kb_max_density entered /\
      kb_truck bt = kb_truck entered /\
      (* unlimited copies become the number of items *)
      kb_copies bt = (if kb_copies entered =? -1 then zsum ki_copies (y_items b) else kb_copies entered)
}.

(** When a call on builder [b] is accepted. *)
Definition yaccepted (b : KBuilder) (c : YCall) : Prop :=
  match c with
  | YAddBin v => forall a, 0 < vat v a
  | YSetBinCost id q => in_range id (y_bins b) /\ ((0 < q)%Q \/ (q == -1)%Q)
  | YSetBinWeight id _ | YSetBinDensity id _ | YSetBinTruck id _ | YAddDefect id _ _ _ _ => in_range id (y_bins b)
  | YSetBinCopies id n => in_range id (y_bins b) /\
      (n = -1 \/ (0 < n /\ kb_copies_min (nth (Z.to_nat id) (y_bins b) dummy_kbin) <= n))
  | YSetBinCopiesMin id n => in_range id (y_bins b) /\ 0 <= n /\
      (kb_copies (nth (Z.to_nat id) (y_bins b) dummy_kbin) = -1 \/ n <= kb_copies (nth (Z.to_nat id) (y_bins b) dummy_kbin))
  | YAddItem v => forall a, 0 <= vat v a
  | YSetItemGroup _ g => 0 <= g
  | YAddRotation id _ | YSetItemWeight id _ | YSetItemStackability id _ | YSetItemNesting id _
  | YSetItemMaxStackability id _ | YSetItemAbove id _ | YSetItemProfit id _ => in_range id (y_items b)
  | YSetItemCopies id n => in_range id (y_items b) /\ (n = -1 \/ 0 < n)
  | YSetItemCopiesMin id n => in_range id (y_items b) /\ -1 <= n
  | _ => True
  end.

(** Calls that enter data directly. *)
Definition ydirect (c : YCall) : bool :=
  match c with YCopyBin _ _ | YCopyItem _ _ => false | _ => true end.

(** Out of range or dividing by zero, which the builder does not check; the last
    three cases of the automatic profits divide zero by zero or add infinities
    of opposite signs. *)
Definition yunchecked (b : KBuilder) (c : YCall) : Prop :=
  match c with
  | YSetGroupWeight g _ => g < 0
  | YSetItemGroup id g => 0 <= g /\ ~ in_range id (y_items b)
  | YProfitsAuto => y_items b <> [] /\
      (zsum (fun t => kb_copies t * yb_vol t) (y_bins b) = 0 \/
       ((exists t, In t (y_bins b) /\ kb_max_weight t = None /\ 0 < kb_copies t) /\
        (exists t, In t (y_bins b) /\ kb_max_weight t = None /\ kb_copies t < 0)) \/
       ((forall t, In t (y_bins b) -> kb_max_weight t = None -> kb_copies t = 0) /\
        (qsum (fun t => inject_Z (kb_copies t) * match kb_max_weight t with Some m => m | None => 0 end) (y_bins b) == 0)%Q))
  | YItemsInfinite => exists t, In t (y_items b) /\ yi_vol t = 0
  | _ => False
  end.
