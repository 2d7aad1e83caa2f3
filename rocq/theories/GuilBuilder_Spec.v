(** * What a built rectangleguillotine instance must satisfy *)

From Coq Require Import Ascii String List ZArith QArith Bool Sorted.
From Verif Require Import Util Common_Model OneDim_Model OneDim_Spec OneDimBuilder_Model OneDimBuilder_Spec
  Guil_Model GuilBuilder_Model.
Import ListNotations.
Open Scope Z_scope.

(** Area of a plate without its trims. *)
Definition usable_area (t : GBinType) : Z :=
  (gb_w t - gt_length (gb_left t) - gt_length (gb_right t)) * (gb_h t - gt_length (gb_bottom t) - gt_length (gb_top t)).

(** The computed attributes of an instance. *)
Record hconsistent (i : GInstance) (d : HDerived) : Prop := {
  hc_number_of_items : hd_number_of_items d = zsum gi_copies (gin_items i);
  hc_item_area : hd_item_area d = zsum (fun t => gi_copies t * (gi_w t * gi_h t)) (gin_items i);
  hc_item_profit : (hd_item_profit d == qsum (fun t => inject_Z (gi_copies t) * gi_profit t) (gin_items i))%Q;
  hc_largest_profit : is_largest gi_profit (gin_items i) (hd_largest_profit d);
  hc_largest_copies : 0 <= hd_largest_copies d
    /\ (forall t, In t (gin_items i) -> gi_copies t <= hd_largest_copies d)
    /\ (hd_largest_copies d = 0 \/ exists t, In t (gin_items i) /\ gi_copies t = hd_largest_copies d);
  (** the item type with the largest profit per area *)
  hc_efficiency : match hd_largest_efficiency d with
    | None => gin_items i = []
    | Some k => (k < length (gin_items i))%nat /\
        forall t, In t (gin_items i) ->
          (gi_profit t / inject_Z (gi_w t * gi_h t)
           <= gi_profit (gitem i k) / inject_Z (gi_w (gitem i k) * gi_h (gitem i k)))%Q
    end;
  hc_all_oriented : hd_all_oriented d = true <-> (forall t, In t (gin_items i) -> gi_oriented t = true);
  hc_bin_area : hd_bin_area d = zsum (fun t => gb_copies t * usable_area t) (gin_bins i);
  hc_largest_cost : is_largest gb_cost (gin_bins i) (hd_largest_cost d);
  hc_defects : Z.of_nat (hd_defects d) = zsum (fun t => Z.of_nat (length (gb_defects t))) (gin_bins i);
  (** each bin type as many times as it has copies, in order *)
  hc_bin_type_ids : hd_bin_type_ids d =
    flat_map (fun t => repeat t (Z.to_nat (gb_copies (gbin i t)))) (seq 0 (length (gin_bins i)));
  (** total area of the bins before each bin *)
  hc_previous : length (hd_previous d) = length (hd_bin_type_ids d) /\
    forall k, (k < length (hd_bin_type_ids d))%nat ->
      nth k (hd_previous d) 0 = zsum (fun t => usable_area (gbin i t)) (firstn k (hd_bin_type_ids d));
  (** the resources of a bin type consumed by an item type *)
  hc_resource_ids : forall x t, (x < length (gin_items i))%nat -> (t < length (gin_bins i))%nat ->
    NoDup (nth t (gi_resource_ids (gitem i x)) []) /\
    forall r, In r (nth t (gi_resource_ids (gitem i x)) []) <->
      (r < length (gb_resources (gbin i t)))%nat /\
      nth x (res_item_consumptions (nth r (gb_resources (gbin i t)) dummy_resource)) [] <> [];
  (** one bin when a dimension is open *)
  hc_open : gin_objective i = OOpenDimensionX \/ gin_objective i = OOpenDimensionY -> length (hd_bin_type_ids d) = 1%nat;
  (** the limits on 2-cuts only with at least 3 stages, and no limit of 0 cuts *)
  hc_params : (gp_stages (gin_params i) = 2 ->
      gp_min2 (gin_params i) = 0 /\ gp_max2 (gin_params i) = -1 /\ gp_number2 (gin_params i) = -1) /\
    gp_number1 (gin_params i) <> 0 /\ gp_number2 (gin_params i) <> 0
}.

(** The attribute "all item types have infinite copies": for every plate and
    every item type, the copies of the item type fill the area of the plate. *)
Definition fills_plates (i : GInstance) : Prop :=
  forall t x, In t (gin_bins i) -> In x (gin_items i) -> usable_area t <= gi_copies x * (gi_w x * gi_h x).

(** The bounds on the entered values. *)
Record hwell_bounded (i : GInstance) : Prop := {
  hw_items : forall t, In t (gin_items i) -> 0 < gi_w t /\ 0 < gi_h t /\ gi_copies_min t <= gi_copies t /\
    (0 <= gi_copies t -> 0 <= gi_copies_min t);
  hw_bins : forall t, In t (gin_bins i) -> 0 <= gb_copies_min t /\
    0 <= gt_length (gb_left t) /\ 0 <= gt_length (gb_right t) /\ 0 <= gt_length (gb_bottom t) /\ 0 <= gt_length (gb_top t)
}.

(** The trims leave a part of the plate. *)
Definition trims_fit (t : GBinType) : Prop :=
  gt_length (gb_left t) + gt_length (gb_right t) < gb_w t /\ gt_length (gb_bottom t) + gt_length (gb_top t) < gb_h t.

(** The instance holds the data entered in the builder. *)
Record hholds_data (b : HBuilder) (i : GInstance) : Prop := {
  hh_objective : gin_objective i = h_objective b;
  hh_params : gin_params i = h_params b;
  hh_items : length (gin_items i) = length (h_items b) /\
    forall x, (x < length (h_items b))%nat ->
      let entered := nth x (h_items b) gdummy_item in
      let t := gitem i x in
      gi_w t = gi_w entered /\ gi_h t = gi_h entered /\ gi_profit t = gi_profit entered /\
      gi_copies t = gi_copies entered /\ gi_oriented t = gi_oriented entered /\
      (* the minimum is the one entered or the default of the objective *)
      gi_copies_min t =
        (if gi_copies_min entered =? -1
         then match gin_objective i with OKnapsack => 0 | _ => gi_copies entered end
         else gi_copies_min entered);
  hh_bins : length (gin_bins i) = length (h_bins b) /\
    forall t, (t < length (h_bins b))%nat ->
      let entered := nth t (h_bins b) gdummy_bin in
      let bt := gbin i t in
      gb_w bt = gb_w entered /\ gb_h bt = gb_h entered /\ gb_cost bt = gb_cost entered /\
      gb_copies_min bt = gb_copies_min entered /\
      gb_left bt = gb_left entered /\ gb_right bt = gb_right entered /\
      gb_bottom bt = gb_bottom entered /\ gb_top bt = gb_top entered /\
      gb_defects bt = gb_defects entered /\ gb_resources bt = gb_resources entered /\
      (* unlimited copies become the number of items *)
      gb_copies bt = (if gb_copies entered =? -1 then zsum gi_copies (h_items b) else gb_copies entered)
}.

(** Number of items of a stack. *)
Definition stack_size (items : list GItem) (s : nat) : Z :=
  zsum (fun t => if Nat.eqb (gi_stack_id t) s then gi_copies t else 0) items.

(** The stacks of an instance built from the entered stack ids. *)
Record hstacked (entered : list Z) (i : GInstance) : Prop := {
  (** all the stacks are named, or each item type has its own *)
  hs_ids : (forall x, (x < length (gin_items i))%nat -> Z.of_nat (gi_stack_id (gitem i x)) = nth x entered (-1)) \/
    ((forall s, In s entered -> s < 0) /\ forall x, (x < length (gin_items i))%nat -> gi_stack_id (gitem i x) = x);
  (** the offsets: one more than the stacks, from 0, by the sizes of the stacks *)
  hs_offsets : nth 0 (gin_stack_offsets i) 1%nat = 0%nat /\
    (forall x, (x < length (gin_items i))%nat -> (S (gi_stack_id (gitem i x)) < length (gin_stack_offsets i))%nat) /\
    (length (gin_stack_offsets i) = 1%nat \/
     exists x, (x < length (gin_items i))%nat /\ length (gin_stack_offsets i) = S (S (gi_stack_id (gitem i x)))) /\
    forall s, (S s < length (gin_stack_offsets i))%nat ->
      Z.of_nat (nth (S s) (gin_stack_offsets i) 0%nat) =
      Z.of_nat (nth s (gin_stack_offsets i) 0%nat) + stack_size (gin_items i) s;
  (** the position of an item type: the items before it in its stack *)
  hs_pos : forall x, (x < length (gin_items i))%nat ->
    Z.of_nat (gi_stack_pos (gitem i x)) = stack_size (firstn x (gin_items i)) (gi_stack_id (gitem i x));
  (** all the items are there *)
  hs_length : Z.of_nat (length (gin_stack_items i)) = zsum gi_copies (gin_items i);
  (** the items of an item type follow one another in its stack *)
  hs_items : forall x c, (x < length (gin_items i))%nat -> Z.of_nat c < gi_copies (gitem i x) ->
    gstack_item i (gi_stack_id (gitem i x)) (gi_stack_pos (gitem i x) + c) = x;
  (** and there is nothing else *)
  hs_cover : forall s q, Z.of_nat q < stack_size (gin_items i) s ->
    exists x c, (x < length (gin_items i))%nat /\ gi_stack_id (gitem i x) = s /\
      Z.of_nat c < gi_copies (gitem i x) /\ q = (gi_stack_pos (gitem i x) + c)%nat
}.

(** There is a cost for the bin and for each kind of cut. *)
Definition costs_for_cuts (p : GParams) : Prop :=
  1 + gp_stages p + (match gp_cut_type p with GNonExact | GRoadef2018 => 1 | _ => 0 end) <= Z.of_nat (length (gp_costs p)).

(** Calls that make room for the costs. *)
Definition sets_stages (c : HCall) : bool :=
  match c with HSetStages _ | HSetUnlimited | HSetCutType _ | HRoadef => true | _ => false end.

(** The strings [set_predefined] documents: "roadef2018", U followed by an
    orientation, or a number of stages, a cut type, a first cut and an
    orientation of the items. *)
Definition orientation_of (c : ascii) : option bool :=
  if (c =? "R")%char then Some false else if (c =? "O")%char then Some true else None.
Definition cut_type_of (c : ascii) : option GCutType :=
  if (c =? "R")%char then Some GRoadef2018 else if (c =? "N")%char then Some GNonExact
  else if (c =? "E")%char then Some GExact else if (c =? "H")%char then Some GHomogenous else None.
Definition first_of (c : ascii) : option GOrient :=
  if (c =? "V")%char then Some GVertical else if (c =? "H")%char then Some GHorizontal
  else if (c =? "A")%char then Some GAny else None.

(** When a call on builder [b] is accepted ([set_predefined] apart). *)
Definition haccepted (b : HBuilder) (c : HCall) : Prop :=
  match c with
  | HSetFixed s _ | HSetVariable s _ => in_range s (gp_costs (h_params b))
  | HAddBin x y => 0 < x /\ 0 < y
  | HSetBinCost id q => in_range id (h_bins b) /\ ((0 < q)%Q \/ (q == -1)%Q)
  | HAddTrims id l r bo to => in_range id (h_bins b) /\
      let t := nth (Z.to_nat id) (h_bins b) gdummy_bin in
      0 <= gt_length l /\ 0 <= gt_length r /\ gt_length l + gt_length r < gb_w t /\
      0 <= gt_length bo /\ 0 <= gt_length to /\ gt_length bo + gt_length to < gb_h t
  | HAddDefect id _ _ _ _ | HAddResource id _ _ _ => in_range id (h_bins b)
  | HAddConsumption id rid x k _ =>
      in_range id (h_bins b) /\ in_range rid (gb_resources (nth (Z.to_nat id) (h_bins b) gdummy_bin)) /\ 0 <= k
  | HSetBinCopies id n => in_range id (h_bins b) /\
      (n = -1 \/ (0 < n /\ gb_copies_min (nth (Z.to_nat id) (h_bins b) gdummy_bin) <= n))
  | HSetBinCopiesMin id n => in_range id (h_bins b) /\ 0 <= n /\
      (gb_copies (nth (Z.to_nat id) (h_bins b) gdummy_bin) = -1 \/ n <= gb_copies (nth (Z.to_nat id) (h_bins b) gdummy_bin))
  | HAddItem x y _ _ => 0 <= x /\ 0 <= y
  | HSetItemProfit id _ => in_range id (h_items b)
  | HSetItemCopies id n => in_range id (h_items b) /\ (n = -1 \/ 0 < n)
  | HSetItemCopiesMin id n => in_range id (h_items b) /\ -1 <= n
  | _ => True
  end.

(** Calls that enter data directly. *)
Definition hdirect (c : HCall) : bool :=
  match c with HPredefined _ | HCopyBin _ _ | HCopyItem _ _ => false | _ => true end.

(** Out of range or dividing by zero, which the builder does not check. *)
Definition hunchecked (b : HBuilder) (c : HCall) : Prop :=
  match c with
  | HAddConsumption id rid x k _ => haccepted b c /\ x < 0
  | HItemsInfinite => exists t, In t (h_items b) /\ gi_w t * gi_h t = 0
  | _ => False
  end.
