(** * What the indicators of a rectangle solution mean *)

From Coq Require Import List ZArith QArith Bool.
From Verif Require Import Util Common_Model OneDim_Model Rect_Model Rect_Spec RectSol_Model.
Import ListNotations.
Open Scope Z_scope.

(** What the getters [bin(bin_pos)] show. *)
Definition rview_bin (b : RSBin) : RDesc := mkRD (rs_type b) (rs_copies b) (rs_items b).
Definition rview (s : RSolution) : list RDesc := map rview_bin (rc_bins (rs_core s)).

(** ** What the calls of a history ask for *)

Fixpoint rdesc_run (ds : list RDesc) (calls : list RBuilderCall) : list RDesc :=
  match calls with
  | [] => ds
  | RAddBin t copies :: rest => rdesc_run (ds ++ [mkRD t copies []]) rest
  | RAddItem pos p :: rest =>
      rdesc_run (upd pos (fun d => mkRD (rd_type d) (rd_copies d) (rd_items d ++ [p])) ds) rest
  end.

Definition rmapped (ids : list nat) (id : nat) : nat :=
  match ids with [] => id | _ => nth id ids 0%nat end.
Definition rmapped_desc (bids iids : list nat) (copies : Z) (d : RDesc) : RDesc :=
  mkRD (rmapped bids (rd_type d)) copies
    (map (fun p => mkPl (rmapped iids (pl_type p)) (pl_x p) (pl_y p) (pl_rot p)) (rd_items d)).

Definition rcall_bins (c : RSolutionCall) : list RDesc :=
  match c with
  | RAppendBin source pos copies bids iids =>
      match nth_error (rview source) pos with
      | Some d => [rmapped_desc bids iids copies d] | None => [] end
  | RAppendBins source bids iids =>
      map (fun d => rmapped_desc bids iids (rd_copies d) d) (rview source)
  | RAppendEmpty t copies => [mkRD t copies []]
  end.

(** Copies given to the calls. *)
Definition rcopies_nonneg (calls1 : list RBuilderCall) (calls2 : list RSolutionCall) : Prop :=
  forall d, In d (rdesc_run [] calls1 ++ flat_map rcall_bins calls2) -> 0 <= rd_copies d.

Section Spec.

Variable i : RInstance.

(** Well-formedness of a built instance: [resource_ids] lists, for each item
    and bin type, the resources with a schedule for the item
    (/repo/src/rectangle/instance_builder.cpp:1188-1200). *)
Definition rwf_resources : Prop :=
  forall x t, (x < length (rin_items i))%nat -> (t < length (rin_bins i))%nat ->
    NoDup (nth t (ri_resource_ids (ritem i x)) []) /\
    forall r, In r (nth t (ri_resource_ids (ritem i x)) []) <->
      (r < length (rb_resources (rbin i t)))%nat
      /\ nth x (res_item_consumptions (nth r (rb_resources (rbin i t)) dummy_resource)) [] <> [].

(** Non-negative capacities and consumptions. *)
Definition rsane_resources : Prop :=
  forall bt r, In bt (rin_bins i) -> In r (rb_resources bt) ->
    (0 <= res_capacity r)%Q /\ forall s q, In s (res_item_consumptions r) -> In q s -> (0 <= q)%Q.

(** The indicators of a solution with bins [ds]. *)
Record RIndicators (ds : list RDesc) (c : RCore) : Prop := {
  ri_bins : rc_number_of_bins c = zsum rd_copies ds;
  ri_nitems : rc_number_of_items c = zsum (fun d => rd_copies d * Z.of_nat (length (rd_items d))) ds;
  ri_bin_area : rc_bin_area c
    = zsum (fun d => rd_copies d * (rb_x (rbin i (rd_type d)) * rb_y (rbin i (rd_type d)))) ds;
  ri_item_area : rc_item_area c
    = zsum (fun d => rd_copies d * zsum (fun p => ri_x (ritem i (pl_type p)) * ri_y (ritem i (pl_type p))) (rd_items d)) ds;
  ri_cost : (rc_bin_cost c == qsum (fun d => inject_Z (rd_copies d) * rb_cost (rbin i (rd_type d))) ds)%Q;
  ri_item_weight : (rc_item_weight c
    == qsum (fun d => inject_Z (rd_copies d) * qsum (fun p => ri_weight (ritem i (pl_type p))) (rd_items d)) ds)%Q;
  ri_bin_weight : match rc_bin_weight c with
    | Some w => (forall d, In d ds -> rb_max_weight (rbin i (rd_type d)) <> None) /\
        (w == qsum (fun d => inject_Z (rd_copies d) * match rb_max_weight (rbin i (rd_type d)) with Some m => m | None => 0 end) ds)%Q
    | None => exists d, In d ds /\ rb_max_weight (rbin i (rd_type d)) = None
    end;
  ri_net : rsane_resources -> (rc_item_profit c == rnet_profit i ds)%Q;
  ri_bin_copies : forall t, (t < length (rin_bins i))%nat -> nth t (rc_bin_copies c) 0 = rused_bins t ds;
  ri_item_copies : forall x, (x < length (rin_items i))%nat -> nth x (rc_item_copies c) 0 = rpacked x ds
}.

(** Capacity constraints of the resources without penalty, at every point of
    the loading ... *)
Definition resources_ok (d : RDesc) : Prop :=
  forall r, In r (rb_resources (rbin i (rd_type d))) -> res_penalize r = false ->
    PrefAll (fun before p => nth (pl_type p) (res_item_consumptions r) [] <> [] ->
      (rconsumption i r (before ++ [p]) <= res_capacity r)%Q) (rd_items d).
(** ... and for the whole bin. *)
Definition resources_ok_end (d : RDesc) : Prop :=
  forall r, In r (rb_resources (rbin i (rd_type d))) -> res_penalize r = false ->
    (rconsumption i r (rd_items d) <= res_capacity r)%Q.

(** Numbers of copies. *)
Definition copies_ok (ds : list RDesc) : Prop :=
  forall x, (x < length (rin_items i))%nat ->
    ri_copies_min (ritem i x) <= rpacked x ds <= ri_copies (ritem i x).

(** Rightmost and topmost ends, from 0. *)
Definition rightmost (ps : list Place) : Z := fold_right Z.max 0 (map (pl_xe i) ps).
Definition topmost (ps : list Place) : Z := fold_right Z.max 0 (map (pl_ye i) ps).

(** Items to be unloaded with group [g] or later: weight and moment with respect
    to the start of the bin. *)
Definition group_weight (g : nat) (ps : list Place) : Q :=
  qsum (fun p => ri_weight (ritem i (pl_type p))) (filter (fun p => Nat.leb g (ri_group (ritem i (pl_type p)))) ps).
Definition group_moment (g : nat) (ps : list Place) : Q :=
  qsum (fun p => ((inject_Z (pl_x p) + inject_Z (pl_w i p) / 2) * ri_weight (ritem i (pl_type p)))%Q)
    (filter (fun p => Nat.leb g (ri_group (ritem i (pl_type p)))) ps).

(** What a bin of a solution keeps for each group. *)
Definition stored_groups (b : RSBin) : Prop :=
  length (rs_weight b) = rnumber_of_groups i /\ length (rs_moment b) = rnumber_of_groups i /\
  forall g, (g < rnumber_of_groups i)%nat ->
    (nth g (rs_weight b) 0 == group_weight g (rs_items b))%Q /\ (nth g (rs_moment b) 0 == group_moment g (rs_items b))%Q.

End Spec.

(** ** Equilibrium of a semi-trailer truck *)

(** A load [w] of moment [m] (with respect to the start of the trailer) puts
    [middle] on the middle axle of the tractor and [rear] on the rear axle of the
    trailer: for some force [h] on the harness, the forces on the trailer, their
    moments with respect to its start, and the moments of the forces on the
    tractor with respect to its front axle are balanced. *)
Definition balanced (t : Truck) (m w middle rear : Q) : Prop :=
  let harness_x := inject_Z (tr_trailer_start_harness t) in
  let rear_x := (harness_x + inject_Z (tr_harness_rear t))%Q in
  let trailer_x := (rear_x - inject_Z (tr_trailer_gravity_rear t))%Q in
  exists h,
    (h + rear == w + tr_empty_trailer_weight t)%Q /\
    (h * harness_x + rear * rear_x == m + tr_empty_trailer_weight t * trailer_x)%Q /\
    (middle * inject_Z (tr_front_middle t)
     == tr_tractor_weight t * inject_Z (tr_front_tractor_gravity t) + h * inject_Z (tr_front_harness t))%Q.

(** What exceeds the maximum, when it is exceeded by more than the tolerance. *)
Definition excess (axle : Q) (maximum : option Q) : Q :=
  match maximum with
  | None => 0%Q
  | Some m => if Qltb (m * (1000000001 # 1000000000)) axle then (axle - m)%Q else 0%Q
  end.
