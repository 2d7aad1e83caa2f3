(** * Model of the rectangle instance
    [include/packingsolver/rectangle/instance.hpp], [src/rectangle/instance.cpp],
    [include/packingsolver/algorithms/truck.hpp].

    Integers are unbounded, doubles are exact rationals, an infinite weight is
    [None].  Fixed items and the feasibility callback are not part of the
    instance here. *)

From Coq Require Import List ZArith QArith Bool.
From Verif Require Import Util Common_Model OneDim_Model.
Import ListNotations.
Open Scope Z_scope.

(** SemiTrailerTruckData, truck.hpp:11-48. *)
Record Truck : Type := mkTruck {
  tr_is : bool;
  tr_tractor_weight : Q;
  tr_front_middle : Z;
  tr_front_tractor_gravity : Z;
  tr_front_harness : Z;
  tr_empty_trailer_weight : Q;
  tr_harness_rear : Z;
  tr_trailer_gravity_rear : Z;
  tr_trailer_start_harness : Z;
  tr_rear_maximum : option Q;
  tr_middle_maximum : option Q
}.

(** Default values, truck.hpp:14-48. *)
Definition no_truck : Truck := mkTruck false 0 0 0 0 0 0 0 0 None None.

(** ItemType, instance.hpp:119-182.  [ri_copies_min] is resolved. *)
Record RItem : Type := mkRI {
  ri_x : Z;
  ri_y : Z;
  ri_profit : Q;
  ri_copies : Z;
  ri_copies_min : Z;
  ri_group : nat;
  ri_oriented : bool;
  ri_weight : Q;
  ri_eligibility : Z;
  ri_resource_ids : list (list nat)
}.

(** ItemType::x, ItemType::y, instance.hpp:160-163. *)
Definition ri_width (it : RItem) (rotate : bool) : Z := if rotate then ri_y it else ri_x it.
Definition ri_height (it : RItem) (rotate : bool) : Z := if rotate then ri_x it else ri_y it.

(** Defect, instance.hpp:191-220. *)
Record Defect : Type := mkDefect { df_x : Z; df_y : Z; df_lx : Z; df_ly : Z }.

(** BinType, instance.hpp:240-288. *)
Record RBin : Type := mkRB {
  rb_x : Z;
  rb_y : Z;
  rb_cost : Q;
  rb_copies : Z;
  rb_copies_min : Z;
  rb_max_weight : option Q;
  rb_truck : Truck;
  rb_eligibility_ids : list Z;
  rb_defects : list Defect;
  rb_resources : list Resource
}.

(** UnloadingConstraint, LeftoverMode, Parameters, instance.hpp:24-60, 294-308. *)
Inductive Unloading : Type := UNone | UOnlyX | UOnlyY | UIncreasingX | UIncreasingY.
Inductive LeftoverMode : Type := LArea | LX | LY.
Record RParams : Type := mkRP {
  rp_unloading : Unloading;
  rp_leftover : LeftoverMode;
  rp_check_weight : list bool
}.
Definition default_params : RParams := mkRP UNone LArea [].

(** Instance, instance.hpp:331-560.  The attributes computed by [build]
    (instance_builder.cpp:1037-1215) are functions of the stored ones. *)
Record RInstance : Type := mkRInst {
  rin_objective : Objective;
  rin_params : RParams;
  rin_items : list RItem;
  rin_bins : list RBin
}.

Definition dummy_ritem : RItem := mkRI 0 0 0 0 0 0 true 0 (-1) [].
Definition dummy_rbin : RBin := mkRB 0 0 0 0 0 None no_truck [] [] [].
Definition ritem (i : RInstance) (id : nat) : RItem := nth id (rin_items i) dummy_ritem.
Definition rbin (i : RInstance) (id : nat) : RBin := nth id (rin_bins i) dummy_rbin.

(** number_of_items_, instance_builder.cpp:1063; number_of_bins (size of
    bin_type_ids_), :1118-1122. *)
Definition rnumber_of_items (i : RInstance) : Z := zsum ri_copies (rin_items i).
Definition rnumber_of_bins (i : RInstance) : Z := zsum (fun bt => Z.max 0 (rb_copies bt)) (rin_bins i).

(** number_of_groups, instance_builder.cpp:1173-1186. *)
Definition rnumber_of_groups (i : RInstance) : nat :=
  fold_left (fun n it => Nat.max n (S (ri_group it))) (rin_items i) 0%nat.

(** Area of an item type and of a bin type, instance.hpp:166, 277. *)
Definition ri_area (it : RItem) : Z := ri_x it * ri_y it.
Definition rb_area (bt : RBin) : Z := rb_x bt * rb_y bt.

(** Eligibility test, instance.cpp:234-241. *)
Definition religible (it : RItem) (bt : RBin) : bool :=
  (ri_eligibility it =? -1) || existsb (Z.eqb (ri_eligibility it)) (rb_eligibility_ids bt).

(** Instance::item_type_fits_bin_type, instance.cpp:222-244. *)
Definition ritem_fits (it : RItem) (bt : RBin) : bool :=
  ((ri_x it <=? rb_x bt) && (ri_y it <=? rb_y bt)
   || negb (ri_oriented it) && (ri_y it <=? rb_x bt) && (ri_x it <=? rb_y bt))
  && religible it bt.

(** Instance::fits_some_bin, instance.cpp:246-257. *)
Definition rfits_some_bin (i : RInstance) (id : nat) : bool := existsb (ritem_fits (ritem i id)) (rin_bins i).

(** Instance::all_item_types_oriented, instance.cpp:259-268. *)
Definition all_oriented (i : RInstance) : bool := forallb ri_oriented (rin_items i).

(** SemiTrailerTruckData::compute_axle_weights, truck.hpp:50-87: (middle, rear).
    [None]: a division by zero that IEEE arithmetic turns into an infinity or a
    NaN. *)
Definition qdiv_opt (a b : Q) : option Q := if Qeq_bool b 0 then None else Some (a / b)%Q.

Definition compute_axle_weights (t : Truck) (weighted_sum weight : Q) : option (Q * Q) :=
  if negb (tr_is t) then Some (0%Q, 0%Q) else
  match qdiv_opt weighted_sum weight with None => None | Some eje =>
  let ejr := (inject_Z (tr_trailer_start_harness t) + inject_Z (tr_harness_rear t) - eje)%Q in
  match qdiv_opt (weight * ejr + tr_empty_trailer_weight t * inject_Z (tr_trailer_gravity_rear t))
                 (inject_Z (tr_harness_rear t)) with None => None | Some emh =>
  let emr := (weight + tr_empty_trailer_weight t - emh)%Q in
  match qdiv_opt (tr_tractor_weight t * inject_Z (tr_front_tractor_gravity t) + emh * inject_Z (tr_front_harness t))
                 (inject_Z (tr_front_middle t)) with None => None | Some emm =>
  Some (emm, emr)
  end end end.
