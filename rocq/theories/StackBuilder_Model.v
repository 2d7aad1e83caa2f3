(** * Model of the boxstacks instance builder

    [src/boxstacks/instance_builder.cpp].  Not modelled: the file readers
    (:609-938: they only call the functions below), fixed items (:1052-1067; no
    function of the builder adds any), the maps [orig_to_sub_bin_type_ids_] and
    [orig_to_sub_item_type_ids_] (written, never read) and the user callback.
    Integers do not overflow, doubles are exact. *)

From Coq Require Import List ZArith QArith Bool.
From Verif Require Import Util Common_Model OneDim_Model OneDimBuilder_Model Rect_Model Box_Model Stack_Model.
Import ListNotations.
Open Scope Z_scope.

(** The builder: the instance under construction.  [objective_] is not
    initialised (instance.hpp:493): a new builder holds any objective. *)
Record KBuilder : Type := mkY {
  y_objective : Objective;
  y_unloading : Unloading;
  y_check_weight : list bool;
  y_items : list KItem;
  y_bins : list KBin
}.

Definition y_new (o : Objective) : KBuilder := mkY o UNone [] [] [].

(** Normal return, [invalid_argument], undefined behaviour. *)
Inductive YRes : Type := YOk (b : KBuilder) | YThrow (b : KBuilder) | YUndef.
Definition ythen (r : YRes) (f : KBuilder -> YRes) : YRes := match r with YOk b => f b | _ => r end.

Definition yset_items (b : KBuilder) (l : list KItem) : KBuilder :=
  mkY (y_objective b) (y_unloading b) (y_check_weight b) l (y_bins b).
Definition yset_bins (b : KBuilder) (l : list KBin) : KBuilder :=
  mkY (y_objective b) (y_unloading b) (y_check_weight b) (y_items b) l.

(** Update of one bin (item) type after the range check. *)
Definition yon_bin (b : KBuilder) (id : Z) (f : KBin -> KBin) : YRes :=
  if bad_id id (y_bins b) then YThrow b else YOk (yset_bins b (upd (Z.to_nat id) f (y_bins b))).
Definition yon_item (b : KBuilder) (id : Z) (f : KItem -> KItem) : YRes :=
  if bad_id id (y_items b) then YThrow b else YOk (yset_items b (upd (Z.to_nat id) f (y_items b))).

(** Assignments to one field. *)
Definition kb_with_box (v : Vec) (t : KBin) : KBin :=
  mkKB v (kb_cost t) (kb_copies t) (kb_copies_min t) (kb_defects t) (kb_max_weight t) (kb_max_density t) (kb_truck t).
Definition kb_with_cost (v : Q) (t : KBin) : KBin :=
  mkKB (kb_box t) v (kb_copies t) (kb_copies_min t) (kb_defects t) (kb_max_weight t) (kb_max_density t) (kb_truck t).
Definition kb_with_copies (v : Z) (t : KBin) : KBin :=
  mkKB (kb_box t) (kb_cost t) v (kb_copies_min t) (kb_defects t) (kb_max_weight t) (kb_max_density t) (kb_truck t).
Definition kb_with_min (v : Z) (t : KBin) : KBin :=
  mkKB (kb_box t) (kb_cost t) (kb_copies t) v (kb_defects t) (kb_max_weight t) (kb_max_density t) (kb_truck t).
Definition kb_with_defects (v : list Defect) (t : KBin) : KBin :=
  mkKB (kb_box t) (kb_cost t) (kb_copies t) (kb_copies_min t) v (kb_max_weight t) (kb_max_density t) (kb_truck t).
Definition kb_with_weight (v : option Q) (t : KBin) : KBin :=
  mkKB (kb_box t) (kb_cost t) (kb_copies t) (kb_copies_min t) (kb_defects t) v (kb_max_density t) (kb_truck t).
Definition kb_with_density (v : option Q) (t : KBin) : KBin :=
  mkKB (kb_box t) (kb_cost t) (kb_copies t) (kb_copies_min t) (kb_defects t) (kb_max_weight t) v (kb_truck t).
Definition kb_with_truck (v : Truck) (t : KBin) : KBin :=
  mkKB (kb_box t) (kb_cost t) (kb_copies t) (kb_copies_min t) (kb_defects t) (kb_max_weight t) (kb_max_density t) v.

Definition ki_with_profit (v : Q) (t : KItem) : KItem :=
  mkKI (ki_box t) v (ki_copies t) (ki_copies_min t) (ki_group t) (ki_rotations t) (ki_weight t) (ki_stackability t) (ki_nesting t) (ki_max_stackability t) (ki_max_above t).
Definition ki_with_copies (v : Z) (t : KItem) : KItem :=
  mkKI (ki_box t) (ki_profit t) v (ki_copies_min t) (ki_group t) (ki_rotations t) (ki_weight t) (ki_stackability t) (ki_nesting t) (ki_max_stackability t) (ki_max_above t).
Definition ki_with_min (v : Z) (t : KItem) : KItem :=
  mkKI (ki_box t) (ki_profit t) (ki_copies t) v (ki_group t) (ki_rotations t) (ki_weight t) (ki_stackability t) (ki_nesting t) (ki_max_stackability t) (ki_max_above t).
Definition ki_with_group (v : nat) (t : KItem) : KItem :=
  mkKI (ki_box t) (ki_profit t) (ki_copies t) (ki_copies_min t) v (ki_rotations t) (ki_weight t) (ki_stackability t) (ki_nesting t) (ki_max_stackability t) (ki_max_above t).
Definition ki_with_rotations (v : list Rotation) (t : KItem) : KItem :=
  mkKI (ki_box t) (ki_profit t) (ki_copies t) (ki_copies_min t) (ki_group t) v (ki_weight t) (ki_stackability t) (ki_nesting t) (ki_max_stackability t) (ki_max_above t).
Definition ki_with_weight (v : Q) (t : KItem) : KItem :=
  mkKI (ki_box t) (ki_profit t) (ki_copies t) (ki_copies_min t) (ki_group t) (ki_rotations t) v (ki_stackability t) (ki_nesting t) (ki_max_stackability t) (ki_max_above t).
Definition ki_with_stackability (v : Z) (t : KItem) : KItem :=
  mkKI (ki_box t) (ki_profit t) (ki_copies t) (ki_copies_min t) (ki_group t) (ki_rotations t) (ki_weight t) v (ki_nesting t) (ki_max_stackability t) (ki_max_above t).
Definition ki_with_nesting (v : Z) (t : KItem) : KItem :=
  mkKI (ki_box t) (ki_profit t) (ki_copies t) (ki_copies_min t) (ki_group t) (ki_rotations t) (ki_weight t) (ki_stackability t) v (ki_max_stackability t) (ki_max_above t).
Definition ki_with_max_stackability (v : Z) (t : KItem) : KItem :=
  mkKI (ki_box t) (ki_profit t) (ki_copies t) (ki_copies_min t) (ki_group t) (ki_rotations t) (ki_weight t) (ki_stackability t) (ki_nesting t) v (ki_max_above t).
Definition ki_with_above (v : option Q) (t : KItem) : KItem :=
  mkKI (ki_box t) (ki_profit t) (ki_copies t) (ki_copies_min t) (ki_group t) (ki_rotations t) (ki_weight t) (ki_stackability t) (ki_nesting t) (ki_max_stackability t) v.

(** set_group_weight_constraints, :12-19: the vector grows with [true]; a
    negative group is an out of range access. *)
Definition y_group_weight (b : KBuilder) (g : Z) (v : bool) : YRes :=
  if g <? 0 then YUndef
  else YOk (mkY (y_objective b) (y_unloading b)
    (upd (Z.to_nat g) (fun _ => v) (grow (S (Z.to_nat g)) true (y_check_weight b))) (y_items b) (y_bins b)).

(** add_bin_type(x, y, z), :25-58: the default cost is the base area. *)
Definition y_add_bin (b : KBuilder) (v : Vec) : YRes :=
  if v_x v <=? 0 then YThrow b else if v_y v <=? 0 then YThrow b else if v_z v <=? 0 then YThrow b
  else YOk (yset_bins b (y_bins b ++ [mkKB v (inject_Z (v_x v * v_y v)) 1 0 [] None None no_truck])).

(** set_bin_type_cost, :60-80. *)
Definition y_set_bin_cost (b : KBuilder) (id : Z) (cost : Q) : YRes :=
  if bad_id id (y_bins b) then YThrow b
  else if Qle_bool cost 0 && negb (Qeq_bool cost (-1)) then YThrow b
  else yon_bin b id (fun t => kb_with_cost (if Qeq_bool cost (-1) then inject_Z (kb_area t) else cost) t).

(** set_bin_type_maximum_weight, :82-95; set_bin_type_maximum_stack_density, :97-110;
    set_bin_type_semi_trailer_truck_parameters, :112-125; add_defect, :127-151:
    no check on the values. *)
Definition y_set_bin_weight (b : KBuilder) (id : Z) (w : option Q) : YRes := yon_bin b id (kb_with_weight w).
Definition y_set_bin_density (b : KBuilder) (id : Z) (w : option Q) : YRes := yon_bin b id (kb_with_density w).
Definition y_set_bin_truck (b : KBuilder) (id : Z) (k : Truck) : YRes := yon_bin b id (kb_with_truck k).
Definition y_add_defect (b : KBuilder) (id x y lx ly : Z) : YRes :=
  yon_bin b id (fun t => kb_with_defects (kb_defects t ++ [mkDefect x y lx ly]) t).

(** set_bin_type_copies, :188-216; set_bin_type_copies_min, :218-245. *)
Definition y_set_bin_copies (b : KBuilder) (id copies : Z) : YRes :=
  if bad_id id (y_bins b) then YThrow b
  else if negb (copies =? -1)
          && ((copies <=? 0) || (copies <? kb_copies_min (nth (Z.to_nat id) (y_bins b) dummy_kbin))) then YThrow b
  else yon_bin b id (kb_with_copies copies).
Definition y_set_bin_copies_min (b : KBuilder) (id copies_min : Z) : YRes :=
  if bad_id id (y_bins b) then YThrow b
  else if copies_min <? 0 then YThrow b
  else if negb (kb_copies (nth (Z.to_nat id) (y_bins b) dummy_kbin) =? -1)
          && (kb_copies (nth (Z.to_nat id) (y_bins b) dummy_kbin) <? copies_min) then YThrow b
  else yon_bin b id (kb_with_min copies_min).

(** Box::max, instance.hpp:83; compute_item_types_max_length_sum, :247-257;
    set_bin_types_infinite_x, set_bin_types_infinite_y, :259-277. *)
Definition ybox_max (v : Vec) : Z := Z.max (Z.max (v_x v) (v_y v)) (v_z v).
Definition ymax_length_sum (items : list KItem) : Z :=
  fold_left (fun n t => n + ki_copies t * ybox_max (ki_box t)) items 0.
Definition y_bins_infinite_x (b : KBuilder) : YRes :=
  YOk (yset_bins b (map (fun t => kb_with_box (mkV (ymax_length_sum (y_items b)) (v_y (kb_box t)) (v_z (kb_box t))) t) (y_bins b))).
Definition y_bins_infinite_y (b : KBuilder) : YRes :=
  YOk (yset_bins b (map (fun t => kb_with_box (mkV (v_x (kb_box t)) (ymax_length_sum (y_items b)) (v_z (kb_box t))) t) (y_bins b))).

(** set_bin_types_infinite_copies, :279-286; set_bin_types_unweighted, :288-295. *)
Definition y_bins_infinite (b : KBuilder) : YRes := YOk (yset_bins b (map (kb_with_copies (-1)) (y_bins b))).
Definition y_bins_unweighted (b : KBuilder) : YRes :=
  YOk (yset_bins b (map (fun t => kb_with_cost (inject_Z (vol (kb_box t))) t) (y_bins b))).

(** add_item_type(x, y, z), :301-335: zero is accepted; the maximum stackability
    is the largest int32_t (instance.hpp:174, common.hpp:27). *)
Definition largest_item_pos : Z := 2147483647.
Definition y_add_item (b : KBuilder) (v : Vec) : YRes :=
  if v_x v <? 0 then YThrow b else if v_y v <? 0 then YThrow b else if v_z v <? 0 then YThrow b
  else YOk (yset_items b (y_items b ++ [mkKI v (inject_Z (vol v)) 1 (-1) 0 [] 0 0 0 largest_item_pos None])).

(** add_item_type_rotation, :337-348. *)
Definition y_add_rotation (b : KBuilder) (id : Z) (r : Rotation) : YRes :=
  yon_item b id (fun t => ki_with_rotations (ki_rotations t ++ [r]) t).

(** set_item_type_group, :350-362: the item type id is not checked. *)
Definition y_set_item_group (b : KBuilder) (id g : Z) : YRes :=
  if g <? 0 then YThrow b
  else if bad_id id (y_items b) then YUndef
  else yon_item b id (ki_with_group (Z.to_nat g)).

(** set_item_type_weight, set_item_type_stackability_id, set_item_type_nesting_height,
    set_item_type_maximum_stackability, set_item_type_maximum_weight_above, :364-437;
    set_item_type_profit, :476-489: no check on the values. *)
Definition y_set_item_weight (b : KBuilder) (id : Z) (w : Q) : YRes := yon_item b id (ki_with_weight w).
Definition y_set_item_stackability (b : KBuilder) (id s : Z) : YRes := yon_item b id (ki_with_stackability s).
Definition y_set_item_nesting (b : KBuilder) (id h : Z) : YRes := yon_item b id (ki_with_nesting h).
Definition y_set_item_max_stackability (b : KBuilder) (id n : Z) : YRes := yon_item b id (ki_with_max_stackability n).
Definition y_set_item_above (b : KBuilder) (id : Z) (w : option Q) : YRes := yon_item b id (ki_with_above w).
Definition y_set_item_profit (b : KBuilder) (id : Z) (p : Q) : YRes := yon_item b id (ki_with_profit p).

(** set_item_type_copies, :491-510; set_item_type_copies_min, :512-531. *)
Definition y_set_item_copies (b : KBuilder) (id copies : Z) : YRes :=
  if bad_id id (y_items b) then YThrow b
  else if negb (copies =? -1) && (copies <=? 0) then YThrow b
  else yon_item b id (ki_with_copies copies).
Definition y_set_item_copies_min (b : KBuilder) (id copies_min : Z) : YRes :=
  if bad_id id (y_items b) then YThrow b
  else if copies_min <? -1 then YThrow b
  else yon_item b id (ki_with_min copies_min).

(** set_item_types_profits_auto, :546-560, with compute_bin_attributes, :533-544.
    [item_volume()] and [item_weight()] are only computed by [build] and are
    still 0 (instance.hpp:536, :539): the profit is
    0 / bin_volume * volume / bin_volume + 0 / bin_weight * weight / bin_weight,
    that is 0, or a NaN if the total volume or the total weight of the bins is 0
    or if infinite weights are added with both signs.  A NaN is [YUndef]
    here. *)
Definition yinfinite (sign : bool) (t : KBin) : bool :=
  match kb_max_weight t with
  | None => if sign then 0 <? kb_copies t else kb_copies t <? 0
  | Some _ => false
  end.
Definition y_profits_auto (b : KBuilder) : YRes :=
  let volume := fold_left (fun n t => n + kb_copies t * vol (kb_box t)) (y_bins b) 0 in
  let finite := fold_left (fun n t => match kb_max_weight t with
      | Some m => (n + inject_Z (kb_copies t) * m)%Q | None => n end) (y_bins b) 0%Q in
  let up := existsb (yinfinite true) (y_bins b) in
  let down := existsb (yinfinite false) (y_bins b) in
  match y_items b with
  | [] => YOk b
  | _ =>
      if (volume =? 0) || (up && down) || (negb up && negb down && Qeq_bool finite 0) then YUndef
      else YOk (yset_items b (map (ki_with_profit 0) (y_items b)))
  end.

(** set_item_types_unweighted, set_item_types_oriented, :562-578. *)
Definition y_items_unweighted (b : KBuilder) : YRes :=
  YOk (yset_items b (map (fun t => ki_with_profit (inject_Z (vol (ki_box t))) t) (y_items b))).
Definition y_items_oriented (b : KBuilder) : YRes :=
  YOk (yset_items b (map (ki_with_rotations [XYZ]) (y_items b))).

(** compute_bin_types_volume_max, :580-591. *)
Definition yvolume_max (bins : list KBin) : Z := fold_left (fun m t => Z.max m (vol (kb_box t))) bins 0.

(** [(bin_types_volume_max - 1) / item_type.volume() + 1], :600, :990. *)
Definition yinfinite_copies (vmax : Z) (t : KItem) : Z := Z.quot (vmax - 1) (vol (ki_box t)) + 1.

(** set_item_types_infinite_copies, :593-603. *)
Definition y_items_infinite (b : KBuilder) : YRes :=
  if existsb (fun t => vol (ki_box t) =? 0) (y_items b) then YUndef
  else YOk (yset_items b (map (fun t => ki_with_copies (yinfinite_copies (yvolume_max (y_bins b)) t) t) (y_items b))).

(** add_bin_type(original_instance, id), :153-186. *)
Definition y_copy_bin (b : KBuilder) (i : KInstance) (oid : nat) : YRes :=
  match nth_error (kx_bins i) oid with
  | None => YUndef
  | Some t =>
      let zid := Z.of_nat (length (y_bins b)) in
      ythen (y_add_bin b (kb_box t)) (fun b =>
      ythen (y_set_bin_cost b zid (kb_cost t)) (fun b =>
      ythen (y_set_bin_copies b zid (kb_copies t)) (fun b =>
      ythen (y_set_bin_copies_min b zid (kb_copies_min t)) (fun b =>
      ythen (y_set_bin_weight b zid (kb_max_weight t)) (fun b =>
      ythen (y_set_bin_density b zid (kb_max_density t)) (fun b =>
      ythen (y_set_bin_truck b zid (kb_truck t)) (fun b =>
      fold_left (fun r d => ythen r (fun b => y_add_defect b zid (df_x d) (df_y d) (df_lx d) (df_ly d)))
        (kb_defects t) (YOk b))))))))
  end.

(** add_item_type(original_instance, id), :439-474.  [copies_min] is not
    copied. *)
Definition y_copy_item (b : KBuilder) (i : KInstance) (oid : nat) : YRes :=
  match nth_error (kx_items i) oid with
  | None => YUndef
  | Some t =>
      let id := Z.of_nat (length (y_items b)) in
      ythen (y_add_item b (ki_box t)) (fun b =>
      ythen (fold_left (fun r q => ythen r (fun b => y_add_rotation b id q)) (ki_rotations t) (YOk b)) (fun b =>
      ythen (y_set_item_profit b id (ki_profit t)) (fun b =>
      ythen (y_set_item_copies b id (ki_copies t)) (fun b =>
      ythen (y_set_item_group b id (Z.of_nat (ki_group t))) (fun b =>
      ythen (y_set_item_weight b id (ki_weight t)) (fun b =>
      ythen (y_set_item_stackability b id (ki_stackability t)) (fun b =>
      ythen (y_set_item_nesting b id (ki_nesting t)) (fun b =>
      ythen (y_set_item_max_stackability b id (ki_max_stackability t)) (fun b =>
      y_set_item_above b id (ki_max_above t))))))))))
  end.

(** The calls of the public interface. *)
Inductive YCall : Type :=
| YSetObjective (o : Objective)
| YSetParams (u : Unloading) (l : list bool)
| YSetGroupWeight (g : Z) (v : bool)
| YSetUnloading (u : Unloading)
| YAddBin (v : Vec)
| YSetBinCost (id : Z) (cost : Q)
| YSetBinWeight (id : Z) (w : option Q)
| YSetBinDensity (id : Z) (w : option Q)
| YSetBinTruck (id : Z) (k : Truck)
| YAddDefect (id x y lx ly : Z)
| YSetBinCopies (id copies : Z)
| YSetBinCopiesMin (id copies_min : Z)
| YBinsInfiniteX
| YBinsInfiniteY
| YBinsInfinite
| YBinsUnweighted
| YAddItem (v : Vec)
| YAddRotation (id : Z) (r : Rotation)
| YSetItemGroup (id g : Z)
| YSetItemWeight (id : Z) (w : Q)
| YSetItemStackability (id s : Z)
| YSetItemNesting (id h : Z)
| YSetItemMaxStackability (id n : Z)
| YSetItemAbove (id : Z) (w : option Q)
| YSetItemProfit (id : Z) (p : Q)
| YSetItemCopies (id copies : Z)
| YSetItemCopiesMin (id copies_min : Z)
| YProfitsAuto
| YItemsUnweighted
| YItemsOriented
| YItemsInfinite
| YCopyBin (i : KInstance) (id : nat)
| YCopyItem (i : KInstance) (id : nat).

Definition ystep (b : KBuilder) (c : YCall) : YRes :=
  match c with
  | YSetObjective o => YOk (mkY o (y_unloading b) (y_check_weight b) (y_items b) (y_bins b))
  | YSetParams u l => YOk (mkY (y_objective b) u l (y_items b) (y_bins b))
  | YSetGroupWeight g v => y_group_weight b g v
  | YSetUnloading u => YOk (mkY (y_objective b) u (y_check_weight b) (y_items b) (y_bins b))
  | YAddBin v => y_add_bin b v
  | YSetBinCost id q => y_set_bin_cost b id q
  | YSetBinWeight id w => y_set_bin_weight b id w
  | YSetBinDensity id w => y_set_bin_density b id w
  | YSetBinTruck id k => y_set_bin_truck b id k
  | YAddDefect id x y lx ly => y_add_defect b id x y lx ly
  | YSetBinCopies id n => y_set_bin_copies b id n
  | YSetBinCopiesMin id n => y_set_bin_copies_min b id n
  | YBinsInfiniteX => y_bins_infinite_x b
  | YBinsInfiniteY => y_bins_infinite_y b
  | YBinsInfinite => y_bins_infinite b
  | YBinsUnweighted => y_bins_unweighted b
  | YAddItem v => y_add_item b v
  | YAddRotation id r => y_add_rotation b id r
  | YSetItemGroup id g => y_set_item_group b id g
  | YSetItemWeight id w => y_set_item_weight b id w
  | YSetItemStackability id s => y_set_item_stackability b id s
  | YSetItemNesting id h => y_set_item_nesting b id h
  | YSetItemMaxStackability id n => y_set_item_max_stackability b id n
  | YSetItemAbove id w => y_set_item_above b id w
  | YSetItemProfit id p => y_set_item_profit b id p
  | YSetItemCopies id n => y_set_item_copies b id n
  | YSetItemCopiesMin id n => y_set_item_copies_min b id n
  | YProfitsAuto => y_profits_auto b
  | YItemsUnweighted => y_items_unweighted b
  | YItemsOriented => y_items_oriented b
  | YItemsInfinite => y_items_infinite b
  | YCopyBin i id => y_copy_bin b i id
  | YCopyItem i id => y_copy_item b i id
  end.

(** A caller that catches the exceptions and goes on; [None] after undefined
    behaviour. *)
Definition yrun (o : Objective) (calls : list YCall) : option KBuilder :=
  fold_left (fun ob c => match ob with
    | None => None
    | Some b => match ystep b c with YOk b' | YThrow b' => Some b' | YUndef => None end
    end) calls (Some (y_new o)).

(** The calls in order, stopping at the first exception. *)
Definition ycalls_from (b : KBuilder) (calls : list YCall) : YRes :=
  fold_left (fun r c => ythen r (fun b => ystep b c)) calls (YOk b).

(** ** build, :944-1071 *)

(** The attributes [build] computes besides those of [KInstance], and the
    unloading constraint; an infinite sum is [None]. *)
Record KDerived : Type := mkDk {
  dk_unloading : Unloading;
  dk_bin_type_ids : list nat;
  dk_previous : list Z;
  dk_bin_volume : Z;
  dk_bin_area : Z;
  dk_bin_weight : option Q;
  dk_defects : nat;
  dk_number_of_items : Z;
  dk_item_volume : Z;
  dk_item_weight : Q;
  dk_item_profit : Q;
  dk_largest_efficiency : option nat;
  dk_all_infinite : bool;
  dk_groups : list (list nat * Z)
}.

(** Default rotations, :946-952, and copies_min, :961-965. *)
Definition yresolve_item (o : Objective) (t : KItem) : KItem :=
  ki_with_min (if ki_copies_min t =? -1 then (match o with OKnapsack => 0 | _ => ki_copies t end) else ki_copies_min t)
    (ki_with_rotations (match ki_rotations t with [] => [XYZ] | l => l end) t).

(** :981-988, exact division. *)
Definition yefficiency (t : KItem) : Q := (ki_profit t / inject_Z (vol (ki_box t)))%Q.
Definition ybest_efficiency (items : list KItem) : option nat :=
  fold_left (fun best k =>
      match best with
      | None => Some k
      | Some j => if Qltb (yefficiency (nth j items dummy_kitem)) (yefficiency (nth k items dummy_kitem)) then Some k else best
      end) (seq 0 (length items)) None.

(** :1004-1006. *)
Definition yresolve_copies (n : Z) (t : KBin) : KBin := kb_with_copies (if kb_copies t =? -1 then n else kb_copies t) t.

(** bin_type_ids_ and previous_bins_volume_, :1013-1018. *)
Definition yexpand_bins (bins : list KBin) : list nat * list Z * Z :=
  fold_left (fun acc k =>
      let t := nth k bins dummy_kbin in
      fold_left (fun acc _ =>
          let '(ids, prev, p) := acc in (ids ++ [k], prev ++ [p], p + vol (kb_box t)))
        (repeat tt (Z.to_nat (kb_copies t))) acc)
    (seq 0 (length bins)) ([], [], 0).

(** bin_weight_, :1011-1012; [copies * infinity] with no copies is a NaN, also
    [None] here. *)
Definition ybin_weight (bins : list KBin) : option Q :=
  fold_left (fun acc t => match acc, kb_max_weight t with
    | Some w, Some m => Some (w + inject_Z (kb_copies t) * m)%Q | _, _ => None end) bins (Some 0%Q).

(** groups_, :1023-1035. *)
Definition ybuild_groups (items : list KItem) : list (list nat * Z) :=
  fold_left (fun gs x =>
      let t := nth x items dummy_kitem in
      upd (ki_group t) (fun g => (fst g ++ [x], snd g + ki_copies t)) (grow (S (ki_group t)) ([], 0) gs))
    (seq 0 (length items)) [].

Inductive YBuild : Type := YBuilt (i : KInstance) (d : KDerived) | YBuildThrow | YBuildUndef.

Definition y_build (b : KBuilder) : YBuild :=
  let o := y_objective b in
  let items := map (yresolve_item o) (y_items b) in
  (* the loop :957-994 stops at the first item type that throws (test of
     copies_min) or whose volume is 0 (integer division) *)
  match find (fun t => (ki_copies t <? ki_copies_min t) || (vol (ki_box t) =? 0)) items with
  | Some t => if ki_copies t <? ki_copies_min t then YBuildThrow else YBuildUndef
  | None =>
      let number_of_items := fold_left (fun n t => n + ki_copies t) items 0 in
      let bins := map (yresolve_copies number_of_items) (y_bins b) in
      let '(ids, prev, _) := yexpand_bins bins in
      if (match o with OOpenDimensionX | OOpenDimensionY => negb (Z.of_nat (length ids) =? 1) | _ => false end)
      then YBuildThrow
      else YBuilt
          (mkKInst o (y_check_weight b) items bins)
          (mkDk (y_unloading b) ids prev
            (fold_left (fun n t => n + kb_copies t * vol (kb_box t)) bins 0)
            (fold_left (fun n t => n + kb_copies t * kb_area t) bins 0)
            (ybin_weight bins)
            (fold_left (fun n t => (n + length (kb_defects t))%nat) bins 0%nat)
            number_of_items
            (fold_left (fun n t => n + ki_copies t * vol (ki_box t)) items 0)
            (fold_left (fun n t => (n + inject_Z (ki_copies t) * ki_weight t)%Q) items 0%Q)
            (fold_left (fun n t => (n + inject_Z (ki_copies t) * ki_profit t)%Q) items 0%Q)
            (ybest_efficiency items)
            (forallb (fun t => negb (ki_copies t <? yinfinite_copies (yvolume_max (y_bins b)) t)) items)
            (ybuild_groups items))
  end.
