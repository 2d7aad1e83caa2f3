(** * Model of the rectangle instance builder

    [src/rectangle/instance_builder.cpp].  Not modelled: the file readers
    (:614-1028: they only call the functions below), fixed items (:1189-1212;
    no function of the builder adds any except the JSON reader) and the user
    callback.  Integers do not overflow, doubles are exact. *)

From Coq Require Import List ZArith QArith Bool.
From Verif Require Import Util Common_Model OneDim_Model OneDimBuilder_Model Rect_Model.
Import ListNotations.
Open Scope Z_scope.

(** The builder: the instance under construction and the map
    [orig_to_sub_bin_type_ids_].  The objective is BinPacking until set
    (instance.hpp:524). *)
Record RBuilder : Type := mkU {
  u_objective : Objective;
  u_params : RParams;
  u_items : list RItem;
  u_bins : list RBin;
  u_orig : list (option nat)
}.

Definition u_new : RBuilder := mkU OBinPacking default_params [] [] [].

(** Normal return, [invalid_argument], undefined behaviour. *)
Inductive URes : Type := UOk (b : RBuilder) | UThrow (b : RBuilder) | UUndef.
Definition uthen (r : URes) (f : RBuilder -> URes) : URes := match r with UOk b => f b | _ => r end.

Definition uset_items (b : RBuilder) (l : list RItem) : RBuilder :=
  mkU (u_objective b) (u_params b) l (u_bins b) (u_orig b).
Definition uset_bins (b : RBuilder) (l : list RBin) : RBuilder :=
  mkU (u_objective b) (u_params b) (u_items b) l (u_orig b).
Definition uset_params (b : RBuilder) (p : RParams) : RBuilder :=
  mkU (u_objective b) p (u_items b) (u_bins b) (u_orig b).

(** Update of one bin (item) type after the range check. *)
Definition uon_bin (b : RBuilder) (id : Z) (f : RBin -> RBin) : URes :=
  if bad_id id (u_bins b) then UThrow b else UOk (uset_bins b (upd (Z.to_nat id) f (u_bins b))).
Definition uon_item (b : RBuilder) (id : Z) (f : RItem -> RItem) : URes :=
  if bad_id id (u_items b) then UThrow b else UOk (uset_items b (upd (Z.to_nat id) f (u_items b))).

(** Assignments to one field. *)
Definition rb_with_size (x y : Z) (t : RBin) : RBin :=
  mkRB x y (rb_cost t) (rb_copies t) (rb_copies_min t) (rb_max_weight t) (rb_truck t) (rb_eligibility_ids t) (rb_defects t) (rb_resources t).
Definition rb_with_cost (c : Q) (t : RBin) : RBin :=
  mkRB (rb_x t) (rb_y t) c (rb_copies t) (rb_copies_min t) (rb_max_weight t) (rb_truck t) (rb_eligibility_ids t) (rb_defects t) (rb_resources t).
Definition rb_with_copies (n : Z) (t : RBin) : RBin :=
  mkRB (rb_x t) (rb_y t) (rb_cost t) n (rb_copies_min t) (rb_max_weight t) (rb_truck t) (rb_eligibility_ids t) (rb_defects t) (rb_resources t).
Definition rb_with_min (n : Z) (t : RBin) : RBin :=
  mkRB (rb_x t) (rb_y t) (rb_cost t) (rb_copies t) n (rb_max_weight t) (rb_truck t) (rb_eligibility_ids t) (rb_defects t) (rb_resources t).
Definition rb_with_weight (w : option Q) (t : RBin) : RBin :=
  mkRB (rb_x t) (rb_y t) (rb_cost t) (rb_copies t) (rb_copies_min t) w (rb_truck t) (rb_eligibility_ids t) (rb_defects t) (rb_resources t).
Definition rb_with_truck (k : Truck) (t : RBin) : RBin :=
  mkRB (rb_x t) (rb_y t) (rb_cost t) (rb_copies t) (rb_copies_min t) (rb_max_weight t) k (rb_eligibility_ids t) (rb_defects t) (rb_resources t).
Definition rb_with_elig (l : list Z) (t : RBin) : RBin :=
  mkRB (rb_x t) (rb_y t) (rb_cost t) (rb_copies t) (rb_copies_min t) (rb_max_weight t) (rb_truck t) l (rb_defects t) (rb_resources t).
Definition rb_with_defects (l : list Defect) (t : RBin) : RBin :=
  mkRB (rb_x t) (rb_y t) (rb_cost t) (rb_copies t) (rb_copies_min t) (rb_max_weight t) (rb_truck t) (rb_eligibility_ids t) l (rb_resources t).
Definition rb_with_resources (l : list Resource) (t : RBin) : RBin :=
  mkRB (rb_x t) (rb_y t) (rb_cost t) (rb_copies t) (rb_copies_min t) (rb_max_weight t) (rb_truck t) (rb_eligibility_ids t) (rb_defects t) l.

Definition ri_with_profit (p : Q) (t : RItem) : RItem :=
  mkRI (ri_x t) (ri_y t) p (ri_copies t) (ri_copies_min t) (ri_group t) (ri_oriented t) (ri_weight t) (ri_eligibility t) (ri_resource_ids t).
Definition ri_with_copies (n : Z) (t : RItem) : RItem :=
  mkRI (ri_x t) (ri_y t) (ri_profit t) n (ri_copies_min t) (ri_group t) (ri_oriented t) (ri_weight t) (ri_eligibility t) (ri_resource_ids t).
Definition ri_with_min (n : Z) (t : RItem) : RItem :=
  mkRI (ri_x t) (ri_y t) (ri_profit t) (ri_copies t) n (ri_group t) (ri_oriented t) (ri_weight t) (ri_eligibility t) (ri_resource_ids t).
Definition ri_with_group (g : nat) (t : RItem) : RItem :=
  mkRI (ri_x t) (ri_y t) (ri_profit t) (ri_copies t) (ri_copies_min t) g (ri_oriented t) (ri_weight t) (ri_eligibility t) (ri_resource_ids t).
Definition ri_with_oriented (o : bool) (t : RItem) : RItem :=
  mkRI (ri_x t) (ri_y t) (ri_profit t) (ri_copies t) (ri_copies_min t) (ri_group t) o (ri_weight t) (ri_eligibility t) (ri_resource_ids t).
Definition ri_with_weight (w : Q) (t : RItem) : RItem :=
  mkRI (ri_x t) (ri_y t) (ri_profit t) (ri_copies t) (ri_copies_min t) (ri_group t) (ri_oriented t) w (ri_eligibility t) (ri_resource_ids t).
Definition ri_with_elig (e : Z) (t : RItem) : RItem :=
  mkRI (ri_x t) (ri_y t) (ri_profit t) (ri_copies t) (ri_copies_min t) (ri_group t) (ri_oriented t) (ri_weight t) e (ri_resource_ids t).
Definition ri_with_ids (l : list (list nat)) (t : RItem) : RItem :=
  mkRI (ri_x t) (ri_y t) (ri_profit t) (ri_copies t) (ri_copies_min t) (ri_group t) (ri_oriented t) (ri_weight t) (ri_eligibility t) l.

(** set_group_weight_constraints, :12-19: the vector grows with [true]; a
    negative group is an out of range access. *)
Definition u_group_weight (b : RBuilder) (g : Z) (v : bool) : URes :=
  if g <? 0 then UUndef
  else UOk (uset_params b (mkRP (rp_unloading (u_params b)) (rp_leftover (u_params b))
    (upd (Z.to_nat g) (fun _ => v) (grow (S (Z.to_nat g)) true (rp_check_weight (u_params b)))))).

(** add_bin_type(x, y), :25-50. *)
Definition u_add_bin (b : RBuilder) (x y : Z) : URes :=
  if x <=? 0 then UThrow b else if y <=? 0 then UThrow b
  else UOk (uset_bins b (u_bins b ++ [mkRB x y (inject_Z (x * y)) 1 0 None no_truck [] [] []])).

(** set_bin_type_cost, :52-72. *)
Definition u_set_bin_cost (b : RBuilder) (id : Z) (cost : Q) : URes :=
  if bad_id id (u_bins b) then UThrow b
  else if Qle_bool cost 0 && negb (Qeq_bool cost (-1)) then UThrow b
  else uon_bin b id (fun t => rb_with_cost (if Qeq_bool cost (-1) then inject_Z (rb_x t * rb_y t) else cost) t).

(** set_bin_type_maximum_weight, :74-87; set_bin_type_semi_trailer_truck_parameters,
    :89-102; add_bin_type_eligibility, :104-117. *)
Definition u_set_bin_weight (b : RBuilder) (id : Z) (w : option Q) : URes := uon_bin b id (rb_with_weight w).
Definition u_set_bin_truck (b : RBuilder) (id : Z) (k : Truck) : URes := uon_bin b id (rb_with_truck k).
Definition u_add_eligibility (b : RBuilder) (id e : Z) : URes :=
  uon_bin b id (fun t => rb_with_elig (rb_eligibility_ids t ++ [e]) t).

(** add_defect, :119-144: no check on the position or the size. *)
Definition u_add_defect (b : RBuilder) (id x y lx ly : Z) : URes :=
  uon_bin b id (fun t => rb_with_defects (rb_defects t ++ [mkDefect x y lx ly]) t).

(** add_bin_type_resource, :146-168. *)
Definition u_add_resource (b : RBuilder) (id : Z) (capacity : Q) (penalize : bool) (penalty : Q) : URes :=
  uon_bin b id (fun t => rb_with_resources (rb_resources t ++ [mkResource capacity [] penalize penalty]) t).

(** add_resource_consumption, :170-207. *)
Definition u_add_consumption (b : RBuilder) (id rid item copy : Z) (q : Q) : URes :=
  if bad_id id (u_bins b) then UThrow b
  else if bad_id rid (rb_resources (nth (Z.to_nat id) (u_bins b) dummy_rbin)) then UThrow b
  else if copy <? 0 then UThrow b
  else if item <? 0 then UUndef
  else uon_bin b id (fun t =>
    rb_with_resources (upd (Z.to_nat rid) (put_consumption (Z.to_nat item) (Z.to_nat copy) q) (rb_resources t)) t).

(** set_bin_type_copies, :257-285; set_bin_type_copies_min, :287-314. *)
Definition u_set_bin_copies (b : RBuilder) (id copies : Z) : URes :=
  if bad_id id (u_bins b) then UThrow b
  else if negb (copies =? -1)
          && ((copies <=? 0) || (copies <? rb_copies_min (nth (Z.to_nat id) (u_bins b) dummy_rbin))) then UThrow b
  else uon_bin b id (rb_with_copies copies).
Definition u_set_bin_copies_min (b : RBuilder) (id copies_min : Z) : URes :=
  if bad_id id (u_bins b) then UThrow b
  else if copies_min <? 0 then UThrow b
  else if negb (rb_copies (nth (Z.to_nat id) (u_bins b) dummy_rbin) =? -1)
          && (rb_copies (nth (Z.to_nat id) (u_bins b) dummy_rbin) <? copies_min) then UThrow b
  else uon_bin b id (rb_with_min copies_min).

(** compute_item_types_max_length_sum, :316-326; set_bin_types_infinite_x,
    set_bin_types_infinite_y, :328-346. *)
Definition max_length_sum (items : list RItem) : Z :=
  fold_left (fun n t => n + ri_copies t * Z.max (ri_x t) (ri_y t)) items 0.
Definition u_bins_infinite_x (b : RBuilder) : URes :=
  UOk (uset_bins b (map (fun t => rb_with_size (max_length_sum (u_items b)) (rb_y t) t) (u_bins b))).
Definition u_bins_infinite_y (b : RBuilder) : URes :=
  UOk (uset_bins b (map (fun t => rb_with_size (rb_x t) (max_length_sum (u_items b)) t) (u_bins b))).

(** set_bin_types_infinite_copies, :348-355; set_bin_types_unweighted, :357-364. *)
Definition u_bins_infinite (b : RBuilder) : URes := UOk (uset_bins b (map (rb_with_copies (-1)) (u_bins b))).
Definition u_bins_unweighted (b : RBuilder) : URes :=
  UOk (uset_bins b (map (fun t => rb_with_cost (inject_Z (rb_area t)) t) (u_bins b))).

(** add_item_type(x, y, oriented), :370-398: zero is accepted. *)
Definition u_add_item (b : RBuilder) (x y : Z) (oriented : bool) : URes :=
  if x <? 0 then UThrow b else if y <? 0 then UThrow b
  else UOk (uset_items b (u_items b ++ [mkRI x y (inject_Z (x * y)) 1 (-1) 0 oriented 0 (-1) []])).

(** set_item_type_group, :400-412: the item type id is not checked. *)
Definition u_set_item_group (b : RBuilder) (id g : Z) : URes :=
  if g <? 0 then UThrow b
  else if bad_id id (u_items b) then UUndef
  else uon_item b id (ri_with_group (Z.to_nat g)).

(** set_item_type_weight, set_item_type_eligibility, set_item_type_profit,
    :414-442, :500-513. *)
Definition u_set_item_weight (b : RBuilder) (id : Z) (w : Q) : URes := uon_item b id (ri_with_weight w).
Definition u_set_item_eligibility (b : RBuilder) (id e : Z) : URes := uon_item b id (ri_with_elig e).
Definition u_set_item_profit (b : RBuilder) (id : Z) (p : Q) : URes := uon_item b id (ri_with_profit p).

(** set_item_type_copies, :515-534; set_item_type_copies_min, :536-555. *)
Definition u_set_item_copies (b : RBuilder) (id copies : Z) : URes :=
  if bad_id id (u_items b) then UThrow b
  else if negb (copies =? -1) && (copies <=? 0) then UThrow b
  else uon_item b id (ri_with_copies copies).
Definition u_set_item_copies_min (b : RBuilder) (id copies_min : Z) : URes :=
  if bad_id id (u_items b) then UThrow b
  else if copies_min <? -1 then UThrow b
  else uon_item b id (ri_with_min copies_min).

(** set_item_types_unweighted, set_item_types_oriented, :557-573. *)
Definition u_items_unweighted (b : RBuilder) : URes :=
  UOk (uset_items b (map (fun t => ri_with_profit (inject_Z (ri_area t)) t) (u_items b))).
Definition u_items_oriented (b : RBuilder) : URes :=
  UOk (uset_items b (map (ri_with_oriented true) (u_items b))).

(** compute_bin_types_area_max, :575-586. *)
Definition area_max (bins : list RBin) : Z := fold_left (fun m t => Z.max m (rb_area t)) bins 0.

(** [(bin_types_area_max - 1) / item_type.area() + 1], :596, :1085. *)
Definition rinfinite_copies (amax : Z) (t : RItem) : Z := Z.quot (amax - 1) (ri_area t) + 1.

(** set_item_types_infinite_copies, :588-598. *)
Definition u_items_infinite (b : RBuilder) : URes :=
  if existsb (fun t => ri_area t =? 0) (u_items b) then UUndef
  else UOk (uset_items b (map (fun t => ri_with_copies (rinfinite_copies (area_max (u_bins b)) t) t) (u_items b))).

(** multiply_item_types_copies, :600-608. *)
Definition u_multiply (b : RBuilder) (n : Z) : URes :=
  UOk (uset_items b (map (fun t => ri_with_copies (ri_copies t * n) t) (u_items b))).

(** add_bin_type(original_instance, id), :209-255. *)
Definition u_copy_bin (b : RBuilder) (i : RInstance) (oid : nat) : URes :=
  match nth_error (rin_bins i) oid with
  | None => UUndef
  | Some t =>
      let id := length (u_bins b) in
      let zid := Z.of_nat id in
      uthen (u_add_bin b (rb_x t) (rb_y t)) (fun b =>
      let b := mkU (u_objective b) (u_params b) (u_items b) (u_bins b)
                 (upd oid (fun _ => Some id) (grow (S oid) None (u_orig b))) in
      uthen (u_set_bin_cost b zid (rb_cost t)) (fun b =>
      uthen (u_set_bin_copies b zid (rb_copies t)) (fun b =>
      uthen (u_set_bin_copies_min b zid (rb_copies_min t)) (fun b =>
      uthen (u_set_bin_weight b zid (rb_max_weight t)) (fun b =>
      uthen (u_set_bin_truck b zid (rb_truck t)) (fun b =>
      uthen (fold_left (fun r e => uthen r (fun b => u_add_eligibility b zid e)) (rb_eligibility_ids t) (UOk b)) (fun b =>
      uthen (fold_left (fun r d => uthen r (fun b => u_add_defect b zid (df_x d) (df_y d) (df_lx d) (df_ly d)))
               (rb_defects t) (UOk b)) (fun b =>
      fold_left (fun r res => uthen r (fun b => u_add_resource b zid (res_capacity res) (res_penalize res) (res_penalty res)))
        (rb_resources t) (UOk b)))))))))
  end.

(** The copy of one schedule, :485-495. *)
Definition u_copy_schedule (b : RBuilder) (zid rid item : Z) (s : list Q) : URes :=
  fold_left (fun r kq => uthen r (fun b => u_add_consumption b zid rid item (fst kq) (snd kq)))
    (combine (map Z.of_nat (seq 0 (length s))) s) (UOk b).

(** The resources of one bin type, :476-496. *)
Definition u_copy_resources (b : RBuilder) (zid item : Z) (oitem : nat) (rs : list Resource) : URes :=
  fold_left (fun r kres => uthen r (fun b =>
      if (oitem <? length (res_item_consumptions (snd kres)))%nat
      then u_copy_schedule b zid (fst kres) item (nth oitem (res_item_consumptions (snd kres)) [])
      else UOk b))
    (combine (map Z.of_nat (seq 0 (length rs))) rs) (UOk b).

(** add_item_type(original_instance, id), :444-498.  [copies_min] is not
    copied. *)
Definition u_copy_item (b : RBuilder) (i : RInstance) (oid : nat) : URes :=
  match nth_error (rin_items i) oid with
  | None => UUndef
  | Some t =>
      let id := Z.of_nat (length (u_items b)) in
      uthen (u_add_item b (ri_x t) (ri_y t) (ri_oriented t)) (fun b =>
      uthen (u_set_item_profit b id (ri_profit t)) (fun b =>
      uthen (u_set_item_copies b id (ri_copies t)) (fun b =>
      uthen (u_set_item_group b id (Z.of_nat (ri_group t))) (fun b =>
      uthen (u_set_item_weight b id (ri_weight t)) (fun b =>
      uthen (u_set_item_eligibility b id (ri_eligibility t)) (fun b =>
      fold_left (fun r ko => uthen r (fun b =>
          match snd ko with
          | None => UOk b
          | Some sub =>
              match nth_error (rin_bins i) (fst ko) with
              | None => UUndef
              | Some obt => u_copy_resources b (Z.of_nat sub) id oid (rb_resources obt)
              end
          end))
        (combine (seq 0 (length (u_orig b))) (u_orig b)) (UOk b)))))))
  end.

(** The calls of the public interface. *)
Inductive UCall : Type :=
| USetObjective (o : Objective)
| USetParams (p : RParams)
| USetGroupWeight (g : Z) (v : bool)
| USetUnloading (u : Unloading)
| USetLeftover (m : LeftoverMode)
| UAddBin (x y : Z)
| USetBinCost (id : Z) (cost : Q)
| USetBinWeight (id : Z) (w : option Q)
| USetBinTruck (id : Z) (k : Truck)
| UAddEligibility (id e : Z)
| UAddDefect (id x y lx ly : Z)
| UAddResource (id : Z) (capacity : Q) (penalize : bool) (penalty : Q)
| UAddConsumption (id rid item copy : Z) (q : Q)
| USetBinCopies (id copies : Z)
| USetBinCopiesMin (id copies_min : Z)
| UBinsInfiniteX
| UBinsInfiniteY
| UBinsInfinite
| UBinsUnweighted
| UAddItem (x y : Z) (oriented : bool)
| USetItemGroup (id g : Z)
| USetItemWeight (id : Z) (w : Q)
| USetItemEligibility (id e : Z)
| USetItemProfit (id : Z) (p : Q)
| USetItemCopies (id copies : Z)
| USetItemCopiesMin (id copies_min : Z)
| UItemsUnweighted
| UItemsOriented
| UItemsInfinite
| UMultiply (n : Z)
| UCopyBin (i : RInstance) (id : nat)
| UCopyItem (i : RInstance) (id : nat).

Definition ustep (b : RBuilder) (c : UCall) : URes :=
  match c with
  | USetObjective o => UOk (mkU o (u_params b) (u_items b) (u_bins b) (u_orig b))
  | USetParams p => UOk (uset_params b p)
  | USetGroupWeight g v => u_group_weight b g v
  | USetUnloading u => UOk (uset_params b (mkRP u (rp_leftover (u_params b)) (rp_check_weight (u_params b))))
  | USetLeftover m => UOk (uset_params b (mkRP (rp_unloading (u_params b)) m (rp_check_weight (u_params b))))
  | UAddBin x y => u_add_bin b x y
  | USetBinCost id q => u_set_bin_cost b id q
  | USetBinWeight id w => u_set_bin_weight b id w
  | USetBinTruck id k => u_set_bin_truck b id k
  | UAddEligibility id e => u_add_eligibility b id e
  | UAddDefect id x y lx ly => u_add_defect b id x y lx ly
  | UAddResource id q p y => u_add_resource b id q p y
  | UAddConsumption id rid x k q => u_add_consumption b id rid x k q
  | USetBinCopies id n => u_set_bin_copies b id n
  | USetBinCopiesMin id n => u_set_bin_copies_min b id n
  | UBinsInfiniteX => u_bins_infinite_x b
  | UBinsInfiniteY => u_bins_infinite_y b
  | UBinsInfinite => u_bins_infinite b
  | UBinsUnweighted => u_bins_unweighted b
  | UAddItem x y o => u_add_item b x y o
  | USetItemGroup id g => u_set_item_group b id g
  | USetItemWeight id w => u_set_item_weight b id w
  | USetItemEligibility id e => u_set_item_eligibility b id e
  | USetItemProfit id p => u_set_item_profit b id p
  | USetItemCopies id n => u_set_item_copies b id n
  | USetItemCopiesMin id n => u_set_item_copies_min b id n
  | UItemsUnweighted => u_items_unweighted b
  | UItemsOriented => u_items_oriented b
  | UItemsInfinite => u_items_infinite b
  | UMultiply n => u_multiply b n
  | UCopyBin i id => u_copy_bin b i id
  | UCopyItem i id => u_copy_item b i id
  end.

(** A caller that catches the exceptions and goes on; [None] after undefined
    behaviour. *)
Definition urun (calls : list UCall) : option RBuilder :=
  fold_left (fun ob c => match ob with
    | None => None
    | Some b => match ustep b c with UOk b' | UThrow b' => Some b' | UUndef => None end
    end) calls (Some u_new).

(** The calls in order, stopping at the first exception. *)
Definition ucalls_from (b : RBuilder) (calls : list UCall) : URes :=
  fold_left (fun r c => uthen r (fun b => ustep b c)) calls (UOk b).

(** ** build, :1035-1215 *)

(** The attributes [build] computes besides those of [RInstance];
    [None] stands for the initial numeric limit or an infinite sum. *)
Record RDerived : Type := mkDv {
  dv_bin_type_ids : list nat;
  dv_previous : list Z;
  dv_bin_area : Z;
  dv_bin_weight : option Q;
  dv_largest_cost : Q;
  dv_defects : nat;
  dv_number_of_items : Z;
  dv_item_area : Z;
  dv_total_width : Z;
  dv_total_height : Z;
  dv_smallest_width : option Z;
  dv_smallest_height : option Z;
  dv_item_weight : Q;
  dv_item_profit : Q;
  dv_largest_profit : Q;
  dv_largest_efficiency : option nat;
  dv_largest_copies : Z;
  dv_all_infinite : bool;
  dv_item_type_ids : list (list nat);
  dv_groups : list (list nat * Z)
}.

(** Resolution of copies_min, :1046-1050. *)
Definition rresolve_min (o : Objective) (t : RItem) : RItem :=
  ri_with_min (if ri_copies_min t =? -1 then (match o with OKnapsack => 0 | _ => ri_copies t end) else ri_copies_min t) t.

(** :1069-1075. *)
Definition omin (m : option Z) (v : Z) : option Z := match m with None => Some v | Some w => Some (Z.min w v) end.
Definition smallest_width (items : list RItem) : option Z :=
  fold_left (fun m t => let m := omin m (ri_x t) in if ri_oriented t then m else omin m (ri_y t)) items None.
Definition smallest_height (items : list RItem) : option Z :=
  fold_left (fun m t => let m := omin m (ri_y t) in if ri_oriented t then m else omin m (ri_x t)) items None.

(** :1076-1083, exact division. *)
Definition refficiency (t : RItem) : Q := (ri_profit t / inject_Z (ri_area t))%Q.
Definition rbest_efficiency (items : list RItem) : option nat :=
  fold_left (fun best k =>
      match best with
      | None => Some k
      | Some j => if Qltb (refficiency (nth j items dummy_ritem)) (refficiency (nth k items dummy_ritem)) then Some k else best
      end) (seq 0 (length items)) None.

(** :1103-1105. *)
Definition rresolve_copies (n : Z) (t : RBin) : RBin := rb_with_copies (if rb_copies t =? -1 then n else rb_copies t) t.

(** bin_type_ids_ and previous_bins_area_, :1110-1115. *)
Definition rexpand_bins (bins : list RBin) : list nat * list Z * Z :=
  fold_left (fun acc k =>
      let t := nth k bins dummy_rbin in
      fold_left (fun acc _ =>
          let '(ids, prev, p) := acc in (ids ++ [k], prev ++ [p], p + rb_area t))
        (repeat tt (Z.to_nat (rb_copies t))) acc)
    (seq 0 (length bins)) ([], [], 0).

(** bin_weight_, :1108-1109; [copies * infinity] with no copies is a NaN, also
    [None] here. *)
Definition bin_weight (bins : list RBin) : option Q :=
  fold_left (fun acc t => match acc, rb_max_weight t with
    | Some w, Some m => Some (w + inject_Z (rb_copies t) * m)%Q | _, _ => None end) bins (Some 0%Q).

(** bin_type.item_type_ids, :1123-1140. *)
Definition ritem_ids (items : list RItem) (t : RBin) : list nat :=
  filter (fun x => religible (nth x items dummy_ritem) t) (seq 0 (length items)).

(** item_type.resource_ids, :1142-1165. *)
Definition rresource_ids_of (bins : list RBin) (x : nat) : list (list nat) :=
  map (fun t => filter (fun r =>
      match nth x (res_item_consumptions (nth r (rb_resources t) dummy_resource)) [] with [] => false | _ => true end)
    (seq 0 (length (rb_resources t)))) bins.

(** groups_, :1167-1180. *)
Definition build_groups (items : list RItem) : list (list nat * Z) :=
  fold_left (fun gs x =>
      let t := nth x items dummy_ritem in
      upd (ri_group t) (fun g => (fst g ++ [x], snd g + ri_copies t)) (grow (S (ri_group t)) ([], 0) gs))
    (seq 0 (length items)) [].

Inductive UBuild : Type := UBuilt (i : RInstance) (d : RDerived) | UBuildThrow | UBuildUndef.

Definition u_build (b : RBuilder) : UBuild :=
  let o := u_objective b in
  let items := map (rresolve_min o) (u_items b) in
  (* the loop :1042-1092 stops at the first item type that throws (test of
     copies_min) or whose area is 0 (integer division) *)
  match find (fun t => (ri_copies t <? ri_copies_min t) || (ri_area t =? 0)) items with
  | Some t => if ri_copies t <? ri_copies_min t then UBuildThrow else UBuildUndef
  | None =>
      let number_of_items := fold_left (fun n t => n + ri_copies t) items 0 in
      if existsb (fun t => existsb (fun r => existsb (fun x =>
               match nth x (res_item_consumptions r) [] with [] => false | _ => true end)
               (seq (length items) (length (res_item_consumptions r) - length items))) (rb_resources t)) (u_bins b)
      then UBuildUndef (* :1159-1160 with an item type id out of range *)
      else
        let bins := map (rresolve_copies number_of_items) (u_bins b) in
        let '(ids, prev, _) := rexpand_bins bins in
        if (match o with OOpenDimensionX | OOpenDimensionY => negb (Z.of_nat (length ids) =? 1) | _ => false end)
        then UBuildThrow
        else UBuilt
          (mkRInst o (u_params b)
            (map (fun x => ri_with_ids (rresource_ids_of bins x) (nth x items dummy_ritem)) (seq 0 (length items))) bins)
          (mkDv ids prev
            (fold_left (fun n t => n + rb_copies t * rb_area t) bins 0)
            (bin_weight bins)
            (fold_left (fun m t => if Qltb m (rb_cost t) then rb_cost t else m) bins 0%Q)
            (fold_left (fun n t => (n + length (rb_defects t))%nat) bins 0%nat)
            number_of_items
            (fold_left (fun n t => n + ri_copies t * ri_area t) items 0)
            (fold_left (fun n t => n + ri_copies t * ri_x t) items 0)
            (fold_left (fun n t => n + ri_copies t * ri_y t) items 0)
            (smallest_width items) (smallest_height items)
            (fold_left (fun n t => (n + inject_Z (ri_copies t) * ri_weight t)%Q) items 0%Q)
            (fold_left (fun n t => (n + inject_Z (ri_copies t) * ri_profit t)%Q) items 0%Q)
            (fold_left (fun m t => if Qltb m (ri_profit t) then ri_profit t else m) items 0%Q)
            (rbest_efficiency items)
            (fold_left (fun m t => if m <? ri_copies t then ri_copies t else m) items 0)
            (forallb (fun t => negb (ri_copies t <? rinfinite_copies (area_max (u_bins b)) t)) items)
            (map (ritem_ids items) bins)
            (build_groups items))
  end.
