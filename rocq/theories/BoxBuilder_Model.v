(** * Model of the box instance builder

    [src/box/instance_builder.cpp].  Not modelled: the file readers (:545-866:
    they only call the functions below), fixed items (:987-1003; no function of
    the builder adds any) and the user callback.  Integers do not overflow,
    doubles are exact. *)

From Coq Require Import List ZArith QArith Bool.
From Verif Require Import Util Common_Model OneDim_Model OneDimBuilder_Model Box_Model Box_Spec.
Import ListNotations.
Open Scope Z_scope.

(** The builder: the instance under construction and the map
    [orig_to_sub_bin_type_ids_].  [objective_] is not initialised
    (instance.hpp:438): a new builder holds any objective. *)
Record BBuilder : Type := mkW {
  w_objective : Objective;
  w_items : list BItem;
  w_bins : list BBin;
  w_orig : list (option nat)
}.

Definition w_new (o : Objective) : BBuilder := mkW o [] [] [].

(** Normal return, [invalid_argument], undefined behaviour. *)
Inductive WRes : Type := WOk (b : BBuilder) | WThrow (b : BBuilder) | WUndef.
Definition wthen (r : WRes) (f : BBuilder -> WRes) : WRes := match r with WOk b => f b | _ => r end.

Definition wset_items (b : BBuilder) (l : list BItem) : BBuilder := mkW (w_objective b) l (w_bins b) (w_orig b).
Definition wset_bins (b : BBuilder) (l : list BBin) : BBuilder := mkW (w_objective b) (w_items b) l (w_orig b).

(** Update of one bin (item) type after the range check. *)
Definition won_bin (b : BBuilder) (id : Z) (f : BBin -> BBin) : WRes :=
  if bad_id id (w_bins b) then WThrow b else WOk (wset_bins b (upd (Z.to_nat id) f (w_bins b))).
Definition won_item (b : BBuilder) (id : Z) (f : BItem -> BItem) : WRes :=
  if bad_id id (w_items b) then WThrow b else WOk (wset_items b (upd (Z.to_nat id) f (w_items b))).

(** Assignments to one field. *)
Definition bn_with_box (v : Vec) (t : BBin) : BBin :=
  mkBB v (bn_cost t) (bn_copies t) (bn_copies_min t) (bn_max_weight t) (bn_resources t).
Definition bn_with_cost (c : Q) (t : BBin) : BBin :=
  mkBB (bn_box t) c (bn_copies t) (bn_copies_min t) (bn_max_weight t) (bn_resources t).
Definition bn_with_copies (n : Z) (t : BBin) : BBin :=
  mkBB (bn_box t) (bn_cost t) n (bn_copies_min t) (bn_max_weight t) (bn_resources t).
Definition bn_with_min (n : Z) (t : BBin) : BBin :=
  mkBB (bn_box t) (bn_cost t) (bn_copies t) n (bn_max_weight t) (bn_resources t).
Definition bn_with_weight (w : option Q) (t : BBin) : BBin :=
  mkBB (bn_box t) (bn_cost t) (bn_copies t) (bn_copies_min t) w (bn_resources t).
Definition bn_with_resources (l : list Resource) (t : BBin) : BBin :=
  mkBB (bn_box t) (bn_cost t) (bn_copies t) (bn_copies_min t) (bn_max_weight t) l.

Definition bi_with_profit (p : Q) (t : BItem) : BItem :=
  mkBI (bi_box t) p (bi_copies t) (bi_copies_min t) (bi_rotations t) (bi_weight t) (bi_resource_ids t).
Definition bi_with_copies (n : Z) (t : BItem) : BItem :=
  mkBI (bi_box t) (bi_profit t) n (bi_copies_min t) (bi_rotations t) (bi_weight t) (bi_resource_ids t).
Definition bi_with_min (n : Z) (t : BItem) : BItem :=
  mkBI (bi_box t) (bi_profit t) (bi_copies t) n (bi_rotations t) (bi_weight t) (bi_resource_ids t).
Definition bi_with_rotations (l : list Rotation) (t : BItem) : BItem :=
  mkBI (bi_box t) (bi_profit t) (bi_copies t) (bi_copies_min t) l (bi_weight t) (bi_resource_ids t).
Definition bi_with_weight (w : Q) (t : BItem) : BItem :=
  mkBI (bi_box t) (bi_profit t) (bi_copies t) (bi_copies_min t) (bi_rotations t) w (bi_resource_ids t).
Definition bi_with_ids (l : list (list nat)) (t : BItem) : BItem :=
  mkBI (bi_box t) (bi_profit t) (bi_copies t) (bi_copies_min t) (bi_rotations t) (bi_weight t) l.

(** BinType::area and ItemType::area, instance.hpp:162, :234: the base. *)
Definition base_area (v : Vec) : Z := v_x v * v_y v.

(** add_bin_type(x, y, z), :16-49: the default cost is the base area. *)
Definition w_add_bin (b : BBuilder) (v : Vec) : WRes :=
  if v_x v <=? 0 then WThrow b else if v_y v <=? 0 then WThrow b else if v_z v <=? 0 then WThrow b
  else WOk (wset_bins b (w_bins b ++ [mkBB v (inject_Z (base_area v)) 1 0 None []])).

(** set_bin_type_cost, :51-71. *)
Definition w_set_bin_cost (b : BBuilder) (id : Z) (cost : Q) : WRes :=
  if bad_id id (w_bins b) then WThrow b
  else if Qle_bool cost 0 && negb (Qeq_bool cost (-1)) then WThrow b
  else won_bin b id (fun t => bn_with_cost (if Qeq_bool cost (-1) then inject_Z (base_area (bn_box t)) else cost) t).

(** set_bin_type_maximum_weight, :73-86. *)
Definition w_set_bin_weight (b : BBuilder) (id : Z) (w : option Q) : WRes := won_bin b id (bn_with_weight w).

(** add_bin_type_resource, :88-110. *)
Definition w_add_resource (b : BBuilder) (id : Z) (capacity : Q) (penalize : bool) (penalty : Q) : WRes :=
  won_bin b id (fun t => bn_with_resources (bn_resources t ++ [mkResource capacity [] penalize penalty]) t).

(** add_resource_consumption, :112-149. *)
Definition w_add_consumption (b : BBuilder) (id rid item copy : Z) (q : Q) : WRes :=
  if bad_id id (w_bins b) then WThrow b
  else if bad_id rid (bn_resources (nth (Z.to_nat id) (w_bins b) dummy_bbin)) then WThrow b
  else if copy <? 0 then WThrow b
  else if item <? 0 then WUndef
  else won_bin b id (fun t =>
    bn_with_resources (upd (Z.to_nat rid) (put_consumption (Z.to_nat item) (Z.to_nat copy) q) (bn_resources t)) t).

(** set_bin_type_copies, :184-212; set_bin_type_copies_min, :214-241. *)
Definition w_set_bin_copies (b : BBuilder) (id copies : Z) : WRes :=
  if bad_id id (w_bins b) then WThrow b
  else if negb (copies =? -1)
          && ((copies <=? 0) || (copies <? bn_copies_min (nth (Z.to_nat id) (w_bins b) dummy_bbin))) then WThrow b
  else won_bin b id (bn_with_copies copies).
Definition w_set_bin_copies_min (b : BBuilder) (id copies_min : Z) : WRes :=
  if bad_id id (w_bins b) then WThrow b
  else if copies_min <? 0 then WThrow b
  else if negb (bn_copies (nth (Z.to_nat id) (w_bins b) dummy_bbin) =? -1)
          && (bn_copies (nth (Z.to_nat id) (w_bins b) dummy_bbin) <? copies_min) then WThrow b
  else won_bin b id (bn_with_min copies_min).

(** Box::max, instance.hpp:94; compute_item_types_max_length_sum, :243-253;
    set_bin_types_infinite_x, set_bin_types_infinite_y, :255-273. *)
Definition box_max (v : Vec) : Z := Z.max (v_x v) (Z.max (v_y v) (v_z v)).
Definition wmax_length_sum (items : list BItem) : Z :=
  fold_left (fun n t => n + bi_copies t * box_max (bi_box t)) items 0.
Definition w_bins_infinite_x (b : BBuilder) : WRes :=
  WOk (wset_bins b (map (fun t => bn_with_box (mkV (wmax_length_sum (w_items b)) (v_y (bn_box t)) (v_z (bn_box t))) t) (w_bins b))).
Definition w_bins_infinite_y (b : BBuilder) : WRes :=
  WOk (wset_bins b (map (fun t => bn_with_box (mkV (v_x (bn_box t)) (wmax_length_sum (w_items b)) (v_z (bn_box t))) t) (w_bins b))).

(** set_bin_types_infinite_copies, :275-282; set_bin_types_unweighted, :284-291. *)
Definition w_bins_infinite (b : BBuilder) : WRes := WOk (wset_bins b (map (bn_with_copies (-1)) (w_bins b))).
Definition w_bins_unweighted (b : BBuilder) : WRes :=
  WOk (wset_bins b (map (fun t => bn_with_cost (inject_Z (vol (bn_box t))) t) (w_bins b))).

(** add_item_type(x, y, z), :297-330: zero is accepted. *)
Definition w_add_item (b : BBuilder) (v : Vec) : WRes :=
  if v_x v <? 0 then WThrow b else if v_y v <? 0 then WThrow b else if v_z v <? 0 then WThrow b
  else WOk (wset_items b (w_items b ++ [mkBI v (inject_Z (vol v)) 1 (-1) [] 0 []])).

(** add_item_type_rotation, set_item_type_weight, set_item_type_profit,
    :332-358, :412-425. *)
Definition w_add_rotation (b : BBuilder) (id : Z) (r : Rotation) : WRes :=
  won_item b id (fun t => bi_with_rotations (bi_rotations t ++ [r]) t).
Definition w_set_item_weight (b : BBuilder) (id : Z) (w : Q) : WRes := won_item b id (bi_with_weight w).
Definition w_set_item_profit (b : BBuilder) (id : Z) (p : Q) : WRes := won_item b id (bi_with_profit p).

(** set_item_type_copies, :427-446; set_item_type_copies_min, :448-467. *)
Definition w_set_item_copies (b : BBuilder) (id copies : Z) : WRes :=
  if bad_id id (w_items b) then WThrow b
  else if negb (copies =? -1) && (copies <=? 0) then WThrow b
  else won_item b id (bi_with_copies copies).
Definition w_set_item_copies_min (b : BBuilder) (id copies_min : Z) : WRes :=
  if bad_id id (w_items b) then WThrow b
  else if copies_min <? -1 then WThrow b
  else won_item b id (bi_with_min copies_min).

(** set_item_types_profits_auto, :482-496, with compute_bin_attributes, :469-480.
    [item_volume()] and [item_weight()] are only computed by [build] and are
    still 0 (instance.hpp:481, :484): the profit is
    0 / bin_volume * volume / bin_volume + 0 / bin_weight * weight / bin_weight,
    that is 0, or a NaN if the total volume or the total weight of the bins is 0
    or if infinite weights are added with both signs.  A NaN is [WUndef]
    here. *)
Definition winfinite (sign : bool) (t : BBin) : bool :=
  match bn_max_weight t with
  | None => if sign then 0 <? bn_copies t else bn_copies t <? 0
  | Some _ => false
  end.
Definition w_profits_auto (b : BBuilder) : WRes :=
  let volume := fold_left (fun n t => n + bn_copies t * vol (bn_box t)) (w_bins b) 0 in
  let finite := fold_left (fun n t => match bn_max_weight t with
      | Some m => (n + inject_Z (bn_copies t) * m)%Q | None => n end) (w_bins b) 0%Q in
  let up := existsb (winfinite true) (w_bins b) in
  let down := existsb (winfinite false) (w_bins b) in
  match w_items b with
  | [] => WOk b
  | _ =>
      if (volume =? 0) || (up && down) || (negb up && negb down && Qeq_bool finite 0) then WUndef
      else WOk (wset_items b (map (bi_with_profit 0) (w_items b)))
  end.

(** set_item_types_unweighted, set_item_types_oriented, :498-514. *)
Definition w_items_unweighted (b : BBuilder) : WRes :=
  WOk (wset_items b (map (fun t => bi_with_profit (inject_Z (vol (bi_box t))) t) (w_items b))).
Definition w_items_oriented (b : BBuilder) : WRes :=
  WOk (wset_items b (map (bi_with_rotations [XYZ]) (w_items b))).

(** compute_bin_types_volume_max, :516-527. *)
Definition volume_max (bins : list BBin) : Z := fold_left (fun m t => Z.max m (vol (bn_box t))) bins 0.

(** [(bin_types_volume_max - 1) / item_type.volume() + 1], :536, :923. *)
Definition winfinite_copies (vmax : Z) (t : BItem) : Z := Z.quot (vmax - 1) (vol (bi_box t)) + 1.

(** set_item_types_infinite_copies, :529-539. *)
Definition w_items_infinite (b : BBuilder) : WRes :=
  if existsb (fun t => vol (bi_box t) =? 0) (w_items b) then WUndef
  else WOk (wset_items b (map (fun t => bi_with_copies (winfinite_copies (volume_max (w_bins b)) t) t) (w_items b))).

(** add_bin_type(original_instance, id), :151-182. *)
Definition w_copy_bin (b : BBuilder) (i : BInstance) (oid : nat) : WRes :=
  match nth_error (bx_bins i) oid with
  | None => WUndef
  | Some t =>
      let id := length (w_bins b) in
      let zid := Z.of_nat id in
      wthen (w_add_bin b (bn_box t)) (fun b =>
      let b := mkW (w_objective b) (w_items b) (w_bins b)
                 (upd oid (fun _ => Some id) (grow (S oid) None (w_orig b))) in
      wthen (w_set_bin_cost b zid (bn_cost t)) (fun b =>
      wthen (w_set_bin_copies b zid (bn_copies t)) (fun b =>
      wthen (w_set_bin_copies_min b zid (bn_copies_min t)) (fun b =>
      wthen (w_set_bin_weight b zid (bn_max_weight t)) (fun b =>
      fold_left (fun r res => wthen r (fun b => w_add_resource b zid (res_capacity res) (res_penalize res) (res_penalty res)))
        (bn_resources t) (WOk b))))))
  end.

(** The copy of one schedule, :398-407. *)
Definition w_copy_schedule (b : BBuilder) (zid rid item : Z) (s : list Q) : WRes :=
  fold_left (fun r kq => wthen r (fun b => w_add_consumption b zid rid item (fst kq) (snd kq)))
    (combine (map Z.of_nat (seq 0 (length s))) s) (WOk b).

(** The resources of one bin type, :389-408. *)
Definition w_copy_resources (b : BBuilder) (zid item : Z) (oitem : nat) (rs : list Resource) : WRes :=
  fold_left (fun r kres => wthen r (fun b =>
      if (oitem <? length (res_item_consumptions (snd kres)))%nat
      then w_copy_schedule b zid (fst kres) item (nth oitem (res_item_consumptions (snd kres)) [])
      else WOk b))
    (combine (map Z.of_nat (seq 0 (length rs))) rs) (WOk b).

(** add_item_type(original_instance, id), :360-410.  [copies_min] is not
    copied; [orig_to_sub_item_type_ids_] is never read. *)
Definition w_copy_item (b : BBuilder) (i : BInstance) (oid : nat) : WRes :=
  match nth_error (bx_items i) oid with
  | None => WUndef
  | Some t =>
      let id := Z.of_nat (length (w_items b)) in
      wthen (w_add_item b (bi_box t)) (fun b =>
      wthen (fold_left (fun r q => wthen r (fun b => w_add_rotation b id q)) (bi_rotations t) (WOk b)) (fun b =>
      wthen (w_set_item_profit b id (bi_profit t)) (fun b =>
      wthen (w_set_item_copies b id (bi_copies t)) (fun b =>
      wthen (w_set_item_weight b id (bi_weight t)) (fun b =>
      fold_left (fun r ko => wthen r (fun b =>
          match snd ko with
          | None => WOk b
          | Some sub =>
              match nth_error (bx_bins i) (fst ko) with
              | None => WUndef
              | Some obt => w_copy_resources b (Z.of_nat sub) id oid (bn_resources obt)
              end
          end))
        (combine (seq 0 (length (w_orig b))) (w_orig b)) (WOk b))))))
  end.

(** The calls of the public interface. *)
Inductive WCall : Type :=
| WSetObjective (o : Objective)
| WAddBin (v : Vec)
| WSetBinCost (id : Z) (cost : Q)
| WSetBinWeight (id : Z) (w : option Q)
| WAddResource (id : Z) (capacity : Q) (penalize : bool) (penalty : Q)
| WAddConsumption (id rid item copy : Z) (q : Q)
| WSetBinCopies (id copies : Z)
| WSetBinCopiesMin (id copies_min : Z)
| WBinsInfiniteX
| WBinsInfiniteY
| WBinsInfinite
| WBinsUnweighted
| WAddItem (v : Vec)
| WAddRotation (id : Z) (r : Rotation)
| WSetItemWeight (id : Z) (w : Q)
| WSetItemProfit (id : Z) (p : Q)
| WSetItemCopies (id copies : Z)
| WSetItemCopiesMin (id copies_min : Z)
| WProfitsAuto
| WItemsUnweighted
| WItemsOriented
| WItemsInfinite
| WCopyBin (i : BInstance) (id : nat)
| WCopyItem (i : BInstance) (id : nat).

Definition wstep (b : BBuilder) (c : WCall) : WRes :=
  match c with
  | WSetObjective o => WOk (mkW o (w_items b) (w_bins b) (w_orig b))
  | WAddBin v => w_add_bin b v
  | WSetBinCost id q => w_set_bin_cost b id q
  | WSetBinWeight id w => w_set_bin_weight b id w
  | WAddResource id q p y => w_add_resource b id q p y
  | WAddConsumption id rid x k q => w_add_consumption b id rid x k q
  | WSetBinCopies id n => w_set_bin_copies b id n
  | WSetBinCopiesMin id n => w_set_bin_copies_min b id n
  | WBinsInfiniteX => w_bins_infinite_x b
  | WBinsInfiniteY => w_bins_infinite_y b
  | WBinsInfinite => w_bins_infinite b
  | WBinsUnweighted => w_bins_unweighted b
  | WAddItem v => w_add_item b v
  | WAddRotation id r => w_add_rotation b id r
  | WSetItemWeight id w => w_set_item_weight b id w
  | WSetItemProfit id p => w_set_item_profit b id p
  | WSetItemCopies id n => w_set_item_copies b id n
  | WSetItemCopiesMin id n => w_set_item_copies_min b id n
  | WProfitsAuto => w_profits_auto b
  | WItemsUnweighted => w_items_unweighted b
  | WItemsOriented => w_items_oriented b
  | WItemsInfinite => w_items_infinite b
  | WCopyBin i id => w_copy_bin b i id
  | WCopyItem i id => w_copy_item b i id
  end.

(** A caller that catches the exceptions and goes on; [None] after undefined
    behaviour. *)
Definition wrun (o : Objective) (calls : list WCall) : option BBuilder :=
  fold_left (fun ob c => match ob with
    | None => None
    | Some b => match wstep b c with WOk b' | WThrow b' => Some b' | WUndef => None end
    end) calls (Some (w_new o)).

(** The calls in order, stopping at the first exception. *)
Definition wcalls_from (b : BBuilder) (calls : list WCall) : WRes :=
  fold_left (fun r c => wthen r (fun b => wstep b c)) calls (WOk b).

(** ** build, :872-1031 *)

(** The attributes [build] computes besides those of [BInstance]; an infinite
    sum is [None]. *)
Record BDerived : Type := mkDb {
  db_bin_type_ids : list nat;
  db_previous : list Z;
  db_bin_volume : Z;
  db_bin_area : Z;
  db_bin_weight : option Q;
  db_largest_cost : Q;
  db_number_of_items : Z;
  db_item_volume : Z;
  db_smallest_x : Z;
  db_smallest_y : Z;
  db_smallest_z : Z;
  db_item_weight : Q;
  db_item_profit : Q;
  db_largest_profit : Q;
  db_largest_efficiency : option nat;
  db_largest_copies : Z;
  db_all_infinite : bool
}.

(** Default rotations, :874-880, and copies_min, :893-896. *)
Definition wresolve_item (o : Objective) (t : BItem) : BItem :=
  bi_with_min (if bi_copies_min t =? -1 then (match o with OKnapsack => 0 | _ => bi_copies t end) else bi_copies_min t)
    (bi_with_rotations (match bi_rotations t with [] => [XYZ] | l => l end) t).

(** :929-936 and :938-942; [None] is the numeric limit the minimum starts
    from. *)
Definition wmin (m : option Z) (v : Z) : option Z := match m with None => Some v | Some w => Some (Z.min w v) end.
Definition smallest_along (a : Axis) (items : list BItem) : Z :=
  match fold_left (fun m t => fold_left (fun m r => wmin m (vat (rotate (bi_box t) r) a)) (bi_rotations t) m) items None with
  | None => 0
  | Some v => v
  end.

(** :914-921, exact division. *)
Definition wefficiency (t : BItem) : Q := (bi_profit t / inject_Z (vol (bi_box t)))%Q.
Definition wbest_efficiency (items : list BItem) : option nat :=
  fold_left (fun best k =>
      match best with
      | None => Some k
      | Some j => if Qltb (wefficiency (nth j items dummy_bitem)) (wefficiency (nth k items dummy_bitem)) then Some k else best
      end) (seq 0 (length items)) None.

(** :953-954. *)
Definition wresolve_copies (n : Z) (t : BBin) : BBin := bn_with_copies (if bn_copies t =? -1 then n else bn_copies t) t.

(** bin_type_ids_ and previous_bins_volume_, :961-966. *)
Definition wexpand_bins (bins : list BBin) : list nat * list Z * Z :=
  fold_left (fun acc k =>
      let t := nth k bins dummy_bbin in
      fold_left (fun acc _ =>
          let '(ids, prev, p) := acc in (ids ++ [k], prev ++ [p], p + vol (bn_box t)))
        (repeat tt (Z.to_nat (bn_copies t))) acc)
    (seq 0 (length bins)) ([], [], 0).

(** bin_weight_, :959-960; [copies * infinity] with no copies is a NaN, also
    [None] here. *)
Definition wbin_weight (bins : list BBin) : option Q :=
  fold_left (fun acc t => match acc, bn_max_weight t with
    | Some w, Some m => Some (w + inject_Z (bn_copies t) * m)%Q | _, _ => None end) bins (Some 0%Q).

(** item_type.resource_ids, :1005-1028. *)
Definition wresource_ids_of (bins : list BBin) (x : nat) : list (list nat) :=
  map (fun t => filter (fun r =>
      match nth x (res_item_consumptions (nth r (bn_resources t) dummy_resource)) [] with [] => false | _ => true end)
    (seq 0 (length (bn_resources t)))) bins.

Inductive WBuild : Type := WBuilt (i : BInstance) (d : BDerived) | WBuildThrow | WBuildUndef.

Definition w_build (b : BBuilder) : WBuild :=
  let o := w_objective b in
  let items := map (wresolve_item o) (w_items b) in
  (* the loop :888-937 stops at the first item type that throws (test of
     copies_min) or whose volume is 0 (integer division) *)
  match find (fun t => (bi_copies t <? bi_copies_min t) || (vol (bi_box t) =? 0)) items with
  | Some t => if bi_copies t <? bi_copies_min t then WBuildThrow else WBuildUndef
  | None =>
      let number_of_items := fold_left (fun n t => n + bi_copies t) items 0 in
      let bins := map (wresolve_copies number_of_items) (w_bins b) in
      let '(ids, prev, _) := wexpand_bins bins in
      if (match o with OOpenDimensionX | OOpenDimensionY => negb (Z.of_nat (length ids) =? 1) | _ => false end)
      then WBuildThrow
      else if existsb (fun t => existsb (fun r => existsb (fun x =>
               match nth x (res_item_consumptions r) [] with [] => false | _ => true end)
               (seq (length items) (length (res_item_consumptions r) - length items))) (bn_resources t)) (w_bins b)
      then WBuildUndef (* :1022-1025 with an item type id out of range *)
      else WBuilt
          (mkBInst o
            (map (fun x => bi_with_ids (wresource_ids_of bins x) (nth x items dummy_bitem)) (seq 0 (length items))) bins)
          (mkDb ids prev
            (fold_left (fun n t => n + bn_copies t * vol (bn_box t)) bins 0)
            (fold_left (fun n t => n + bn_copies t * base_area (bn_box t)) bins 0)
            (wbin_weight bins)
            (fold_left (fun m t => if Qltb m (bn_cost t) then bn_cost t else m) bins 0%Q)
            number_of_items
            (fold_left (fun n t => n + bi_copies t * vol (bi_box t)) items 0)
            (smallest_along AX items) (smallest_along AY items) (smallest_along AZ items)
            (fold_left (fun n t => (n + inject_Z (bi_copies t) * bi_weight t)%Q) items 0%Q)
            (fold_left (fun n t => (n + inject_Z (bi_copies t) * bi_profit t)%Q) items 0%Q)
            (fold_left (fun m t => if Qltb m (bi_profit t) then bi_profit t else m) items 0%Q)
            (wbest_efficiency items)
            (fold_left (fun m t => if m <? bi_copies t then bi_copies t else m) items 0)
            (forallb (fun t => negb (bi_copies t <? winfinite_copies (volume_max (w_bins b)) t)) items))
  end.
