(** * Model of the rectangleguillotine instance builder

    [src/rectangleguillotine/instance_builder.cpp].  Not modelled: the file
    readers (:760-1300: they only call the functions below), fixed items
    (:1537-1554; no function of the builder adds any except the JSON reader)
    and the user callback.  Integers do not overflow, doubles are exact. *)

From Coq Require Import Ascii String List ZArith QArith Bool.
From Verif Require Import Util Common_Model OneDim_Model OneDimBuilder_Model Guil_Model.
Import ListNotations.
Open Scope Z_scope.

(** Parameters before any call, instance.hpp:110-176. *)
Definition hdefault_params : GParams := mkGP 3 GNonExact GVertical 0 (-1) 0 (-1) 0 (-1) (-1) false 0 [] 0.

(** The builder: the instance under construction, the entered stack ids (a
    negative one is an unnamed stack; [gi_stack_id] is only set by build) and
    the map [orig_to_sub_bin_type_ids_]. *)
Record HBuilder : Type := mkH {
  h_objective : Objective;
  h_params : GParams;
  h_items : list GItem;
  h_stacks : list Z;
  h_bins : list GBinType;
  h_orig : list (option nat)
}.

(** The objective has no initial value (instance.hpp): it is a parameter. *)
Definition h_new (o : Objective) : HBuilder := mkH o hdefault_params [] [] [] [].

(** Normal return, [invalid_argument], undefined behaviour. *)
Inductive HRes : Type := HOk (b : HBuilder) | HThrow (b : HBuilder) | HUndef.
Definition hthen (r : HRes) (f : HBuilder -> HRes) : HRes := match r with HOk b => f b | _ => r end.

Definition hset_items (b : HBuilder) (l : list GItem) : HBuilder :=
  mkH (h_objective b) (h_params b) l (h_stacks b) (h_bins b) (h_orig b).
Definition hset_bins (b : HBuilder) (l : list GBinType) : HBuilder :=
  mkH (h_objective b) (h_params b) (h_items b) (h_stacks b) l (h_orig b).
Definition hset_params (b : HBuilder) (p : GParams) : HBuilder :=
  mkH (h_objective b) p (h_items b) (h_stacks b) (h_bins b) (h_orig b).

(** Update of one bin (item) type after the range check. *)
Definition hon_bin (b : HBuilder) (id : Z) (f : GBinType -> GBinType) : HRes :=
  if bad_id id (h_bins b) then HThrow b else HOk (hset_bins b (upd (Z.to_nat id) f (h_bins b))).
Definition hon_item (b : HBuilder) (id : Z) (f : GItem -> GItem) : HRes :=
  if bad_id id (h_items b) then HThrow b else HOk (hset_items b (upd (Z.to_nat id) f (h_items b))).

(** Assignments to fields. *)
Definition gb_with_cost (v : Q) (t : GBinType) : GBinType :=
  mkGBT v (gb_copies t) (gb_copies_min t) (gb_w t) (gb_h t) (gb_defects t) (gb_bottom t) (gb_top t) (gb_left t) (gb_right t) (gb_resources t).
Definition gb_with_copies (v : Z) (t : GBinType) : GBinType :=
  mkGBT (gb_cost t) v (gb_copies_min t) (gb_w t) (gb_h t) (gb_defects t) (gb_bottom t) (gb_top t) (gb_left t) (gb_right t) (gb_resources t).
Definition gb_with_min (v : Z) (t : GBinType) : GBinType :=
  mkGBT (gb_cost t) (gb_copies t) v (gb_w t) (gb_h t) (gb_defects t) (gb_bottom t) (gb_top t) (gb_left t) (gb_right t) (gb_resources t).
Definition gb_with_w (v : Z) (t : GBinType) : GBinType :=
  mkGBT (gb_cost t) (gb_copies t) (gb_copies_min t) v (gb_h t) (gb_defects t) (gb_bottom t) (gb_top t) (gb_left t) (gb_right t) (gb_resources t).
Definition gb_with_h (v : Z) (t : GBinType) : GBinType :=
  mkGBT (gb_cost t) (gb_copies t) (gb_copies_min t) (gb_w t) v (gb_defects t) (gb_bottom t) (gb_top t) (gb_left t) (gb_right t) (gb_resources t).
Definition gb_with_defects (v : list GDefect) (t : GBinType) : GBinType :=
  mkGBT (gb_cost t) (gb_copies t) (gb_copies_min t) (gb_w t) (gb_h t) v (gb_bottom t) (gb_top t) (gb_left t) (gb_right t) (gb_resources t).
Definition gb_with_resources (v : list Resource) (t : GBinType) : GBinType :=
  mkGBT (gb_cost t) (gb_copies t) (gb_copies_min t) (gb_w t) (gb_h t) (gb_defects t) (gb_bottom t) (gb_top t) (gb_left t) (gb_right t) v.
Definition gb_with_trims (bottom top left right : GTrim) (t : GBinType) : GBinType :=
  mkGBT (gb_cost t) (gb_copies t) (gb_copies_min t) (gb_w t) (gb_h t) (gb_defects t) bottom top left right (gb_resources t).
Definition gi_with_profit (v : Q) (t : GItem) : GItem :=
  mkGI v (gi_copies t) (gi_copies_min t) (gi_w t) (gi_h t) (gi_stack_id t) (gi_stack_pos t) (gi_oriented t) (gi_resource_ids t).
Definition gi_with_copies (v : Z) (t : GItem) : GItem :=
  mkGI (gi_profit t) v (gi_copies_min t) (gi_w t) (gi_h t) (gi_stack_id t) (gi_stack_pos t) (gi_oriented t) (gi_resource_ids t).
Definition gi_with_min (v : Z) (t : GItem) : GItem :=
  mkGI (gi_profit t) (gi_copies t) v (gi_w t) (gi_h t) (gi_stack_id t) (gi_stack_pos t) (gi_oriented t) (gi_resource_ids t).
Definition gi_with_oriented (v : bool) (t : GItem) : GItem :=
  mkGI (gi_profit t) (gi_copies t) (gi_copies_min t) (gi_w t) (gi_h t) (gi_stack_id t) (gi_stack_pos t) v (gi_resource_ids t).
Definition gi_with_ids (v : list (list nat)) (t : GItem) : GItem :=
  mkGI (gi_profit t) (gi_copies t) (gi_copies_min t) (gi_w t) (gi_h t) (gi_stack_id t) (gi_stack_pos t) (gi_oriented t) v.
Definition gi_with_stack (id pos : nat) (t : GItem) : GItem :=
  mkGI (gi_profit t) (gi_copies t) (gi_copies_min t) (gi_w t) (gi_h t) id pos (gi_oriented t) (gi_resource_ids t).
Definition gp_with_stages (v : Z) (p : GParams) : GParams :=
  mkGP v (gp_cut_type p) (gp_first p) (gp_min1 p) (gp_max1 p) (gp_min2 p) (gp_max2 p) (gp_min_waste p) (gp_number1 p) (gp_number2 p) (gp_through_defects p) (gp_ct p) (gp_costs p) (gp_waste_cost p).
Definition gp_with_cut_type (v : GCutType) (p : GParams) : GParams :=
  mkGP (gp_stages p) v (gp_first p) (gp_min1 p) (gp_max1 p) (gp_min2 p) (gp_max2 p) (gp_min_waste p) (gp_number1 p) (gp_number2 p) (gp_through_defects p) (gp_ct p) (gp_costs p) (gp_waste_cost p).
Definition gp_with_first (v : GOrient) (p : GParams) : GParams :=
  mkGP (gp_stages p) (gp_cut_type p) v (gp_min1 p) (gp_max1 p) (gp_min2 p) (gp_max2 p) (gp_min_waste p) (gp_number1 p) (gp_number2 p) (gp_through_defects p) (gp_ct p) (gp_costs p) (gp_waste_cost p).
Definition gp_with_min1 (v : Z) (p : GParams) : GParams :=
  mkGP (gp_stages p) (gp_cut_type p) (gp_first p) v (gp_max1 p) (gp_min2 p) (gp_max2 p) (gp_min_waste p) (gp_number1 p) (gp_number2 p) (gp_through_defects p) (gp_ct p) (gp_costs p) (gp_waste_cost p).
Definition gp_with_max1 (v : Z) (p : GParams) : GParams :=
  mkGP (gp_stages p) (gp_cut_type p) (gp_first p) (gp_min1 p) v (gp_min2 p) (gp_max2 p) (gp_min_waste p) (gp_number1 p) (gp_number2 p) (gp_through_defects p) (gp_ct p) (gp_costs p) (gp_waste_cost p).
Definition gp_with_min2 (v : Z) (p : GParams) : GParams :=
  mkGP (gp_stages p) (gp_cut_type p) (gp_first p) (gp_min1 p) (gp_max1 p) v (gp_max2 p) (gp_min_waste p) (gp_number1 p) (gp_number2 p) (gp_through_defects p) (gp_ct p) (gp_costs p) (gp_waste_cost p).
Definition gp_with_max2 (v : Z) (p : GParams) : GParams :=
  mkGP (gp_stages p) (gp_cut_type p) (gp_first p) (gp_min1 p) (gp_max1 p) (gp_min2 p) v (gp_min_waste p) (gp_number1 p) (gp_number2 p) (gp_through_defects p) (gp_ct p) (gp_costs p) (gp_waste_cost p).
Definition gp_with_min_waste (v : Z) (p : GParams) : GParams :=
  mkGP (gp_stages p) (gp_cut_type p) (gp_first p) (gp_min1 p) (gp_max1 p) (gp_min2 p) (gp_max2 p) v (gp_number1 p) (gp_number2 p) (gp_through_defects p) (gp_ct p) (gp_costs p) (gp_waste_cost p).
Definition gp_with_number1 (v : Z) (p : GParams) : GParams :=
  mkGP (gp_stages p) (gp_cut_type p) (gp_first p) (gp_min1 p) (gp_max1 p) (gp_min2 p) (gp_max2 p) (gp_min_waste p) v (gp_number2 p) (gp_through_defects p) (gp_ct p) (gp_costs p) (gp_waste_cost p).
Definition gp_with_number2 (v : Z) (p : GParams) : GParams :=
  mkGP (gp_stages p) (gp_cut_type p) (gp_first p) (gp_min1 p) (gp_max1 p) (gp_min2 p) (gp_max2 p) (gp_min_waste p) (gp_number1 p) v (gp_through_defects p) (gp_ct p) (gp_costs p) (gp_waste_cost p).
Definition gp_with_through (v : bool) (p : GParams) : GParams :=
  mkGP (gp_stages p) (gp_cut_type p) (gp_first p) (gp_min1 p) (gp_max1 p) (gp_min2 p) (gp_max2 p) (gp_min_waste p) (gp_number1 p) (gp_number2 p) v (gp_ct p) (gp_costs p) (gp_waste_cost p).
Definition gp_with_ct (v : Z) (p : GParams) : GParams :=
  mkGP (gp_stages p) (gp_cut_type p) (gp_first p) (gp_min1 p) (gp_max1 p) (gp_min2 p) (gp_max2 p) (gp_min_waste p) (gp_number1 p) (gp_number2 p) (gp_through_defects p) v (gp_costs p) (gp_waste_cost p).
Definition gp_with_costs (v : list GCutCost) (p : GParams) : GParams :=
  mkGP (gp_stages p) (gp_cut_type p) (gp_first p) (gp_min1 p) (gp_max1 p) (gp_min2 p) (gp_max2 p) (gp_min_waste p) (gp_number1 p) (gp_number2 p) (gp_through_defects p) (gp_ct p) v (gp_waste_cost p).
Definition gp_with_waste_cost (v : Z) (p : GParams) : GParams :=
  mkGP (gp_stages p) (gp_cut_type p) (gp_first p) (gp_min1 p) (gp_max1 p) (gp_min2 p) (gp_max2 p) (gp_min_waste p) (gp_number1 p) (gp_number2 p) (gp_through_defects p) (gp_ct p) (gp_costs p) v.

(** ** Parameters *)

(** resize_cutting_costs, :119-126. *)
Definition hrequired_costs (p : GParams) : Z :=
  1 + gp_stages p + (match gp_cut_type p with GNonExact | GRoadef2018 => 1 | _ => 0 end).
Definition hresize_costs (p : GParams) : GParams :=
  if Z.of_nat (length (gp_costs p)) <? hrequired_costs p
  then gp_with_costs (grow (Z.to_nat (hrequired_costs p)) (mkGCC 0 0) (gp_costs p)) p else p.

(** set_number_of_stages, set_cut_type, :107-117. *)
Definition h_set_stages (b : HBuilder) (n : Z) : HRes :=
  HOk (hset_params b (hresize_costs (gp_with_stages n (h_params b)))).
Definition h_set_cut_type (b : HBuilder) (c : GCutType) : HRes :=
  HOk (hset_params b (hresize_costs (gp_with_cut_type c (h_params b)))).

(** set_fixed_cutting_cost, set_variable_cutting_cost, :128-154. *)
Definition h_set_fixed (b : HBuilder) (s v : Z) : HRes :=
  if bad_id s (gp_costs (h_params b)) then HThrow b
  else HOk (hset_params b (gp_with_costs (upd (Z.to_nat s) (fun c => mkGCC v (gcc_variable c)) (gp_costs (h_params b))) (h_params b))).
Definition h_set_variable (b : HBuilder) (s v : Z) : HRes :=
  if bad_id s (gp_costs (h_params b)) then HThrow b
  else HOk (hset_params b (gp_with_costs (upd (Z.to_nat s) (fun c => mkGCC (gcc_fixed c) v) (gp_costs (h_params b))) (h_params b))).

(** set_number_of_stages_unlimited, :156-169. *)
Definition h_stages_unlimited (b : HBuilder) : HRes :=
  let n := fold_left (fun m t => Z.max m (gb_w t + gb_h t)) (h_bins b) 0 in
  HOk (hset_params b (hresize_costs (gp_with_first GAny (gp_with_cut_type GExact (gp_with_stages n (h_params b)))))).

(** set_roadef2018, :171-182. *)
Definition h_roadef (b : HBuilder) : HRes :=
  HOk (hset_params b (hresize_costs (gp_with_through false (gp_with_min_waste 20 (gp_with_min2 100
    (gp_with_max1 3500 (gp_with_min1 100 (gp_with_first GVertical (gp_with_cut_type GRoadef2018
    (gp_with_stages 3 (h_params b))))))))))).

(** set_item_types_oriented, :747-754. *)
Definition h_items_oriented (b : HBuilder) (o : bool) : HRes :=
  HOk (hset_items b (map (gi_with_oriented o) (h_items b))).

(** [str[n]]: the null character after the last one.  Further out is not
    reached: the length is 4 when [str[2]] and [str[3]] are read, and [str[1]]
    is read when [str[0]] is a character of the string. *)
Definition hchar (s : string) (n : nat) : ascii := match String.get n s with Some c => c | None => zero end.

(** [(Counter)(str[0] - 48)] with signed characters. *)
Definition hdigit (c : ascii) : Z :=
  let n := Z.of_nat (nat_of_ascii c) in (if n <? 128 then n else n - 256) - 48.

(** set_predefined, :12-105.  Each switch throws after the calls before it. *)
Definition h_predefined (b : HBuilder) (s : string) : HRes :=
  if (s =? "roadef2018")%string then h_roadef b
  else if (hchar s 0 =? "U")%char then
    hthen (h_stages_unlimited b) (fun b =>
      if (hchar s 1 =? "R")%char then h_items_oriented b false
      else if (hchar s 1 =? "O")%char then h_items_oriented b true
      else HThrow b)
  else if negb (String.length s =? 4)%nat then HThrow b
  else if hdigit (hchar s 0) <=? 1 then HThrow b
  else
    hthen (h_set_stages b (hdigit (hchar s 0))) (fun b =>
    hthen (if (hchar s 1 =? "R")%char then h_set_cut_type b GRoadef2018
           else if (hchar s 1 =? "N")%char then h_set_cut_type b GNonExact
           else if (hchar s 1 =? "E")%char then h_set_cut_type b GExact
           else if (hchar s 1 =? "H")%char then h_set_cut_type b GHomogenous
           else HThrow b) (fun b =>
    hthen (if (hchar s 2 =? "V")%char then HOk (hset_params b (gp_with_first GVertical (h_params b)))
           else if (hchar s 2 =? "H")%char then HOk (hset_params b (gp_with_first GHorizontal (h_params b)))
           else if (hchar s 2 =? "A")%char then HOk (hset_params b (gp_with_first GAny (h_params b)))
           else HThrow b) (fun b =>
    if (hchar s 3 =? "R")%char then h_items_oriented b false
    else if (hchar s 3 =? "O")%char then h_items_oriented b true
    else HThrow b))).

(** ** Bin types *)

(** add_bin_type(width, height), :188-213; default trims, instance.hpp:240-262. *)
Definition h_add_bin (b : HBuilder) (w h : Z) : HRes :=
  if w <=? 0 then HThrow b else if h <=? 0 then HThrow b
  else HOk (hset_bins b (h_bins b ++
    [mkGBT (inject_Z (w * h)) 1 0 w h [] (mkGT 0 true) (mkGT 0 false) (mkGT 0 true) (mkGT 0 false) []])).

(** set_bin_type_cost, :215-235. *)
Definition h_set_bin_cost (b : HBuilder) (id : Z) (cost : Q) : HRes :=
  if bad_id id (h_bins b) then HThrow b
  else if Qle_bool cost 0 && negb (Qeq_bool cost (-1)) then HThrow b
  else hon_bin b id (fun t => gb_with_cost (if Qeq_bool cost (-1) then inject_Z (gb_w t * gb_h t) else cost) t).

(** add_trims, :237-317. *)
Definition h_add_trims (b : HBuilder) (id : Z) (left right bottom top : GTrim) : HRes :=
  if bad_id id (h_bins b) then HThrow b
  else
    let t := nth (Z.to_nat id) (h_bins b) gdummy_bin in
    if gt_length bottom <? 0 then HThrow b
    else if gb_h t <=? gt_length bottom then HThrow b
    else if gt_length top <? 0 then HThrow b
    else if gb_h t - gt_length bottom <=? gt_length top then HThrow b
    else if gt_length left <? 0 then HThrow b
    else if gb_w t <=? gt_length left then HThrow b
    else if gt_length right <? 0 then HThrow b
    else if gb_w t - gt_length left <=? gt_length right then HThrow b
    else hon_bin b id (gb_with_trims bottom top left right).

(** add_defect, :319-342: no check on the position or the size. *)
Definition h_add_defect (b : HBuilder) (id x y w h : Z) : HRes :=
  hon_bin b id (fun t => gb_with_defects (gb_defects t ++ [mkGD x y w h]) t).

(** add_bin_type_resource, :344-366. *)
Definition h_add_resource (b : HBuilder) (id : Z) (capacity : Q) (penalize : bool) (penalty : Q) : HRes :=
  hon_bin b id (fun t => gb_with_resources (gb_resources t ++ [mkResource capacity [] penalize penalty]) t).

(** add_resource_consumption, :368-405. *)
Definition h_add_consumption (b : HBuilder) (id rid item copy : Z) (q : Q) : HRes :=
  if bad_id id (h_bins b) then HThrow b
  else if bad_id rid (gb_resources (nth (Z.to_nat id) (h_bins b) gdummy_bin)) then HThrow b
  else if copy <? 0 then HThrow b
  else if item <? 0 then HUndef
  else hon_bin b id (fun t =>
    gb_with_resources (upd (Z.to_nat rid) (put_consumption (Z.to_nat item) (Z.to_nat copy) q) (gb_resources t)) t).

(** set_bin_type_copies, :454-482; set_bin_type_copies_min, :484-511. *)
Definition h_set_bin_copies (b : HBuilder) (id copies : Z) : HRes :=
  if bad_id id (h_bins b) then HThrow b
  else if negb (copies =? -1)
          && ((copies <=? 0) || (copies <? gb_copies_min (nth (Z.to_nat id) (h_bins b) gdummy_bin))) then HThrow b
  else hon_bin b id (gb_with_copies copies).
Definition h_set_bin_copies_min (b : HBuilder) (id copies_min : Z) : HRes :=
  if bad_id id (h_bins b) then HThrow b
  else if copies_min <? 0 then HThrow b
  else if negb (gb_copies (nth (Z.to_nat id) (h_bins b) gdummy_bin) =? -1)
          && (gb_copies (nth (Z.to_nat id) (h_bins b) gdummy_bin) <? copies_min) then HThrow b
  else hon_bin b id (gb_with_min copies_min).

(** compute_item_types_max_length_sum, :513-523; set_bin_types_infinite_x,
    set_bin_types_infinite_y, :525-543. *)
Definition hmax_length_sum (items : list GItem) : Z :=
  fold_left (fun n t => n + gi_copies t * Z.max (gi_w t) (gi_h t)) items 0.
Definition h_bins_infinite_x (b : HBuilder) : HRes :=
  HOk (hset_bins b (map (gb_with_w (hmax_length_sum (h_items b))) (h_bins b))).
Definition h_bins_infinite_y (b : HBuilder) : HRes :=
  HOk (hset_bins b (map (gb_with_h (hmax_length_sum (h_items b))) (h_bins b))).

(** set_bin_types_infinite_copies, :545-552; set_bin_types_unweighted, :554-561. *)
Definition h_bins_infinite (b : HBuilder) : HRes := HOk (hset_bins b (map (gb_with_copies (-1)) (h_bins b))).
Definition h_bins_unweighted (b : HBuilder) : HRes :=
  HOk (hset_bins b (map (fun t => gb_with_cost (inject_Z (gb_area t)) t) (h_bins b))).

(** ** Item types *)

(** add_item_type(width, height, oriented, stack_id), :567-596: zero is
    accepted, and so is every stack id. *)
Definition h_add_item (b : HBuilder) (w h : Z) (oriented : bool) (stack : Z) : HRes :=
  if w <? 0 then HThrow b else if h <? 0 then HThrow b
  else HOk (mkH (h_objective b) (h_params b)
    (h_items b ++ [mkGI (inject_Z (w * h)) 1 (-1) w h 0 0 oriented []]) (h_stacks b ++ [stack]) (h_bins b) (h_orig b)).

(** set_item_type_profit, :646-659; set_item_type_copies, :661-680;
    set_item_type_copies_min, :682-701. *)
Definition h_set_item_profit (b : HBuilder) (id : Z) (p : Q) : HRes := hon_item b id (gi_with_profit p).
Definition h_set_item_copies (b : HBuilder) (id copies : Z) : HRes :=
  if bad_id id (h_items b) then HThrow b
  else if negb (copies =? -1) && (copies <=? 0) then HThrow b
  else hon_item b id (gi_with_copies copies).
Definition h_set_item_copies_min (b : HBuilder) (id copies_min : Z) : HRes :=
  if bad_id id (h_items b) then HThrow b
  else if copies_min <? -1 then HThrow b
  else hon_item b id (gi_with_min copies_min).

(** set_item_types_unweighted, :738-745. *)
Definition h_items_unweighted (b : HBuilder) : HRes :=
  HOk (hset_items b (map (fun t => gi_with_profit (inject_Z (gi_area t)) t) (h_items b))).

(** compute_bin_types_area_max, :703-714. *)
Definition harea_max (bins : list GBinType) : Z := fold_left (fun m t => Z.max m (gb_area t)) bins 0.

(** [(bin_types_area_max - 1) / item_type.area() + 1], :723, :1460. *)
Definition hinfinite_copies (amax : Z) (t : GItem) : Z := Z.quot (amax - 1) (gi_area t) + 1.

(** set_item_types_infinite_copies, :716-726. *)
Definition h_items_infinite (b : HBuilder) : HRes :=
  if existsb (fun t => gi_area t =? 0) (h_items b) then HUndef
  else HOk (hset_items b (map (fun t => gi_with_copies (hinfinite_copies (harea_max (h_bins b)) t) t) (h_items b))).

(** multiply_item_types_copies, :728-736. *)
Definition h_multiply (b : HBuilder) (n : Z) : HRes :=
  HOk (hset_items b (map (fun t => gi_with_copies (gi_copies t * n) t) (h_items b))).

(** ** Copies of the types of another instance *)

(** add_bin_type(original_instance, id), :407-452. *)
Definition h_copy_bin (b : HBuilder) (i : GInstance) (oid : nat) : HRes :=
  match nth_error (gin_bins i) oid with
  | None => HUndef
  | Some t =>
      let id := length (h_bins b) in
      let zid := Z.of_nat id in
      hthen (h_add_bin b (gb_w t) (gb_h t)) (fun b =>
      let b := mkH (h_objective b) (h_params b) (h_items b) (h_stacks b) (h_bins b)
                 (upd oid (fun _ => Some id) (grow (S oid) None (h_orig b))) in
      hthen (h_set_bin_cost b zid (gb_cost t)) (fun b =>
      hthen (h_set_bin_copies b zid (gb_copies t)) (fun b =>
      hthen (h_set_bin_copies_min b zid (gb_copies_min t)) (fun b =>
      hthen (h_add_trims b zid (gb_left t) (gb_right t) (gb_bottom t) (gb_top t)) (fun b =>
      hthen (fold_left (fun r d => hthen r (fun b => h_add_defect b zid (gd_x d) (gd_y d) (gd_w d) (gd_h d)))
               (gb_defects t) (HOk b)) (fun b =>
      fold_left (fun r res => hthen r (fun b => h_add_resource b zid (res_capacity res) (res_penalize res) (res_penalty res)))
        (gb_resources t) (HOk b)))))))
  end.

(** The copy of one schedule, :631-641. *)
Definition h_copy_schedule (b : HBuilder) (zid rid item : Z) (s : list Q) : HRes :=
  fold_left (fun r kq => hthen r (fun b => h_add_consumption b zid rid item (fst kq) (snd kq)))
    (combine (map Z.of_nat (seq 0 (length s))) s) (HOk b).

(** The resources of one bin type, :622-642. *)
Definition h_copy_resources (b : HBuilder) (zid item : Z) (oitem : nat) (rs : list Resource) : HRes :=
  fold_left (fun r kres => hthen r (fun b =>
      if (oitem <? length (res_item_consumptions (snd kres)))%nat
      then h_copy_schedule b zid (fst kres) item (nth oitem (res_item_consumptions (snd kres)) [])
      else HOk b))
    (combine (map Z.of_nat (seq 0 (length rs))) rs) (HOk b).

(** add_item_type(original_instance, id), :598-644.  [copies_min] is not
    copied. *)
Definition h_copy_item (b : HBuilder) (i : GInstance) (oid : nat) : HRes :=
  match nth_error (gin_items i) oid with
  | None => HUndef
  | Some t =>
      let id := Z.of_nat (length (h_items b)) in
      hthen (h_add_item b (gi_w t) (gi_h t) (gi_oriented t) (Z.of_nat (gi_stack_id t))) (fun b =>
      hthen (h_set_item_profit b id (gi_profit t)) (fun b =>
      hthen (h_set_item_copies b id (gi_copies t)) (fun b =>
      fold_left (fun r ko => hthen r (fun b =>
          match snd ko with
          | None => HOk b
          | Some sub =>
              match nth_error (gin_bins i) (fst ko) with
              | None => HUndef
              | Some obt => h_copy_resources b (Z.of_nat sub) id oid (gb_resources obt)
              end
          end))
        (combine (seq 0 (length (h_orig b))) (h_orig b)) (HOk b))))
  end.

(** ** The calls of the public interface *)
Inductive HCall : Type :=
| HSetObjective (o : Objective)
| HSetParams (p : GParams)
| HSetStages (n : Z)
| HSetUnlimited
| HSetCutType (c : GCutType)
| HSetFirst (o : GOrient)
| HSetMin1 (n : Z)
| HSetMax1 (n : Z)
| HSetMin2 (n : Z)
| HSetMax2 (n : Z)
| HSetMinWaste (n : Z)
| HSetNumber1 (n : Z)
| HSetNumber2 (n : Z)
| HSetThrough (v : bool)
| HSetThickness (n : Z)
| HSetFixed (s v : Z)
| HSetVariable (s v : Z)
| HSetWasteCost (v : Z)
| HPredefined (s : string)
| HRoadef
| HAddBin (w h : Z)
| HSetBinCost (id : Z) (cost : Q)
| HAddTrims (id : Z) (left right bottom top : GTrim)
| HAddDefect (id x y w h : Z)
| HAddResource (id : Z) (capacity : Q) (penalize : bool) (penalty : Q)
| HAddConsumption (id rid item copy : Z) (q : Q)
| HSetBinCopies (id copies : Z)
| HSetBinCopiesMin (id copies_min : Z)
| HBinsInfiniteX
| HBinsInfiniteY
| HBinsInfinite
| HBinsUnweighted
| HAddItem (w h : Z) (oriented : bool) (stack : Z)
| HSetItemProfit (id : Z) (p : Q)
| HSetItemCopies (id copies : Z)
| HSetItemCopiesMin (id copies_min : Z)
| HItemsUnweighted
| HItemsOriented (o : bool)
| HItemsInfinite
| HMultiply (n : Z)
| HCopyBin (i : GInstance) (id : nat)
| HCopyItem (i : GInstance) (id : nat).

(** The inline setters are in instance_builder.hpp:50-110. *)
Definition hstep (b : HBuilder) (c : HCall) : HRes :=
  let par f := HOk (hset_params b (f (h_params b))) in
  match c with
  | HSetObjective o => HOk (mkH o (h_params b) (h_items b) (h_stacks b) (h_bins b) (h_orig b))
  | HSetParams p => HOk (hset_params b p)
  | HSetStages n => h_set_stages b n
  | HSetUnlimited => h_stages_unlimited b
  | HSetCutType c => h_set_cut_type b c
  | HSetFirst o => par (gp_with_first o)
  | HSetMin1 n => par (gp_with_min1 n)
  | HSetMax1 n => par (gp_with_max1 n)
  | HSetMin2 n => par (gp_with_min2 n)
  | HSetMax2 n => par (gp_with_max2 n)
  | HSetMinWaste n => par (gp_with_min_waste n)
  | HSetNumber1 n => par (gp_with_number1 n)
  | HSetNumber2 n => par (gp_with_number2 n)
  | HSetThrough v => par (gp_with_through v)
  | HSetThickness n => par (gp_with_ct n)
  | HSetFixed s v => h_set_fixed b s v
  | HSetVariable s v => h_set_variable b s v
  | HSetWasteCost v => par (gp_with_waste_cost v)
  | HPredefined s => h_predefined b s
  | HRoadef => h_roadef b
  | HAddBin w h => h_add_bin b w h
  | HSetBinCost id q => h_set_bin_cost b id q
  | HAddTrims id l r bo to => h_add_trims b id l r bo to
  | HAddDefect id x y w h => h_add_defect b id x y w h
  | HAddResource id q p y => h_add_resource b id q p y
  | HAddConsumption id rid x k q => h_add_consumption b id rid x k q
  | HSetBinCopies id n => h_set_bin_copies b id n
  | HSetBinCopiesMin id n => h_set_bin_copies_min b id n
  | HBinsInfiniteX => h_bins_infinite_x b
  | HBinsInfiniteY => h_bins_infinite_y b
  | HBinsInfinite => h_bins_infinite b
  | HBinsUnweighted => h_bins_unweighted b
  | HAddItem w h o s => h_add_item b w h o s
  | HSetItemProfit id p => h_set_item_profit b id p
  | HSetItemCopies id n => h_set_item_copies b id n
  | HSetItemCopiesMin id n => h_set_item_copies_min b id n
  | HItemsUnweighted => h_items_unweighted b
  | HItemsOriented o => h_items_oriented b o
  | HItemsInfinite => h_items_infinite b
  | HMultiply n => h_multiply b n
  | HCopyBin i id => h_copy_bin b i id
  | HCopyItem i id => h_copy_item b i id
  end.

(** A caller that catches the exceptions and goes on; [None] after undefined
    behaviour. *)
Definition hrun_from (b : HBuilder) (calls : list HCall) : option HBuilder :=
  fold_left (fun ob c => match ob with
    | None => None
    | Some b => match hstep b c with HOk b' | HThrow b' => Some b' | HUndef => None end
    end) calls (Some b).
Definition hrun (o : Objective) (calls : list HCall) : option HBuilder := hrun_from (h_new o) calls.

(** The calls in order, stopping at the first exception. *)
Definition hcalls_from (b : HBuilder) (calls : list HCall) : HRes :=
  fold_left (fun r c => hthen r (fun b => hstep b c)) calls (HOk b).

(** ** build_stacks, :1304-1386 *)

(** The stack id and position of each item type, [stack_offsets_] and
    [item_type_ids_]. *)
Inductive HStacks : Type :=
| HSOk (ids : list nat) (pos : list Z) (offsets : list Z) (flat : list nat)
| HSThrow | HSUndef.

(** [item_type_ids_[offset + c] = item_type_id] for each copy, :1361-1362,
    :1380-1381; [None] when out of range. *)
Definition hwrite (flat : list nat) (start copies : Z) (x : nat) : option (list nat) :=
  fold_left (fun o c => match o with
    | None => None
    | Some fl => let p := start + Z.of_nat c in
        if (p <? 0) || (Z.of_nat (length fl) <=? p) then None else Some (upd (Z.to_nat p) (fun _ => x) fl)
    end) (seq 0 (Z.to_nat copies)) (Some flat).

(** The resize, which throws [length_error] on a negative number, and the
    writes, :1349-1364, :1374-1384.  Each item type is written from the offset of
    its stack plus its position (in the second branch [offset] is the offset of
    the stack and the position is 0). *)
Definition hfill (copies : list Z) (ids : list nat) (pos offsets : list Z) (total : Z) : HStacks :=
  if total <? 0 then HSThrow
  else match fold_left (fun o x => match o with
         | None => None
         | Some fl => hwrite fl (nth (nth x ids 0%nat) offsets 0 + nth x pos 0) (nth x copies 0) x
         end) (seq 0 (length copies)) (Some (repeat 0%nat (Z.to_nat total))) with
  | None => HSUndef
  | Some fl => HSOk ids pos offsets fl
  end.

(** Prefix sums, :1342-1348, :1367-1373. *)
Definition hprefix (l : list Z) : list Z :=
  fold_left (fun acc v => acc ++ [last acc 0 + v]) l [0].

(** stack_sizes, :1335-1341. *)
Definition hstack_sizes (copies : list Z) (ids : list nat) (n : nat) : list Z :=
  fold_left (fun sz x => upd (nth x ids 0%nat) (fun v => v + nth x copies 0) sz) (seq 0 (length copies)) (repeat 0 n).

(** stack_pos and write_pos, :1352-1363 (in a pass before the writes). *)
Definition hstack_pos (copies : list Z) (ids : list nat) (n : nat) : list Z :=
  fst (fold_left (fun acc x =>
      (fst acc ++ [nth (nth x ids 0%nat) (snd acc) 0],
       upd (nth x ids 0%nat) (fun v => v + nth x copies 0) (snd acc)))
    (seq 0 (length copies)) ([], repeat 0 n)).

Definition h_build_stacks (copies stacks : list Z) : HStacks :=
  let any_named := existsb (fun s => 0 <=? s) stacks in
  let any_unnamed := existsb (fun s => negb (0 <=? s)) stacks in
  if any_named && any_unnamed then HSThrow
  else if any_named then
    let n := Z.to_nat (fold_left (fun n s => Z.max n (s + 1)) stacks 0) in
    let ids := map Z.to_nat stacks in
    let offsets := hprefix (hstack_sizes copies ids n) in
    hfill copies ids (hstack_pos copies ids n) offsets (last offsets 0)
  else
    let offsets := hprefix copies in
    hfill copies (seq 0 (length copies)) (map (fun _ => 0) copies) offsets (last offsets 0).

(** ** build, :1388-1557 *)

(** The attributes [build] computes besides those of [GInstance]. *)
Record HDerived : Type := mkHD {
  hd_bin_type_ids : list nat;
  hd_previous : list Z;
  hd_bin_area : Z;
  hd_largest_cost : Q;
  hd_defects : nat;
  hd_number_of_items : Z;
  hd_item_area : Z;
  hd_item_profit : Q;
  hd_largest_profit : Q;
  hd_largest_efficiency : option nat;
  hd_largest_copies : Z;
  hd_all_infinite : bool;
  hd_all_oriented : bool
}.

(** Resolution of copies_min, :1433-1437. *)
Definition hresolve_min (o : Objective) (t : GItem) : GItem :=
  gi_with_min (if gi_copies_min t =? -1 then (match o with OKnapsack => 0 | _ => gi_copies t end) else gi_copies_min t) t.

(** :1452-1459, exact division. *)
Definition hefficiency (t : GItem) : Q := (gi_profit t / inject_Z (gi_area t))%Q.
Definition hbest_efficiency (items : list GItem) : option nat :=
  fold_left (fun best k =>
      match best with
      | None => Some k
      | Some j => if Qltb (hefficiency (nth j items gdummy_item)) (hefficiency (nth k items gdummy_item)) then Some k else best
      end) (seq 0 (length items)) None.

(** :1479-1480. *)
Definition hresolve_copies (n : Z) (t : GBinType) : GBinType :=
  gb_with_copies (if gb_copies t =? -1 then n else gb_copies t) t.

(** bin_type_ids_ and previous_bins_area_, :1484-1488. *)
Definition hexpand_bins (bins : list GBinType) : list nat * list Z * Z :=
  fold_left (fun acc k =>
      let t := nth k bins gdummy_bin in
      fold_left (fun acc _ =>
          let '(ids, prev, p) := acc in (ids ++ [k], prev ++ [p], p + gb_area t))
        (repeat tt (Z.to_nat (gb_copies t))) acc)
    (seq 0 (length bins)) ([], [], 0).

(** item_type.resource_ids, :1496-1519. *)
Definition hresource_ids_of (bins : list GBinType) (x : nat) : list (list nat) :=
  map (fun t => filter (fun r =>
      match nth x (res_item_consumptions (nth r (gb_resources t) dummy_resource)) [] with [] => false | _ => true end)
    (seq 0 (length (gb_resources t)))) bins.

Inductive HBuild : Type := HBuilt (i : GInstance) (d : HDerived) | HBuildThrow | HBuildUndef.

(** The offsets and positions become naturals: none is negative unless an item
    type has a negative number of copies. *)
Definition h_build (b : HBuilder) : HBuild :=
  let o := h_objective b in
  let p := h_params b in
  if (gp_stages p =? 2) && (negb (gp_min2 p =? 0) || negb (gp_max2 p =? -1) || negb (gp_number2 p =? -1))
  then HBuildThrow (* :1390-1409 *)
  else if (gp_number1 p =? 0) || (gp_number2 p =? 0) then HBuildThrow (* :1411-1421 *)
  else match h_build_stacks (map gi_copies (h_items b)) (h_stacks b) with
  | HSThrow => HBuildThrow
  | HSUndef => HBuildUndef
  | HSOk sids spos offsets flat =>
  let items := map (hresolve_min o) (h_items b) in
  (* the loop :1427-1468 stops at the first item type that throws (test of
     copies_min) or whose area is 0 (integer division) *)
  match find (fun t => (gi_copies t <? gi_copies_min t) || (gi_area t =? 0)) items with
  | Some t => if gi_copies t <? gi_copies_min t then HBuildThrow else HBuildUndef
  | None =>
      let number_of_items := fold_left (fun n t => n + gi_copies t) items 0 in
      if existsb (fun t => existsb (fun r => existsb (fun x =>
               match nth x (res_item_consumptions r) [] with [] => false | _ => true end)
               (seq (length items) (length (res_item_consumptions r) - length items))) (gb_resources t)) (h_bins b)
      then HBuildUndef (* :1514-1515 with an item type id out of range *)
      else
        let bins := map (hresolve_copies number_of_items) (h_bins b) in
        let '(ids, prev, _) := hexpand_bins bins in
        if (match o with OOpenDimensionX | OOpenDimensionY => negb (Z.of_nat (length ids) =? 1) | _ => false end)
        then HBuildThrow
        else HBuilt
          (mkGIn o p bins
            (map (fun x => gi_with_ids (hresource_ids_of bins x)
               (gi_with_stack (nth x sids 0%nat) (Z.to_nat (nth x spos 0)) (nth x items gdummy_item))) (seq 0 (length items)))
            (map Z.to_nat offsets) flat)
          (mkHD ids prev
            (fold_left (fun n t => n + gb_copies t * gb_area t) bins 0)
            (fold_left (fun m t => if Qltb m (gb_cost t) then gb_cost t else m) bins 0%Q)
            (fold_left (fun n t => (n + length (gb_defects t))%nat) bins 0%nat)
            number_of_items
            (fold_left (fun n t => n + gi_copies t * gi_area t) items 0)
            (fold_left (fun n t => (n + inject_Z (gi_copies t) * gi_profit t)%Q) items 0%Q)
            (fold_left (fun m t => if Qltb m (gi_profit t) then gi_profit t else m) items 0%Q)
            (hbest_efficiency items)
            (fold_left (fun m t => if m <? gi_copies t then gi_copies t else m) items 0)
            (forallb (fun t => negb (gi_copies t <? hinfinite_copies (harea_max (h_bins b)) t)) items)
            (forallb gi_oriented items))
  end end.
