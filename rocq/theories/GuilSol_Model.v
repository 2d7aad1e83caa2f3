(** * Model of the indicators of a rectangleguillotine solution
    (/repo/include/packingsolver/rectangleguillotine/solution.hpp,
    /repo/src/rectangleguillotine/solution.cpp,
    /repo/src/rectangleguillotine/solution_builder.cpp:458-525).

    Integers are unbounded, doubles are exact rationals.  The bodies of the
    loop of [update_indicators] that do not interact are kept in separate
    fields of the loop record. *)

From Coq Require Import List ZArith QArith Bool.
From Verif Require Import Util Common_Model OneDim_Model Guil_Model.
Import ListNotations.
Open Scope Z_scope.

(** The attributes the feasibility callback may look at, solution.hpp:293-405. *)
Record GCore : Type := mkGC {
  gc_bins : list GBin;
  gc_number_of_bins : Z;
  gc_bin_copies : list Z;
  gc_cost : Q;
  gc_cutting_cost : Z;
  gc_number_of_items : Z;
  gc_item_copies : list Z;
  gc_missing : Z;
  gc_item_area : Z;
  gc_profit : Q;
  gc_stages : Z;
  gc_area : Z;
  gc_full_area : Z;
  gc_width : Z;
  gc_height : Z;
  gc_second : Z;
  gc_stages_ok : bool;
  gc_waste_ok : bool;
  gc_min1_ok : bool;
  gc_max1_ok : bool;
  gc_min2_ok : bool;
  gc_max2_ok : bool;
  gc_number1_ok : bool;
  gc_number2_ok : bool;
  gc_stacks_ok : bool;
  gc_defects_ok : bool;
  gc_through_ok : bool;
  gc_item_copies_ok : bool;
  gc_resource_ok : bool
}.

Record GSolution : Type := mkGS { gs_core : GCore; gs_callback_ok : bool; gs_feasible : bool }.

Definition GCallback : Type := GCore -> bool.

(** waste(), full_waste(), solution.hpp:244-250. *)
Definition gc_waste (c : GCore) : Z := gc_area c - gc_item_area c.
Definition gc_full_waste (c : GCore) : Z := gc_full_area c - gc_item_area c.

(** Constructor, solution.hpp:91-103. *)
Definition gsol_new (i : GInstance) : GSolution :=
  let missing := fold_left (fun n it => if 0 <? gi_copies_min it then n + 1 else n) (gin_items i) 0 in
  mkGS (mkGC [] 0 (repeat 0 (length (gin_bins i))) 0 0 0 (repeat 0 (length (gin_items i))) missing 0 0
          0 0 0 0 0 0 true true true true true true true true true true true true true)
    true (missing =? 0).

(** Number of item types with fewer than [copies_min] copies,
    solution.cpp:443-450. *)
Definition gcount_missing (i : GInstance) (item_copies : list Z) : Z :=
  fold_left (fun n x => if nth x item_copies 0 <? gi_copies_min (gitem i x) then n + 1 else n)
    (seq 0 (length (gin_items i))) 0.

(** Loop on the resources, solution.cpp:93-117. *)
Definition gresource_step (bt : GBinType) (id copy : nat) (st : list Q * Q * bool) (r : nat)
    : list Q * Q * bool :=
  let '(used, profit, ok) := st in
  let resource := nth r (gb_resources bt) dummy_resource in
  let previous := nth r used 0%Q in
  let current := (previous + item_consumption resource id copy)%Q in
  let used' := upd r (fun _ => current) used in
  if Qltb (res_capacity resource) current then
    if res_penalize resource then
      if Qle_bool previous (res_capacity resource)
      then (used', (profit - res_penalty resource)%Q, ok)
      else (used', profit, ok)
    else (used', profit, false)
  else (used', profit, ok).

(** What the loop does with the items, solution.cpp:82-118 and :279-303. *)
Record GItemsAcc : Type := mkGIA {
  ga_number_of_items : Z;
  ga_item_area : Z;
  ga_profit : Q;
  ga_item_copies : list Z;
  ga_item_copies_ok : bool;
  ga_resources : list Q;
  ga_copies_in_bin : list nat;
  ga_resource_ok : bool;
  ga_stacks_ok : bool
}.

(** [node.f != -1 && node.item_type_id >= 0], solution.cpp:83. *)
Definition gholds (n : GNode) : bool :=
  match gn_f n with None => false | Some _ => 0 <=? gn_item n end.

(** solution.cpp:83-118. *)
Definition gitem_add (i : GInstance) (t : nat) (copies : Z) (a : GItemsAcc) (n : GNode) : GItemsAcc :=
  if gholds n then
    let id := Z.to_nat (gn_item n) in
    let it := gitem i id in
    let profit := (ga_profit a + inject_Z copies * gi_profit it)%Q in
    let item_copies := upd id (fun c => c + copies) (ga_item_copies a) in
    let '(resources, profit, resource_ok) :=
      fold_left (gresource_step (gbin i t) id (nth id (ga_copies_in_bin a) 0%nat))
        (nth t (gi_resource_ids it) []) (ga_resources a, profit, ga_resource_ok a) in
    mkGIA (ga_number_of_items a + copies) (ga_item_area a + copies * gi_area it) profit item_copies
      (ga_item_copies_ok a && (nth id item_copies 0 <=? gi_copies it)) resources
      (upd id S (ga_copies_in_bin a)) resource_ok (ga_stacks_ok a)
  else a.

(** "Check stacks", solution.cpp:279-303. *)
Definition gstack_check (i : GInstance) (a : GItemsAcc) (n : GNode) : GItemsAcc :=
  if (1 <=? gn_d n) && (0 <=? gn_item n) then
    let it := gitem i (Z.to_nat (gn_item n)) in
    if Nat.ltb 0 (gi_stack_pos it) then
      let pred := gstack_item i (gi_stack_id it) (gi_stack_pos it - 1) in
      if nth pred (ga_item_copies a) 0 =? gi_copies (gitem i pred) then a
      else mkGIA (ga_number_of_items a) (ga_item_area a) (ga_profit a) (ga_item_copies a)
             (ga_item_copies_ok a) (ga_resources a) (ga_copies_in_bin a) (ga_resource_ok a) false
    else a
  else a.
Definition gitems_step (i : GInstance) (t : nat) (copies : Z) (a : GItemsAcc) (n : GNode) : GItemsAcc :=
  gstack_check i (gitem_add i t copies a n) n.

(** [(node.t - node.b) * (node.r - node.l)]. *)
Definition gn_area (n : GNode) : Z := (gn_t n - gn_b n) * (gn_r n - gn_l n).

(** "Subtract residual area", solution.cpp:119-121. *)
Definition gresidual_step (area : Z) (n : GNode) : Z := if gn_item n =? -3 then area - gn_area n else area.

(** "Update width_ and height_", solution.cpp:123-129. *)
Definition gwidth_step (width : Z) (n : GNode) : Z :=
  if (0 <? gn_d n) && negb (gn_item n =? -3) then (if width <? gn_r n then gn_r n else width) else width.
Definition gheight_step (height : Z) (n : GNode) : Z :=
  if (0 <? gn_d n) && negb (gn_item n =? -3) then (if height <? gn_t n then gn_t n else height) else height.

(** "Update second_leftover_value_", solution.cpp:131-137. *)
Definition gsecond_step (second : Z) (n : GNode) : Z :=
  let second := if (gn_d n =? 1) && negb (gn_item n =? -3) then 0 else second in
  let second := if (gn_d n =? 2) && negb (gn_item n =? -1) then 0 else second in
  if (gn_d n =? 2) && (gn_item n =? -1) then (gn_r n - gn_l n) * (gn_t n - gn_b n) else second.

(** "Check minimum waste length", solution.cpp:139-150. *)
Definition gwaste_step (p : GParams) (ok : bool) (n : GNode) : bool :=
  if (1 <=? gn_d n) && (gn_item n <? 0)
     && ((gn_r n - gn_l n <? gp_min_waste p) || (gn_t n - gn_b n <? gp_min_waste p))
  then false else ok.

(** Extent of a node across the first cuts, and across the second cuts. *)
Definition gextent1 (o : GOrient) (n : GNode) : option Z :=
  match o with
  | GVertical => Some (gn_r n - gn_l n) | GHorizontal => Some (gn_t n - gn_b n) | GAny => None
  end.
Definition gextent2 (o : GOrient) (n : GNode) : option Z :=
  match o with
  | GVertical => Some (gn_t n - gn_b n) | GHorizontal => Some (gn_r n - gn_l n) | GAny => None
  end.
Definition gtest (e : option Z) (f : Z -> bool) : bool := match e with Some x => f x | None => false end.

(** "Check minimum/maximum distance between 1-cuts", solution.cpp:152-180. *)
Definition gmin1_step (p : GParams) (o : GOrient) (ok : bool) (n : GNode) : bool :=
  if (gn_d n =? 1) && (gn_item n =? -2) && gtest (gextent1 o n) (fun e => e <? gp_min1 p) then false else ok.
Definition gmax1_step (p : GParams) (o : GOrient) (ok : bool) (n : GNode) : bool :=
  if (0 <=? gp_max1 p) && (gn_d n =? 1) && (gn_item n =? -2) && gtest (gextent1 o n) (fun e => gp_max1 p <? e)
  then false else ok.

(** "Check minimum/maximum distance between 2-cuts", solution.cpp:182-210. *)
Definition gmin2_step (p : GParams) (o : GOrient) (ok : bool) (n : GNode) : bool :=
  if (gn_d n =? 2) && (gn_item n =? -2) && gtest (gextent2 o n) (fun e => e <? gp_min2 p) then false else ok.
Definition gmax2_step (p : GParams) (o : GOrient) (ok : bool) (n : GNode) : bool :=
  if (0 <=? gp_max2 p) && (gn_d n =? 2) && (gn_item n =? -2) && gtest (gextent2 o n) (fun e => gp_max2 p <? e)
  then false else ok.

(** Where a node ends in the direction of the first cuts, and of the second cuts. *)
Definition gend1 (o : GOrient) (n : GNode) : option Z :=
  match o with GVertical => Some (gn_r n) | GHorizontal => Some (gn_t n) | GAny => None end.
Definition gend2 (o : GOrient) (n : GNode) : option Z :=
  match o with GVertical => Some (gn_t n) | GHorizontal => Some (gn_r n) | GAny => None end.

(** [bincurr_end], solution.cpp:68-74. *)
Definition gbin_end (bt : GBinType) (o : GOrient) : Z :=
  match o with
  | GVertical => if gt_hard (gb_right bt) then gb_w bt - gt_length (gb_right bt) else gb_w bt
  | _ => if gt_hard (gb_top bt) then gb_h bt - gt_length (gb_top bt) else gb_h bt
  end.

(** "Check maximum number of 1-cuts", solution.cpp:212-227: the counter and the
    flag. *)
Definition gnumber1_step (p : GParams) (o : GOrient) (bin_end : Z) (st : Z * bool) (n : GNode) : Z * bool :=
  let '(count, ok) := st in
  if (0 <=? gp_number1 p) && (gn_d n =? 1) && gtest (gend1 o n) (fun e => negb (e =? bin_end))
  then (count + 1, if gp_number1 p <? count + 1 then false else ok)
  else (count, ok).

(** "Check maximum number of 2-cuts", solution.cpp:229-250: the end of the
    current sub-plate, the counter and the flag. *)
Definition gnumber2_step (p : GParams) (o : GOrient) (st : Z * Z * bool) (n : GNode) : Z * Z * bool :=
  if 0 <=? gp_number2 p then
    let '(plate_end, count, ok) := st in
    let '(plate_end, count) :=
      if gn_d n =? 1 then ((match o with GVertical => gn_t n | _ => gn_r n end), 0) else (plate_end, count) in
    if (gn_d n =? 2) && gtest (gend2 o n) (fun e => negb (e =? plate_end))
    then (plate_end, count + 1, if gp_number2 p <? count + 1 then false else ok)
    else (plate_end, count, ok)
  else st.

(** "Update cutting_cost_", solution.cpp:252-277.  A node of positive depth has a
    father. *)
Definition gcutting_step (obj : Objective) (p : GParams) (o : GOrient) (copies : Z) (ns : list GNode)
    (cost : Z) (n : GNode) : Z :=
  match obj with
  | OBinPackingCuttingCost =>
      if (1 <=? gn_d n) && (gn_d n <=? 4) then
        let c := nth (Z.to_nat (gn_d n)) (gp_costs p) (mkGCC 0 0) in
        let odd := gn_d n mod 2 =? 1 in
        let width_axis := match o with GVertical => odd | _ => negb odd end in
        let father := gnode ns (match gn_f n with Some f => f | None => 0%nat end) in
        let real := if width_axis then negb (gn_r n =? gn_r father) else negb (gn_t n =? gn_t father) in
        if real then
          let len := if width_axis then gn_t n - gn_b n else gn_r n - gn_l n in
          cost + copies * (gcc_fixed c + gcc_variable c * len)
        else cost
      else cost
  | _ => cost
  end.

(** "Check defect intersections", solution.cpp:305-318. *)
Definition gdefects_step (bt : GBinType) (ok : bool) (n : GNode) : bool :=
  if (1 <=? gn_d n) && (0 <=? gn_item n) && grect_defect (gn_l n) (gn_r n) (gn_b n) (gn_t n) bt
  then false else ok.

(** "Check cuts through defects", solution.cpp:320-347. *)
Definition gthrough_step (p : GParams) (bt : GBinType) (ok : bool) (n : GNode) : bool :=
  if negb (gp_through_defects p) && (1 <=? gn_d n)
     && (gx_defect (gn_l n) (gn_b n) (gn_t n) bt || gx_defect (gn_r n) (gn_b n) (gn_t n) bt
         || gy_defect (gn_l n) (gn_r n) (gn_b n) bt || gy_defect (gn_l n) (gn_r n) (gn_t n) bt)
  then false else ok.

(** The local variables and the members updated by the loop. *)
Record GLoop : Type := mkGL {
  gl_items : GItemsAcc;
  gl_area : Z;
  gl_width : Z;
  gl_height : Z;
  gl_second : Z;
  gl_waste_ok : bool;
  gl_min1_ok : bool;
  gl_max1_ok : bool;
  gl_min2_ok : bool;
  gl_max2_ok : bool;
  gl_number1 : Z * bool;
  gl_number2 : Z * Z * bool;
  gl_cutting : Z;
  gl_defects_ok : bool;
  gl_through_ok : bool
}.

(** Body of the loop on the nodes, solution.cpp:82-348. *)
Definition gnode_step (i : GInstance) (b : GBin) (lo : GLoop) (n : GNode) : GLoop :=
  let p := gin_params i in
  let bt := gbin i (gs_type b) in
  let o := gs_orient b in
  mkGL (gitems_step i (gs_type b) (gs_copies b) (gl_items lo) n)
    (gresidual_step (gl_area lo) n) (gwidth_step (gl_width lo) n) (gheight_step (gl_height lo) n)
    (gsecond_step (gl_second lo) n) (gwaste_step p (gl_waste_ok lo) n)
    (gmin1_step p o (gl_min1_ok lo) n) (gmax1_step p o (gl_max1_ok lo) n)
    (gmin2_step p o (gl_min2_ok lo) n) (gmax2_step p o (gl_max2_ok lo) n)
    (gnumber1_step p o (gbin_end bt o) (gl_number1 lo) n) (gnumber2_step p o (gl_number2 lo) n)
    (gcutting_step (gin_objective i) p o (gs_copies b) (gs_nodes b) (gl_cutting lo) n)
    (gdefects_step bt (gl_defects_ok lo) n) (gthrough_step p bt (gl_through_ok lo) n).

(** First pass of the staging analysis, solution.cpp:350-360. *)
Definition gsame_rect (n m : GNode) : bool :=
  (gn_l n =? gn_l m) && (gn_r n =? gn_r m) && (gn_b n =? gn_b m) && (gn_t n =? gn_t m).
Definition gstages_real (ns : list GNode) (start : Z) : Z :=
  fold_left (fun s n =>
    match gn_f n with
    | Some f => if gsame_rect n (gnode ns f) then s else Z.max s (gn_d n)
    | None => Z.max s (gn_d n)
    end) ns start.

(** Second pass, solution.cpp:362-412: all the nodes cut at the last stage are
    non-exact, all are compatible with Roadef2018, one has its style, one was
    found. *)
Definition gclassify (ns : list GNode) (real : Z) : bool * bool * bool * bool :=
  fold_left (fun st n =>
    let '(all_non_exact, all_compatible, any_style, found) := st in
    if negb (gn_item n =? -2) || negb (gn_d n =? real - 1) then st
    else
      let kept := filter (fun c => negb (gn_item (gnode ns c) =? -3)) (gn_children n) in
      let items := length (filter (fun c => 0 <=? gn_item (gnode ns c)) kept) in
      let total := length kept in
      if Nat.eqb items 1 && Nat.leb total 2 then (all_non_exact, all_compatible, any_style, true)
      else if Nat.leb 2 items && Nat.leb total 3 then (false, all_compatible, true, true)
      else (false, false, any_style, true)) ns (true, true, false, false).

(** The staging attributes of the bin, solution.cpp:350-431. *)
Definition gstage_bin (i : GInstance) (b : GBin) (resources : list Q) : GBin :=
  let real := gstages_real (gs_nodes b) (gs_stages_real b) in
  let '(non_exact, roadef) :=
    if 0 <? real then
      let '(all_non_exact, all_compatible, any_style, found) := gclassify (gs_nodes b) real in
      if found then (all_non_exact, all_compatible && any_style) else (gs_non_exact b, gs_roadef b)
    else (gs_non_exact b, gs_roadef b) in
  let extra :=
    match gp_cut_type (gin_params i) with
    | GNonExact => non_exact
    | GRoadef2018 => non_exact || roadef
    | _ => false
    end in
  mkGB (gs_type b) (gs_copies b) (gs_orient b) (gs_nodes b)
    (if extra then real - 1 else real) real non_exact roadef resources.

(** Outcome of a call: the process may be ended by [exit(1)]. *)
Inductive GOutcome : Type := GDone (s : GSolution) | GExit | GBad.

(** The whole loop. *)
Definition gloop0 (i : GInstance) (c : GCore) (b : GBin) : GLoop :=
  let bt := gbin i (gs_type b) in
  let n := gs_copies b in
  let cutting :=
    match gin_objective i, gp_costs (gin_params i) with
    | OBinPackingCuttingCost, c0 :: _ => gc_cutting_cost c + n * (gcc_fixed c0 + gcc_variable c0 * gb_area bt)
    | _, _ => gc_cutting_cost c
    end in
  mkGL (mkGIA (gc_number_of_items c) (gc_item_area c) (gc_profit c) (gc_item_copies c) (gc_item_copies_ok c)
          (repeat 0%Q (length (gb_resources bt))) (repeat 0%nat (length (gin_items i)))
          (gc_resource_ok c) (gc_stacks_ok c))
    (gc_full_area c + n * gb_area bt) 0 0 0 (gc_waste_ok c)
    (gc_min1_ok c) (gc_max1_ok c) (gc_min2_ok c) (gc_max2_ok c)
    (0, gc_number1_ok c) (-1, 0, gc_number2_ok c) cutting (gc_defects_ok c) (gc_through_ok c).

Definition gloop (i : GInstance) (c : GCore) (b : GBin) : GLoop :=
  fold_left (gnode_step i b) (gs_nodes b) (gloop0 i c b).

(** The members when the callback is called. *)
Definition gcore_after (i : GInstance) (c : GCore) (pos : nat) (b : GBin) : GCore :=
  let bt := gbin i (gs_type b) in
  let n := gs_copies b in
  let lo := gloop i c b in
  let a := gl_items lo in
  let b' := gstage_bin i b (ga_resources a) in
  let stages := Z.max (gc_stages c) (gs_stages b') in
  mkGC (upd pos (fun _ => b') (gc_bins c))
    (gc_number_of_bins c + n) (upd (gs_type b) (fun k => k + n) (gc_bin_copies c))
    (gc_cost c + inject_Z n * gb_cost bt)%Q
    (gl_cutting lo + gp_waste_cost (gin_params i) * (gl_area lo - ga_item_area a - gc_waste c))
    (ga_number_of_items a) (ga_item_copies a) (gcount_missing i (ga_item_copies a))
    (ga_item_area a) (ga_profit a) stages (gl_area lo) (gc_full_area c + n * gb_area bt)
    (gl_width lo) (gl_height lo) (gl_second lo)
    (gc_stages_ok c && (stages <=? gp_stages (gin_params i))) (gl_waste_ok lo)
    (gl_min1_ok lo) (gl_max1_ok lo) (gl_min2_ok lo) (gl_max2_ok lo)
    (snd (gl_number1 lo)) (snd (gl_number2 lo)) (ga_stacks_ok a) (gl_defects_ok lo) (gl_through_ok lo)
    (ga_item_copies_ok a) (ga_resource_ok a).

(** The conjunction of the flags, solution.cpp:455-472. *)
Definition gall_ok (c : GCore) (callback_ok : bool) : bool :=
  gc_stages_ok c && gc_waste_ok c && gc_min1_ok c && gc_max1_ok c && gc_min2_ok c && gc_max2_ok c
  && gc_number1_ok c && gc_number2_ok c && gc_stacks_ok c && gc_defects_ok c && gc_through_ok c
  && gc_item_copies_ok c && gc_resource_ok c && callback_ok && (gc_missing c =? 0).

(** Solution::update_indicators, solution.cpp:47-473.  A bin position out of
    range and, with objective bin packing with cutting costs, an empty list of
    cutting costs are undefined behaviours. *)
Definition gupdate (i : GInstance) (cb : GCallback) (pos : nat) (c : GCore) : GOutcome :=
  match nth_error (gc_bins c) pos with
  | None => GBad
  | Some b =>
      match gin_objective i, gp_costs (gin_params i) with
      | OBinPackingCuttingCost, [] => GBad
      | _, _ =>
          let c' := gcore_after i c pos b in
          if gc_waste_ok c' then GDone (mkGS c' (cb c') (gall_ok c' (cb c'))) else GExit
      end
  end.

Definition gwith_bins (c : GCore) (bins : list GBin) : GCore :=
  mkGC bins (gc_number_of_bins c) (gc_bin_copies c) (gc_cost c) (gc_cutting_cost c) (gc_number_of_items c)
    (gc_item_copies c) (gc_missing c) (gc_item_area c) (gc_profit c) (gc_stages c) (gc_area c)
    (gc_full_area c) (gc_width c) (gc_height c) (gc_second c) (gc_stages_ok c) (gc_waste_ok c)
    (gc_min1_ok c) (gc_max1_ok c) (gc_min2_ok c) (gc_max2_ok c) (gc_number1_ok c) (gc_number2_ok c)
    (gc_stacks_ok c) (gc_defects_ok c) (gc_through_ok c) (gc_item_copies_ok c) (gc_resource_ok c).

(** SolutionBuilder::build, solution_builder.cpp:458-525: the bins are finished,
    then the indicators are updated bin after bin. *)
Fixpoint gupdate_from (i : GInstance) (cb : GCallback) (positions : list nat) (s : GSolution) : GOutcome :=
  match positions with
  | [] => GDone s
  | pos :: rest =>
      match gupdate i cb pos (gs_core s) with
      | GDone s' => gupdate_from i cb rest s'
      | o => o
      end
  end.
Definition gbuild (i : GInstance) (cb : GCallback) (bins : list GBin) : GOutcome :=
  match gfinish_bins i bins with
  | None => GBad
  | Some bins =>
      let s := gsol_new i in
      gupdate_from i cb (seq 0 (length bins))
        (mkGS (gwith_bins (gs_core s) bins) (gs_callback_ok s) (gs_feasible s))
  end.

(** ** Appending *)

(** The residual of the last bin becomes waste, solution.cpp:482-488: the bins
    and the area. *)
Definition gsettle (bins : list GBin) (area : Z) : list GBin * Z :=
  match gback bins with
  | None => (bins, area)
  | Some (front, b) =>
      let last := (length (gs_nodes b) - 1)%nat in
      let n := gnode (gs_nodes b) last in
      if gn_item n =? -3
      then (front ++ [gwith_nodes b (upd last (fun n => gn_with_item n (-1)) (gs_nodes b))], area - gn_area n)
      else (bins, area)
  end.

Definition gwith_area (c : GCore) (area : Z) : GCore :=
  mkGC (gc_bins c) (gc_number_of_bins c) (gc_bin_copies c) (gc_cost c) (gc_cutting_cost c) (gc_number_of_items c)
    (gc_item_copies c) (gc_missing c) (gc_item_area c) (gc_profit c) (gc_stages c) area
    (gc_full_area c) (gc_width c) (gc_height c) (gc_second c) (gc_stages_ok c) (gc_waste_ok c)
    (gc_min1_ok c) (gc_max1_ok c) (gc_min2_ok c) (gc_max2_ok c) (gc_number1_ok c) (gc_number2_ok c)
    (gc_stacks_ok c) (gc_defects_ok c) (gc_through_ok c) (gc_item_copies_ok c) (gc_resource_ok c).

(** The copy of a node, solution.cpp:497-511.  An id out of range is an undefined
    behaviour. *)
Definition gcopy_node (i : GInstance) (t : nat) (item_type_ids : list nat) (n : GNode) : option GNode :=
  if gn_t n =? -4 then Some n
  else
    match gn_f n with
    | None => Some (mkGN None (gn_d n) (gn_l n) (gb_w (gbin i t)) (gn_b n) (gb_h (gbin i t))
                      (gn_children n) (Z.of_nat t))
    | Some _ =>
        if 0 <=? gn_item n then
          match map_id item_type_ids (Z.to_nat (gn_item n)) with
          | Some x => if Nat.ltb x (length (gin_items i)) then Some (gn_with_item n (Z.of_nat x)) else None
          | None => None
          end
        else Some n
    end.

(** Solution::append_bin, solution.cpp:475-513. *)
Definition gappend_bin (i : GInstance) (cb : GCallback) (s source : GSolution) (pos : nat) (copies : Z)
    (bin_type_ids item_type_ids : list nat) : GOutcome :=
  match nth_error (gc_bins (gs_core source)) pos with
  | None => GBad
  | Some b =>
      match map_id bin_type_ids (gs_type b) with
      | None => GBad
      | Some t =>
          if Nat.ltb t (length (gin_bins i)) then
            match gmapo (gcopy_node i t item_type_ids) (gs_nodes b) with
            | None => GBad
            | Some ns =>
                let (bins, area) := gsettle (gc_bins (gs_core s)) (gc_area (gs_core s)) in
                gupdate i cb (length bins)
                  (gwith_area (gwith_bins (gs_core s)
                    (bins ++ [mkGB t copies (gs_orient b) ns 0 0 false false []])) area)
            end
          else GBad
      end
  end.

(** Solution::append_bins, solution.cpp:515-522: the positions range over the
    number of bins, with their copies. *)
Fixpoint gappend_from (i : GInstance) (cb : GCallback) (s source : GSolution)
    (bin_type_ids item_type_ids : list nat) (positions : list nat) : GOutcome :=
  match positions with
  | [] => GDone s
  | pos :: rest =>
      match gappend_bin i cb s source pos 1 bin_type_ids item_type_ids with
      | GDone s' => gappend_from i cb s' source bin_type_ids item_type_ids rest
      | o => o
      end
  end.
Definition gappend_bins (i : GInstance) (cb : GCallback) (s source : GSolution)
    (bin_type_ids item_type_ids : list nat) : GOutcome :=
  gappend_from i cb s source bin_type_ids item_type_ids
    (seq 0 (Z.to_nat (gc_number_of_bins (gs_core source)))).

(** Solution::append_empty_bin, solution.cpp:524-534.  [add_bin] throws on an
    unknown bin type. *)
Definition gappend_empty (i : GInstance) (cb : GCallback) (s : GSolution) (t : nat) (copies : Z) : GOutcome :=
  let o := match gp_first (gin_params i) with GAny => GVertical | o => o end in
  match gadd_bin i [] t copies o with
  | GOk bins =>
      match gbuild i cb bins with
      | GDone source => gappend_bins i cb s source [] []
      | x => x
      end
  | _ => GBad
  end.

(** operator<, solution.cpp:536-577.  [None]: an exception. *)
Definition gless (i : GInstance) (a b : GSolution) : option bool :=
  if negb (gs_feasible b) then Some false
  else if negb (gs_feasible a) then Some true
  else
    let ca := gs_core a in
    let cb := gs_core b in
    match gin_objective i with
    | ODefault =>
        if strictly_lesser_profit (gc_profit cb) (gc_profit ca) then Some false
        else if strictly_greater_profit (gc_profit cb) (gc_profit ca) then Some true
        else Some (gc_waste cb <? gc_waste ca)
    | OBinPacking => Some (gc_number_of_bins cb <? gc_number_of_bins ca)
    | OBinPackingWithLeftovers =>
        if negb (gc_waste cb =? gc_waste ca) then Some (gc_waste cb <? gc_waste ca)
        else Some (gc_second ca <? gc_second cb)
    | OOpenDimensionX => Some (gc_width cb <? gc_width ca)
    | OOpenDimensionY => Some (gc_height cb <? gc_height ca)
    | OBinPackingCuttingCost => Some (gc_cutting_cost cb <? gc_cutting_cost ca)
    | OKnapsack | OFeasibility => Some (strictly_greater_profit (gc_profit cb) (gc_profit ca))
    | OVariableSizedBinPacking => Some (strictly_lesser_cost (gc_cost cb) (gc_cost ca))
    | _ => None
    end.
