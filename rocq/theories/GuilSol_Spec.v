(** * What the indicators of a guillotine solution mean

    Everything is stated on the bins as the getters show them: type, copies,
    direction of the first cuts, nodes. *)

From Coq Require Import List ZArith QArith Bool.
From Verif Require Import Util Common_Model Common_Spec OneDim_Model Guil_Model Guil_Spec GuilSol_Model.
Import ListNotations.
Open Scope Z_scope.

Record GView : Type := mkGV { gv_type : nat; gv_copies : Z; gv_orient : GOrient; gv_nodes : list GNode }.
Definition gview_bin (b : GBin) : GView := mkGV (gs_type b) (gs_copies b) (gs_orient b) (gs_nodes b).
Definition gview (c : GCore) : list GView := map gview_bin (gc_bins c).

(** The item types of the items of a bin, in the order of the nodes. *)
Definition gitems_of (ns : list GNode) : list nat := map (fun n => Z.to_nat (gn_item n)) (item_nodes ns).
Definition gv_items (v : GView) : list nat := gitems_of (gv_nodes v).

Definition gcount (x : nat) (ids : list nat) : Z := Z.of_nat (count_occ Nat.eq_dec ids x).
Definition gpacked (x : nat) (vs : list GView) : Z := zsum (fun v => gv_copies v * gcount x (gv_items v)) vs.
Definition gused (t : nat) (vs : list GView) : Z :=
  zsum (fun v => if Nat.eqb (gv_type v) t then gv_copies v else 0) vs.

Definition gwidth_of (n : GNode) : Z := gn_r n - gn_l n.
Definition gheight_of (n : GNode) : Z := gn_t n - gn_b n.
Definition garea_of (n : GNode) : Z := gwidth_of n * gheight_of n.

(** Area declared as residual in a bin. *)
Definition gresidual_area (ns : list GNode) : Z :=
  zsum garea_of (filter (fun n => gn_item n =? -3) ns).

(** Parts of the plate cut in a bin and not declared residual. *)
Definition gcut_parts (ns : list GNode) : list GNode :=
  filter (fun n => (0 <? gn_d n) && negb (gn_item n =? -3)) ns.

(** The second leftover: the last part of depth 2, if it is waste and no part of
    depth 1 but a residual follows it. *)
Definition gsecond_of (ns : list GNode) : Z :=
  match filter (fun n => ((gn_d n =? 1) && negb (gn_item n =? -3)) || (gn_d n =? 2)) (rev ns) with
  | n :: _ => if (gn_d n =? 2) && (gn_item n =? -1) then garea_of n else 0
  | [] => 0
  end.

(** Extent of a node in the direction of the cuts that produced it. *)
Definition gsize (o : GOrient) (n : GNode) : Z :=
  if vertical_at o (gn_d n) then gwidth_of n else gheight_of n.

(** Extent in the other direction: the length of the cut. *)
Definition gcut_length (o : GOrient) (n : GNode) : Z :=
  if vertical_at o (gn_d n) then gheight_of n else gwidth_of n.

(** A node of depth [d] that is cut again. *)
Definition gcut_again (d : Z) (n : GNode) : Prop := gn_d n = d /\ gn_item n = -2.

(** The last part of a node needs no cut when it reaches the end of the node. *)
Definition greaches (o : GOrient) (father n : GNode) : bool := ends o n =? father_end o father.

(** Number of cuts made in a node: its parts that do not reach its end. *)
Definition gcuts_in (o : GOrient) (ns : list GNode) (p : nat) : Z :=
  Z.of_nat (length (filter (fun n =>
    match gn_f n with Some q => Nat.eqb q p && (1 <=? gn_d n) && negb (greaches o (gnode ns p) n) | None => false end) ns)).

(** A rectangle and a defect overlap. *)
Definition goverlaps (n : GNode) (d : GDefect) : Prop :=
  gn_l n < gd_x d + gd_w d /\ gd_x d < gn_r n /\ gn_b n < gd_y d + gd_h d /\ gd_y d < gn_t n.

(** A vertical or horizontal segment crosses the interior of a defect. *)
Definition gv_crosses (x b t : Z) (d : GDefect) : Prop :=
  gd_x d < x < gd_x d + gd_w d /\ b < gd_y d + gd_h d /\ gd_y d < t.
Definition gh_crosses (l r y : Z) (d : GDefect) : Prop :=
  gd_y d < y < gd_y d + gd_h d /\ l < gd_x d + gd_w d /\ gd_x d < r.

(** ** Stages *)

(** A node different from its father is the result of an actual cut. *)
Definition gactual (ns : list GNode) (n : GNode) : Prop :=
  match gn_f n with
  | Some f => grect n <> grect (gnode ns f)
  | None => True
  end.

(** The number of stages of a plan: the largest depth of an actual cut. *)
Definition gstages_are (ns : list GNode) (s : Z) : Prop :=
  0 <= s
  /\ (forall n, In n ns -> gactual ns n -> gn_d n <= s)
  /\ (s = 0 \/ exists n, In n ns /\ gactual ns n /\ gn_d n = s).

(** The nodes cut at the last stage, and how: the parts that are not residual,
    and those that are items. *)
Definition glast_cut (s : Z) (n : GNode) : Prop := gn_item n = -2 /\ gn_d n = s - 1.
Definition gparts (ns : list GNode) (n : GNode) : list GNode :=
  filter (fun c => negb (gn_item c =? -3)) (map (gnode ns) (gn_children n)).
Definition gitem_parts (ns : list GNode) (n : GNode) : list GNode :=
  filter (fun c => 0 <=? gn_item c) (gparts ns n).

(** One item, and at most one other part. *)
Definition gtrimming (ns : list GNode) (n : GNode) : Prop :=
  length (gitem_parts ns n) = 1%nat /\ (length (gparts ns n) <= 2)%nat.
(** Several items, and at most three parts. *)
Definition gsplitting (ns : list GNode) (n : GNode) : Prop :=
  (2 <= length (gitem_parts ns n))%nat /\ (length (gparts ns n) <= 3)%nat.

(** The last stage does not count. *)
Definition gfree_stage (ct : GCutType) (ns : list GNode) (s : Z) : Prop :=
  0 < s /\ (exists n, In n ns /\ glast_cut s n) /\
  match ct with
  | GNonExact => forall n, In n ns -> glast_cut s n -> gtrimming ns n
  | GRoadef2018 => forall n, In n ns -> glast_cut s n -> gtrimming ns n \/ gsplitting ns n
  | _ => False
  end.

Section Spec.

Variable i : GInstance.

(** Well-formedness of a built instance: [resource_ids] lists, for each item and
    bin type, the resources with a schedule for the item. *)
Definition gwf_resources : Prop :=
  forall x t, (x < length (gin_items i))%nat -> (t < length (gin_bins i))%nat ->
    NoDup (nth t (gi_resource_ids (gitem i x)) []) /\
    forall r, In r (nth t (gi_resource_ids (gitem i x)) []) <->
      (r < length (gb_resources (gbin i t)))%nat
      /\ nth x (res_item_consumptions (nth r (gb_resources (gbin i t)) dummy_resource)) [] <> [].

Definition gsane_resources : Prop :=
  forall bt r, In bt (gin_bins i) -> In r (gb_resources bt) ->
    (0 <= res_capacity r)%Q /\ forall s q, In s (res_item_consumptions r) -> In q s -> (0 <= q)%Q.

(** Consumption of a resource by the items of a bin. *)
Definition gconsumption (r : Resource) (ids : list nat) : Q :=
  qsum (fun x => schedule_total (nth x (res_item_consumptions r) []) (count_occ Nat.eq_dec ids x))
    (seq 0 (length (gin_items i))).

Definition gpenalties (v : GView) : Q :=
  qsum (fun r => if res_penalize r && Qltb (res_capacity r) (gconsumption r (gv_items v)) then res_penalty r else 0%Q)
    (gb_resources (gbin i (gv_type v))).

(** Constraints on the resources without penalty: at every point of the list of
    nodes (with non-negative consumptions, at the end). *)
Definition gresources_ok (v : GView) : Prop :=
  forall r, In r (gb_resources (gbin i (gv_type v))) -> res_penalize r = false ->
    PrefAll (fun before x => nth x (res_item_consumptions r) [] <> [] ->
      (gconsumption r (before ++ [x]) <= res_capacity r)%Q) (gv_items v).

(** The item types of a solution, bin after bin and node after node, each with
    the copies of its bin, whether it is cut from the plate, and its type. *)
Definition gsequence (vs : list GView) : list (Z * Z * nat) :=
  flat_map (fun v => map (fun n => (gv_copies v, gn_d n, Z.to_nat (gn_item n))) (item_nodes (gv_nodes v))) vs.
Definition gamount (x : nat) (seq : list (Z * Z * nat)) : Z :=
  zsum (fun e => let '(k, _, y) := e in if Nat.eqb y x then k else 0) seq.

(** The stacks are respected: when an item that is not the first of its stack is
    cut, all the copies of the item type before it in the stack are cut. *)
Definition gstacks_respected (vs : list GView) : Prop :=
  PrefAll (fun before e => let '(_, d, x) := e in
    1 <= d -> (0 < gi_stack_pos (gitem i x))%nat ->
    gamount (gstack_item i (gi_stack_id (gitem i x)) (gi_stack_pos (gitem i x) - 1)) (before ++ [e])
    = gi_copies (gitem i (gstack_item i (gi_stack_id (gitem i x)) (gi_stack_pos (gitem i x) - 1))))
  (gsequence vs).

Definition gdefects_avoided (v : GView) : Prop :=
  forall n d, In n (item_nodes (gv_nodes v)) -> 1 <= gn_d n -> In d (gb_defects (gbin i (gv_type v))) -> ~ goverlaps n d.

Definition gcuts_avoid_defects (v : GView) : Prop :=
  gp_through_defects (gin_params i) = true \/
  forall n d, In n (gv_nodes v) -> 1 <= gn_d n -> In d (gb_defects (gbin i (gv_type v))) ->
    ~ gv_crosses (gn_l n) (gn_b n) (gn_t n) d /\ ~ gv_crosses (gn_r n) (gn_b n) (gn_t n) d
    /\ ~ gh_crosses (gn_l n) (gn_r n) (gn_b n) d /\ ~ gh_crosses (gn_l n) (gn_r n) (gn_t n) d.

(** Lengths of the parts produced by the first and second cuts that are cut
    again; a bin without direction is not constrained. *)
Definition gmin_distance (d m : Z) (v : GView) : Prop :=
  gv_orient v <> GAny -> forall n, In n (gv_nodes v) -> gcut_again d n -> m <= gsize (gv_orient v) n.
Definition gmax_distance (d m : Z) (v : GView) : Prop :=
  0 <= m -> gv_orient v <> GAny -> forall n, In n (gv_nodes v) -> gcut_again d n -> gsize (gv_orient v) n <= m.

(** Parts that are not items are not too small. *)
Definition gwastes_large (v : GView) : Prop :=
  forall n, In n (gv_nodes v) -> 1 <= gn_d n -> gn_item n < 0 ->
    gp_min_waste (gin_params i) <= gwidth_of n /\ gp_min_waste (gin_params i) <= gheight_of n.

(** Numbers of first cuts in the plate and of second cuts in a part of it. *)
Definition gfirst_cuts_ok (v : GView) : Prop :=
  0 <= gp_number1 (gin_params i) -> gv_orient v <> GAny ->
  forall p, (p < length (gv_nodes v))%nat -> gn_d (gnode (gv_nodes v) p) = 0 ->
    gcuts_in (gv_orient v) (gv_nodes v) p <= gp_number1 (gin_params i).
Definition gsecond_cuts_ok (v : GView) : Prop :=
  0 <= gp_number2 (gin_params i) -> gv_orient v <> GAny ->
  forall p, (p < length (gv_nodes v))%nat -> gn_d (gnode (gv_nodes v) p) = 1 ->
    gcuts_in (gv_orient v) (gv_nodes v) p <= gp_number2 (gin_params i).

(** Stages that count. *)
Definition gstages_ok (v : GView) : Prop :=
  exists s, gstages_are (gv_nodes v) s /\
    (s <= gp_stages (gin_params i)
     \/ (s - 1 <= gp_stages (gin_params i) /\ gfree_stage (gp_cut_type (gin_params i)) (gv_nodes v) s)).

(** Cost of the cuts of a bin: each part of depth 1 to 4 that does not reach the
    end of its father. *)
Definition gcut_cost (o : GOrient) (ns : list GNode) (n : GNode) : Z :=
  let c := nth (Z.to_nat (gn_d n)) (gp_costs (gin_params i)) (mkGCC 0 0) in
  match gn_f n with
  | Some f =>
      if (1 <=? gn_d n) && (gn_d n <=? 4) && negb (greaches o (gnode ns f) n)
      then gcc_fixed c + gcc_variable c * gcut_length o n else 0
  | None => 0
  end.
Definition gbin_cut_cost (v : GView) : Z :=
  let c := nth 0 (gp_costs (gin_params i)) (mkGCC 0 0) in
  gcc_fixed c + gcc_variable c * gb_area (gbin i (gv_type v))
  + zsum (gcut_cost (gv_orient v) (gv_nodes v)) (gv_nodes v).

(** The totals of a solution with bins [vs]. *)
Record GIndicators (vs : list GView) (c : GCore) : Prop := {
  gi_ind_bins : gc_number_of_bins c = zsum gv_copies vs;
  gi_ind_items : gc_number_of_items c = zsum (fun v => gv_copies v * Z.of_nat (length (gv_items v))) vs;
  gi_ind_full_area : gc_full_area c = zsum (fun v => gv_copies v * gb_area (gbin i (gv_type v))) vs;
  gi_ind_item_area : gc_item_area c
    = zsum (fun v => gv_copies v * zsum (fun x => gi_w (gitem i x) * gi_h (gitem i x)) (gv_items v)) vs;
  gi_ind_area : gc_area c = gc_full_area c - match rev vs with [] => 0 | v :: _ => gresidual_area (gv_nodes v) end;
  gi_ind_cost : (gc_cost c == qsum (fun v => inject_Z (gv_copies v) * gb_cost (gbin i (gv_type v))) vs)%Q;
  gi_ind_profit : gsane_resources ->
    (gc_profit c == qsum (fun v => inject_Z (gv_copies v) * qsum (fun x => gi_profit (gitem i x)) (gv_items v)
                                   - gpenalties v) vs)%Q;
  gi_ind_bin_copies : forall t, (t < length (gin_bins i))%nat -> nth t (gc_bin_copies c) 0 = gused t vs;
  gi_ind_item_copies : forall x, (x < length (gin_items i))%nat -> nth x (gc_item_copies c) 0 = gpacked x vs;
  gi_ind_width : gc_width c = match rev vs with [] => 0 | v :: _ => fold_right Z.max 0 (map gn_r (gcut_parts (gv_nodes v))) end;
  gi_ind_second : gc_second c = match rev vs with [] => 0 | v :: _ => gsecond_of (gv_nodes v) end;
  gi_ind_height : gc_height c = match rev vs with [] => 0 | v :: _ => fold_right Z.max 0 (map gn_t (gcut_parts (gv_nodes v))) end
}.

(** What the flags of a solution with bins [vs] say. *)
Record GFlags (vs : list GView) (c : GCore) : Prop := {
  gf_stages : gc_stages_ok c = true <-> forall v, In v vs -> gstages_ok v;
  gf_min1 : gc_min1_ok c = true <-> forall v, In v vs -> gmin_distance 1 (gp_min1 (gin_params i)) v;
  gf_max1 : gc_max1_ok c = true <-> forall v, In v vs -> gmax_distance 1 (gp_max1 (gin_params i)) v;
  gf_min2 : gc_min2_ok c = true <-> forall v, In v vs -> gmin_distance 2 (gp_min2 (gin_params i)) v;
  gf_max2 : gc_max2_ok c = true <-> forall v, In v vs -> gmax_distance 2 (gp_max2 (gin_params i)) v;
  gf_number1 : gc_number1_ok c = true <-> forall v, In v vs -> gfirst_cuts_ok v;
  gf_number2 : gc_number2_ok c = true <-> forall v, In v vs -> gsecond_cuts_ok v;
  gf_stacks : gc_stacks_ok c = true <-> gstacks_respected vs;
  gf_defects : gc_defects_ok c = true <-> forall v, In v vs -> gdefects_avoided v;
  gf_through : gc_through_ok c = true <-> forall v, In v vs -> gcuts_avoid_defects v;
  gf_copies : gc_item_copies_ok c = true <->
    forall v x, In v vs -> In x (gv_items v) -> gpacked x vs <= gi_copies (gitem i x);
  gf_resources : gc_resource_ok c = true <-> forall v, In v vs -> gresources_ok v
}.

End Spec.

(** The constraints [feasible()] stands for, without the user callback. *)
Record GPackingOK (i : GInstance) (vs : list GView) : Prop := {
  gk_bins : forall v, In v vs ->
    gstages_ok i v /\ gwastes_large i v
    /\ gmin_distance 1 (gp_min1 (gin_params i)) v /\ gmax_distance 1 (gp_max1 (gin_params i)) v
    /\ gmin_distance 2 (gp_min2 (gin_params i)) v /\ gmax_distance 2 (gp_max2 (gin_params i)) v
    /\ gfirst_cuts_ok i v /\ gsecond_cuts_ok i v
    /\ gdefects_avoided i v /\ gcuts_avoid_defects i v /\ gresources_ok i v;
  gk_stacks : gstacks_respected i vs;
  gk_copies : forall v x, In v vs -> In x (gv_items v) -> gpacked x vs <= gi_copies (gitem i x);
  gk_copies_min : forall x, (x < length (gin_items i))%nat -> gi_copies_min (gitem i x) <= gpacked x vs
}.
