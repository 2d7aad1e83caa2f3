(** * Guillotine solution builder: properties C36 and C37 *)

From Coq Require Import List ZArith QArith Bool Lia Permutation.
From Verif Require Import Util Common_Model OneDim_Model Guil_Model Guil_Spec Guil_Proof GuilPlan_Proof.
Import ListNotations.
Open Scope Z_scope.

(** ** C36: whatever the calls, the nodes of every bin form a guillotine plan *)

(** Every history of calls is defined (no out-of-bounds access, no endless
    loop), and after it every bin is a guillotine plan, including after
    exceptions that the caller catches. *)
Theorem C36_plan : forall i calls, 0 <= gp_ct (gin_params i) ->
  exists bins, grun i [] calls = Some bins
    /\ forall b, In b bins -> exists base, guillotine_plan i (gs_type b) (gs_orient b) (gs_nodes b) base.
Proof.
  intros i calls Hct. destruct (run_good i Hct calls [] (Forall_nil _)) as (bins & E & H).
  exists bins. split; [exact E|]. intros b Hb. rewrite Forall_forall in H. destruct (H b Hb) as [_ [HI _]].
  eexists. apply inv_plan; [exact Hct|exact HI].
Qed.
Print Assumptions C36_plan.

(** [build] is defined, and its bins are guillotine plans in which nothing is
    lost: the parts of a node fill it, up to the cuts. *)
Theorem C36_built : forall i calls bins, 0 <= gp_ct (gin_params i) -> grun i [] calls = Some bins ->
  exists bins', gfinish_bins i bins = Some bins' /\ length bins' = length bins
    /\ forall b, In b bins' -> exists base, guillotine_plan i (gs_type b) (gs_orient b) (gs_nodes b) base
         /\ complete_plan (gp_ct (gin_params i)) (gs_orient b) (gs_nodes b) base.
Proof.
  intros i calls bins Hct E. destruct (run_good i Hct calls [] (Forall_nil _)) as (bins0 & E0 & H).
  rewrite E in E0. inversion E0. subst bins0.
  destruct (finish_done i Hct bins H) as (bins' & E' & H' & L). exists bins'. split; [exact E'|]. split; [exact L|].
  intros b Hb. rewrite Forall_forall in H'. destruct (H' b Hb) as [_ [HI Hd]].
  eexists. split; [apply inv_plan; [exact Hct|exact HI]|]. eapply complete_of_done; eassumption.
Qed.
Print Assumptions C36_built.

(** The nodes are in depth-first order, before and after [build]. *)
Theorem C36_order : forall i calls bins, 0 <= gp_ct (gin_params i) -> grun i [] calls = Some bins ->
  forall bins', bins' = bins \/ gfinish_bins i bins = Some bins' ->
  forall b, In b bins' -> exists base, guillotine_plan i (gs_type b) (gs_orient b) (gs_nodes b) base
    /\ depth_first (gs_nodes b) base.
Proof.
  intros i calls bins Hct E bins' HB b Hb.
  destruct (run_good i Hct calls [] (Forall_nil _)) as (bins0 & E0 & H).
  rewrite E in E0. inversion E0. subst bins0.
  assert (HI : Inv i (gs_orient b) (gp_ct (gin_params i)) (ginit_nodes (gbin i (gs_type b)) (gs_type b))
                 (gbase (gbin i (gs_type b))) (gs_nodes b)).
  { destruct HB as [->|HB].
    - rewrite Forall_forall in H. destruct (H b Hb) as [_ [HI _]]. exact HI.
    - destruct (finish_done i Hct bins H) as (bins1 & E1 & H1 & _). rewrite HB in E1. inversion E1. subst bins1.
      rewrite Forall_forall in H1. destruct (H1 b Hb) as [_ [HI _]]. exact HI. }
  eexists. split; [apply inv_plan; [exact Hct|exact HI]|]. exact (iv_order _ _ _ _ _ _ HI).
Qed.
Print Assumptions C36_order.

(** An accepted [add_node] adds, at the end of the last bin, a waste node of the
    depth asked for that ends at the cut position asked for; it moves no
    existing node and turns no item into something else. *)
Theorem C36_added : forall i bins bins' depth cut, gadd_node i bins depth cut = GOk bins' ->
  exists front b ns, bins = front ++ [b] /\ bins' = front ++ [gwith_nodes b ns]
    /\ (length (gs_nodes b) < length ns)%nat
    /\ gn_d (gnode ns (length ns - 1)) = depth /\ ends (gs_orient b) (gnode ns (length ns - 1)) = cut
    /\ gn_item (gnode ns (length ns - 1)) = -1
    /\ forall id, (id < length (gs_nodes b))%nat ->
         gn_f (gnode ns id) = gn_f (gnode (gs_nodes b) id)
         /\ gn_d (gnode ns id) = gn_d (gnode (gs_nodes b) id)
         /\ grect (gnode ns id) = grect (gnode (gs_nodes b) id)
         /\ (0 <= gn_item (gnode (gs_nodes b) id) -> gn_item (gnode ns id) = gn_item (gnode (gs_nodes b) id)).
Proof.
  intros i bins bins' depth cut H. unfold gadd_node in H.
  destruct (gback bins) as [[front b]|] eqn:E; [|discriminate]. apply gback_some in E.
  destruct (depth <? 1); [discriminate|].
  destruct (gadd_node_in _ _ _ _ _) as [[ns [|]]|] eqn:E'; [|discriminate|discriminate].
  inversion H. subst bins'. apply add_node_added in E'. destruct E' as (A1 & A2 & A3 & A4 & A5).
  exists front, b, ns. split; [exact E|]. split; [reflexivity|]. split; [exact A1|]. split; [exact A3|].
  split; [exact A4|]. split; [exact A5|]. intros id Hid. destruct (A2 id Hid) as [G I].
  destruct (geo_eq _ _ G) as (G1 & G2 & G3 & G4 & G5 & G6). split; [exact G1|]. split; [exact G2|]. split.
  - unfold grect. congruence.
  - intros Hp. destruct I as [I|[_ I]]; [exact I|lia].
Qed.
Print Assumptions C36_added.

(** An accepted [set_last_node_item] puts the item on the last node. *)
Theorem C36_item_set : forall i bins bins' x, gset_item i bins x = GOk bins' ->
  exists front b ns, bins = front ++ [b] /\ bins' = front ++ [gwith_nodes b ns]
    /\ length ns = length (gs_nodes b) /\ (x < length (gin_items i))%nat
    /\ has_dimensions (gnode (gs_nodes b) (length (gs_nodes b) - 1)) (gi_w (gitem i x)) (gi_h (gitem i x))
    /\ forall id, gnode ns id = if Nat.eqb id (length (gs_nodes b) - 1) && Nat.ltb id (length (gs_nodes b))
                                then gn_with_item (gnode (gs_nodes b) id) (Z.of_nat x)
                                else gnode (gs_nodes b) id.
Proof.
  intros i bins bins' x H. unfold gset_item in H.
  destruct (gback bins) as [[front b]|] eqn:E; [|discriminate]. apply gback_some in E.
  destruct (Nat.ltb_spec x (length (gin_items i))) as [Hx|]; [|discriminate]. cbv zeta in H.
  match type of H with (if ?c then _ else _) = _ => destruct c eqn:Ec end; [|discriminate].
  inversion H. subst bins'. eexists front, b, _. split; [exact E|]. split; [reflexivity|].
  split; [apply upd_length|]. split; [exact Hx|]. split.
  - unfold has_dimensions. apply orb_true_iff in Ec.
    destruct Ec as [Ec|Ec]; apply andb_true_iff in Ec; destruct Ec as [E1 E2];
      apply Z.eqb_eq in E1; apply Z.eqb_eq in E2; [left|right]; auto.
  - intros id. destruct (Nat.ltb_spec id (length (gs_nodes b))) as [Hid|Hid].
    + rewrite andb_true_r. rewrite gnode_upd by lia. rewrite Nat.eqb_sym. reflexivity.
    + rewrite andb_false_r. unfold gnode. rewrite nth_overflow by (rewrite upd_length; exact Hid).
      rewrite nth_overflow by exact Hid. reflexivity.
Qed.
Print Assumptions C36_item_set.

(** ** C37: the items of a bin *)

(** In a guillotine plan two nodes with an item are apart by at least the cut
    thickness, and inside the plate minus its hard trims. *)
Theorem C37_items_apart : forall i calls bins, 0 <= gp_ct (gin_params i) -> grun i [] calls = Some bins ->
  forall bins', bins' = bins \/ gfinish_bins i bins = Some bins' ->
  forall b j k x y, In b bins' -> (j < length (gs_nodes b))%nat -> (k < length (gs_nodes b))%nat -> j <> k ->
  carries (gnode (gs_nodes b) j) x -> carries (gnode (gs_nodes b) k) y ->
  apart (gp_ct (gin_params i)) (gnode (gs_nodes b) j) (gnode (gs_nodes b) k).
Proof.
  intros i calls bins Hct E bins' HB b j k x y Hb Hj Hk Hne Hx Hy.
  destruct (run_good i Hct calls [] (Forall_nil _)) as (bins0 & E0 & H).
  rewrite E in E0. inversion E0. subst bins0.
  assert (HI : Inv i (gs_orient b) (gp_ct (gin_params i)) (ginit_nodes (gbin i (gs_type b)) (gs_type b))
                 (gbase (gbin i (gs_type b))) (gs_nodes b)).
  { destruct HB as [->|HB].
    - rewrite Forall_forall in H. destruct (H b Hb) as [_ [HI _]]. exact HI.
    - destruct (finish_done i Hct bins H) as (bins1 & E1 & H1 & _). rewrite HB in E1. inversion E1. subst bins1.
      rewrite Forall_forall in H1. destruct (H1 b Hb) as [_ [HI _]]. exact HI. }
  pose proof (inv_plan i _ _ _ Hct HI) as HP.
  destruct (gp_items _ _ _ _ _ HP j x Hj Hx) as (_ & Bj & Lj & _).
  destruct (gp_items _ _ _ _ _ HP k y Hk Hy) as (_ & Bk & Lk & _).
  assert (G : forall a c, (gbase (gbin i (gs_type b)) <= a)%nat -> (a < c)%nat -> (c < length (gs_nodes b))%nat ->
    (forall q, (q < length (gs_nodes b))%nat -> gn_f (gnode (gs_nodes b) q) <> Some a) ->
    apart (gp_ct (gin_params i)) (gnode (gs_nodes b) a) (gnode (gs_nodes b) c)).
  { intros a c Ha Hac Hc Hl.
    destruct (anc_or_apart _ _ _ Hct _ _ (init_f _ _) _ HI c a Ha ltac:(lia) Hc) as [A|A]; [exfalso|exact A].
    destruct (anc_child _ _ _ A) as [->|(q & Q1 & Q2)]; [lia|].
    pose proof (anc_le _ _ _ _ _ (init_f _ _) _ HI q c Q2 Hc) as Hq. apply (Hl q); [lia|exact Q1]. }
  destruct (Nat.lt_trichotomy j k) as [H1|[H1|H1]]; [apply G; assumption|contradiction|].
  assert (A : apart (gp_ct (gin_params i)) (gnode (gs_nodes b) k) (gnode (gs_nodes b) j)) by (apply G; assumption).
  unfold apart in *. tauto.
Qed.
Print Assumptions C37_items_apart.

Theorem C37_items_inside : forall i calls bins, 0 <= gp_ct (gin_params i) -> grun i [] calls = Some bins ->
  forall bins', bins' = bins \/ gfinish_bins i bins = Some bins' ->
  forall b j x, In b bins' -> (j < length (gs_nodes b))%nat -> carries (gnode (gs_nodes b) j) x ->
  usable_l (gbin i (gs_type b)) <= gn_l (gnode (gs_nodes b) j)
  /\ gn_r (gnode (gs_nodes b) j) <= usable_r (gbin i (gs_type b))
  /\ usable_b (gbin i (gs_type b)) <= gn_b (gnode (gs_nodes b) j)
  /\ gn_t (gnode (gs_nodes b) j) <= usable_t (gbin i (gs_type b)).
Proof.
  intros i calls bins Hct E bins' HB b j x Hb Hj Hx.
  destruct (run_good i Hct calls [] (Forall_nil _)) as (bins0 & E0 & H).
  rewrite E in E0. inversion E0. subst bins0.
  assert (HI : Inv i (gs_orient b) (gp_ct (gin_params i)) (ginit_nodes (gbin i (gs_type b)) (gs_type b))
                 (gbase (gbin i (gs_type b))) (gs_nodes b)).
  { destruct HB as [->|HB].
    - rewrite Forall_forall in H. destruct (H b Hb) as [_ [HI _]]. exact HI.
    - destruct (finish_done i Hct bins H) as (bins1 & E1 & H1 & _). rewrite HB in E1. inversion E1. subst bins1.
      rewrite Forall_forall in H1. destruct (H1 b Hb) as [_ [HI _]]. exact HI. }
  pose proof (inv_plan i _ _ _ Hct HI) as HP.
  destruct (gp_items _ _ _ _ _ HP j x Hj Hx) as (_ & Bj & _ & _).
  destruct (gp_usable _ _ _ _ _ HP) as (_ & <- & <- & <- & <-).
  pose proof (anc_inside _ _ _ _ _ (init_f _ _) _ HI _ j (anc_base _ _ _ _ _ _ HI j ltac:(lia)) (le_n _) Hj). lia.
Qed.
Print Assumptions C37_items_inside.

(** The items of a bin can be produced from the usable part of the plate by
    edge-to-edge cuts of the cut thickness. *)
Theorem C37_cuttable : forall i calls bins, 0 <= gp_ct (gin_params i) -> grun i [] calls = Some bins ->
  forall bins', bins' = bins \/ gfinish_bins i bins = Some bins' ->
  forall b, In b bins' -> let bt := gbin i (gs_type b) in
  exists L, Permutation L (map grect (item_nodes (gs_nodes b)))
    /\ cuttable (gp_ct (gin_params i)) (mkGR (usable_l bt) (usable_r bt) (usable_b bt) (usable_t bt)) L.
Proof.
  intros i calls bins Hct E bins' HB b Hb bt.
  destruct (run_good i Hct calls [] (Forall_nil _)) as (bins0 & E0 & H).
  rewrite E in E0. inversion E0. subst bins0.
  assert (HI : Inv i (gs_orient b) (gp_ct (gin_params i)) (ginit_nodes (gbin i (gs_type b)) (gs_type b))
                 (gbase (gbin i (gs_type b))) (gs_nodes b)).
  { destruct HB as [->|HB].
    - rewrite Forall_forall in H. destruct (H b Hb) as [_ [HI _]]. exact HI.
    - destruct (finish_done i Hct bins H) as (bins1 & E1 & H1 & _). rewrite HB in E1. inversion E1. subst bins1.
      rewrite Forall_forall in H1. destruct (H1 b Hb) as [_ [HI _]]. exact HI. }
  destruct (items_cuttable _ _ _ Hct _ _ (init_f _ _) _ HI (init_items _ _)) as (L & P & C).
  exists L. split; [exact P|].
  pose proof (inv_plan i _ _ _ Hct HI) as HP. destruct (gp_usable _ _ _ _ _ HP) as (_ & U1 & U2 & U3 & U4).
  unfold grect in C. rewrite U1, U2, U3, U4 in C. exact C.
Qed.
Print Assumptions C37_cuttable.

(** ** A case meeting the hypotheses *)

Definition ex_params : GParams := mkGP 3 GNonExact GVertical 0 (-1) 0 (-1) 0 (-1) (-1) false 1 [] 0.
Definition ex_plate : GBinType :=
  mkGBT 1 2 0 23 12 [] (mkGT 1 true) (mkGT 1 false) (mkGT 2 true) (mkGT 0 false) [].
Definition ex_items : list GItem :=
  [mkGI 4 2 0 6 4 0 0 false [[]]; mkGI 3 3 0 3 9 1 0 true [[]]].
Definition ex_inst : GInstance := mkGIn OKnapsack ex_params [ex_plate] ex_items [0; 2; 5]%nat [0; 0; 1; 1; 1]%nat.
Definition ex_calls : list GCall :=
  [GAddBin 0 1 GVertical; GAddNode 1 8; GAddNode 2 5; GSetItem 0; GAddNode 2 3; GAddNode 2 10; GSetItem 0;
   GAddNode 1 12; GAddNode 2 10; GSetItem 1; GSetItem 0].

(** The fifth call (a cut below the current position) and the last call (a
    wrong item) throw; the others are accepted. *)
Example C36_example : exists bins bins', grun ex_inst [] ex_calls = Some bins /\ gfinish_bins ex_inst bins = Some bins'
  /\ map (fun b => map (fun n => (gn_f n, gn_d n, (gn_l n, gn_r n, gn_b n, gn_t n), gn_item n)) (gs_nodes b)) bins'
     = [[(None, 0, (0, 23, 0, 12), 0);
         (Some 0%nat, -1, (0, 2, 0, 1), -1);
         (Some 0%nat, -1, (0, 2, 1, 12), -1);
         (Some 0%nat, -1, (2, 23, 0, 1), -1);
         (Some 0%nat, 0, (2, 23, 1, 12), -2);
         (Some 4%nat, 1, (2, 8, 1, 12), -2);
         (Some 5%nat, 2, (2, 8, 1, 5), 0);
         (Some 5%nat, 2, (2, 8, 6, 10), 0);
         (Some 5%nat, 2, (2, 8, 11, 12), -1);
         (Some 4%nat, 1, (9, 12, 1, 12), -2);
         (Some 9%nat, 2, (9, 12, 1, 10), 1);
         (Some 9%nat, 2, (9, 12, 11, 12), -1);
         (Some 4%nat, 1, (13, 23, 1, 12), -3)]]
  /\ gaccepted ex_inst [] ex_calls = false
  /\ gaccepted ex_inst [] (firstn 4 ex_calls ++ firstn 5 (skipn 5 ex_calls)) = true.
Proof. eexists _, _. split; [vm_compute; reflexivity|]. split; [vm_compute; reflexivity|]. split; [vm_compute; reflexivity|]. split; vm_compute; reflexivity. Qed.

(** ** What the builder does not guarantee *)

(** The [children] of the plate never contain the trims and the usable part,
    although their father is the plate. *)
Theorem C36_root_children_refuted : exists i calls bins b,
  grun i [] calls = Some bins /\ In b bins /\ gaccepted i [] calls = true
  /\ gn_f (gnode (gs_nodes b) 4) = Some 0%nat /\ gn_children (gnode (gs_nodes b) 0) = [].
Proof.
  exists ex_inst, [GAddBin 0 1 GVertical]. eexists _, _. split; [vm_compute; reflexivity|].
  split; [left; reflexivity|]. split; [reflexivity|]. split; reflexivity.
Qed.
Print Assumptions C36_root_children_refuted.

(** An item that cannot be rotated is accepted rotated. *)
Theorem C36_oriented_refuted : exists i calls bins b id x,
  grun i [] calls = Some bins /\ In b bins /\ gaccepted i [] calls = true
  /\ carries (gnode (gs_nodes b) id) x /\ gi_oriented (gitem i x) = true
  /\ gn_r (gnode (gs_nodes b) id) - gn_l (gnode (gs_nodes b) id) <> gi_w (gitem i x).
Proof.
  exists ex_inst, [GAddBin 0 1 GVertical; GAddNode 1 11; GAddNode 2 4; GSetItem 1]. eexists _, _, 6%nat, 1%nat.
  split; [vm_compute; reflexivity|]. split; [left; reflexivity|]. split; [vm_compute; reflexivity|].
  split; [split; [discriminate|reflexivity]|]. split; [reflexivity|vm_compute; discriminate].
Qed.
Print Assumptions C36_oriented_refuted.

(** With the orientation [Any], the cuts of consecutive depths have the same
    direction. *)
Theorem C36_any_alternates_refuted : exists i calls bins b n1 n2,
  grun i [] calls = Some bins /\ In b bins /\ gaccepted i [] calls = true
  /\ In n1 (gs_nodes b) /\ In n2 (gs_nodes b) /\ gn_d n1 = 1 /\ gn_d n2 = 2
  /\ gn_t n1 < 12 /\ gn_t n2 < gn_t n1
  /\ gn_l n1 = gn_l n2 /\ gn_r n1 = gn_r n2 /\ gn_r n1 = gb_w (gbin i 0) /\ gb_h (gbin i 0) = 12.
Proof.
  exists ex_inst, [GAddBin 0 1 GAny; GAddNode 1 8; GAddNode 2 5]. eexists _, _, _, _.
  split; [vm_compute; reflexivity|]. split; [left; reflexivity|]. split; [vm_compute; reflexivity|].
  split; [do 5 right; left; reflexivity|]. split; [do 6 right; left; reflexivity|].
  repeat split; reflexivity.
Qed.
Print Assumptions C36_any_alternates_refuted.

(** A call that throws may have added nodes: an exception does not leave the
    solution as it was. *)
Theorem C36_exception_rollback_refuted : exists i bins depth cut bins',
  gadd_node i bins depth cut = GThrow bins' /\ bins' <> bins
  /\ exists calls, grun i [] calls = Some bins /\ gaccepted i [] calls = true.
Proof.
  eexists ex_inst, _, 1, 0, _. split; [|split].
  3:{ exists [GAddBin 0 1 GVertical; GAddNode 1 8; GAddNode 2 5]. split; [vm_compute; reflexivity|reflexivity]. }
  - vm_compute. reflexivity.
  - vm_compute. discriminate.
Qed.
Print Assumptions C36_exception_rollback_refuted.

(** Next to a hard right trim, a soft top trim produces an extra corner node,
    which overlaps the node of the right trim. *)
Theorem C36_soft_corner_refuted : exists i t bins b id,
  grun i [] [GAddBin t 1 GVertical] = Some bins /\ In b bins
  /\ gn_d (gnode (gs_nodes b) id) = -1
  /\ gn_l (gnode (gs_nodes b) id) < gn_r (gnode (gs_nodes b) id)
  /\ gn_r (gnode (gs_nodes b) id) <= gb_w (gbin i t)
  /\ gt_hard (gb_top (gbin i t)) = false
  /\ exists id2, id2 <> id /\ gn_d (gnode (gs_nodes b) id2) = -1
       /\ ~ apart 0 (gnode (gs_nodes b) id) (gnode (gs_nodes b) id2).
Proof.
  exists (mkGIn OKnapsack ex_params
    [mkGBT 1 2 0 23 12 [] (mkGT 0 true) (mkGT 1 false) (mkGT 0 true) (mkGT 2 true) []] ex_items [] []), 0%nat.
  eexists _, _, 1%nat. split; [vm_compute; reflexivity|]. split; [left; reflexivity|].
  split; [reflexivity|]. split; [reflexivity|]. split; [discriminate|]. split; [reflexivity|].
  exists 2%nat. split; [discriminate|]. split; [reflexivity|].
  intros H. vm_compute in H. destruct H as [H|[H|[H|H]]]; apply H; reflexivity.
Qed.
Print Assumptions C36_soft_corner_refuted.
