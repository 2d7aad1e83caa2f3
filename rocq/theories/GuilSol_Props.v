(** * Indicators and feasibility of a guillotine solution: property C52 *)

From Coq Require Import List ZArith QArith Bool Lia.
From Verif Require Import Util Common_Model Common_Spec OneDim_Model Guil_Model Guil_Spec Guil_Proof GuilPlan_Proof Guil_Props.
From Verif Require Import GuilSol_Model GuilSol_Spec GuilSol_Proof GuilSolCore_Proof GuilWaste_Proof.
Import ListNotations.
Open Scope Z_scope.

(** What the instance and the caller provide: a non-negative cut thickness,
    consistent resources, non-negative trims, cutting costs when the objective
    needs them, and non-negative numbers of copies. *)
Record gready (i : GInstance) (calls : list GCall) : Prop := {
  rd_ct : 0 <= gp_ct (gin_params i);
  rd_resources : gwf_resources i;
  rd_ends : gsane_ends i;
  rd_costs : gcosts_given i;
  rd_copies : gcopies_given calls
}.

Lemma build_state : forall i cb calls bins, gready i calls -> grun i [] calls = Some bins ->
  exists bins', gfinish_bins i bins = Some bins' /\
    match gbuild i cb bins with
    | GDone s => GState i cb (map gview_bin bins') s /\ gview (gs_core s) = map gview_bin bins'
        /\ forall b, In b bins' -> gwastes_large i (gview_bin b)
    | GExit => ~ (forall b, In b bins' -> gwastes_large i (gview_bin b))
    | GBad => False
    end.
Proof.
  intros i cb calls bins [Hct Hwf Hends Hcosts HK] E.
  destruct (C36_built i calls bins Hct E) as (bins' & EF & _). exists bins'. split; [exact EF|].
  pose proof (built_ok i calls bins bins' Hct HK E EF) as HB. unfold gbuild. rewrite EF. cbv zeta.
  apply (gupdate_all i cb Hwf Hends Hcosts bins' [] _ (gstate_new i cb bins')); [reflexivity|intros b []|exact HB].
Qed.

(** ** C52: what the getters of a built solution return *)

(** [build] is defined after every history of calls; unless it ends the process,
    the bins are those of the builder and every total is the total over the
    bins shown. *)
Theorem C52_indicators : forall i cb calls bins, gready i calls -> grun i [] calls = Some bins ->
  exists bins', gfinish_bins i bins = Some bins' /\
    match gbuild i cb bins with
    | GDone s => gview (gs_core s) = map gview_bin bins' /\ GIndicators i (gview (gs_core s)) (gs_core s)
    | GExit => True
    | GBad => False
    end.
Proof.
  intros i cb calls bins HR E. destruct (build_state i cb calls bins HR E) as (bins' & EF & H). exists bins'. split; [exact EF|].
  destruct (gbuild i cb bins) as [s| |]; [|exact I|exact H]. destruct H as (S & V & _). split; [exact V|]. rewrite V.
  apply ginv_indicators; [apply S|apply S].
Qed.
Print Assumptions C52_indicators.

(** The process ends exactly when a part that is not an item is smaller than the
    minimum waste. *)
Theorem C52_exit : forall i cb calls bins bins', gready i calls -> grun i [] calls = Some bins ->
  gfinish_bins i bins = Some bins' ->
  (gbuild i cb bins = GExit <-> ~ forall b, In b bins' -> gwastes_large i (gview_bin b)).
Proof.
  intros i cb calls bins bins' HR E EF. destruct (build_state i cb calls bins HR E) as (bins1 & E1 & H).
  rewrite EF in E1. injection E1 as <-. destruct (gbuild i cb bins) as [s| |].
  - split; [discriminate|]. intros N. exfalso. apply N. apply H.
  - split; auto.
  - destruct H.
Qed.
Print Assumptions C52_exit.

(** Every flag says whether its constraint holds in the bins shown. *)
Theorem C52_flags : forall i cb calls bins s, gready i calls -> grun i [] calls = Some bins ->
  gbuild i cb bins = GDone s -> GFlags i (gview (gs_core s)) (gs_core s).
Proof.
  intros i cb calls bins s HR E EB. destruct (build_state i cb calls bins HR E) as (bins' & _ & H). rewrite EB in H.
  destruct H as (S & -> & _). apply ginv_flags. apply S.
Qed.
Print Assumptions C52_flags.

(** [feasible()] stands for all the constraints and the user callback. *)
Theorem C52_feasible : forall i cb calls bins s, gready i calls -> grun i [] calls = Some bins ->
  gbuild i cb bins = GDone s ->
  (gs_feasible s = true <-> GPackingOK i (gview (gs_core s)) /\ (gview (gs_core s) = [] \/ cb (gs_core s) = true)).
Proof.
  intros i cb calls bins s HR E EB. destruct (build_state i cb calls bins HR E) as (bins' & _ & H). rewrite EB in H.
  destruct H as (S & V & _). rewrite V. rewrite (gst_feasible _ _ _ _ S), (gst_cb _ _ _ _ S).
  destruct (map gview_bin bins') as [|v vs]; split; intros [H1 H2]; (split; [exact H1|]); auto.
  destruct H2 as [H2|H2]; [discriminate|exact H2].
Qed.
Print Assumptions C52_feasible.

(** The cutting cost: a cost per bin, a cost per cut that separates something,
    and the cost of the waste. *)
Theorem C52_cutting_cost : forall i cb calls bins s, gready i calls -> grun i [] calls = Some bins ->
  gbuild i cb bins = GDone s -> gin_objective i = OBinPackingCuttingCost ->
  (forall v, In v (gview (gs_core s)) -> gv_orient v <> GAny) ->
  gc_cutting_cost (gs_core s) = zsum (fun v => gv_copies v * gbin_cut_cost i v) (gview (gs_core s))
    + gp_waste_cost (gin_params i) * gc_waste (gs_core s).
Proof.
  intros i cb calls bins s HR E EB Hobj HO. destruct (build_state i cb calls bins HR E) as (bins' & _ & H). rewrite EB in H.
  destruct H as (S & V & _). rewrite V in *. apply (proj1 (gst_cost _ _ _ _ S) Hobj HO).
Qed.
Print Assumptions C52_cutting_cost.

(** Without soft trims, the waste is not negative, and the waste with the
    residual is not smaller. *)
Theorem C52_waste : forall i cb calls bins s, gready i calls -> gcopies_above 1 calls ->
  (forall t, (t < length (gin_bins i))%nat -> gplain (gbin i t)) -> grun i [] calls = Some bins ->
  gbuild i cb bins = GDone s -> 0 <= gc_waste (gs_core s) <= gc_full_waste (gs_core s).
Proof.
  intros i cb calls bins s HR HK HP E EB. destruct (C52_indicators i cb calls bins HR E) as (bins' & EF & H). rewrite EB in H.
  destruct H as [V I]. rewrite V in I. unfold gc_waste, gc_full_waste.
  rewrite (gi_ind_area _ _ _ I), (gi_ind_full_area _ _ _ I), (gi_ind_item_area _ _ _ I).
  destruct HR as [Hct _ _ _ HK0].
  destruct (run_good i Hct calls [] (Forall_nil _)) as (bins0 & E0 & HG). rewrite E in E0. injection E0 as <-.
  destruct (finish_done i Hct bins HG) as (bins1 & E1 & HD & _). rewrite EF in E1. injection E1 as <-.
  destruct (fresh_finish i bins bins' (fresh_run i calls [] bins (Forall_nil _) E) EF) as [_ C'].
  assert (HC : forall b, In b bins' -> 1 <= gs_copies b).
  { intros b Hb. assert (Hin : In (gs_copies b) (map gs_copies bins)) by (rewrite <- C'; apply in_map; exact Hb).
    apply in_map_iff in Hin. destruct Hin as (b0 & <- & Hb0).
    pose proof (copies_run 1 i calls [] bins HK (Forall_nil _) E) as K. rewrite Forall_forall in K. apply K. exact Hb0. }
  pose proof (nores_run i calls [] bins (Forall_nil _) E) as N.
  rewrite Forall_forall in HD.
  assert (HA : forall b, In b bins' -> reslast (gs_nodes b) -> 0 <= gresidual_area (gs_nodes b)
    /\ zsum (fun x => gi_w (gitem i x) * gi_h (gitem i x)) (gv_items (gview_bin b)) + gresidual_area (gs_nodes b)
       <= gb_area (gbin i (gs_type b))).
  { intros b Hb HR. destruct (HD b Hb) as [Ht [HI Hd]]. split.
    - unfold gresidual_area. apply zsum_nonneg. intros n Hn. apply filter_In in Hn. destruct Hn as [Hn Hr].
      destruct (In_nth _ _ gdummy_node Hn) as (id & H1 & H2). apply Z.eqb_eq in Hr.
      change (gnode (gs_nodes b) id = n) in H2. rewrite <- H2 in Hr. destruct (HR id H1 Hr) as [_ D].
      pose proof (inv_plan i _ _ _ Hct HI) as HG'.
      pose proof (gp_usable _ _ _ _ _ HG') as (_ & U1 & U2 & U3 & U4). destruct (HP _ Ht) as (_ & P1 & P2).
      pose proof (plan_deep _ _ _ _ _ HG' id H1 ltac:(lia)) as Hb'.
      destruct (extents _ _ _ _ _ _ HI ltac:(lia) ltac:(lia) id ltac:(lia)) as [X1 X2].
      rewrite <- H2. unfold garea_of, gwidth_of, gheight_of. nia.
    - apply bin_area; [exact Hct|exact (HD b Hb)|exact HR|apply HP; exact Ht]. }
  assert (HF : forall l, (forall b, In b l -> In b bins' /\ reslast (gs_nodes b)) ->
    zsum (fun v => gv_copies v * zsum (fun x => gi_w (gitem i x) * gi_h (gitem i x)) (gv_items v)) (map gview_bin l)
    <= zsum (fun v => gv_copies v * gb_area (gbin i (gv_type v))) (map gview_bin l)).
  { intros l Hl. apply zsum_le. intros v Hv. apply in_map_iff in Hv. destruct Hv as (b & <- & Hb).
    destruct (Hl b Hb) as [L1 L2]. destruct (HA b L1 L2) as [A1 A2]. specialize (HC b L1). cbn [gview_bin gv_copies gv_type].
    apply Z.mul_le_mono_nonneg_l; lia. }
  destruct (finish_residual i bins bins' N EF) as (front & F1 & [->|(b & -> & F2)]).
  - specialize (HF front (fun b Hb => conj Hb (nores_last _ (F1 b Hb)))).
    assert (R0 : match rev (map gview_bin front) with [] => 0 | v :: _ => gresidual_area (gv_nodes v) end = 0).
    { destruct (rev (map gview_bin front)) as [|v r] eqn:Er; [reflexivity|].
      assert (Hv : In v (map gview_bin front)) by (apply in_rev; rewrite Er; left; reflexivity).
      apply in_map_iff in Hv. destruct Hv as (b & <- & Hb). unfold gresidual_area. cbn [gview_bin gv_nodes].
      replace (filter (fun n => gn_item n =? -3) (gs_nodes b)) with (@nil GNode); [reflexivity|].
      specialize (F1 b Hb). unfold nores in F1. induction F1 as [|n l Hn F1 IH]; [reflexivity|]. cbn [filter].
      destruct (Z.eqb_spec (gn_item n) (-3)); [contradiction|exact IH]. }
    rewrite R0. lia.
  - specialize (HF front (fun b' Hb => conj (in_or_app _ _ _ (or_introl Hb)) (nores_last _ (F1 b' Hb)))).
    assert (Hin : In b (front ++ [b])) by (apply in_or_app; right; left; reflexivity).
    destruct (HA b Hin F2) as [A1 A2]. specialize (HC b Hin).
    rewrite map_app. cbn [map]. rewrite rev_unit, !zsum_snoc. cbn [gview_bin gv_copies gv_type gv_nodes]. 
    change (gv_items (mkGV (gs_type b) (gs_copies b) (gs_orient b) (gs_nodes b))) with (gv_items (gview_bin b)). nia.
Qed.
Print Assumptions C52_waste.

(** ** A case meeting the hypotheses *)

Definition ex2_params : GParams := mkGP 3 GNonExact GVertical 2 9 1 (-1) 1 2 2 true 1 [mkGCC 7 0; mkGCC 5 1; mkGCC 3 1] 2.
Definition ex2_inst : GInstance :=
  mkGIn OBinPackingCuttingCost ex2_params [mkGBT 1 2 0 23 12 [mkGD 14 2 1 1] (mkGT 1 true) (mkGT 0 false) (mkGT 2 true) (mkGT 0 false) []]
    ex_items [0; 2; 5]%nat [0; 0; 1; 1; 1]%nat.
Definition ex2_bins : list GBin := match grun ex2_inst [] ex_calls with Some bins => bins | None => [] end.
Definition ex2_sol : GSolution :=
  match gbuild ex2_inst (fun _ => true) ex2_bins with GDone s => s | _ => gsol_new ex2_inst end.

Lemma ex2_ready : gready ex2_inst ex_calls.
Proof.
  constructor.
  - vm_compute. discriminate.
  - intros x t Hx Ht. cbn in Hx, Ht. assert (t = 0%nat) by lia. subst t.
    destruct x as [|[|x]]; [| |lia]; (split; [constructor|]; intros r; split; [intros []|intros [H _]; cbn in H; lia]).
  - intros t Ht. cbn in Ht. assert (t = 0%nat) by lia. subst t. split; vm_compute; discriminate.
  - intros _ H. discriminate.
  - intros t k o H. cbn in H. repeat (destruct H as [H|H]; [try discriminate; injection H as <- <- <-; lia|]). destruct H.
Qed.

(** A plan with three items, a residual, wastes and a defect. *)
Example C52_example : gready ex2_inst ex_calls /\ gcopies_above 1 ex_calls
  /\ (forall t, (t < length (gin_bins ex2_inst))%nat -> gplain (gbin ex2_inst t))
  /\ grun ex2_inst [] ex_calls = Some ex2_bins /\ gbuild ex2_inst (fun _ => true) ex2_bins = GDone ex2_sol
  /\ gs_feasible ex2_sol = true
  /\ (gc_number_of_items (gs_core ex2_sol), gc_item_area (gs_core ex2_sol), gc_area (gs_core ex2_sol),
      gc_full_area (gs_core ex2_sol), gc_width (gs_core ex2_sol), gc_cutting_cost (gs_core ex2_sol))
     = (3, 75, 121, 231, 12, 7 + 2 * (5 + 11) + 2 * (3 + 6) + (3 + 3) + 2 * 46).
Proof.
  split; [exact ex2_ready|]. split.
  { intros t k o H. cbn in H. repeat (destruct H as [H|H]; [try discriminate; injection H as <- <- <-; lia|]). destruct H. }
  split.
  { intros t Ht. cbn in Ht. assert (t = 0%nat) by lia. subst t. split; [|vm_compute; split; discriminate].
    intros t [<-|[<-|[<-|[<-|[]]]]]; (split; [vm_compute; discriminate|]); cbn; auto. }
  vm_compute. auto 10.
Qed.

(** ** What the indicators do not say *)

(** The flag about the minimum waste is never seen false: the process has ended
    before. *)
Theorem C52_waste_flag : forall i cb calls bins s, gready i calls -> grun i [] calls = Some bins ->
  gbuild i cb bins = GDone s -> gc_waste_ok (gs_core s) = true.
Proof.
  intros i cb calls bins s HR E EB. destruct (build_state i cb calls bins HR E) as (bins' & _ & H). rewrite EB in H.
  destruct H as [S _]. exact (gst_waste _ _ _ _ S).
Qed.
Print Assumptions C52_waste_flag.

Definition small_inst : GInstance :=
  mkGIn OKnapsack (mkGP 3 GNonExact GVertical 0 (-1) 0 (-1) 5 (-1) (-1) false 0 [] 0)
    [mkGBT 1 2 0 10 10 [] (mkGT 0 true) (mkGT 0 true) (mkGT 0 true) (mkGT 0 true) []]
    [mkGI 1 1 0 8 10 0 0 false [[]]] [0; 1]%nat [0]%nat.
Theorem C52_small_waste_reported_refuted : exists i calls bins,
  gready i calls /\ gaccepted i [] calls = true /\ grun i [] calls = Some bins /\ gbuild i (fun _ => true) bins = GExit.
Proof.
  exists small_inst, [GAddBin 0 1 GVertical; GAddNode 1 8; GSetItem 0]. eexists. split; [|split; [reflexivity|split; [vm_compute; reflexivity|reflexivity]]].
  constructor.
  - vm_compute. discriminate.
  - intros x t Hx Ht. cbn in Hx, Ht. assert (t = 0%nat) by lia. subst t. assert (x = 0%nat) by lia. subst x.
    split; [constructor|]; intros r; split; [intros []|intros [H _]; cbn in H; lia].
  - intros t Ht. cbn in Ht. assert (t = 0%nat) by lia. subst t. split; vm_compute; discriminate.
  - intros H. discriminate.
  - intros t k o H. cbn in H. repeat (destruct H as [H|H]; [try discriminate; injection H as <- <- <-; lia|]). destruct H.
Qed.
Print Assumptions C52_small_waste_reported_refuted.

(** With a soft trim the area of a bin excludes the trim although items may be
    cut in it: the waste of a feasible solution may be negative. *)
Definition soft_inst : GInstance :=
  mkGIn OKnapsack (mkGP 3 GNonExact GVertical 0 (-1) 0 (-1) 0 (-1) (-1) false 0 [] 0)
    [mkGBT 1 2 0 10 10 [] (mkGT 0 true) (mkGT 0 true) (mkGT 2 false) (mkGT 0 true) []]
    [mkGI 1 2 0 5 10 0 0 false [[]]] [0; 2]%nat [0; 0]%nat.
Theorem C52_waste_soft_refuted : exists i calls bins s,
  gaccepted i [] calls = true /\ grun i [] calls = Some bins /\ gbuild i (fun _ => true) bins = GDone s
  /\ gs_feasible s = true /\ gc_waste (gs_core s) < 0.
Proof.
  exists soft_inst, [GAddBin 0 1 GVertical; GAddNode 1 5; GSetItem 0; GAddNode 1 10; GSetItem 0]. eexists _, _.
  split; [reflexivity|]. split; [vm_compute; reflexivity|]. split; [vm_compute; reflexivity|]. split; reflexivity.
Qed.
Print Assumptions C52_waste_soft_refuted.

(** The residual of a bin used several times is subtracted once. *)
Theorem C52_residual_copies_refuted : exists i calls bins s v,
  gaccepted i [] calls = true /\ grun i [] calls = Some bins /\ gbuild i (fun _ => true) bins = GDone s
  /\ gview (gs_core s) = [v] /\ gv_copies v = 2 /\ gs_feasible s = true
  /\ gc_area (gs_core s) <> gv_copies v * (gb_area (gbin i (gv_type v)) - gresidual_area (gv_nodes v)).
Proof.
  exists small_inst, [GAddBin 0 2 GVertical; GAddNode 1 5]. eexists _, _, _.
  split; [reflexivity|]. split; [vm_compute; reflexivity|]. split; [vm_compute; reflexivity|]. split; [vm_compute; reflexivity|].
  split; [reflexivity|]. split; [reflexivity|]. vm_compute. discriminate.
Qed.
Print Assumptions C52_residual_copies_refuted.

(** An item set on a plate without hard trims is not counted. *)
Definition plate_inst (w : Z) (d : list GDefect) : GInstance :=
  mkGIn OKnapsack (mkGP 3 GNonExact GVertical 0 (-1) 0 (-1) 0 (-1) (-1) false 0 [] 0)
    [mkGBT 1 2 0 10 10 d (mkGT 0 true) (mkGT 0 true) (mkGT w true) (mkGT 0 true) []]
    [mkGI 1 1 0 (10 - w) 10 0 0 false [[]]] [0; 1]%nat [0]%nat.
Theorem C52_plate_item_refuted : exists i calls bins s b,
  gaccepted i [] calls = true /\ grun i [] calls = Some bins /\ gbuild i (fun _ => true) bins = GDone s
  /\ calls = [GAddBin 0 1 GVertical; GSetItem 0] /\ gc_bins (gs_core s) = [b]
  /\ map gn_item (gs_nodes b) = [0] /\ gc_number_of_items (gs_core s) = 0.
Proof.
  exists (plate_inst 0 []), [GAddBin 0 1 GVertical; GSetItem 0]. eexists _, _, _.
  split; [reflexivity|]. split; [vm_compute; reflexivity|]. split; [vm_compute; reflexivity|]. split; [reflexivity|].
  split; [vm_compute; reflexivity|]. split; reflexivity.
Qed.
Print Assumptions C52_plate_item_refuted.

(** An item covering the usable part of a trimmed plate is counted, but not
    checked against the defects. *)
Theorem C52_defects_refuted : exists i calls bins s v n d,
  gaccepted i [] calls = true /\ grun i [] calls = Some bins /\ gbuild i (fun _ => true) bins = GDone s
  /\ gs_feasible s = true /\ gc_number_of_items (gs_core s) = 1
  /\ In v (gview (gs_core s)) /\ In n (item_nodes (gv_nodes v)) /\ In d (gb_defects (gbin i (gv_type v))) /\ goverlaps n d.
Proof.
  exists (plate_inst 1 [mkGD 4 4 1 1]), [GAddBin 0 1 GVertical; GSetItem 0]. eexists _, _, _, _, _.
  split; [reflexivity|]. split; [vm_compute; reflexivity|]. split; [vm_compute; reflexivity|]. split; [reflexivity|].
  split; [reflexivity|]. split; [vm_compute; left; reflexivity|]. split; [vm_compute; left; reflexivity|].
  split; [left; reflexivity|]. vm_compute. auto.
Qed.
Print Assumptions C52_defects_refuted.

(** With the orientation [Any], the cuts of even depths are charged as if they
    were vertical, although every cut is horizontal. *)
Definition any_inst : GInstance :=
  mkGIn OBinPackingCuttingCost (mkGP 3 GNonExact GAny 0 (-1) 0 (-1) 0 (-1) (-1) false 0 [mkGCC 0 0; mkGCC 0 0; mkGCC 0 1] 0)
    [mkGBT 1 2 0 10 10 [] (mkGT 0 true) (mkGT 0 true) (mkGT 0 true) (mkGT 0 true) []]
    [mkGI 1 1 0 10 3 0 0 false [[]]] [0; 1]%nat [0]%nat.
Theorem C52_cutting_cost_any_refuted : exists i calls bins s v,
  gaccepted i [] calls = true /\ grun i [] calls = Some bins /\ gbuild i (fun _ => true) bins = GDone s
  /\ gs_feasible s = true /\ gin_objective i = OBinPackingCuttingCost /\ gview (gs_core s) = [v] /\ gv_orient v = GAny
  /\ gc_cutting_cost (gs_core s) = 0 /\ gbin_cut_cost i v = 10.
Proof.
  exists any_inst, [GAddBin 0 1 GAny; GAddNode 1 6; GAddNode 2 3; GSetItem 0]. eexists _, _, _.
  split; [reflexivity|]. split; [vm_compute; reflexivity|]. split; [vm_compute; reflexivity|]. split; [reflexivity|].
  split; [reflexivity|]. split; [vm_compute; reflexivity|]. split; [reflexivity|]. split; reflexivity.
Qed.
Print Assumptions C52_cutting_cost_any_refuted.
