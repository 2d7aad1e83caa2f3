(** * C70: cheap bounds of the box optimize function *)

From Coq Require Import List ZArith QArith Bool Lia Lqa Sorted Permutation.
From Verif Require Import Util Common_Model OneDim_Model OneDim_Spec OneDimBuilder_Model OneDimBuilder_Spec OneDimDff_Spec OneDimBounds_Spec
  Box_Model Box_Spec BoxDff_Model BoxSol_Model BoxSol_Spec BoxSol_Props BoxBuilder_Model BoxBounds_Model BoxBounds_Spec BoxBounds_Proof.
From Verif Require RectBounds_Spec.
Import ListNotations.
Open Scope Z_scope.

(** The trivial bounds are right for every packing: profit net of penalties (knapsack),
    number of bins (bin packing, bins in order), extent (open dimensions). *)
Theorem C70_trivial_bounds : forall i order, xrelaxable i ->
  (bx_objective i = OKnapsack -> (forall it, In it (bx_items i) -> (0 <= bi_profit it)%Q) /\ sorted_by (xtrivial_before i) (xtrivial_items i) order) ->
  xclaim_right i (xoptimize_trivial_bound i order).
Proof. exact xtrivial_right. Qed.
Print Assumptions C70_trivial_bounds.

(** If the bounds of the onedimensional solver are right, then so is what is claimed
    from the onedimensional relaxation. *)
Theorem C70_onedimensional : forall i solve, xrelaxable i ->
  bx_objective i = OBinPacking \/ bx_objective i = OKnapsack \/ bx_objective i = OVariableSizedBinPacking ->
  (bx_objective i = OBinPacking -> forall bt, In bt (bx_bins i) -> bn_copies_min bt = 0) ->
  (forall i1, bounds1_right i1 (solve i1)) ->
  xclaim_right i (xoptimize_onedimensional_bound solve i).
Proof. exact xonedimensional_right. Qed.
Print Assumptions C70_onedimensional.

(** The comment of the code, made precise: any complete packing of the boxes is a
    packing of their volumes in the onedimensional instance that is built, with the same
    bins, profit and cost. *)
Theorem C70_relaxation : forall i ds, xrelaxable i ->
  (bx_objective i = OBinPacking -> forall bt, In bt (bx_bins i) -> bn_copies_min bt = 0) ->
  xbox_packing i ds -> ball_packed i ds ->
  exists b i1, calls_from b_new (xrelax_calls i) = BOk b /\ b_build b = Built i1 /\
    PackingOK i1 (map xrelax_desc ds) /\ available_bins i1 (map xrelax_desc ds) /\ all_packed i1 (map xrelax_desc ds) /\
    zsum bd_copies (map xrelax_desc ds) = bbins_used ds /\
    (profit_of i1 (map xrelax_desc ds) == bprofit i ds)%Q /\ (cost_of i1 (map xrelax_desc ds) == xpacking_cost i ds)%Q.
Proof.
  intros i ds Hr Hmin BP Hall. destruct (relax_builds i Hr Hmin) as (i1 & Hb). exists (builder1 i), i1.
  split; [apply relax_builder; exact Hr|]. split; [exact Hb|]. destruct BP as [Hp Hbins Hitems].
  split; [eapply relax_packing; eauto|]. split; [eapply relax_available; eauto; intros t Ht; apply Hbins; exact Ht|]. split; [eapply relax_all; eauto|].
  split; [eapply relax_count; eauto|]. split; [eapply relax_profit; eauto|eapply relax_cost; eauto].
Qed.
Print Assumptions C70_relaxation.

(** ** Examples *)

(** Checks by computation. *)
Definition axes : list Axis := [AX; AY; AZ].
Definition rot_eqb (r s : Rotation) : bool :=
  match r, s with XYZ, XYZ | YXZ, YXZ | ZYX, ZYX | YZX, YZX | XZY, XZY | ZXY, ZXY => true | _, _ => false end.
Definition xplace_checks (i : BInstance) (bt : BBin) (p : BPlace) : bool :=
  (bp_type p <? length (bx_items i))%nat && forallb (fun a => (0 <=? vat (bp_pos p) a) && (bp_end i p a <=? vat (bn_box bt) a)) axes
  && existsb (rot_eqb (bp_rot p)) (bi_rotations (bxitem i (bp_type p))).
Definition xapart (i : BInstance) (p q : BPlace) : bool :=
  existsb (fun a => (bp_end i p a <=? vat (bp_pos q) a) || (bp_end i q a <=? vat (bp_pos p) a)) axes.
Fixpoint xpairs (i : BInstance) (ps : list BPlace) : bool :=
  match ps with [] => true | p :: l => forallb (xapart i p) l && xpairs i l end.
Lemma xpairs_ok : forall i ps, xpairs i ps = true -> ForallOrdPairs (bdisjoint i) ps.
Proof.
  intros i ps. induction ps as [|p l IH]; intro H; [constructor|]. cbn [xpairs] in H. apply andb_true_iff in H. destruct H as [H1 H2]. constructor; [|apply IH; exact H2].
  rewrite Forall_forall. rewrite forallb_forall in H1. intros q Hq. specialize (H1 q Hq). unfold xapart in H1. apply existsb_exists in H1.
  destruct H1 as (a & _ & H). exists a. apply orb_true_iff in H. rewrite !Z.leb_le in H. exact H.
Qed.
Definition xpacking_checks (i : BInstance) (ds : list XDesc) : bool :=
  forallb (fun d => (xd_type d <? length (bx_bins i))%nat && (1 <=? xd_copies d) && forallb (xplace_checks i (bxbin i (xd_type d))) (xd_items d) && xpairs i (xd_items d)) ds
  && forallb (fun x => (bpacked x ds <=? bi_copies (bxitem i x)) && (bi_copies_min (bxitem i x) <=? bpacked x ds)) (seq 0 (length (bx_items i)))
  && forallb (fun t => (bn_copies_min (bxbin i t) <=? bused_bins t ds) && (bused_bins t ds <=? bn_copies (bxbin i t))) (seq 0 (length (bx_bins i))).
Lemma xpacking_checks_ok : forall i ds, xpacking_checks i ds = true -> xbox_packing i ds.
Proof.
  intros i ds H. unfold xpacking_checks in H. rewrite !andb_true_iff, !forallb_forall in H. destruct H as ((H1 & H2) & H3). constructor; [constructor| |].
  - intros d Hd. specialize (H1 d Hd). rewrite !andb_true_iff, forallb_forall in H1. destruct H1 as (((A & B) & C) & D). split; [apply Nat.ltb_lt; exact A|]. split; [apply Z.leb_le; exact B|].
    constructor; [|apply xpairs_ok; exact D]. intros p Hp. specialize (C p Hp). unfold xplace_checks in C. rewrite !andb_true_iff, forallb_forall in C. destruct C as ((C1 & C2) & C3). constructor.
    + apply Nat.ltb_lt. exact C1.
    + intro a. assert (Ha : In a axes) by (destruct a; cbn; tauto). specialize (C2 a Ha). rewrite andb_true_iff, !Z.leb_le in C2. exact C2.
    + apply existsb_exists in C3. destruct C3 as (r & Hr & E). assert (bp_rot p = r) as -> by (destruct (bp_rot p), r; try discriminate; reflexivity). exact Hr.
  - intros x Hx. specialize (H2 x ltac:(apply in_seq; lia)). rewrite andb_true_iff, !Z.leb_le in H2. lia.
  - intros t Ht. specialize (H3 t ltac:(apply in_seq; lia)). rewrite andb_true_iff, !Z.leb_le in H3. lia.
  - intros x Hx. specialize (H2 x ltac:(apply in_seq; lia)). rewrite andb_true_iff, !Z.leb_le in H2. lia.
Qed.
Definition full_checks (i : BInstance) (ds : list XDesc) : bool :=
  forallb (fun x => bpacked x ds =? bi_copies (bxitem i x)) (seq 0 (length (bx_items i))).
Lemma full_checks_ok : forall i ds, full_checks i ds = true -> ball_packed i ds.
Proof. intros i ds H x Hx. unfold full_checks in H. rewrite forallb_forall in H. apply Z.eqb_eq, H, in_seq. lia. Qed.
Definition order_used_checks (i : BInstance) (ds : list XDesc) : bool :=
  forallb (fun u => (bused_bins u ds <=? 0) || forallb (fun t => bused_bins t ds =? bn_copies (bxbin i t)) (seq 0 u)) (seq 0 (length (bx_bins i))).
Lemma order_used_checks_ok : forall i ds, order_used_checks i ds = true -> xin_order i ds.
Proof.
  intros i ds H t u Htu Hu. unfold order_used_checks in H. rewrite forallb_forall in H. specialize (H u ltac:(apply in_seq; lia)).
  apply orb_true_iff in H. destruct H as [H|H]; [apply Z.leb_le in H; lia|]. rewrite forallb_forall in H. apply Z.eqb_eq, H, in_seq. lia.
Qed.
Definition relaxable_checks (i : BInstance) : bool :=
  forallb (fun it => forallb (fun a => 0 <? vat (bi_box it) a) axes && (1 <=? bi_copies it)) (bx_items i)
  && forallb (fun bt => forallb (fun a => 1 <=? vat (bn_box bt) a) axes && (1 <=? bn_copies bt) && (0 <=? bn_copies_min bt) && (bn_copies_min bt <=? bn_copies bt)
       && negb (Qle_bool (bn_cost bt) 0)) (bx_bins i)
  && (xnumber_of_items i <=? max_item_pos).
Lemma relaxable_checks_ok : forall i, relaxable_checks i = true -> xrelaxable i.
Proof.
  intros i H. unfold relaxable_checks in H. rewrite !andb_true_iff, !forallb_forall in H. destruct H as ((H1 & H2) & H3). constructor.
  - intros it Hit. specialize (H1 it Hit). rewrite andb_true_iff, forallb_forall, Z.leb_le in H1. destruct H1 as [A B]. split; [|exact B].
    intro a. apply Z.ltb_lt, A. destruct a; cbn; tauto.
  - intros bt Hbt. specialize (H2 bt Hbt). rewrite !andb_true_iff, forallb_forall, !Z.leb_le, negb_true_iff in H2. destruct H2 as ((((A & C) & D) & E) & F).
    split. { intro a. apply Z.leb_le, A. destruct a; cbn; tauto. }
    repeat split; try lia. destruct (Qlt_le_dec 0 (bn_cost bt)) as [L|L]; [exact L|]. apply Qle_bool_iff in L. congruence.
  - apply Z.leb_le. exact H3.
Qed.

Definition no_box : BInstance := mkBInst ODefault [] [].
Definition built (calls : list WCall) : BInstance :=
  match wrun ODefault calls with Some b => match w_build b with WBuilt i _ => i | _ => no_box end | None => no_box end.

(** Three 4 x 5 x 2 and one 7 x 6 x 2 in bins 10 x 10 x 2 (two) and 9 x 9 x 2: 204 of
    volume, two bins. *)
Definition ex_rb (o : Objective) : list WCall :=
  [WSetObjective o; WAddBin (mkV 10 10 2); WSetBinCopies 0 2; WSetBinCost 0 7; WAddBin (mkV 9 9 2); WSetBinCopies 1 1; WSetBinCost 1 5;
   WAddItem (mkV 4 5 2); WSetItemCopies 0 3; WSetItemProfit 0 10; WAddItem (mkV 7 6 2); WAddRotation 1 XYZ; WAddRotation 1 YXZ; WSetItemProfit 1 45].
Definition ex_rb_packing : list XDesc :=
  [mkXD 0 1 [mkBP 0 (mkV 0 0 0) XYZ; mkBP 0 (mkV 4 0 0) XYZ; mkBP 0 (mkV 0 5 0) XYZ]; mkXD 0 1 [mkBP 1 (mkV 0 0 0) YXZ]].
Example C70_trivial_example : xrelaxable (built (ex_rb OBinPacking)) /\ xoptimize_trivial_bound (built (ex_rb OBinPacking)) [] = XcBins 2 /\
  xbox_packing (built (ex_rb OBinPacking)) ex_rb_packing /\ ball_packed (built (ex_rb OBinPacking)) ex_rb_packing /\
  xin_order (built (ex_rb OBinPacking)) ex_rb_packing /\ bbins_used ex_rb_packing = 2.
Proof.
  split; [apply relaxable_checks_ok; vm_compute; reflexivity|]. split; [vm_compute; reflexivity|]. split; [apply xpacking_checks_ok; vm_compute; reflexivity|].
  split; [apply full_checks_ok; vm_compute; reflexivity|]. split; [apply order_used_checks_ok; vm_compute; reflexivity|reflexivity].
Qed.

(** The knapsack bound: 200 of volume, the 7 x 6 x 2 item first (45/84), then 116 of the 120 of
    the other item type. *)
Definition ex_rbk : list WCall :=
  [WSetObjective OKnapsack; WAddBin (mkV 10 10 2); WAddItem (mkV 4 5 2); WSetItemCopies 0 3; WSetItemProfit 0 10; WAddItem (mkV 7 6 2); WAddRotation 1 XYZ; WAddRotation 1 YXZ; WSetItemProfit 1 45].
Definition ex_rbk_packing : list XDesc := [mkXD 0 1 [mkBP 0 (mkV 0 0 0) XYZ; mkBP 0 (mkV 0 5 0) XYZ; mkBP 1 (mkV 4 0 0) YXZ]].
Example C70_knapsack_example : xrelaxable (built ex_rbk) /\ sorted_by (xtrivial_before (built ex_rbk)) (xtrivial_items (built ex_rbk)) [1; 0]%nat /\
  (forall it, In it (bx_items (built ex_rbk)) -> (0 <= bi_profit it)%Q) /\
  (exists q, xoptimize_trivial_bound (built ex_rbk) [1; 0]%nat = XcProfit q /\ (q == 74)%Q) /\
  xbox_packing (built ex_rbk) ex_rbk_packing /\ (bnet_profit (built ex_rbk) ex_rbk_packing == 65)%Q.
Proof.
  split; [apply relaxable_checks_ok; vm_compute; reflexivity|]. split.
  { split; [vm_compute; apply perm_swap|]. repeat constructor; vm_compute; reflexivity. }
  split. { assert (X : forallb (fun it => Qle_bool 0 (bi_profit it)) (bx_items (built ex_rbk)) = true) by (vm_compute; reflexivity).
    rewrite forallb_forall in X. intros it Hit. apply Qle_bool_iff, X, Hit. }
  split. { eexists. split; [vm_compute; reflexivity|vm_compute; reflexivity]. }
  split; [apply xpacking_checks_ok; vm_compute; reflexivity|vm_compute; reflexivity].
Qed.

Definition ex_rbo : list WCall := [WSetObjective OOpenDimensionX; WAddBin (mkV 10 4 2); WAddItem (mkV 7 2 2); WAddRotation 0 XYZ; WAddRotation 0 YXZ; WAddItem (mkV 3 3 2)].
Example C70_open_example : xrelaxable (built ex_rbo) /\ xoptimize_trivial_bound (built ex_rbo) [] = XcExtent AX 6 /\
  xbox_packing (built ex_rbo) [mkXD 0 1 [mkBP 0 (mkV 0 0 0) XYZ; mkBP 1 (mkV 7 0 0) XYZ]] /\
  ball_packed (built ex_rbo) [mkXD 0 1 [mkBP 0 (mkV 0 0 0) XYZ; mkBP 1 (mkV 7 0 0) XYZ]] /\
  extent (built ex_rbo) AX [mkBP 0 (mkV 0 0 0) XYZ; mkBP 1 (mkV 7 0 0) XYZ] = 10.
Proof.
  split; [apply relaxable_checks_ok; vm_compute; reflexivity|]. split; [vm_compute; reflexivity|]. split; [apply xpacking_checks_ok; vm_compute; reflexivity|].
  split; [apply full_checks_ok; vm_compute; reflexivity|vm_compute; reflexivity].
Qed.

(** A onedimensional solver whose bounds are right: 0 bins, cost 0 and, for the profit,
    the sum of the positive profits would do; the relaxation is built and its claim is
    that of the solver. *)
Example C70_onedimensional_example : xrelaxable (built (ex_rb OVariableSizedBinPacking)) /\
  (forall solve, exists i1, xoptimize_onedimensional_bound solve (built (ex_rb OVariableSizedBinPacking)) = XcCost (b1_cost (solve i1)) /\
     map bt_length (in_bin_types i1) = [200; 162] /\ map it_length (in_item_types i1) = [40; 84] /\
     map bt_copies (in_bin_types i1) = [2; 1] /\ map it_copies (in_item_types i1) = [3; 1]) /\
  xbox_packing (built (ex_rb OVariableSizedBinPacking)) [mkXD 0 1 [mkBP 0 (mkV 0 0 0) XYZ; mkBP 0 (mkV 4 0 0) XYZ; mkBP 0 (mkV 0 5 0) XYZ]; mkXD 1 1 [mkBP 1 (mkV 0 0 0) YXZ]] /\
  ball_packed (built (ex_rb OVariableSizedBinPacking)) [mkXD 0 1 [mkBP 0 (mkV 0 0 0) XYZ; mkBP 0 (mkV 4 0 0) XYZ; mkBP 0 (mkV 0 5 0) XYZ]; mkXD 1 1 [mkBP 1 (mkV 0 0 0) YXZ]].
Proof.
  split; [apply relaxable_checks_ok; vm_compute; reflexivity|]. split.
  { intro solve. eexists. split; [vm_compute; reflexivity|]. repeat split; vm_compute; reflexivity. }
  split; [apply xpacking_checks_ok; vm_compute; reflexivity|apply full_checks_ok; vm_compute; reflexivity].
Qed.

(** ** Bounds that are wrong *)

(** Optional copies: with two 10 x 10 x 2 items of which one is mandatory, the bound is two
    bins although packing one item in one bin is a feasible solution, which the
    comparison of solutions prefers to the complete one. *)
Theorem C70_minimum_refuted : exists i ds one two s1 s2, xrelaxable i /\ bx_objective i = OBinPacking /\ xoptimize_trivial_bound i [] = XcBins 2 /\
  xbox_packing i ds /\ xin_order i ds /\ bbins_used ds = 1 /\
  xhistory i xaccept one [] = Some s1 /\ xview s1 = ds /\ xsol_feasible s1 = true /\
  xhistory i xaccept two [] = Some s2 /\ xsol_feasible s2 = true /\ ball_packed i (xview s2) /\ xsol_lt i s2 s1 = Some true.
Proof.
  set (calls := [WSetObjective OBinPacking; WAddBin (mkV 10 10 2); WSetBinCopies 0 2; WAddItem (mkV 10 10 2); WSetItemCopies 0 2; WSetItemCopiesMin 0 1]).
  exists (built calls), [mkXD 0 1 [mkBP 0 (mkV 0 0 0) XYZ]], [XAddBin 0 1; XAddItem 0 (mkBP 0 (mkV 0 0 0) XYZ)],
    [XAddBin 0 2; XAddItem 0 (mkBP 0 (mkV 0 0 0) XYZ)]. eexists. eexists.
  split; [apply relaxable_checks_ok; vm_compute; reflexivity|]. split; [reflexivity|]. split; [vm_compute; reflexivity|].
  split; [apply xpacking_checks_ok; vm_compute; reflexivity|]. split; [apply order_used_checks_ok; vm_compute; reflexivity|]. split; [reflexivity|].
  split; [vm_compute; reflexivity|]. split; [vm_compute; reflexivity|]. split; [vm_compute; reflexivity|].
  split; [vm_compute; reflexivity|]. split; [vm_compute; reflexivity|]. split; [apply full_checks_ok; vm_compute; reflexivity|vm_compute; reflexivity].
Qed.
Print Assumptions C70_minimum_refuted.

(** Bins that are not used in the order of the instance: the bound is two bins (of the
    first type) although one bin of the second type is enough. *)
Theorem C70_order_refuted : exists i ds, xrelaxable i /\ bx_objective i = OBinPacking /\ xoptimize_trivial_bound i [] = XcBins 2 /\
  xbox_packing i ds /\ ball_packed i ds /\ bbins_used ds = 1.
Proof.
  set (calls := [WSetObjective OBinPacking; WAddBin (mkV 10 10 2); WSetBinCopies 0 2; WAddBin (mkV 20 10 2); WAddItem (mkV 10 5 2); WSetItemCopies 0 4]).
  exists (built calls), [mkXD 1 1 [mkBP 0 (mkV 0 0 0) XYZ; mkBP 0 (mkV 10 0 0) XYZ; mkBP 0 (mkV 0 5 0) XYZ; mkBP 0 (mkV 10 5 0) XYZ]].
  split; [apply relaxable_checks_ok; vm_compute; reflexivity|]. split; [reflexivity|]. split; [vm_compute; reflexivity|].
  split; [apply xpacking_checks_ok; vm_compute; reflexivity|]. split; [apply full_checks_ok; vm_compute; reflexivity|reflexivity].
Qed.
Print Assumptions C70_order_refuted.

(** Items with a negative profit: the knapsack bound is below the profit of the empty
    packing. *)
Theorem C70_negative_profit_refuted : exists i order q, xrelaxable i /\ bx_objective i = OKnapsack /\
  sorted_by (xtrivial_before i) (xtrivial_items i) order /\ xoptimize_trivial_bound i order = XcProfit q /\
  xbox_packing i [] /\ (q < bnet_profit i [])%Q.
Proof.
  set (calls := [WSetObjective OKnapsack; WAddBin (mkV 10 10 2); WAddItem (mkV 5 5 2); WSetItemProfit 0 (-3)]).
  exists (built calls), [0%nat]. eexists.
  split; [apply relaxable_checks_ok; vm_compute; reflexivity|]. split; [reflexivity|].
  split. { split; [vm_compute; apply Permutation_refl|]. repeat constructor. }
  split; [vm_compute; reflexivity|]. split; [apply xpacking_checks_ok; vm_compute; reflexivity|vm_compute; reflexivity].
Qed.
Print Assumptions C70_negative_profit_refuted.

(** Without items the number of copies of an unlimited bin is 0 after the build, which
    the onedimensional builder refuses. *)
Theorem C70_no_items_refuted : exists calls b i d, wrun ODefault calls = Some b /\ w_build b = WBuilt i d /\ bx_objective i = OKnapsack /\
  xbox_packing i [] /\ forall solve, xoptimize_onedimensional_bound solve i = XcThrow.
Proof.
  exists [WSetObjective OKnapsack; WAddBin (mkV 10 10 2); WSetBinCopies 0 (-1)]. eexists. eexists. eexists.
  split; [vm_compute; reflexivity|]. split; [vm_compute; reflexivity|]. split; [reflexivity|].
  split; [apply xpacking_checks_ok; vm_compute; reflexivity|]. intro solve. vm_compute. reflexivity.
Qed.
Print Assumptions C70_no_items_refuted.

(** A mandatory bin: the box instance is built for bin packing, but the
    onedimensional builder refuses it, whatever the solver: [optimize] ends with an
    exception on a solvable instance. *)
Theorem C70_mandatory_bins_refuted : exists calls b i d ds, wrun ODefault calls = Some b /\ w_build b = WBuilt i d /\ bx_objective i = OBinPacking /\
  xbox_packing i ds /\ ball_packed i ds /\ forall solve, xoptimize_onedimensional_bound solve i = XcThrow.
Proof.
  exists [WSetObjective OBinPacking; WAddBin (mkV 10 10 2); WSetBinCopies 0 2; WSetBinCopiesMin 0 1; WAddItem (mkV 5 5 2)].
  eexists. eexists. eexists. exists [mkXD 0 1 [mkBP 0 (mkV 0 0 0) XYZ]].
  split; [vm_compute; reflexivity|]. split; [vm_compute; reflexivity|]. split; [reflexivity|].
  split; [apply xpacking_checks_ok; vm_compute; reflexivity|]. split; [apply full_checks_ok; vm_compute; reflexivity|].
  intro solve. vm_compute. reflexivity.
Qed.
Print Assumptions C70_mandatory_bins_refuted.

