(** * C57: cheap bounds and last step of the rectangle optimize function *)

From Coq Require Import List ZArith QArith Bool Lia Lqa Sorted Permutation.
From Verif Require Import Util Common_Model OneDim_Model OneDim_Spec OneDimBuilder_Model OneDimBuilder_Spec OneDimDff_Spec OneDimBounds_Spec
  Rect_Model Rect_Spec RectSol_Model RectSol_Spec RectSol_Props RectBuilder_Model Reduc_Props Bar_Model Bar_Spec RectTree_Props
  RectBounds_Model RectBounds_Spec RectBounds_Proof.
Import ListNotations.
Open Scope Z_scope.

(** The trivial bounds are right for every packing: profit net of penalties (knapsack),
    number of bins (bin packing, bins in order), extent (open dimensions). *)
Theorem C57_trivial_bounds : forall i order, relaxable i ->
  (rin_objective i = OKnapsack -> (forall it, In it (rin_items i) -> (0 <= ri_profit it)%Q) /\ sorted_by (rtrivial_before i) (rtrivial_items i) order) ->
  rclaim_right i (optimize_trivial_bound i order).
Proof. exact trivial_right. Qed.
Print Assumptions C57_trivial_bounds.

(** If the bounds of the onedimensional solver are right, then so is what is claimed
    from the onedimensional relaxation. *)
Theorem C57_onedimensional : forall i solve, relaxable i ->
  rin_objective i = OBinPacking \/ rin_objective i = OKnapsack \/ rin_objective i = OVariableSizedBinPacking ->
  (rin_objective i = OBinPacking -> forall bt, In bt (rin_bins i) -> rb_copies_min bt = 0) ->
  (forall i1, bounds1_right i1 (solve i1)) ->
  rclaim_right i (optimize_onedimensional_bound solve i).
Proof. exact onedimensional_right. Qed.
Print Assumptions C57_onedimensional.

(** The comment of the code, made precise: any complete packing of the rectangles is a
    packing of their areas in the onedimensional instance that is built, with the same
    bins, profit and cost. *)
Theorem C57_relaxation : forall i ds, relaxable i ->
  (rin_objective i = OBinPacking -> forall bt, In bt (rin_bins i) -> rb_copies_min bt = 0) ->
  bar_packing i ds -> rall_packed i ds ->
  exists b i1, calls_from b_new (relax_calls i) = BOk b /\ b_build b = Built i1 /\
    PackingOK i1 (map relax_desc ds) /\ available_bins i1 (map relax_desc ds) /\ all_packed i1 (map relax_desc ds) /\
    zsum bd_copies (map relax_desc ds) = rbins_used ds /\
    (profit_of i1 (map relax_desc ds) == rprofit i ds)%Q /\ (cost_of i1 (map relax_desc ds) == packing_cost i ds)%Q.
Proof.
  intros i ds Hr Hmin BP Hall. destruct (relax_builds i Hr Hmin) as (i1 & Hb). exists (builder1 i), i1.
  split; [apply relax_builder; exact Hr|]. split; [exact Hb|]. destruct BP as [Hp He Hbins Hitems].
  split; [eapply relax_packing; eauto|]. split; [eapply relax_available; eauto; intros t Ht; apply Hbins; exact Ht|]. split; [eapply relax_all; eauto|].
  split; [eapply relax_count; eauto|]. split; [eapply relax_profit; eauto|eapply relax_cost; eauto].
Qed.
Print Assumptions C57_relaxation.

(** ** Examples *)

(** Checks by computation, in bins without defects and resources. *)
Definition bar_checks (i : RInstance) (ds : list RDesc) : bool :=
  packing_checks i ds
  && forallb (fun d => forallb (fun p => ri_eligibility (ritem i (pl_type p)) =? -1) (rd_items d)) ds
  && forallb (fun t => rb_copies_min (rbin i t) <=? rused_bins t ds) (seq 0 (length (rin_bins i)))
  && forallb (fun x => ri_copies_min (ritem i x) <=? rpacked x ds) (seq 0 (length (rin_items i))).
Lemma bar_checks_ok : forall i ds, bar_checks i ds = true -> bar_packing i ds.
Proof.
  intros i ds H. unfold bar_checks in H. rewrite !andb_true_iff, !forallb_forall in H. destruct H as (((H1 & H2) & H3) & H4).
  destruct (packing_checks_ok i ds H1) as (P & _ & B). constructor.
  - exact P.
  - intros d p Hd Hp. left. specialize (H2 d Hd). rewrite forallb_forall in H2. apply Z.eqb_eq, H2, Hp.
  - intros t Ht. split; [apply Z.leb_le, H3, in_seq; lia|apply B; exact Ht].
  - intros x Hx. apply Z.leb_le, H4, in_seq. lia.
Qed.
Definition full_checks (i : RInstance) (ds : list RDesc) : bool :=
  forallb (fun x => rpacked x ds =? ri_copies (ritem i x)) (seq 0 (length (rin_items i))).
Lemma full_checks_ok : forall i ds, full_checks i ds = true -> rall_packed i ds.
Proof. intros i ds H x Hx. unfold full_checks in H. rewrite forallb_forall in H. apply Z.eqb_eq, H, in_seq. lia. Qed.
Definition order_used_checks (i : RInstance) (ds : list RDesc) : bool :=
  forallb (fun u => (rused_bins u ds <=? 0) || forallb (fun t => rused_bins t ds =? rb_copies (rbin i t)) (seq 0 u)) (seq 0 (length (rin_bins i))).
Lemma order_used_checks_ok : forall i ds, order_used_checks i ds = true -> rin_order i ds.
Proof.
  intros i ds H t u Htu Hu. unfold order_used_checks in H. rewrite forallb_forall in H. specialize (H u ltac:(apply in_seq; lia)).
  apply orb_true_iff in H. destruct H as [H|H]; [apply Z.leb_le in H; lia|]. rewrite forallb_forall in H. apply Z.eqb_eq, H, in_seq. lia.
Qed.
Definition relaxable_checks (i : RInstance) : bool :=
  forallb (fun it => (0 <? ri_x it) && (0 <? ri_y it) && (0 <? ri_copies it)) (rin_items i)
  && forallb (fun bt => (1 <=? rb_x bt) && (1 <=? rb_y bt) && (1 <=? rb_copies bt) && (0 <=? rb_copies_min bt) && (rb_copies_min bt <=? rb_copies bt)
       && negb (Qle_bool (rb_cost bt) 0)) (rin_bins i)
  && (rnumber_of_items i <=? max_item_pos).
Lemma relaxable_checks_ok : forall i, relaxable_checks i = true -> relaxable i.
Proof.
  intros i H. unfold relaxable_checks in H. rewrite !andb_true_iff, !forallb_forall in H. destruct H as ((H1 & H2) & H3). constructor.
  - intros it Hit. specialize (H1 it Hit). rewrite !andb_true_iff, !Z.ltb_lt in H1. lia.
  - intros bt Hbt. specialize (H2 bt Hbt). rewrite !andb_true_iff, !Z.leb_le, negb_true_iff in H2. destruct H2 as (((((A & B) & C) & D) & E) & F).
    repeat split; try lia. destruct (Qlt_le_dec 0 (rb_cost bt)) as [L|L]; [exact L|]. apply Qle_bool_iff in L. congruence.
  - apply Z.leb_le. exact H3.
Qed.

Definition no_rect : RInstance := mkRInst ODefault default_params [] [].
Definition built (calls : list UCall) : RInstance :=
  match urun calls with Some b => match u_build b with UBuilt i _ => i | _ => no_rect end | None => no_rect end.

(** Three 4 x 5 and one 7 x 6 in bins 10 x 10 (two) and 9 x 9: 102 of area, two bins. *)
Definition ex_rb (o : Objective) : list UCall :=
  [USetObjective o; UAddBin 10 10; USetBinCopies 0 2; USetBinCost 0 7; UAddBin 9 9; USetBinCopies 1 1; USetBinCost 1 5;
   UAddItem 4 5 true; USetItemCopies 0 3; USetItemProfit 0 10; UAddItem 7 6 false; USetItemProfit 1 45].
Definition ex_rb_packing : list RDesc :=
  [mkRD 0 1 [mkPl 0 0 0 false; mkPl 0 4 0 false; mkPl 0 0 5 false]; mkRD 0 1 [mkPl 1 0 0 true]].
Example C57_trivial_example : relaxable (built (ex_rb OBinPacking)) /\ optimize_trivial_bound (built (ex_rb OBinPacking)) [] = RcBins 2 /\
  bar_packing (built (ex_rb OBinPacking)) ex_rb_packing /\ rall_packed (built (ex_rb OBinPacking)) ex_rb_packing /\
  rin_order (built (ex_rb OBinPacking)) ex_rb_packing /\ rbins_used ex_rb_packing = 2.
Proof.
  split; [apply relaxable_checks_ok; vm_compute; reflexivity|]. split; [vm_compute; reflexivity|]. split; [apply bar_checks_ok; vm_compute; reflexivity|].
  split; [apply full_checks_ok; vm_compute; reflexivity|]. split; [apply order_used_checks_ok; vm_compute; reflexivity|reflexivity].
Qed.

(** The knapsack bound: 100 of area, the 7 x 6 item first (45/42), then 58 of the 60 of
    the other item type. *)
Definition ex_rbk : list UCall :=
  [USetObjective OKnapsack; UAddBin 10 10; UAddItem 4 5 true; USetItemCopies 0 3; USetItemProfit 0 10; UAddItem 7 6 false; USetItemProfit 1 45].
Definition ex_rbk_packing : list RDesc := [mkRD 0 1 [mkPl 0 0 0 false; mkPl 0 0 5 false; mkPl 1 4 0 true]].
Example C57_knapsack_example : relaxable (built ex_rbk) /\ sorted_by (rtrivial_before (built ex_rbk)) (rtrivial_items (built ex_rbk)) [1; 0]%nat /\
  (forall it, In it (rin_items (built ex_rbk)) -> (0 <= ri_profit it)%Q) /\
  (exists q, optimize_trivial_bound (built ex_rbk) [1; 0]%nat = RcProfit q /\ (q == 74)%Q) /\
  bar_packing (built ex_rbk) ex_rbk_packing /\ (rnet_profit (built ex_rbk) ex_rbk_packing == 65)%Q.
Proof.
  split; [apply relaxable_checks_ok; vm_compute; reflexivity|]. split.
  { split; [vm_compute; apply perm_swap|]. repeat constructor; vm_compute; reflexivity. }
  split. { assert (X : forallb (fun it => Qle_bool 0 (ri_profit it)) (rin_items (built ex_rbk)) = true) by (vm_compute; reflexivity).
    rewrite forallb_forall in X. intros it Hit. apply Qle_bool_iff, X, Hit. }
  split. { eexists. split; [vm_compute; reflexivity|vm_compute; reflexivity]. }
  split; [apply bar_checks_ok; vm_compute; reflexivity|vm_compute; reflexivity].
Qed.

Definition ex_rbo : list UCall := [USetObjective OOpenDimensionX; UAddBin 10 4; UAddItem 7 2 false; UAddItem 3 3 true].
Example C57_open_example : relaxable (built ex_rbo) /\ optimize_trivial_bound (built ex_rbo) [] = RcX 6 /\
  bar_packing (built ex_rbo) [mkRD 0 1 [mkPl 0 0 0 false; mkPl 1 7 0 false]] /\
  rall_packed (built ex_rbo) [mkRD 0 1 [mkPl 0 0 0 false; mkPl 1 7 0 false]] /\
  rightmost (built ex_rbo) [mkPl 0 0 0 false; mkPl 1 7 0 false] = 10.
Proof.
  split; [apply relaxable_checks_ok; vm_compute; reflexivity|]. split; [vm_compute; reflexivity|]. split; [apply bar_checks_ok; vm_compute; reflexivity|].
  split; [apply full_checks_ok; vm_compute; reflexivity|vm_compute; reflexivity].
Qed.

(** A onedimensional solver whose bounds are right: 0 bins, cost 0 and, for the profit,
    the sum of the positive profits would do; the relaxation is built and its claim is
    that of the solver. *)
Example C57_onedimensional_example : relaxable (built (ex_rb OVariableSizedBinPacking)) /\
  (forall solve, exists i1, optimize_onedimensional_bound solve (built (ex_rb OVariableSizedBinPacking)) = RcCost (b1_cost (solve i1)) /\
     map bt_length (in_bin_types i1) = [100; 81] /\ map it_length (in_item_types i1) = [20; 42] /\
     map bt_copies (in_bin_types i1) = [2; 1] /\ map it_copies (in_item_types i1) = [3; 1]) /\
  bar_packing (built (ex_rb OVariableSizedBinPacking)) [mkRD 0 1 [mkPl 0 0 0 false; mkPl 0 4 0 false; mkPl 0 0 5 false]; mkRD 1 1 [mkPl 1 0 0 true]] /\
  rall_packed (built (ex_rb OVariableSizedBinPacking)) [mkRD 0 1 [mkPl 0 0 0 false; mkPl 0 4 0 false; mkPl 0 0 5 false]; mkRD 1 1 [mkPl 1 0 0 true]].
Proof.
  split; [apply relaxable_checks_ok; vm_compute; reflexivity|]. split.
  { intro solve. eexists. split; [vm_compute; reflexivity|]. repeat split; vm_compute; reflexivity. }
  split; [apply bar_checks_ok; vm_compute; reflexivity|apply full_checks_ok; vm_compute; reflexivity].
Qed.

(** ** Bounds that are wrong *)

(** Optional copies: with two 10 x 10 items of which one is mandatory, the bound is two
    bins although packing one item in one bin is a feasible solution, which the
    comparison of solutions prefers to the complete one. *)
Theorem C57_minimum_refuted : exists i ds one two s1 s2, relaxable i /\ rin_objective i = OBinPacking /\ optimize_trivial_bound i [] = RcBins 2 /\
  bar_packing i ds /\ rin_order i ds /\ rbins_used ds = 1 /\
  rhistory i raccept one [] = Some s1 /\ rview s1 = ds /\ rs_feasible s1 = true /\
  rhistory i raccept two [] = Some s2 /\ rs_feasible s2 = true /\ rall_packed i (rview s2) /\ rsol_lt i s2 s1 = Some true.
Proof.
  set (calls := [USetObjective OBinPacking; UAddBin 10 10; USetBinCopies 0 2; UAddItem 10 10 true; USetItemCopies 0 2; USetItemCopiesMin 0 1]).
  exists (built calls), [mkRD 0 1 [mkPl 0 0 0 false]], [RAddBin 0 1; RAddItem 0 (mkPl 0 0 0 false)],
    [RAddBin 0 2; RAddItem 0 (mkPl 0 0 0 false)]. eexists. eexists.
  split; [apply relaxable_checks_ok; vm_compute; reflexivity|]. split; [reflexivity|]. split; [vm_compute; reflexivity|].
  split; [apply bar_checks_ok; vm_compute; reflexivity|]. split; [apply order_used_checks_ok; vm_compute; reflexivity|]. split; [reflexivity|].
  split; [vm_compute; reflexivity|]. split; [vm_compute; reflexivity|]. split; [vm_compute; reflexivity|].
  split; [vm_compute; reflexivity|]. split; [vm_compute; reflexivity|]. split; [apply full_checks_ok; vm_compute; reflexivity|vm_compute; reflexivity].
Qed.
Print Assumptions C57_minimum_refuted.

(** Bins that are not used in the order of the instance: the bound is two bins (of the
    first type) although one bin of the second type is enough. *)
Theorem C57_order_refuted : exists i ds, relaxable i /\ rin_objective i = OBinPacking /\ optimize_trivial_bound i [] = RcBins 2 /\
  bar_packing i ds /\ rall_packed i ds /\ rbins_used ds = 1.
Proof.
  set (calls := [USetObjective OBinPacking; UAddBin 10 10; USetBinCopies 0 2; UAddBin 20 10; UAddItem 10 5 true; USetItemCopies 0 4]).
  exists (built calls), [mkRD 1 1 [mkPl 0 0 0 false; mkPl 0 10 0 false; mkPl 0 0 5 false; mkPl 0 10 5 false]].
  split; [apply relaxable_checks_ok; vm_compute; reflexivity|]. split; [reflexivity|]. split; [vm_compute; reflexivity|].
  split; [apply bar_checks_ok; vm_compute; reflexivity|]. split; [apply full_checks_ok; vm_compute; reflexivity|reflexivity].
Qed.
Print Assumptions C57_order_refuted.

(** Items with a negative profit: the knapsack bound is below the profit of the empty
    packing. *)
Theorem C57_negative_profit_refuted : exists i order q, relaxable i /\ rin_objective i = OKnapsack /\
  sorted_by (rtrivial_before i) (rtrivial_items i) order /\ optimize_trivial_bound i order = RcProfit q /\
  bar_packing i [] /\ (q < rnet_profit i [])%Q.
Proof.
  set (calls := [USetObjective OKnapsack; UAddBin 10 10; UAddItem 5 5 true; USetItemProfit 0 (-3)]).
  exists (built calls), [0%nat]. eexists.
  split; [apply relaxable_checks_ok; vm_compute; reflexivity|]. split; [reflexivity|].
  split. { split; [vm_compute; apply Permutation_refl|]. repeat constructor. }
  split; [vm_compute; reflexivity|]. split; [apply bar_checks_ok; vm_compute; reflexivity|vm_compute; reflexivity].
Qed.
Print Assumptions C57_negative_profit_refuted.

(** Without items the number of copies of an unlimited bin is 0 after the build, which
    the onedimensional builder refuses. *)
Theorem C57_no_items_refuted : exists calls b i d, urun calls = Some b /\ u_build b = UBuilt i d /\ rin_objective i = OKnapsack /\
  bar_packing i [] /\ forall solve, optimize_onedimensional_bound solve i = RcThrow.
Proof.
  exists [USetObjective OKnapsack; UAddBin 10 10; USetBinCopies 0 (-1)]. eexists. eexists. eexists.
  split; [vm_compute; reflexivity|]. split; [vm_compute; reflexivity|]. split; [reflexivity|].
  split; [apply bar_checks_ok; vm_compute; reflexivity|]. intro solve. vm_compute. reflexivity.
Qed.
Print Assumptions C57_no_items_refuted.

(** A mandatory bin: the rectangle instance is built for bin packing, but the
    onedimensional builder refuses it, whatever the solver: [optimize] ends with an
    exception on a solvable instance. *)
Theorem C57_mandatory_bins_refuted : exists calls b i d ds, urun calls = Some b /\ u_build b = UBuilt i d /\ rin_objective i = OBinPacking /\
  bar_packing i ds /\ rall_packed i ds /\ forall solve, optimize_onedimensional_bound solve i = RcThrow.
Proof.
  exists [USetObjective OBinPacking; UAddBin 10 10; USetBinCopies 0 2; USetBinCopiesMin 0 1; UAddItem 5 5 true].
  eexists. eexists. eexists. exists [mkRD 0 1 [mkPl 0 0 0 false]].
  split; [vm_compute; reflexivity|]. split; [vm_compute; reflexivity|]. split; [reflexivity|].
  split; [apply bar_checks_ok; vm_compute; reflexivity|]. split; [apply full_checks_ok; vm_compute; reflexivity|].
  intro solve. vm_compute. reflexivity.
Qed.
Print Assumptions C57_mandatory_bins_refuted.

(** ** The last bin *)

(** A best solution with all items in at least two different bins: the solution rebuilt
    after the second solve of the last bin lacks the items of the bin before it.  When all
    copies are mandatory it is infeasible and never replaces the best one: the step has no
    effect. *)
Theorem C57_last_bin_lost : forall i cb calls1 calls2 best sub ds e d d1 s, rwf_resources i -> rsane_resources i ->
  rcopies_nonneg calls1 calls2 -> rhistory i cb calls1 calls2 = Some best ->
  rview best = ds ++ [e; d] -> packing_ok i (rview best) -> rall_packed i (rview best) -> rd_items e <> [] ->
  rview sub = [d1] -> rd_copies d1 = 1 -> rc_number_of_items (rs_core sub) = Z.of_nat (length (rd_items d1)) ->
  post_process i cb best sub = Some (Some s) ->
  rc_number_of_items (rs_core s) = rnumber_of_items i - rd_copies e * Z.of_nat (length (rd_items e)) /\
  rc_number_of_items (rs_core s) < rnumber_of_items i /\
  ((forall x, (x < length (rin_items i))%nat -> ri_copies_min (ritem i x) = ri_copies (ritem i x)) ->
   rs_feasible s = false /\ rsol_lt i best s = Some false).
Proof. exact last_bin_lost. Qed.
Print Assumptions C57_last_bin_lost.

(** The second solve of the last bin of a best solution finds a smaller corner for the
    last bin (4 x 5 instead of the whole bin) with the same items; the improvement is
    lost, the rebuilt solution being without the items of the first bin. *)
Theorem C57_last_bin_refuted : exists i best sub s, rwf_resources i /\ rin_objective i = OBinPackingWithLeftovers /\
  rhistory i raccept [RAddBin 0 1; RAddItem 0 (mkPl 0 0 0 false); RAddBin 0 1; RAddItem 1 (mkPl 1 5 6 false)] [] = Some best /\
  rs_feasible best = true /\ packing_ok i (rview best) /\ rall_packed i (rview best) /\
  rview sub = [mkRD 0 1 [mkPl 0 0 0 true]] /\ post_process i raccept best sub = Some (Some s) /\
  rview s = [mkRD 0 1 [mkPl 1 0 0 true]] /\ rs_feasible s = false /\ rsol_lt i best s = Some false /\
  exists better, rhistory i raccept [RAddBin 0 1; RAddItem 0 (mkPl 0 0 0 false)] [RAppendBin sub 0 1 [0%nat] [1%nat]] = Some better /\ rsol_lt i best better = Some true.
Proof.
  set (calls := [USetObjective OBinPackingWithLeftovers; UAddBin 10 10; USetBinCopies 0 2; UAddItem 10 10 true; UAddItem 5 4 false]).
  set (sub_calls := [USetObjective OBinPackingWithLeftovers; UAddBin 10 10; USetBinCopies 0 1; UAddItem 5 4 false]).
  exists (built calls). eexists. exists (match rhistory (built sub_calls) raccept [RAddBin 0 1; RAddItem 0 (mkPl 0 0 0 true)] [] with Some s => s | None => rsol_new no_rect end). eexists.
  split. { intros x t Hx Ht. assert (L : (length (rin_items (built calls)) = 2)%nat) by (vm_compute; reflexivity). assert (M : (length (rin_bins (built calls)) = 1)%nat) by (vm_compute; reflexivity).
    rewrite L in Hx. rewrite M in Ht. destruct t as [|t]; [|lia].
    assert (R : rb_resources (rbin (built calls) 0) = []) by (vm_compute; reflexivity). rewrite R. cbn [length].
    assert (N : nth 0 (ri_resource_ids (ritem (built calls) x)) [] = []) by (destruct x as [|[|x]]; [vm_compute; reflexivity|vm_compute; reflexivity|lia]).
    rewrite N. split; [constructor|]. intro r. split; [intros []|lia]. }
  split; [reflexivity|]. split; [vm_compute; reflexivity|]. split; [vm_compute; reflexivity|].
  split; [apply (bp_packing (built calls)), bar_checks_ok; vm_compute; reflexivity|]. split; [apply full_checks_ok; vm_compute; reflexivity|].
  split; [vm_compute; reflexivity|]. split; [vm_compute; reflexivity|]. split; [vm_compute; reflexivity|]. split; [vm_compute; reflexivity|]. split; [vm_compute; reflexivity|].
  eexists. split; vm_compute; reflexivity.
Qed.
Print Assumptions C57_last_bin_refuted.
