(** * C71: cheap bounds of the boxstacks optimize function *)

From Coq Require Import List ZArith QArith Bool Lia Lqa Sorted Permutation Arith.
From Verif Require Import Util Common_Model OneDim_Model OneDimBuilder_Model OneDimBounds_Spec Rect_Model Box_Model Box_Spec Stack_Model Stack_Spec
  BoxBuilder_Model BoxBounds_Model BoxBounds_Spec BoxBounds_Proof StackBounds_Model StackBounds_Spec StackBounds_Proof.
From Verif Require RectBounds_Model BoxBounds_Props Stack_Props.
Import ListNotations.
Open Scope Z_scope.

(** The trivial bounds are right for every packing of items that are not nested: profit
    (knapsack), number of bins (bin packing, bins in order). *)
Theorem C71_trivial_bounds : forall i order, krelaxable i -> unnested i ->
  (kx_objective i = OKnapsack -> (forall it, In it (kx_items i) -> (0 <= ki_profit it)%Q) /\ sorted_by (ktrivial_before i) (ktrivial_items i) order) ->
  kclaim_right i (koptimize_trivial_bound i order).
Proof. exact ktrivial_right. Qed.
Print Assumptions C71_trivial_bounds.

(** If the bounds of the box solver are right, then so is what is claimed from the box
    relaxation, when nested items stay upright. *)
Theorem C71_box_bound : forall i solve, krelaxable i -> nested_upright i ->
  kx_objective i = OKnapsack \/ kx_objective i = OBinPacking \/ kx_objective i = OVariableSizedBinPacking ->
  (forall j, xbounds_right j (solve j)) -> kclaim_right i (koptimize_box_bound solve i).
Proof. exact kbox_right. Qed.
Print Assumptions C71_box_bound.

(** The comment of the code, made precise: any complete packing of the stacks is a
    packing of the boxes of the instance that is built, within the maximum weights, with
    the same bins, the same numbers of copies of each item type, profit and cost. *)
Theorem C71_relaxation : forall i ds, krelaxable i -> nested_upright i -> kx_objective i <> OOpenDimensionX -> kx_objective i <> OOpenDimensionY ->
  kpacking i ds -> kall_packed i ds ->
  exists b j e xs, wcalls_from (w_new ODefault) (kbox_calls i) = WOk b /\ w_build b = WBuilt j e /\ bx_objective j = kx_objective i /\
    xbox_packing j xs /\ xweights_ok j xs /\ ball_packed j xs /\
    map (fun d => (xd_type d, xd_copies d)) xs = map (fun d => (kd_type d, kd_copies d)) ds /\
    (bprofit j xs == kprofit_of i ds)%Q /\ (xpacking_cost j xs == kcost_of i ds)%Q.
Proof.
  intros i ds Hr Hup Ox Oy Hp Ha. destruct (kbox_built i Hr Hup Ox Oy) as (j & e & E & Oj & Hb & Hm).
  exists (kbox_builder i), j, e, (map (kbox_desc j) ds).
  split; [apply kbox_calls_ok; exact Hr|]. split; [exact E|]. split; [exact Oj|].
  split. { apply (embed_box i j Hb ds Hp). intros x Hx. rewrite (Hm x Hx). pose proof (Ha x Hx) as A. destruct (kx_objective i); rewrite ?A; try lia.
    destruct (kre_items i Hr (kitem i x) (nth_In _ _ Hx)) as (_ & _ & C & _). lia. }
  split; [apply (embed_weights i j Hb ds Hp)|]. split; [apply (embed_all i j Hb ds Ha)|].
  split; [rewrite map_map; apply map_ext; intro d; reflexivity|].
  split; [apply (embed_profit i j Hb ds Hp)|apply (embed_cost i j Hb ds Hp)].
Qed.
Print Assumptions C71_relaxation.

(** ** Examples *)

(** Checks by computation. *)
Definition axes3 : list Axis := [AX; AY; AZ].
Definition kitem_checks (i : KInstance) (s : KSDesc) (p : nat * Rotation) : bool :=
  (fst p <? length (kx_items i))%nat && existsb (fun r => rot_eqb r (snd p)) (ki_rotations (kitem i (fst p)))
  && (v_x (rotate (ki_box (kitem i (fst p))) (snd p)) =? sd_xe s - sd_x s) && (v_y (rotate (ki_box (kitem i (fst p))) (snd p)) =? sd_ye s - sd_y s).
Definition kstack_checks (i : KInstance) (bt : KBin) (s : KSDesc) : bool :=
  (0 <=? sd_x s) && (sd_x s <? sd_xe s) && (sd_xe s <=? v_x (kb_box bt)) && (0 <=? sd_y s) && (sd_y s <? sd_ye s) && (sd_ye s <=? v_y (kb_box bt))
  && (stack_height i (sd_items s) <=? v_z (kb_box bt)) && forallb (kitem_checks i s) (sd_items s).
Definition kapart (s1 s2 : KSDesc) : bool :=
  (sd_xe s1 <=? sd_x s2) || (sd_xe s2 <=? sd_x s1) || (sd_ye s1 <=? sd_y s2) || (sd_ye s2 <=? sd_y s1).
Fixpoint kpairs (ss : list KSDesc) : bool := match ss with [] => true | s :: l => forallb (kapart s) l && kpairs l end.
Lemma kpairs_ok : forall ss, kpairs ss = true -> ForallOrdPairs sapart ss.
Proof.
  intros ss. induction ss as [|s l IH]; intro H; [constructor|]. cbn [kpairs] in H. apply andb_true_iff in H. destruct H as [H1 H2]. constructor; [|apply IH; exact H2].
  rewrite Forall_forall. rewrite forallb_forall in H1. intros q Hq. specialize (H1 q Hq). unfold kapart in H1. rewrite !orb_true_iff, !Z.leb_le in H1. unfold sapart. tauto.
Qed.
Definition kweight_checks (i : KInstance) (d : KDesc) : bool :=
  match kb_max_weight (kbin i (kd_type d)) with Some m => Qle_bool (qsum (kweight i) (kd_items d)) (m * PSTOL) | None => true end.
Definition kpacking_checks (i : KInstance) (ds : list KDesc) : bool :=
  forallb (fun d => (kd_type d <? length (kx_bins i))%nat && (1 <=? kd_copies d) && forallb (kstack_checks i (kbin i (kd_type d))) (kd_stacks d)
    && kpairs (kd_stacks d) && kweight_checks i d) ds
  && forallb (fun x => (ki_copies_min (kitem i x) <=? kpacked x ds) && (kpacked x ds <=? ki_copies (kitem i x))) (seq 0 (length (kx_items i)))
  && forallb (fun t => (kb_copies_min (kbin i t) <=? kused t ds) && (kused t ds <=? kb_copies (kbin i t))) (seq 0 (length (kx_bins i))).
Lemma kpacking_checks_ok : forall i ds, kpacking_checks i ds = true -> kpacking i ds.
Proof.
  intros i ds H. unfold kpacking_checks in H. rewrite !andb_true_iff, !forallb_forall in H. destruct H as ((H1 & H2) & H3). constructor.
  - intros d Hd. specialize (H1 d Hd). rewrite !andb_true_iff, forallb_forall in H1. destruct H1 as ((((A & B) & C) & D) & F). split; [apply Nat.ltb_lt; exact A|]. split; [apply Z.leb_le; exact B|].
    assert (G : forall s, In s (kd_stacks d) -> (0 <= sd_x s < sd_xe s /\ sd_xe s <= v_x (kb_box (kbin i (kd_type d))) /\ 0 <= sd_y s < sd_ye s /\ sd_ye s <= v_y (kb_box (kbin i (kd_type d))))
      /\ stack_height i (sd_items s) <= v_z (kb_box (kbin i (kd_type d))) /\ forallb (kitem_checks i s) (sd_items s) = true).
    { intros s Hs. specialize (C s Hs). unfold kstack_checks in C. rewrite !andb_true_iff, !Z.leb_le, !Z.ltb_lt in C. tauto. }
    split; [constructor|split].
    + intros s Hs. apply (G s Hs).
    + intros s Hs. apply (G s Hs).
    + apply kpairs_ok. exact D.
    + unfold total_ok, most. unfold kweight_checks in F. destruct (kb_max_weight (kbin i (kd_type d))); [apply Qle_bool_iff; exact F|exact Logic.I].
    + intros s Hs p Hp. destruct (G s Hs) as (_ & _ & K). rewrite forallb_forall in K. specialize (K p Hp). unfold kitem_checks in K. rewrite !andb_true_iff, !Z.eqb_eq in K. destruct K as (((K1 & K2) & K3) & K4).
      split; [apply Nat.ltb_lt; exact K1|]. split; [|split; assumption]. apply existsb_exists in K2. destruct K2 as (r & Hr & E2). assert (r = snd p) as <- by (destruct r, (snd p); try discriminate; reflexivity). exact Hr.
  - intros t Ht. specialize (H3 t ltac:(apply in_seq; lia)). rewrite andb_true_iff, !Z.leb_le in H3. exact H3.
  - intros x Hx. specialize (H2 x ltac:(apply in_seq; lia)). rewrite andb_true_iff, !Z.leb_le in H2. exact H2.
Qed.
Definition kfull_checks (i : KInstance) (ds : list KDesc) : bool :=
  forallb (fun x => kpacked x ds =? ki_copies (kitem i x)) (seq 0 (length (kx_items i))).
Lemma kfull_checks_ok : forall i ds, kfull_checks i ds = true -> kall_packed i ds.
Proof. intros i ds H x Hx. unfold kfull_checks in H. rewrite forallb_forall in H. apply Z.eqb_eq, H, in_seq. lia. Qed.
Definition korder_checks (i : KInstance) (ds : list KDesc) : bool :=
  forallb (fun u => (kused u ds <=? 0) || forallb (fun t => kused t ds =? kb_copies (kbin i t)) (seq 0 u)) (seq 0 (length (kx_bins i))).
Lemma korder_checks_ok : forall i ds, korder_checks i ds = true -> kin_order i ds.
Proof.
  intros i ds H t u Htu Hu. unfold korder_checks in H. rewrite forallb_forall in H. specialize (H u ltac:(apply in_seq; lia)).
  apply orb_true_iff in H. destruct H as [H|H]; [apply Z.leb_le in H; lia|]. rewrite forallb_forall in H. apply Z.eqb_eq, H, in_seq. lia.
Qed.
Definition krelaxable_checks (i : KInstance) : bool :=
  forallb (fun it => forallb (fun a => 0 <? vat (ki_box it) a) axes3 && (ki_nesting it <? v_z (ki_box it)) && (1 <=? ki_copies it) && negb (Nat.eqb (length (ki_rotations it)) 0)) (kx_items i)
  && forallb (fun bt => forallb (fun a => 1 <=? vat (kb_box bt) a) axes3 && (1 <=? kb_copies bt) && (0 <=? kb_copies_min bt) && (kb_copies_min bt <=? kb_copies bt)
       && negb (Qle_bool (kb_cost bt) 0)) (kx_bins i)
  && (knumber_of_items i <=? max_item_pos).
Lemma krelaxable_checks_ok : forall i, krelaxable_checks i = true -> krelaxable i.
Proof.
  intros i H. unfold krelaxable_checks in H. rewrite !andb_true_iff, !forallb_forall in H. destruct H as ((H1 & H2) & H3). constructor.
  - intros it Hit. specialize (H1 it Hit). rewrite !andb_true_iff, forallb_forall, Z.ltb_lt, Z.leb_le, negb_true_iff, Nat.eqb_neq in H1. destruct H1 as (((A & B) & C) & D). split; [|split; [exact B|split; [exact C|]]].
    + intro a. apply Z.ltb_lt, A. destruct a; cbn; tauto.
    + intro E. apply D. rewrite E. reflexivity.
  - intros bt Hbt. specialize (H2 bt Hbt). rewrite !andb_true_iff, forallb_forall, !Z.leb_le, negb_true_iff in H2. destruct H2 as ((((A & C) & D) & E) & F).
    split. { intro a. apply Z.leb_le, A. destruct a; cbn; tauto. }
    repeat split; try lia. destruct (Qlt_le_dec 0 (kb_cost bt)) as [L|L]; [exact L|]. apply Qle_bool_iff in L. congruence.
  - apply Z.leb_le. exact H3.
Qed.

(** Six crates 5 x 2 x 4 and two planks 5 x 4 x 1 in bins 10 x 4 x 8 (one copy) and
    5 x 4 x 6 (two copies): 280 of volume, one bin. *)
Definition crate (nesting copies copies_min : Z) (rotations : list Rotation) : KItem :=
  mkKI (mkV 5 2 4) 3 copies copies_min 0 rotations 10 0 nesting 9 None.
Definition plank : KItem := mkKI (mkV 5 4 1) 2 2 0 0 [XYZ] 4 1 0 9 None.
Definition ex_kb (o : Objective) (nesting : Z) : KInstance := mkKInst o [] [crate nesting 6 0 [XYZ; YXZ]; plank]
  [mkKB (mkV 10 4 8) 9 1 0 [] (Some 200%Q) None no_truck; mkKB (mkV 5 4 6) 4 2 0 [] None None no_truck].
Definition pile (x y : Z) (n : nat) : KSDesc := mkKSD x (x + 5) y (y + 2) (repeat (0%nat, XYZ) n).
Definition ex_kb_packing : list KDesc :=
  [mkKD 0 1 [pile 0 0 2; pile 0 2 2; mkKSD 5 10 0 4 [(1%nat, XYZ); (1%nat, XYZ)]]; mkKD 1 1 [pile 0 0 1; pile 0 2 1]].
Example C71_trivial_example : krelaxable (ex_kb OBinPacking 0) /\ unnested (ex_kb OBinPacking 0) /\
  koptimize_trivial_bound (ex_kb OBinPacking 0) [] = XcBins 1 /\
  kpacking (ex_kb OBinPacking 0) ex_kb_packing /\ kall_packed (ex_kb OBinPacking 0) ex_kb_packing /\
  kin_order (ex_kb OBinPacking 0) ex_kb_packing /\ kbins_used ex_kb_packing = 2.
Proof.
  split; [apply krelaxable_checks_ok; vm_compute; reflexivity|]. split; [intros it [<-|[<-|[]]]; cbn; lia|]. split; [vm_compute; reflexivity|].
  split; [apply kpacking_checks_ok; vm_compute; reflexivity|]. split; [apply kfull_checks_ok; vm_compute; reflexivity|].
  split; [apply korder_checks_ok; vm_compute; reflexivity|reflexivity].
Qed.

(** The knapsack bound: with a bin 5 x 4 x 6, 120 of volume, the planks first (2/20), then 80 of the
    240 of the crates (3/40). *)
Definition ex_kbk : KInstance := mkKInst OKnapsack [] [crate 0 6 0 [XYZ; YXZ]; plank] [mkKB (mkV 5 4 6) 4 1 0 [] None None no_truck].
Example C71_knapsack_example : krelaxable ex_kbk /\ unnested ex_kbk /\ sorted_by (ktrivial_before ex_kbk) (ktrivial_items ex_kbk) [1; 0]%nat /\
  (forall it, In it (kx_items ex_kbk) -> (0 <= ki_profit it)%Q) /\
  (exists q, koptimize_trivial_bound ex_kbk [1; 0]%nat = XcProfit q /\ (q == 10)%Q) /\
  kpacking ex_kbk [mkKD 0 1 [pile 0 0 1; pile 0 2 1]] /\ (kprofit_of ex_kbk [mkKD 0 1 [pile 0 0 1; pile 0 2 1]] == 6)%Q.
Proof.
  split; [apply krelaxable_checks_ok; vm_compute; reflexivity|]. split; [intros it [<-|[<-|[]]]; cbn; lia|].
  split. { split; [vm_compute; apply perm_swap|]. repeat constructor; vm_compute; reflexivity. }
  split; [intros it [<-|[<-|[]]]; cbn; lra|]. split. { eexists. split; [vm_compute; reflexivity|vm_compute; reflexivity]. }
  split; [apply kpacking_checks_ok; vm_compute; reflexivity|vm_compute; reflexivity].
Qed.

(** With nested crates (3 of their 4): the box instance has crates 5 x 2 x 1. *)
Example C71_box_example : krelaxable (ex_kb OVariableSizedBinPacking 3) /\ nested_upright (ex_kb OVariableSizedBinPacking 3) /\
  (forall solve, exists j, koptimize_box_bound solve (ex_kb OVariableSizedBinPacking 3) = XcCost (RectBounds_Model.b1_cost (solve j)) /\
     map bi_box (bx_items j) = [mkV 5 2 1; mkV 5 4 1] /\ map bi_copies (bx_items j) = [6; 2] /\ map bn_box (bx_bins j) = [mkV 10 4 8; mkV 5 4 6] /\
     map bn_copies (bx_bins j) = [1; 2] /\ map bn_max_weight (bx_bins j) = [Some 200%Q; None]) /\
  kpacking (ex_kb OVariableSizedBinPacking 3) [mkKD 0 1 [pile 0 0 5; pile 0 2 1; mkKSD 5 10 0 4 [(1%nat, XYZ); (1%nat, XYZ)]]] /\
  kall_packed (ex_kb OVariableSizedBinPacking 3) [mkKD 0 1 [pile 0 0 5; pile 0 2 1; mkKSD 5 10 0 4 [(1%nat, XYZ); (1%nat, XYZ)]]].
Proof.
  split; [apply krelaxable_checks_ok; vm_compute; reflexivity|].
  split. { intros it r [<-|[<-|[]]] Hr _; cbn in Hr; [destruct Hr as [<-|[<-|[]]]; auto|destruct Hr as [<-|[]]; auto]. }
  split. { intro solve. eexists. split; [vm_compute; reflexivity|]. repeat split; vm_compute; reflexivity. }
  split; [apply kpacking_checks_ok; vm_compute; reflexivity|apply kfull_checks_ok; vm_compute; reflexivity].
Qed.

(** ** Bounds that are wrong *)

Definition nested_kb (o : Objective) (n : Z) : KInstance := mkKInst o [] [crate 3 6 0 [XYZ]] [mkKB (mkV 5 2 9) 4 n 0 [] None None no_truck].
Definition nested_calls : list KBuilderCall := [KAddBin 0 1; KAddStack 0 0 5 0 2] ++ repeat (KAddItem 0 0 (0%nat, XYZ)) 6.

(** Nested items: six crates of height 4, nested by 3, are a stack of height 9 in one bin;
    the trivial bound, which counts their full volume, is three bins. *)
Theorem C71_nested_refuted : exists i calls s, krelaxable i /\ nested_upright i /\ kx_objective i = OBinPacking /\ koptimize_trivial_bound i [] = XcBins 3 /\
  khistory i Stack_Props.kaccept calls [] = Some s /\ ksol_feasible s = true /\
  kpacking i (kview s) /\ kall_packed i (kview s) /\ kin_order i (kview s) /\ kc_number_of_bins (ksol_core s) = 1.
Proof.
  exists (nested_kb OBinPacking 3), nested_calls. eexists.
  split; [apply krelaxable_checks_ok; vm_compute; reflexivity|].
  split. { intros it r [<-|[]] Hr _; cbn in Hr. destruct Hr as [<-|[]]; auto. }
  split; [reflexivity|]. split; [vm_compute; reflexivity|]. split; [vm_compute; reflexivity|]. split; [reflexivity|].
  split; [apply kpacking_checks_ok; vm_compute; reflexivity|]. split; [apply kfull_checks_ok; vm_compute; reflexivity|].
  split; [apply korder_checks_ok; vm_compute; reflexivity|reflexivity].
Qed.
Print Assumptions C71_nested_refuted.

(** The same with the knapsack bound: 6.75 for a packing in one bin of profit 18. *)
Theorem C71_nested_profit_refuted : exists i order q calls s, krelaxable i /\ nested_upright i /\ kx_objective i = OKnapsack /\
  (forall it, In it (kx_items i) -> (0 <= ki_profit it)%Q) /\ sorted_by (ktrivial_before i) (ktrivial_items i) order /\
  koptimize_trivial_bound i order = XcProfit q /\
  khistory i Stack_Props.kaccept calls [] = Some s /\ ksol_feasible s = true /\ kpacking i (kview s) /\ (q < kc_item_profit (ksol_core s))%Q.
Proof.
  exists (nested_kb OKnapsack 1), [0%nat]. eexists. exists nested_calls. eexists. split; [apply krelaxable_checks_ok; vm_compute; reflexivity|].
  split. { intros it r [<-|[]] Hr _; cbn in Hr. destruct Hr as [<-|[]]; auto. }
  split; [reflexivity|]. split; [intros it [<-|[]]; cbn; lra|].
  split. { split; [vm_compute; apply Permutation_refl|]. repeat constructor. }
  split; [vm_compute; reflexivity|]. split; [vm_compute; reflexivity|]. split; [reflexivity|].
  split; [apply kpacking_checks_ok; vm_compute; reflexivity|vm_compute; reflexivity].
Qed.
Print Assumptions C71_nested_profit_refuted.

Definition lying_kb : KInstance := mkKInst OBinPacking [] [mkKI (mkV 4 2 5) 3 6 0 0 [ZYX] 10 0 3 9 None] [mkKB (mkV 5 2 9) 4 2 0 [] None None no_truck].
Definition lying_calls : list KBuilderCall := [KAddBin 0 1; KAddStack 0 0 5 0 2] ++ repeat (KAddItem 0 0 (0%nat, ZYX)) 6.

(** Nested items that are not upright: the height before the rotation is what is
    shrunk.  Six items 4 x 2 x 5 lying on their side (5 x 2 x 4), nested by 3, are a stack of height
    9 in one bin; the boxes are 2 x 2 x 4 once rotated, too large for one bin, so that a
    bound that is right for the boxes is two bins. *)
Theorem C71_lying_refuted : exists i calls s b j e out, krelaxable i /\ kx_objective i = OBinPacking /\
  wcalls_from (w_new ODefault) (kbox_calls i) = WOk b /\ w_build b = WBuilt j e /\ xbounds_right j out /\
  koptimize_box_bound (fun _ => out) i = XcBins 2 /\
  khistory i Stack_Props.kaccept calls [] = Some s /\ ksol_feasible s = true /\
  kpacking i (kview s) /\ kall_packed i (kview s) /\ kin_order i (kview s) /\ kc_number_of_bins (ksol_core s) = 1.
Proof.
  exists lying_kb, lying_calls. eexists. eexists. eexists. eexists. exists (RectBounds_Model.mkB1 2 0 0).
  split; [apply krelaxable_checks_ok; vm_compute; reflexivity|]. split; [reflexivity|].
  split; [vm_compute; reflexivity|]. split; [vm_compute; reflexivity|]. split.
  { constructor; try (intro E; discriminate E). intros _ ds Hp _ Ha Ho. cbn [RectBounds_Model.b1_bins].
    match goal with |- 2 <= _ => idtac end.
    match type of Hp with xbox_packing ?j _ =>
      assert (X : xclaim_right j (xoptimize_trivial_bound j [])) by (apply xtrivial_right; [apply BoxBounds_Props.relaxable_checks_ok; vm_compute; reflexivity|discriminate]);
      change (xoptimize_trivial_bound j []) with (XcBins 2) in X end.
    exact (X ds Hp Ha Ho). }
  split; [vm_compute; reflexivity|]. split; [vm_compute; reflexivity|]. split; [reflexivity|].
  split; [apply kpacking_checks_ok; vm_compute; reflexivity|]. split; [apply kfull_checks_ok; vm_compute; reflexivity|].
  split; [apply korder_checks_ok; vm_compute; reflexivity|reflexivity].
Qed.
Print Assumptions C71_lying_refuted.

(** Items that are nested by their full height: the box has no volume and the box builder
    refuses the instance, so that [optimize] ends with an exception on a solvable
    instance. *)
Theorem C71_full_nesting_refuted : exists i calls s, kx_objective i = OBinPacking /\
  khistory i Stack_Props.kaccept calls [] = Some s /\ ksol_feasible s = true /\ kpacking i (kview s) /\ kall_packed i (kview s) /\
  forall solve, koptimize_box_bound solve i = XcThrow.
Proof.
  exists (mkKInst OBinPacking [] [crate 4 2 0 [XYZ]] [mkKB (mkV 5 2 9) 4 3 0 [] None None no_truck]),
    ([KAddBin 0 1; KAddStack 0 0 5 0 2] ++ repeat (KAddItem 0 0 (0%nat, XYZ)) 2). eexists.
  split; [reflexivity|]. split; [vm_compute; reflexivity|]. split; [reflexivity|]. split; [apply kpacking_checks_ok; vm_compute; reflexivity|].
  split; [apply kfull_checks_ok; vm_compute; reflexivity|]. intro solve. vm_compute. reflexivity.
Qed.
Print Assumptions C71_full_nesting_refuted.

(** Bins that are not used in the order of the instance: the bound is two bins (of the
    first type) although one bin of the second type is enough. *)
Theorem C71_order_refuted : exists i ds, krelaxable i /\ unnested i /\ kx_objective i = OBinPacking /\ koptimize_trivial_bound i [] = XcBins 2 /\
  kpacking i ds /\ kall_packed i ds /\ kbins_used ds = 1.
Proof.
  exists (mkKInst OBinPacking [] [crate 0 4 0 [XYZ]] [mkKB (mkV 5 4 4) 4 2 0 [] None None no_truck; mkKB (mkV 5 4 8) 4 1 0 [] None None no_truck]), [mkKD 1 1 [pile 0 0 2; pile 0 2 2]].
  split; [apply krelaxable_checks_ok; vm_compute; reflexivity|]. split; [intros it [<-|[]]; cbn; lia|]. split; [reflexivity|]. split; [vm_compute; reflexivity|].
  split; [apply kpacking_checks_ok; vm_compute; reflexivity|]. split; [apply kfull_checks_ok; vm_compute; reflexivity|reflexivity].
Qed.
Print Assumptions C71_order_refuted.

(** Optional copies: the bound is two bins although packing the mandatory copies in one
    bin is a feasible solution, which the comparison of solutions prefers to the complete
    one. *)
Theorem C71_minimum_refuted : exists i one two s1 s2, krelaxable i /\ unnested i /\ kx_objective i = OBinPacking /\ koptimize_trivial_bound i [] = XcBins 2 /\
  khistory i Stack_Props.kaccept one [] = Some s1 /\ ksol_feasible s1 = true /\ kpacking i (kview s1) /\ kin_order i (kview s1) /\ kbins_used (kview s1) = 1 /\
  khistory i Stack_Props.kaccept two [] = Some s2 /\ ksol_feasible s2 = true /\ kall_packed i (kview s2) /\ ksol_lt i s2 s1 = Some true.
Proof.
  exists (mkKInst OBinPacking [] [crate 0 2 1 [XYZ]] [mkKB (mkV 5 2 4) 4 2 0 [] None None no_truck]),
    [KAddBin 0 1; KAddStack 0 0 5 0 2; KAddItem 0 0 (0%nat, XYZ)], [KAddBin 0 2; KAddStack 0 0 5 0 2; KAddItem 0 0 (0%nat, XYZ)]. eexists. eexists.
  split; [apply krelaxable_checks_ok; vm_compute; reflexivity|]. split; [intros it [<-|[]]; cbn; lia|]. split; [reflexivity|]. split; [vm_compute; reflexivity|].
  split; [vm_compute; reflexivity|]. split; [reflexivity|]. split; [apply kpacking_checks_ok; vm_compute; reflexivity|].
  split; [apply korder_checks_ok; vm_compute; reflexivity|]. split; [reflexivity|].
  split; [vm_compute; reflexivity|]. split; [reflexivity|]. split; [apply kfull_checks_ok; vm_compute; reflexivity|vm_compute; reflexivity].
Qed.
Print Assumptions C71_minimum_refuted.

(** Items with a negative profit: the knapsack bound is below the profit of the empty
    packing. *)
Theorem C71_negative_profit_refuted : exists i order q, krelaxable i /\ unnested i /\ kx_objective i = OKnapsack /\
  sorted_by (ktrivial_before i) (ktrivial_items i) order /\ koptimize_trivial_bound i order = XcProfit q /\
  kpacking i [] /\ (q < kprofit_of i [])%Q.
Proof.
  exists (mkKInst OKnapsack [] [mkKI (mkV 5 2 4) (-3) 1 0 0 [XYZ] 10 0 0 9 None] [mkKB (mkV 5 2 4) 4 1 0 [] None None no_truck]), [0%nat]. eexists.
  split; [apply krelaxable_checks_ok; vm_compute; reflexivity|]. split; [intros it [<-|[]]; cbn; lia|]. split; [reflexivity|].
  split. { split; [vm_compute; apply Permutation_refl|]. repeat constructor. }
  split; [vm_compute; reflexivity|]. split; [apply kpacking_checks_ok; vm_compute; reflexivity|vm_compute; reflexivity].
Qed.
Print Assumptions C71_negative_profit_refuted.
