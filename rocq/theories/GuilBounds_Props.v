(** * C72: cheap bounds of the rectangleguillotine optimize function *)

From Coq Require Import List ZArith QArith Bool Lia Lqa Sorted Permutation.
From Verif Require Import Util Common_Model OneDim_Model OneDim_Spec OneDimBuilder_Model OneDimBuilder_Spec OneDimDff_Spec OneDimBounds_Spec
  Rect_Model Rect_Spec RectDff_Model Bar_Model Bar_Spec RectBounds_Model RectBounds_Spec RectBounds_Proof
  Guil_Model Guil_Spec Guil_Proof GuilPlan_Proof Guil_Props GuilSol_Model GuilSol_Spec GuilBounds_Model GuilBounds_Spec GuilBounds_Proof.
Import ListNotations.
Open Scope Z_scope.

(** The trivial bounds are right for every packing outside the trims: profit net of
    penalties (knapsack), number of bins (bin packing, bins in order), extent (open
    dimensions). *)
Theorem C72_trivial_bounds : forall i order, grelaxable i ->
  (gin_objective i = OKnapsack -> (forall it, In it (gin_items i) -> (0 <= gi_profit it)%Q)
     /\ sorted_by (gtrivial_before i) (seq 0 (length (gin_items i))) order) ->
  gclaim_right i (goptimize_trivial_bound i order).
Proof. exact gtrivial_right. Qed.
Print Assumptions C72_trivial_bounds.

(** If the bounds of the onedimensional solver are right, then so is what is claimed
    from the onedimensional relaxation. *)
Theorem C72_onedimensional : forall i solve, grelaxable i ->
  gin_objective i = OBinPacking \/ gin_objective i = OKnapsack \/ gin_objective i = OVariableSizedBinPacking ->
  (gin_objective i = OBinPacking -> forall bt, In bt (gin_bins i) -> gb_copies_min bt = 0) ->
  (forall i1, bounds1_right i1 (solve i1)) ->
  gclaim_right i (goptimize_onedimensional_bound solve i).
Proof. exact gonedimensional_right. Qed.
Print Assumptions C72_onedimensional.

(** The comment of the code, made precise: any complete packing is a packing of the areas
    in the onedimensional instance that is built, with the same bins, profit and cost. *)
Theorem C72_relaxation : forall i vs, grelaxable i ->
  (gin_objective i = OBinPacking -> forall bt, In bt (gin_bins i) -> gb_copies_min bt = 0) ->
  gpacking i vs -> gall_packed i vs ->
  exists b i1, calls_from b_new (grelax_calls i) = BOk b /\ b_build b = Built i1 /\
    PackingOK i1 (map grelax_desc vs) /\ available_bins i1 (map grelax_desc vs) /\ all_packed i1 (map grelax_desc vs) /\
    zsum bd_copies (map grelax_desc vs) = gbins_used vs /\
    (profit_of i1 (map grelax_desc vs) == gprofit_of i vs)%Q /\ (cost_of i1 (map grelax_desc vs) == gcost_of i vs)%Q.
Proof.
  intros i vs R Hmin P Hall. pose proof (flat_relaxable i R) as Hr. pose proof (flat_packing i vs P) as FP. pose proof (gdesc_all i (gflat i) _ _ (flat_covers i) vs Hall) as FA.
  assert (Hm : rin_objective (gflat i) = OBinPacking -> forall bt, In bt (rin_bins (gflat i)) -> rb_copies_min bt = 0).
  { intros O bt Hbt. cbn [gflat rin_bins] in Hbt. apply in_map_iff in Hbt. destruct Hbt as (x & <- & Hx). apply (Hmin O x Hx). }
  destruct (relax_builds (gflat i) Hr Hm) as (i1 & Hb). exists (builder1 (gflat i)), i1.
  set (fd := gdesc i (fun t => inner_l (gbin i t)) (fun t => inner_b (gbin i t))) in *.
  assert (E : map grelax_desc vs = map relax_desc (map fd vs)).
  { rewrite map_map. apply map_ext. intro v. unfold grelax_desc, relax_desc, fd, gdesc. cbn [rd_type rd_copies rd_items]. rewrite map_map. reflexivity. }
  split; [rewrite <- flat_calls; apply relax_builder; exact Hr|]. split; [exact Hb|]. rewrite E. destruct FP as [Hp He Hbins Hitems].
  split; [eapply relax_packing; eauto|]. split; [eapply relax_available; eauto; intros t Ht; apply Hbins; exact Ht|]. split; [eapply relax_all; eauto|].
  split; [rewrite relax_count; apply gdesc_bins|]. split.
  - rewrite (relax_profit _ Hr _ Hb _ Hp). unfold rprofit, gprofit_of. rewrite qsum_map. apply qsum_ext. intros v Hv. cbn [fd gdesc rd_copies rd_items].
    unfold gv_items, gitems_of. rewrite !qsum_map. apply Qmult_comp; [reflexivity|]. apply qsum_ext. intros n Hn.
    destruct (gq_bins _ _ P v Hv) as (_ & _ & [G _ _]). destruct (G n Hn) as [T _]. cbn [gplace pl_type]. rewrite (flat_ritem i _ T). reflexivity.
  - rewrite (relax_cost _ Hr _ Hb _ Hp). apply flat_cost. exact P.
Qed.
Print Assumptions C72_relaxation.

(** The claims of the dual feasible functions, on the whole plates, are right, and the
    computation ends without an exception ([nan]: the value of a conversion of a NaN to an
    integer). *)
Theorem C72_dual_feasible_functions : forall nan i, nan <= 0 -> grelaxable i -> length (gin_bins i) = 1%nat ->
  gin_objective i = OBinPacking \/ gin_objective i = OFeasibility ->
  exists fuel, forall iterations, (fuel <= iterations)%nat -> gdff_right i (goptimize_dff nan iterations i).
Proof. exact gdff_valid. Qed.
Print Assumptions C72_dual_feasible_functions.

(** ** The packings are those of the solution builder *)

Lemma filter_pairs : forall (A : Type) (d : A) (f : A -> bool) (R : A -> A -> Prop) l,
  (forall j k, (j < k < length l)%nat -> f (nth j l d) = true -> f (nth k l d) = true -> R (nth j l d) (nth k l d)) ->
  ForallOrdPairs R (filter f l).
Proof.
  intros A d f R l. induction l as [|a l IH]; intro H; cbn [filter]; [constructor|].
  assert (T : ForallOrdPairs R (filter f l)).
  { apply IH. intros j k Hjk F1 F2. apply (H (Datatypes.S j) (Datatypes.S k)); [cbn [length]; lia|exact F1|exact F2]. }
  destruct (f a) eqn:E; [|exact T]. constructor; [|exact T]. apply Forall_forall. intros b Hb. apply filter_In in Hb. destruct Hb as [Hb F].
  apply In_nth with (d := d) in Hb. destruct Hb as (k & Hk & <-). apply (H 0%nat (Datatypes.S k)); [cbn [length]; lia|exact E|exact F].
Qed.

Lemma item_node_carries : forall ns n, In n (item_nodes ns) -> exists id, (id < length ns)%nat /\ gnode ns id = n /\ carries n (Z.to_nat (gn_item n)).
Proof.
  intros ns n H. apply filter_In in H. destruct H as [H F]. apply In_nth with (d := gdummy_node) in H. destruct H as (id & Hid & E). exists id. split; [exact Hid|].
  split; [exact E|]. unfold gis_item in F. unfold carries. destruct (gn_f n); [|discriminate]. split; [discriminate|]. apply Z.leb_le in F. rewrite Z2Nat.id by exact F. reflexivity.
Qed.

(** Whatever the calls of the solution builder, before and after [build], every bin has the
    geometry the bounds are about, if the trims are hard and the items that may not be
    turned are not. *)
Theorem C72_built : forall i calls bins, 0 <= gp_ct (gin_params i) -> grelaxable i -> hard_trims i -> grun i [] calls = Some bins ->
  forall bins', bins' = bins \/ gfinish_bins i bins = Some bins' ->
  forall b, In b bins' -> (gs_type b < length (gin_bins i))%nat ->
  (forall n, In n (item_nodes (gs_nodes b)) -> gi_oriented (gitem i (Z.to_nat (gn_item n))) = true ->
     gwidth_of n = gi_w (gitem i (Z.to_nat (gn_item n))) /\ gheight_of n = gi_h (gitem i (Z.to_nat (gn_item n)))) ->
  gbin_geometry i (gview_bin b).
Proof.
  intros i calls bins Hct R HT E bins' HB b Hb Ht Hor.
  destruct (C36_order i calls bins Hct E bins' HB b Hb) as (base & PL & _).
  assert (HE : forall tr, In tr [gb_bottom (gbin i (gs_type b)); gb_top (gbin i (gs_type b)); gb_left (gbin i (gs_type b)); gb_right (gbin i (gs_type b))] -> hard tr = gt_length tr).
  { intros tr Htr. pose proof (gr_trims i R _ tr (nth_In _ _ Ht) Htr) as A. destruct (HT _ tr (nth_In _ _ Ht) Htr) as [B|B]; unfold hard; rewrite B; [lia|]. destruct (gt_hard tr); lia. }
  constructor; cbn [gview_bin gv_nodes gv_type].
  - intros n Hn. destruct (item_node_carries _ _ Hn) as (id & Hid & En & C). rewrite <- En in C. rewrite En in C at 2.
    destruct (gp_items _ _ _ _ _ PL id _ Hid C) as (T & _ & _ & D). rewrite En in D. split; [exact T|]. unfold has_dimensions in D. fold (gwidth_of n) (gheight_of n) in D.
    destruct (gi_oriented (gitem i (Z.to_nat (gn_item n)))) eqn:EO; [left; apply (Hor n Hn EO)|]. destruct D as [D|D]; [left; exact D|right; split; [reflexivity|exact D]].
  - intros n Hn. destruct (item_node_carries _ _ Hn) as (id & Hid & En & C). rewrite <- En in C at 1.
    pose proof (C37_items_inside i calls bins Hct E bins' HB b id _ Hb Hid C) as I. rewrite En in I.
    unfold usable_l, usable_r, usable_b, usable_t in I. rewrite !HE in I by (cbn; tauto). exact I.
  - apply (filter_pairs _ gdummy_node). intros j k Hjk F1 F2. fold (gnode (gs_nodes b) j) (gnode (gs_nodes b) k) in *.
    assert (CC : forall n, gis_item n = true -> carries n (Z.to_nat (gn_item n))).
    { intros n F. unfold gis_item in F. unfold carries. destruct (gn_f n); [|discriminate]. split; [discriminate|]. apply Z.leb_le in F. rewrite Z2Nat.id by exact F. reflexivity. }
    pose proof (C37_items_apart i calls bins Hct E bins' HB b j k _ _ Hb ltac:(lia) ltac:(lia) ltac:(lia) (CC _ F1) (CC _ F2)) as A.
    unfold apart in *. lia.
Qed.
Print Assumptions C72_built.

(** ** Examples *)

Definition apart_check (n m : GNode) : bool := (gn_r n <=? gn_l m) || (gn_r m <=? gn_l n) || (gn_t n <=? gn_b m) || (gn_t m <=? gn_b n).
Fixpoint apart_checks (l : list GNode) : bool := match l with [] => true | n :: l => forallb (apart_check n) l && apart_checks l end.
Definition gplaced_check (i : GInstance) (n : GNode) : bool :=
  let it := gitem i (Z.to_nat (gn_item n)) in
  Nat.ltb (Z.to_nat (gn_item n)) (length (gin_items i))
  && (((gwidth_of n =? gi_w it) && (gheight_of n =? gi_h it)) || (negb (gi_oriented it) && (gwidth_of n =? gi_h it) && (gheight_of n =? gi_w it))).
Definition gbin_checks (i : GInstance) (v : GView) : bool :=
  let bt := gbin i (gv_type v) in
  forallb (fun n => gplaced_check i n && (inner_l bt <=? gn_l n) && (gn_r n <=? inner_r bt) && (inner_b bt <=? gn_b n) && (gn_t n <=? inner_t bt)) (item_nodes (gv_nodes v))
  && apart_checks (item_nodes (gv_nodes v)).
Definition gpacking_checks (i : GInstance) (vs : list GView) : bool :=
  forallb (fun v => Nat.ltb (gv_type v) (length (gin_bins i)) && (1 <=? gv_copies v) && gbin_checks i v) vs
  && forallb (fun t => (gb_copies_min (gbin i t) <=? gused t vs) && (gused t vs <=? gb_copies (gbin i t))) (seq 0 (length (gin_bins i)))
  && forallb (fun x => (gi_copies_min (gitem i x) <=? gpacked x vs) && (gpacked x vs <=? gi_copies (gitem i x))) (seq 0 (length (gin_items i))).
Lemma gpacking_checks_ok : forall i vs, gpacking_checks i vs = true -> gpacking i vs.
Proof.
  intros i vs H. unfold gpacking_checks in H. rewrite !andb_true_iff, !forallb_forall in H. destruct H as ((H1 & H2) & H3). constructor.
  - intros v Hv. specialize (H1 v Hv). rewrite !andb_true_iff in H1. destruct H1 as ((A & B) & C). apply Nat.ltb_lt in A. apply Z.leb_le in B.
    split; [exact A|]. split; [exact B|]. unfold gbin_checks in C. rewrite andb_true_iff, forallb_forall in C. destruct C as [C D].
    assert (C' : forall n, In n (item_nodes (gv_nodes v)) -> gplaced_check i n = true /\ inner_l (gbin i (gv_type v)) <= gn_l n /\ gn_r n <= inner_r (gbin i (gv_type v))
      /\ inner_b (gbin i (gv_type v)) <= gn_b n /\ gn_t n <= inner_t (gbin i (gv_type v))).
    { intros n Hn. specialize (C n Hn). rewrite !andb_true_iff, !Z.leb_le in C. tauto. }
    constructor.
    + intros n Hn. destruct (C' n Hn) as [P _]. unfold gplaced_check in P. rewrite andb_true_iff, orb_true_iff, !andb_true_iff, negb_true_iff, !Z.eqb_eq in P.
      destruct P as [T P]. apply Nat.ltb_lt in T. split; [exact T|]. tauto.
    + intros n Hn. apply (C' n Hn).
    + revert D. generalize (item_nodes (gv_nodes v)). intro l. induction l as [|n l IH]; intro D; [constructor|]. cbn [apart_checks] in D. apply andb_true_iff in D. destruct D as [D1 D2].
      constructor; [|apply IH; exact D2]. apply Forall_forall. intros m Hm. rewrite forallb_forall in D1. specialize (D1 m Hm). unfold apart_check in D1.
      rewrite !orb_true_iff, !Z.leb_le in D1. unfold apart. lia.
  - intros t Ht. specialize (H2 t ltac:(apply in_seq; lia)). rewrite andb_true_iff, !Z.leb_le in H2. exact H2.
  - intros x Hx. specialize (H3 x ltac:(apply in_seq; lia)). rewrite andb_true_iff, !Z.leb_le in H3. exact H3.
Qed.
Definition gfull_checks (i : GInstance) (vs : list GView) : bool := forallb (fun x => gpacked x vs =? gi_copies (gitem i x)) (seq 0 (length (gin_items i))).
Lemma gfull_checks_ok : forall i vs, gfull_checks i vs = true -> gall_packed i vs.
Proof. intros i vs H x Hx. unfold gfull_checks in H. rewrite forallb_forall in H. apply Z.eqb_eq, H, in_seq. lia. Qed.
Definition gorder_checks (i : GInstance) (vs : list GView) : bool :=
  forallb (fun u => (gused u vs <=? 0) || forallb (fun t => gused t vs =? gb_copies (gbin i t)) (seq 0 u)) (seq 0 (length (gin_bins i))).
Lemma gorder_checks_ok : forall i vs, gorder_checks i vs = true -> gin_order i vs.
Proof.
  intros i vs H t u Htu Hu. unfold gorder_checks in H. rewrite forallb_forall in H. specialize (H u ltac:(apply in_seq; lia)).
  apply orb_true_iff in H. destruct H as [H|H]; [apply Z.leb_le in H; lia|]. rewrite forallb_forall in H. apply Z.eqb_eq, H, in_seq. lia.
Qed.
Definition grelaxable_checks (i : GInstance) : bool :=
  forallb (fun it => (0 <? gi_w it) && (0 <? gi_h it) && (1 <=? gi_copies it)) (gin_items i)
  && forallb (fun bt => forallb (fun tr => 0 <=? gt_length tr) [gb_bottom bt; gb_top bt; gb_left bt; gb_right bt]
       && (inner_l bt <? inner_r bt) && (inner_b bt <? inner_t bt) && (1 <=? gb_copies bt) && (0 <=? gb_copies_min bt) && (gb_copies_min bt <=? gb_copies bt)
       && negb (Qle_bool (gb_cost bt) 0)) (gin_bins i)
  && (zsum gi_copies (gin_items i) <=? max_item_pos).
Lemma grelaxable_checks_ok : forall i, grelaxable_checks i = true -> grelaxable i.
Proof.
  intros i H. unfold grelaxable_checks in H. rewrite !andb_true_iff, !forallb_forall in H. destruct H as ((H1 & H2) & H3).
  assert (H2' : forall bt, In bt (gin_bins i) -> (forall tr, In tr [gb_bottom bt; gb_top bt; gb_left bt; gb_right bt] -> 0 <= gt_length tr)
    /\ inner_l bt < inner_r bt /\ inner_b bt < inner_t bt /\ 1 <= gb_copies bt /\ 0 <= gb_copies_min bt <= gb_copies bt /\ (0 < gb_cost bt)%Q).
  { intros bt Hbt. specialize (H2 bt Hbt). rewrite !andb_true_iff, negb_true_iff, forallb_forall, !Z.ltb_lt, !Z.leb_le in H2.
    destruct H2 as ((((((A & B) & C) & D) & E) & F) & G). split; [intros tr Htr; apply Z.leb_le, A, Htr|]. repeat split; try lia.
    destruct (Qlt_le_dec 0 (gb_cost bt)) as [L|L]; [exact L|]. apply Qle_bool_iff in L. congruence. }
  constructor.
  - intros it Hit. specialize (H1 it Hit). rewrite !andb_true_iff, !Z.ltb_lt, Z.leb_le in H1. lia.
  - intros bt tr Hbt. apply (H2' bt Hbt).
  - intros bt Hbt. apply (H2' bt Hbt).
  - apply Z.leb_le. exact H3.
Qed.

(** Solutions made by the solution builder. *)
Definition gmade (i : GInstance) (calls : list GCall) : GSolution :=
  match grun i [] calls with
  | Some bins => match gbuild i (fun _ => true) bins with GDone s => s | _ => gsol_new i end
  | None => gsol_new i
  end.
Definition gmade_ok (i : GInstance) (calls : list GCall) : bool :=
  gaccepted i [] calls && match grun i [] calls with
  | Some bins => match gbuild i (fun _ => true) bins with GDone s => gs_feasible s | _ => false end
  | None => false
  end.

Definition bp_params : GParams := mkGP 3 GNonExact GVertical 0 (-1) 0 (-1) 0 (-1) (-1) false 0 [] 0.
Definition no_trim : GTrim := mkGT 0 false.

(** Three 4 x 5 and one 7 x 6 in two plates 11 x 10 with a trim of 1: 102 of area for 100. *)
Definition ex_gb (o : Objective) (copies min0 : Z) : GInstance :=
  mkGIn o bp_params [mkGBT 7 copies 0 11 10 [] no_trim no_trim (mkGT 1 true) no_trim []]
    [mkGI 10 3 min0 4 5 0 0 true [[]]; mkGI 45 1 (Z.min min0 1) 7 6 1 0 false [[]]] [0; 3; 4]%nat [0; 0; 0; 1]%nat.
Definition ex_gb_calls : list GCall :=
  [GAddBin 0 1 GVertical; GAddNode 1 5; GAddNode 2 5; GSetItem 0; GAddNode 2 10; GSetItem 0; GAddNode 1 9; GAddNode 2 5; GSetItem 0;
   GAddBin 0 1 GVertical; GAddNode 1 7; GAddNode 2 7; GSetItem 1].
Definition ex_gb_sol : GSolution := gmade (ex_gb OBinPacking 2 3) ex_gb_calls.
Example C72_trivial_example : grelaxable (ex_gb OBinPacking 2 3) /\ goptimize_trivial_bound (ex_gb OBinPacking 2 3) [] = RcBins 2 /\
  gmade_ok (ex_gb OBinPacking 2 3) ex_gb_calls = true /\ gpacking (ex_gb OBinPacking 2 3) (gview (gs_core ex_gb_sol)) /\
  gall_packed (ex_gb OBinPacking 2 3) (gview (gs_core ex_gb_sol)) /\ gin_order (ex_gb OBinPacking 2 3) (gview (gs_core ex_gb_sol)) /\
  gbins_used (gview (gs_core ex_gb_sol)) = 2.
Proof.
  split; [apply grelaxable_checks_ok; vm_compute; reflexivity|]. split; [vm_compute; reflexivity|]. split; [vm_compute; reflexivity|].
  split; [apply gpacking_checks_ok; vm_compute; reflexivity|]. split; [apply gfull_checks_ok; vm_compute; reflexivity|].
  split; [apply gorder_checks_ok; vm_compute; reflexivity|vm_compute; reflexivity].
Qed.

(** The knapsack bound in one plate: 45 for the 7 x 6 item, then 58 of the 60 of the other
    item type. *)
Definition ex_gk_calls : list GCall :=
  [GAddBin 0 1 GVertical; GAddNode 1 5; GAddNode 2 5; GSetItem 0; GAddNode 2 10; GSetItem 0; GAddNode 1 11; GAddNode 2 7; GSetItem 1].
Example C72_knapsack_example : grelaxable (ex_gb OKnapsack 1 0) /\
  sorted_by (gtrivial_before (ex_gb OKnapsack 1 0)) (seq 0 (length (gin_items (ex_gb OKnapsack 1 0)))) [1; 0]%nat /\
  (forall it, In it (gin_items (ex_gb OKnapsack 1 0)) -> (0 <= gi_profit it)%Q) /\
  (exists q, goptimize_trivial_bound (ex_gb OKnapsack 1 0) [1; 0]%nat = RcProfit q /\ (q == 74)%Q) /\
  gmade_ok (ex_gb OKnapsack 1 0) ex_gk_calls = true /\ gpacking (ex_gb OKnapsack 1 0) (gview (gs_core (gmade (ex_gb OKnapsack 1 0) ex_gk_calls))) /\
  (gnet_profit (ex_gb OKnapsack 1 0) (gview (gs_core (gmade (ex_gb OKnapsack 1 0) ex_gk_calls))) == 65)%Q.
Proof.
  split; [apply grelaxable_checks_ok; vm_compute; reflexivity|]. split.
  { split; [vm_compute; apply perm_swap|]. repeat constructor; vm_compute; reflexivity. }
  split. { intros it [<-|[<-|[]]]; vm_compute; discriminate. }
  split. { eexists. split; [vm_compute; reflexivity|vm_compute; reflexivity]. }
  split; [vm_compute; reflexivity|]. split; [apply gpacking_checks_ok; vm_compute; reflexivity|vm_compute; reflexivity].
Qed.

(** The open dimension: 23 of area in a plate of height 4; the items end at 10. *)
Definition ex_go : GInstance :=
  mkGIn OOpenDimensionX bp_params [mkGBT 1 1 0 20 4 [] no_trim no_trim no_trim no_trim []]
    [mkGI 14 1 1 7 2 0 0 false [[]]; mkGI 9 1 1 3 3 1 0 true [[]]] [0; 1; 2]%nat [0; 1]%nat.
Definition ex_go_calls : list GCall := [GAddBin 0 1 GVertical; GAddNode 1 7; GAddNode 2 2; GSetItem 0; GAddNode 1 10; GAddNode 2 3; GSetItem 1].
Example C72_open_example : grelaxable ex_go /\ goptimize_trivial_bound ex_go [] = RcX 6 /\ gmade_ok ex_go ex_go_calls = true /\
  exists v, gview (gs_core (gmade ex_go ex_go_calls)) = [v] /\ gpacking ex_go [v] /\ gv_type v = 0%nat /\ gv_copies v = 1 /\ gall_packed ex_go [v] /\ gitems_right v = 10.
Proof.
  split; [apply grelaxable_checks_ok; vm_compute; reflexivity|]. split; [vm_compute; reflexivity|]. split; [vm_compute; reflexivity|].
  eexists. split; [vm_compute; reflexivity|]. split; [apply gpacking_checks_ok; vm_compute; reflexivity|]. split; [reflexivity|]. split; [reflexivity|].
  split; [apply gfull_checks_ok; vm_compute; reflexivity|vm_compute; reflexivity].
Qed.

(** The relaxation that is built, and its claim. *)
Example C72_onedimensional_example : grelaxable (ex_gb OVariableSizedBinPacking 2 3) /\
  (forall solve, exists i1, goptimize_onedimensional_bound solve (ex_gb OVariableSizedBinPacking 2 3) = RcCost (b1_cost (solve i1)) /\
     map bt_length (in_bin_types i1) = [100] /\ map it_length (in_item_types i1) = [20; 42] /\
     map bt_copies (in_bin_types i1) = [2] /\ map it_copies (in_item_types i1) = [3; 1]) /\
  gpacking (ex_gb OVariableSizedBinPacking 2 3) (gview (gs_core (gmade (ex_gb OVariableSizedBinPacking 2 3) ex_gb_calls))) /\
  gall_packed (ex_gb OVariableSizedBinPacking 2 3) (gview (gs_core (gmade (ex_gb OVariableSizedBinPacking 2 3) ex_gb_calls))).
Proof.
  split; [apply grelaxable_checks_ok; vm_compute; reflexivity|]. split.
  { intro solve. eexists. split; [vm_compute; reflexivity|]. repeat split; vm_compute; reflexivity. }
  split; [apply gpacking_checks_ok; vm_compute; reflexivity|apply gfull_checks_ok; vm_compute; reflexivity].
Qed.

(** Two 6 x 6 items do not fit in one plate 10 x 10: two plates are needed, and one plate
    is infeasible. *)
Definition ex_gd (o : Objective) (copies : Z) : GInstance :=
  mkGIn o bp_params [mkGBT 1 copies 0 10 10 [] no_trim no_trim no_trim no_trim []] [mkGI 36 2 2 6 6 0 0 true [[]]] [0; 2]%nat [0; 0]%nat.
Example C72_dff_example : grelaxable (ex_gd OBinPacking 2) /\ goptimize_dff 0 5 (ex_gd OBinPacking 2) = GdBins 2 /\
  gpacking (ex_gd OBinPacking 2) (gview (gs_core (gmade (ex_gd OBinPacking 2) [GAddBin 0 2 GVertical; GAddNode 1 6; GAddNode 2 6; GSetItem 0]))) /\
  gall_packed (ex_gd OBinPacking 2) (gview (gs_core (gmade (ex_gd OBinPacking 2) [GAddBin 0 2 GVertical; GAddNode 1 6; GAddNode 2 6; GSetItem 0]))) /\
  grelaxable (ex_gd OFeasibility 1) /\ goptimize_dff 0 5 (ex_gd OFeasibility 1) = GdInfeasible /\ goptimize_dff 0 5 (ex_gd OFeasibility 2) = GdBins 0.
Proof.
  split; [apply grelaxable_checks_ok; vm_compute; reflexivity|]. split; [vm_compute; reflexivity|]. split; [apply gpacking_checks_ok; vm_compute; reflexivity|].
  split; [apply gfull_checks_ok; vm_compute; reflexivity|]. split; [apply grelaxable_checks_ok; vm_compute; reflexivity|]. split; vm_compute; reflexivity.
Qed.

(** ** Bounds that are wrong *)

Definition soft_plate : GInstance :=
  mkGIn OBinPacking bp_params [mkGBT 1 2 0 10 10 [] no_trim no_trim no_trim (mkGT 2 false) []] [mkGI 50 2 2 5 10 0 0 true [[]]] [0; 2]%nat [0; 0]%nat.
Definition soft_calls : list GCall := [GAddBin 0 1 GVertical; GAddNode 1 5; GSetItem 0; GAddNode 1 10; GSetItem 0].

(** Soft trims: the solution builder lets items lie in them and the solution is feasible,
    but their area is not counted: the bound is two plates although a feasible solution
    has both items in one. *)
Theorem C72_soft_trims_refuted : exists i calls, grelaxable i /\ gin_objective i = OBinPacking /\ goptimize_trivial_bound i [] = RcBins 2 /\
  gmade_ok i calls = true /\ gs_feasible (gmade i calls) = true /\ gall_packed i (gview (gs_core (gmade i calls))) /\
  gin_order i (gview (gs_core (gmade i calls))) /\ gbins_used (gview (gs_core (gmade i calls))) = 1.
Proof.
  exists soft_plate, soft_calls. split; [apply grelaxable_checks_ok; vm_compute; reflexivity|]. split; [reflexivity|]. split; [vm_compute; reflexivity|].
  split; [vm_compute; reflexivity|]. split; [vm_compute; reflexivity|]. split; [apply gfull_checks_ok; vm_compute; reflexivity|].
  split; [apply gorder_checks_ok; vm_compute; reflexivity|vm_compute; reflexivity].
Qed.
Print Assumptions C72_soft_trims_refuted.

Definition turned_plate : GInstance :=
  mkGIn OOpenDimensionX bp_params [mkGBT 1 1 0 20 8 [] no_trim no_trim no_trim no_trim []] [mkGI 14 1 1 7 2 0 0 true [[]]] [0; 1]%nat [0]%nat.
Definition turned_calls : list GCall := [GAddBin 0 1 GVertical; GAddNode 1 2; GAddNode 2 7; GSetItem 0].

(** Items that may not be turned: the solution builder lets them be turned and the solution
    is feasible, with an extent of 2; the bound is 7. *)
Theorem C72_turned_refuted : exists i calls v, grelaxable i /\ gin_objective i = OOpenDimensionX /\ goptimize_trivial_bound i [] = RcX 7 /\
  (forall it, In it (gin_items i) -> gi_oriented it = true) /\
  gmade_ok i calls = true /\ gs_feasible (gmade i calls) = true /\ gview (gs_core (gmade i calls)) = [v] /\ gall_packed i [v] /\ gitems_right v = 2.
Proof.
  exists turned_plate, turned_calls. eexists. split; [apply grelaxable_checks_ok; vm_compute; reflexivity|]. split; [reflexivity|]. split; [vm_compute; reflexivity|].
  split; [intros it [<-|[]]; reflexivity|]. split; [vm_compute; reflexivity|]. split; [vm_compute; reflexivity|]. split; [vm_compute; reflexivity|].
  split; [apply gfull_checks_ok; vm_compute; reflexivity|vm_compute; reflexivity].
Qed.
Print Assumptions C72_turned_refuted.

Definition order_plates : GInstance :=
  mkGIn OBinPacking bp_params [mkGBT 1 2 0 10 10 [] no_trim no_trim no_trim no_trim []; mkGBT 1 1 0 20 10 [] no_trim no_trim no_trim no_trim []]
    [mkGI 50 4 4 5 10 0 0 true [[]; []]] [0; 4]%nat [0; 0; 0; 0]%nat.
Definition order_calls : list GCall :=
  [GAddBin 1 1 GVertical; GAddNode 1 5; GSetItem 0; GAddNode 1 10; GSetItem 0; GAddNode 1 15; GSetItem 0; GAddNode 1 20; GSetItem 0].

(** Plates that are not used in the order of the instance: the bound is two plates (of the
    first type) although one plate of the second type is enough, in a feasible solution. *)
Theorem C72_order_refuted : exists i calls, grelaxable i /\ gin_objective i = OBinPacking /\ goptimize_trivial_bound i [] = RcBins 2 /\
  gmade_ok i calls = true /\ gpacking i (gview (gs_core (gmade i calls))) /\ gall_packed i (gview (gs_core (gmade i calls))) /\
  gbins_used (gview (gs_core (gmade i calls))) = 1.
Proof.
  exists order_plates, order_calls. split; [apply grelaxable_checks_ok; vm_compute; reflexivity|]. split; [reflexivity|]. split; [vm_compute; reflexivity|].
  split; [vm_compute; reflexivity|]. split; [apply gpacking_checks_ok; vm_compute; reflexivity|]. split; [apply gfull_checks_ok; vm_compute; reflexivity|vm_compute; reflexivity].
Qed.
Print Assumptions C72_order_refuted.

Definition optional_plate : GInstance :=
  mkGIn OBinPacking bp_params [mkGBT 1 2 0 10 10 [] no_trim no_trim no_trim no_trim []] [mkGI 100 2 1 10 10 0 0 true [[]]] [0; 2]%nat [0; 0]%nat.
Definition optional_calls : list GCall := [GAddBin 0 1 GVertical; GAddNode 1 10; GSetItem 0].

(** Optional copies: with two 10 x 10 items of which one is mandatory, the trivial bound
    and the dual feasible functions claim two plates although a feasible solution has one. *)
Theorem C72_minimum_refuted : exists i calls, grelaxable i /\ gin_objective i = OBinPacking /\ goptimize_trivial_bound i [] = RcBins 2 /\
  goptimize_dff 0 5 i = GdBins 2 /\ gmade_ok i calls = true /\ gpacking i (gview (gs_core (gmade i calls))) /\ gin_order i (gview (gs_core (gmade i calls))) /\
  gbins_used (gview (gs_core (gmade i calls))) = 1.
Proof.
  exists optional_plate, optional_calls. split; [apply grelaxable_checks_ok; vm_compute; reflexivity|]. split; [reflexivity|]. split; [vm_compute; reflexivity|].
  split; [vm_compute; reflexivity|]. split; [vm_compute; reflexivity|]. split; [apply gpacking_checks_ok; vm_compute; reflexivity|].
  split; [apply gorder_checks_ok; vm_compute; reflexivity|vm_compute; reflexivity].
Qed.
Print Assumptions C72_minimum_refuted.

Definition negative_plate : GInstance :=
  mkGIn OKnapsack bp_params [mkGBT 1 1 0 10 10 [] no_trim no_trim no_trim no_trim []] [mkGI (-3) 1 0 5 5 0 0 true [[]]] [0; 1]%nat [0]%nat.

(** Items with a negative profit: the knapsack bound is below the profit of the empty
    packing. *)
Theorem C72_negative_profit_refuted : exists i order q, grelaxable i /\ gin_objective i = OKnapsack /\
  sorted_by (gtrivial_before i) (seq 0 (length (gin_items i))) order /\ goptimize_trivial_bound i order = RcProfit q /\
  gpacking i [] /\ (q < gnet_profit i [])%Q.
Proof.
  exists negative_plate, [0%nat]. eexists. split; [apply grelaxable_checks_ok; vm_compute; reflexivity|]. split; [reflexivity|].
  split. { split; [vm_compute; apply Permutation_refl|]. repeat constructor. }
  split; [vm_compute; reflexivity|]. split; [apply gpacking_checks_ok; vm_compute; reflexivity|vm_compute; reflexivity].
Qed.
Print Assumptions C72_negative_profit_refuted.

Definition mandatory_plate : GInstance :=
  mkGIn OBinPacking bp_params [mkGBT 1 2 1 10 10 [] no_trim no_trim no_trim no_trim []] [mkGI 100 1 1 10 10 0 0 true [[]]] [0; 1]%nat [0]%nat.

(** A mandatory plate: the onedimensional builder refuses the relaxation for bin packing,
    whatever the solver: [optimize] ends with an exception on a solvable instance. *)
Theorem C72_mandatory_bins_refuted : exists i calls, grelaxable i /\ gin_objective i = OBinPacking /\ gmade_ok i calls = true /\
  gpacking i (gview (gs_core (gmade i calls))) /\ gall_packed i (gview (gs_core (gmade i calls))) /\
  forall solve, goptimize_onedimensional_bound solve i = RcThrow.
Proof.
  exists mandatory_plate, optional_calls. split; [apply grelaxable_checks_ok; vm_compute; reflexivity|]. split; [reflexivity|]. split; [vm_compute; reflexivity|].
  split; [apply gpacking_checks_ok; vm_compute; reflexivity|]. split; [apply gfull_checks_ok; vm_compute; reflexivity|]. intro solve. vm_compute. reflexivity.
Qed.
Print Assumptions C72_mandatory_bins_refuted.

Definition trimmed_plate : GInstance := mkGIn OKnapsack bp_params [mkGBT 1 1 0 10 10 [] (mkGT 5 true) (mkGT 5 true) no_trim no_trim []] [mkGI 1 1 0 5 5 0 0 true [[]]] [0; 1]%nat [0]%nat.

(** A plate whose trims leave nothing: its area is 0, which the onedimensional builder
    refuses, although the empty packing is a solution of the knapsack. *)
Theorem C72_no_area_refuted : exists i, gin_objective i = OKnapsack /\ gpacking i [] /\ forall solve, goptimize_onedimensional_bound solve i = RcThrow.
Proof.
  exists trimmed_plate. split; [reflexivity|]. split; [apply gpacking_checks_ok; vm_compute; reflexivity|]. intro solve. vm_compute. reflexivity.
Qed.
Print Assumptions C72_no_area_refuted.
