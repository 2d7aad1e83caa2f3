(** * C68: cheap bounds of the irregular optimize function *)

From Coq Require Import List ZArith QArith Qround Bool Lia Lqa Sorted Permutation.
From Verif Require Import Util Common_Model Common_Proof OneDim_Model OneDim_Spec OneDimBuilder_Model OneDimBuilder_Spec OneDimDff_Spec OneDimBounds_Spec
  Irr_Model Irr_Spec Irr_Props IrrBounds_Model IrrBounds_Spec IrrBounds_Proof.
From Verif Require RectBounds_Model RectBounds_Spec.
Import ListNotations.
Open Scope Z_scope.

(** The trivial bounds are right for every packing: profit net of penalties (knapsack),
    number of bins (bin packing, bins in order), largest coordinate (open dimensions, if
    the box of the bin has no negative coordinate along the open dimension). *)
Theorem C68_trivial_bounds : forall i order, irproper i ->
  (ir_objective i = OKnapsack -> (forall it, In it (ir_items i) -> (0 <= ii_profit it)%Q) /\ sorted_by (irtrivial_before i) (irtrivial_items i) order) ->
  (ir_objective i = OOpenDimensionX -> (0 <= ix_min (ib_aabb (irbin i 0)))%Q) ->
  (ir_objective i = OOpenDimensionY -> (0 <= iy_min (ib_aabb (irbin i 0)))%Q) ->
  irclaim_right i (iroptimize_trivial_bound i order).
Proof. exact irtrivial_right. Qed.
Print Assumptions C68_trivial_bounds.

(** If the bounds of the onedimensional solver are right and no item is smaller than one
    unit of scaled area, then what is claimed from the relaxation is right. *)
Theorem C68_onedimensional : forall i solve, irproper i -> irroundable i ->
  ir_objective i = OBinPacking \/ ir_objective i = OKnapsack \/ ir_objective i = OVariableSizedBinPacking ->
  (ir_objective i = OBinPacking -> forall bt, In bt (ir_bins i) -> ib_copies_min bt = 0) ->
  (forall i1, RectBounds_Spec.bounds1_right i1 (solve i1)) ->
  irclaim_right i (iroptimize_onedimensional_bound solve i).
Proof. exact onedimensional_right. Qed.
Print Assumptions C68_onedimensional.

(** Any complete packing of the items is a packing of their areas in the onedimensional
    instance that is built, with the same bins, profit and cost: rounding the areas of
    the items down and those of the bins up loses no packing. *)
Theorem C68_relaxation : forall i ds, irproper i -> irroundable i ->
  (ir_objective i = OBinPacking -> forall bt, In bt (ir_bins i) -> ib_copies_min bt = 0) ->
  irvalid i ds -> irall_packed i ds ->
  exists b i1, calls_from b_new (irrelax_calls i) = BOk b /\ b_build b = Built i1 /\
    PackingOK i1 (map irrelax_desc ds) /\ available_bins i1 (map irrelax_desc ds) /\ all_packed i1 (map irrelax_desc ds) /\
    zsum bd_copies (map irrelax_desc ds) = irbins_used ds /\
    (profit_of i1 (map irrelax_desc ds) == irprofit i ds)%Q /\ (cost_of i1 (map irrelax_desc ds) == irpacking_cost i ds)%Q.
Proof.
  intros i ds H1 H2 Hmin BP Hall. pose proof (conj H1 H2 : relax_ok i) as Hr. destruct (relax_builds i Hr Hmin) as (i1 & Hb). exists (builder1 i), i1.
  split; [apply relax_builder; exact Hr|]. split; [exact Hb|].
  split; [eapply relax_packing; eauto|]. split; [eapply relax_available; eauto; intros t Ht; apply (iv_used i ds BP); exact Ht|]. split; [eapply relax_all; eauto|].
  split; [eapply relax_count; eauto|]. split; [eapply relax_profit; eauto|eapply relax_cost; eauto].
Qed.
Print Assumptions C68_relaxation.

(** An item type left out of the knapsack bound is in no packing. *)
Theorem C68_excluded_items : forall i ds x, irproper i -> irvalid i ds -> irfits_some_bin i x = false -> irpacked x ds = 0.
Proof.
  intros i ds x H1 H2 H. destruct (Z.eq_dec (irpacked x ds) 0) as [|N]; [assumption|]. rewrite (tpacked_fits i H1 ds H2 x N) in H. discriminate.
Qed.
Print Assumptions C68_excluded_items.

(** ** Examples *)

(** Checks by computation. *)
Definition geometry_checks (i : IrInstance) (d : IrDesc) : bool :=
  let b := ib_aabb (irbin i (ird_type d)) in
  Nat.ltb (ird_type d) (length (ir_bins i))
  && forallb (fun p => Nat.ltb (ip_type p) (length (ir_items i))) (ird_items d)
  && forallb (fun p => existsb (fun r => eqb (irr_mirror r) (ip_mirror p) && Qle_bool (irr_start r) (ip_angle p) && Qle_bool (ip_angle p) (irr_end r))
       (ii_rotations (iritem i (ip_type p)))) (ird_items d)
  && forallb (fun p => let c := place_box i p in
       Qle_bool (ix_min b) (ix_min c) && Qle_bool (ix_max c) (ix_max b) && Qle_bool (iy_min b) (iy_min c) && Qle_bool (iy_max c) (iy_max b)) (ird_items d)
  && Qle_bool (irarea i (ird_items d)) (ib_area (irbin i (ird_type d)))
  && Qle_bool (qsum (fun p => ii_scaled (iritem i (ip_type p))) (ird_items d)) (ib_scaled (irbin i (ird_type d)))
  && (Qle_bool (irarea i (ird_items d)) 0
      || existsb (fun p => Qle_bool (irarea i (ird_items d)) ((ix_max (place_box i p) - ix_min b) * (iy_max b - iy_min b))) (ird_items d))
  && (Qle_bool (irarea i (ird_items d)) 0
      || existsb (fun p => Qle_bool (irarea i (ird_items d)) ((iy_max (place_box i p) - iy_min b) * (ix_max b - ix_min b))) (ird_items d))
  && Qle_bool (ix_min b) (ix_max b) && Qle_bool (iy_min b) (iy_max b).
Lemma part_area : forall (a lo h x : Q) (ys : list Q), (Qle_bool a 0 || existsb (fun y => Qle_bool a ((y - lo) * h)) ys) = true ->
  (0 <= h -> (forall y, In y ys -> y <= x) -> lo <= x -> a <= (x - lo) * h)%Q.
Proof.
  intros a lo h x ys H Hh Hy Hx. apply orb_true_iff in H. destruct H as [H|H].
  - apply Qle_bool_iff in H. assert (0 <= (x - lo) * h)%Q by (apply Qmult_le_0_compat; lra). lra.
  - apply existsb_exists in H. destruct H as (y & Iy & Ey). apply Qle_bool_iff in Ey. eapply Qle_trans; [exact Ey|]. apply Qmult_le_compat_r; [|exact Hh].
    specialize (Hy y Iy). lra.
Qed.
Lemma existsb_map' : forall (A B : Type) (g : A -> B) (f : B -> bool) l, existsb f (map g l) = existsb (fun x => f (g x)) l.
Proof. intros A B g f l. induction l as [|x l IH]; [reflexivity|]. cbn [map existsb]. rewrite IH. reflexivity. Qed.
Lemma geometry_checks_ok : forall i d, geometry_checks i d = true -> irgeometry i d.
Proof.
  intros i d H. unfold geometry_checks in H. cbv zeta in H. rewrite !andb_true_iff, !forallb_forall in H.
  destruct H as (((((((((H1 & H2) & H3) & H4) & H5) & H6) & H7) & H8) & H9) & H10). apply Qle_bool_iff in H5, H6, H9, H10. constructor.
  - apply Nat.ltb_lt. exact H1.
  - intros p Hp. apply Nat.ltb_lt, H2, Hp.
  - intros p Hp. specialize (H3 p Hp). apply existsb_exists in H3. destruct H3 as (r & R & E). rewrite !andb_true_iff, !Qle_bool_iff in E.
    destruct E as ((E1 & E2) & E3). exists r. split; [exact R|]. split; [apply eqb_prop; exact E1|]. split; assumption.
  - intros p Hp. specialize (H4 p Hp). rewrite !andb_true_iff, !Qle_bool_iff in H4. destruct H4 as (((A & B) & C) & D). repeat split; assumption.
  - exact H5.
  - exact H6.
  - intros x b Hx Hl. unfold b in *. apply (part_area _ _ _ x (map (fun p => ix_max (place_box i p)) (ird_items d))); [rewrite existsb_map'; exact H7|lra| |exact Hl].
    intros y Hy. apply in_map_iff in Hy. destruct Hy as (p & <- & Hp). apply Hx, Hp.
  - intros x b Hx Hl. unfold b in *. apply (part_area _ _ _ x (map (fun p => iy_max (place_box i p)) (ird_items d))); [rewrite existsb_map'; exact H8|lra| |exact Hl].
    intros y Hy. apply in_map_iff in Hy. destruct Hy as (p & <- & Hp). apply Hx, Hp.
Qed.
Definition irvalid_checks (i : IrInstance) (ds : list IrDesc) : bool :=
  forallb (fun d => (1 <=? ird_copies d) && geometry_checks i d) ds
  && forallb (fun t => (ib_copies_min (irbin i t) <=? irused_bins t ds) && (irused_bins t ds <=? ib_copies (irbin i t))) (seq 0 (length (ir_bins i)))
  && forallb (fun x => irpacked x ds <=? ii_copies (iritem i x)) (seq 0 (length (ir_items i))).
Lemma irvalid_checks_ok : forall i ds, irvalid_checks i ds = true -> irvalid i ds.
Proof.
  intros i ds H. unfold irvalid_checks in H. rewrite !andb_true_iff, !forallb_forall in H. destruct H as ((H1 & H2) & H3). constructor.
  - intros d Hd. specialize (H1 d Hd). apply andb_true_iff in H1. destruct H1 as [A B]. split; [apply Z.leb_le; exact A|apply geometry_checks_ok; exact B].
  - intros t Ht. specialize (H2 t ltac:(apply in_seq; lia)). rewrite andb_true_iff, !Z.leb_le in H2. exact H2.
  - intros x Hx. apply Z.leb_le, H3, in_seq. lia.
Qed.
Definition irall_checks (i : IrInstance) (ds : list IrDesc) : bool :=
  forallb (fun x => irpacked x ds =? ii_copies (iritem i x)) (seq 0 (length (ir_items i))).
Lemma irall_checks_ok : forall i ds, irall_checks i ds = true -> irall_packed i ds.
Proof. intros i ds H x Hx. unfold irall_checks in H. rewrite forallb_forall in H. apply Z.eqb_eq, H, in_seq. lia. Qed.
Definition irorder_checks (i : IrInstance) (ds : list IrDesc) : bool :=
  forallb (fun u => (irused_bins u ds <=? 0) || forallb (fun t => irused_bins t ds =? ib_copies (irbin i t)) (seq 0 u)) (seq 0 (length (ir_bins i))).
Lemma irorder_checks_ok : forall i ds, irorder_checks i ds = true -> irin_order i ds.
Proof.
  intros i ds H t u Htu Hu. unfold irorder_checks in H. rewrite forallb_forall in H. specialize (H u ltac:(apply in_seq; lia)).
  apply orb_true_iff in H. destruct H as [H|H]; [apply Z.leb_le in H; lia|]. rewrite forallb_forall in H. apply Z.eqb_eq, H, in_seq. lia.
Qed.

(** Squares of side [l] whose reference point is the bottom left corner, triangles (the
    half of a rectangle), and rectangular bins whose bottom left corner is [(x, 0)]; areas
    are scaled by 4. *)
Definition square (l profit : Q) (copies copies_min : Z) : IrItem :=
  mkIrItem (l * l) (4 * l * l) profit copies copies_min [mkIrRot 0 0 false] (fun _ _ => mkIrBox 0 l 0 l) [].
Definition triangle (w h profit : Q) (copies : Z) : IrItem :=
  mkIrItem (w * h / 2) (2 * w * h) profit copies copies [mkIrRot 0 0 false] (fun _ _ => mkIrBox 0 w 0 h) [].
Definition plate (x w h cost : Q) (copies copies_min : Z) : IrBin :=
  mkIrBin (w * h) (4 * w * h) (mkIrBox x (x + w) 0 h) cost copies copies_min [].
Definition irex (o : Objective) (items : list IrItem) (bins : list IrBin) : IrInstance := mkIrInst o LBottomLeft 2 0 items bins.

Ltac qtriv := unfold Qlt, Qle; simpl; lia.
Ltac irproper_tac :=
  constructor;
  [ intros it Hit; simpl in Hit; repeat (destruct Hit as [<-|Hit]; [repeat split; try (intros; qtriv)|]); destruct Hit
  | intros bt Hbt; simpl in Hbt; repeat (destruct Hbt as [<-|Hbt]; [repeat split; try qtriv|]); destruct Hbt ].
Ltac irround_tac :=
  constructor;
  [ intros it Hit; simpl in Hit; repeat (destruct Hit as [<-|Hit]; [qtriv|]); destruct Hit
  | intros bt Hbt; simpl in Hbt; repeat (destruct Hbt as [<-|Hbt]; [qtriv|]); destruct Hbt
  | vm_compute; discriminate ].

(** Three triangles 4 x 5, one square of side 7, plates 10 x 8 (two) and 9 x 9: 79 of
    area in the 80 of the first plate, but two plates are used. *)
Definition ex_ib (o : Objective) : IrInstance :=
  irex o [triangle 4 5 10 3; square 7 45 1 1] [plate 0 10 8 7 2 0; plate 0 9 9 5 1 0].
Definition ex_ib_packing : list IrDesc :=
  [mkIrD 0 1 [mkIrP 0 0 0 0 false false; mkIrP 0 4 0 0 false false; mkIrP 0 6 3 0 false false]; mkIrD 0 1 [mkIrP 1 0 0 0 false false]].
Definition ex_ib_packing2 : list IrDesc :=
  [mkIrD 0 1 [mkIrP 0 0 0 0 false false; mkIrP 0 4 0 0 false false; mkIrP 0 6 3 0 false false]; mkIrD 1 1 [mkIrP 1 0 0 0 false false]].
Example C68_trivial_example : irproper (ex_ib OBinPacking) /\ iroptimize_trivial_bound (ex_ib OBinPacking) [] = IcBins 1 /\
  irvalid (ex_ib OBinPacking) (firstn 1 ex_ib_packing) /\ irvalid (ex_ib OBinPacking) (mkIrD 0 1 [] :: ex_ib_packing2) /\
  irvalid (ex_ib OBinPacking) ex_ib_packing /\ irall_packed (ex_ib OBinPacking) ex_ib_packing /\
  irin_order (ex_ib OBinPacking) ex_ib_packing /\ irbins_used ex_ib_packing = 2.
Proof.
  split; [irproper_tac|]. split; [vm_compute; reflexivity|]. split; [apply irvalid_checks_ok; vm_compute; reflexivity|].
  split; [apply irvalid_checks_ok; vm_compute; reflexivity|]. split; [apply irvalid_checks_ok; vm_compute; reflexivity|].
  split; [apply irall_checks_ok; vm_compute; reflexivity|]. split; [apply irorder_checks_ok; vm_compute; reflexivity|reflexivity].
Qed.

(** Knapsack: 70 of area; the square first (45/49), then 21 of the 30 of the triangles; an
    item that fits no bin is left out. *)
Definition ex_ibk : IrInstance :=
  irex OKnapsack [triangle 4 5 9 3; square 7 45 1 0; triangle 11 1 1000 1] [plate 0 10 7 7 1 0].
Definition ex_ibk_packing : list IrDesc := [mkIrD 0 1 [mkIrP 1 0 0 0 false false]].
Example C68_knapsack_example : irproper ex_ibk /\ sorted_by (irtrivial_before ex_ibk) (irtrivial_items ex_ibk) [1; 0]%nat /\
  (forall it, In it (ir_items ex_ibk) -> (0 <= ii_profit it)%Q) /\
  (exists q, iroptimize_trivial_bound ex_ibk [1; 0]%nat = IcProfit q /\ (q == 639 # 10)%Q) /\
  irvalid ex_ibk ex_ibk_packing /\ (irnet_profit ex_ibk ex_ibk_packing == 45)%Q /\ irfits_some_bin ex_ibk 2 = false.
Proof.
  split; [irproper_tac|]. split.
  { split; [vm_compute; apply perm_swap|]. repeat constructor; vm_compute; reflexivity. }
  split. { assert (X : forallb (fun it => Qle_bool 0 (ii_profit it)) (ir_items ex_ibk) = true) by (vm_compute; reflexivity).
    rewrite forallb_forall in X. intros it Hit. apply Qle_bool_iff, X, Hit. }
  split. { eexists. split; [vm_compute; reflexivity|vm_compute; reflexivity]. }
  split; [apply irvalid_checks_ok; vm_compute; reflexivity|]. split; vm_compute; reflexivity.
Qed.

(** Open dimension: 21 + 18 of area in a height of 6, at least 13/2; 10 are used. *)
Definition ex_ibo : IrInstance := irex OOpenDimensionX [triangle 7 6 1 1; square 3 1 2 2] [plate 0 20 6 7 1 0].
Definition ex_ibo_items : list IrPlace := [mkIrP 0 0 0 0 false false; mkIrP 1 7 0 0 false false; mkIrP 1 7 3 0 false false].
Example C68_open_example : irproper ex_ibo /\ (exists q, iroptimize_trivial_bound ex_ibo [] = IcX q /\ (q == 13 # 2)%Q) /\
  irvalid ex_ibo [mkIrD 0 1 ex_ibo_items] /\ irall_packed ex_ibo [mkIrD 0 1 ex_ibo_items] /\
  LargestOf (fun p => ix_max (place_box ex_ibo p)) ex_ibo_items (Some 10%Q).
Proof.
  split; [irproper_tac|]. split; [eexists; split; vm_compute; reflexivity|]. split; [apply irvalid_checks_ok; vm_compute; reflexivity|].
  split; [apply irall_checks_ok; vm_compute; reflexivity|]. split.
  - exists (mkIrP 1 7 0 0 false false). split; [right; left; reflexivity|vm_compute; reflexivity].
  - intros p Hp. simpl in Hp. repeat (destruct Hp as [<-|Hp]; [qtriv|]). destruct Hp.
Qed.

(** The relaxation is built and its claim is that of the onedimensional solver. *)
Example C68_onedimensional_example : irproper (ex_ib OVariableSizedBinPacking) /\ irroundable (ex_ib OVariableSizedBinPacking) /\
  (forall solve, exists i1, iroptimize_onedimensional_bound solve (ex_ib OVariableSizedBinPacking) = IcCost (b1_cost (solve i1)) /\
     map bt_length (in_bin_types i1) = [320; 324] /\ map it_length (in_item_types i1) = [40; 196] /\
     map bt_copies (in_bin_types i1) = [2; 1] /\ map it_copies (in_item_types i1) = [3; 1]) /\
  irvalid (ex_ib OVariableSizedBinPacking) ex_ib_packing2 /\ irall_packed (ex_ib OVariableSizedBinPacking) ex_ib_packing2.
Proof.
  split; [irproper_tac|]. split; [irround_tac|]. split.
  { intro solve. eexists. split; [vm_compute; reflexivity|]. repeat split; vm_compute; reflexivity. }
  split; [apply irvalid_checks_ok; vm_compute; reflexivity|apply irall_checks_ok; vm_compute; reflexivity].
Qed.

(** ** Bounds that are wrong *)

Lemma onedimensional_knapsack : forall i solve b i1, calls_from b_new (irrelax_calls i) = BOk b -> b_build b = Built i1 -> ir_objective i = OKnapsack ->
  iroptimize_onedimensional_bound solve i = IcProfit (b1_profit (solve i1) + irnegative_penalty_sum i).
Proof. intros i solve b i1 H1 H2 H3. unfold iroptimize_onedimensional_bound. rewrite H1, H2, H3. reflexivity. Qed.

(** Items with a scaled area below 1 are left out of the onedimensional instance, with
    their profits: the knapsack bound is below the profit of a packing for every solver
    whose bound is at most the total profit of its items, as the optimum is.  (In a bin of
    1024 x 1024 the scale is 1 and an item of 0.9 x 0.9 is left out.) *)
Theorem C68_small_items_refuted : exists i ds, irproper i /\ ir_objective i = OKnapsack /\ irvalid i ds /\
  (forall it, In it (ir_items i) -> (0 < ii_scaled it)%Q) /\
  forall solve, (forall i1, (b1_profit (solve i1) <= qsum (fun it => inject_Z (it_copies it) * it_profit it) (in_item_types i1))%Q) ->
  exists q, iroptimize_onedimensional_bound solve i = IcProfit q /\ (q < irnet_profit i ds)%Q.
Proof.
  set (unit_square := fun l => mkIrItem (l * l) (l * l) 10 1 0 [mkIrRot 0 0 false] (fun _ _ => mkIrBox 0 l 0 l) []).
  exists (irex OKnapsack [unit_square 10%Q; unit_square (9 # 10)] [mkIrBin (1024 * 1024) (1024 * 1024) (mkIrBox 0 1024 0 1024) 1 1 0 []]).
  exists [mkIrD 0 1 [mkIrP 0 0 0 0 false false; mkIrP 1 10 0 0 false false]].
  split; [irproper_tac|]. split; [reflexivity|]. split; [apply irvalid_checks_ok; vm_compute; reflexivity|].
  split. { intros it Hit. simpl in Hit. destruct Hit as [<-|[<-|[]]]; qtriv. }
  intros solve Hs. eexists. split; [eapply onedimensional_knapsack; [vm_compute; reflexivity|vm_compute; reflexivity|reflexivity]|].
  match goal with |- context [solve ?x] => specialize (Hs x); remember (solve x) as out eqn:Eo; clear Eo end.
  match type of Hs with (_ <= ?q)%Q => assert (E : (q == 10)%Q) by (vm_compute; reflexivity); rewrite E in Hs; clear E end.
  match goal with |- (_ + ?a < ?r)%Q => assert (E : (r == 20)%Q) by (vm_compute; reflexivity); rewrite E; assert (E2 : (a == 0)%Q) by (vm_compute; reflexivity) end.
  lra.
Qed.
Print Assumptions C68_small_items_refuted.

(** A bin whose box starts at a negative coordinate: the bound of the open dimension is a
    length, the value of a solution is a coordinate.  A 10 x 10 item at -10 in a bin from
    -10 to 10: the solution ends at 0, below the bound 10. *)
Theorem C68_origin_refuted : exists i items q s, irproper i /\ ir_objective i = OOpenDimensionX /\ iroptimize_trivial_bound i [] = IcX q /\
  irvalid i [mkIrD 0 1 items] /\ irall_packed i [mkIrD 0 1 items] /\
  irhistory i iraccept (IrAddBin 0 1 :: map (IrAddItem 0) items) [] = Some s /\ irsol_feasible s = true /\
  (exists x, ie_xmax (irc_ext (irsol_core s)) = Some x /\ (x < q)%Q).
Proof.
  exists (irex OOpenDimensionX [square 10 1 1 1] [plate (-10) 20 10 1 1 0]), [mkIrP 0 (-10) 0 0 false false]. eexists. eexists.
  split; [irproper_tac|]. split; [reflexivity|]. split; [vm_compute; reflexivity|].
  split; [apply irvalid_checks_ok; vm_compute; reflexivity|]. split; [apply irall_checks_ok; vm_compute; reflexivity|].
  split; [vm_compute; reflexivity|]. split; [vm_compute; reflexivity|]. eexists. split; [vm_compute; reflexivity|vm_compute; reflexivity].
Qed.
Print Assumptions C68_origin_refuted.

(** Items with a negative profit: the knapsack bound is below the profit of the empty
    packing. *)
Theorem C68_negative_profit_refuted : exists i order q, irproper i /\ ir_objective i = OKnapsack /\
  sorted_by (irtrivial_before i) (irtrivial_items i) order /\ iroptimize_trivial_bound i order = IcProfit q /\
  irvalid i [] /\ (q < irnet_profit i [])%Q.
Proof.
  exists (irex OKnapsack [square 5 (-3) 1 0] [plate 0 10 10 1 1 0]), [0%nat]. eexists.
  split; [irproper_tac|]. split; [reflexivity|].
  split. { split; [vm_compute; apply Permutation_refl|]. repeat constructor. }
  split; [vm_compute; reflexivity|]. split; [apply irvalid_checks_ok; vm_compute; reflexivity|vm_compute; reflexivity].
Qed.
Print Assumptions C68_negative_profit_refuted.

(** Bins that are not used in the order of the instance: the bound is two bins (of the
    first type) although one bin of the second type is enough. *)
Theorem C68_order_refuted : exists i ds, irproper i /\ ir_objective i = OBinPacking /\ iroptimize_trivial_bound i [] = IcBins 2 /\
  irvalid i ds /\ irall_packed i ds /\ irbins_used ds = 1.
Proof.
  exists (irex OBinPacking [square 5 1 5 5] [plate 0 10 10 1 2 0; plate 0 25 10 1 1 0]),
    [mkIrD 1 1 (map (fun x => mkIrP 0 x 0 0 false false) [0; 5; 10; 15; 20]%Q)].
  split; [irproper_tac|]. split; [reflexivity|]. split; [vm_compute; reflexivity|].
  split; [apply irvalid_checks_ok; vm_compute; reflexivity|]. split; [apply irall_checks_ok; vm_compute; reflexivity|reflexivity].
Qed.
Print Assumptions C68_order_refuted.

(** Optional copies: with two items of which one is mandatory, the bound is two bins
    although packing one item in one bin is a feasible solution, which the comparison of
    solutions prefers to the complete one. *)
Theorem C68_minimum_refuted : exists i ds one two s1 s2, irproper i /\ ir_objective i = OBinPacking /\ iroptimize_trivial_bound i [] = IcBins 2 /\
  irvalid i ds /\ irin_order i ds /\ irbins_used ds = 1 /\
  irhistory i iraccept one [] = Some s1 /\ irview s1 = ds /\ irsol_feasible s1 = true /\
  irhistory i iraccept two [] = Some s2 /\ irsol_feasible s2 = true /\ irall_packed i (irview s2) /\ irsol_lt (1 # 1000000) i s2 s1 = Some true.
Proof.
  exists (irex OBinPacking [square 10 1 2 1] [plate 0 10 10 1 2 0]), [mkIrD 0 1 [mkIrP 0 0 0 0 false false]],
    [IrAddBin 0 1; IrAddItem 0 (mkIrP 0 0 0 0 false false)], [IrAddBin 0 2; IrAddItem 0 (mkIrP 0 0 0 0 false false)]. eexists. eexists.
  split; [irproper_tac|]. split; [reflexivity|]. split; [vm_compute; reflexivity|].
  split; [apply irvalid_checks_ok; vm_compute; reflexivity|]. split; [apply irorder_checks_ok; vm_compute; reflexivity|]. split; [reflexivity|].
  split; [vm_compute; reflexivity|]. split; [vm_compute; reflexivity|]. split; [vm_compute; reflexivity|].
  split; [vm_compute; reflexivity|]. split; [vm_compute; reflexivity|]. split; [apply irall_checks_ok; vm_compute; reflexivity|vm_compute; reflexivity].
Qed.
Print Assumptions C68_minimum_refuted.

(** A mandatory bin: the onedimensional builder refuses it for bin packing, whatever the
    solver: [optimize] ends with an exception on a solvable instance. *)
Theorem C68_mandatory_bins_refuted : exists i ds, irproper i /\ irroundable i /\ ir_objective i = OBinPacking /\
  irvalid i ds /\ irall_packed i ds /\ irin_order i ds /\ forall solve, iroptimize_onedimensional_bound solve i = IcThrow.
Proof.
  exists (irex OBinPacking [square 5 1 1 1] [plate 0 10 10 1 2 1]), [mkIrD 0 1 [mkIrP 0 0 0 0 false false]].
  split; [irproper_tac|]. split; [irround_tac|]. split; [reflexivity|].
  split; [apply irvalid_checks_ok; vm_compute; reflexivity|]. split; [apply irall_checks_ok; vm_compute; reflexivity|].
  split; [apply irorder_checks_ok; vm_compute; reflexivity|]. intro solve. vm_compute. reflexivity.
Qed.
Print Assumptions C68_mandatory_bins_refuted.
