(** * C74: the boxstacks instance builder *)

From Coq Require Import List ZArith QArith Bool Lia Lqa Arith.
From Verif Require Import Util Common_Model OneDim_Model OneDim_Spec OneDimBuilder_Model OneDimBuilder_Spec OneDimBuilder_Proof
  Rect_Model Box_Model Box_Spec Stack_Model StackBuilder_Model StackBuilder_Spec StackBuilder_Proof.
Import ListNotations.
Open Scope Z_scope.

(** Every instance built after any sequence of calls (the caller catching the
    exceptions and going on) has consistent computed attributes, is within
    bounds and holds the data entered in the builder. *)
Theorem C74_built : forall o calls b i d, yrun o calls = Some b -> y_build b = YBuilt i d ->
  yconsistent i d /\ ywell_bounded i /\ yholds_data b i d.
Proof.
  intros o calls b i d Hb Hi. pose proof (yrun_inv o calls b Hb) as Hinv. split; [|split].
  - apply (ybuild_consistent b i d Hi Hinv).
  - apply (ybuild_bounded b i d Hi Hinv).
  - apply (ybuild_holds b i d Hi).
Qed.
Print Assumptions C74_built.

(** Each call that enters data returns exactly when its arguments are valid,
    throws exactly when they are not, and then leaves the builder unchanged. *)
Theorem C74_calls : forall b c, ydirect c = true ->
  match ystep b c with
  | YOk _ => yaccepted b c /\ ~ yunchecked b c
  | YThrow b' => b' = b /\ ~ yaccepted b c
  | YUndef => yunchecked b c
  end.
Proof. exact yacceptance. Qed.
Print Assumptions C74_calls.

(** Adding a type appends it, with the documented defaults, and changes nothing
    else. *)
Theorem C74_add : forall b v b1 b2, y_add_bin b v = YOk b1 -> y_add_item b v = YOk b2 ->
  y_bins b1 = y_bins b ++ [mkKB v (inject_Z (v_x v * v_y v)) 1 0 [] None None no_truck] /\
  y_items b2 = y_items b ++ [mkKI v (inject_Z (v_x v * v_y v * v_z v)) 1 (-1) 0 [] 0 0 0 (2 ^ 31 - 1) None] /\
  y_items b1 = y_items b /\ y_bins b2 = y_bins b /\ y_objective b1 = y_objective b /\ y_objective b2 = y_objective b.
Proof.
  intros b v b1 b2 H1 H2. unfold y_add_bin in H1. unfold y_add_item in H2.
  destruct (v_x v <=? 0); [discriminate|]. destruct (v_y v <=? 0); [discriminate|]. destruct (v_z v <=? 0); [discriminate|].
  destruct (v_x v <? 0); [discriminate|]. destruct (v_y v <? 0); [discriminate|]. destruct (v_z v <? 0); [discriminate|].
  injection H1 as <-. injection H2 as <-. repeat split; reflexivity.
Qed.
Print Assumptions C74_add.

(** Each setter stores its argument in the field of the type it names and
    changes nothing else. *)
Theorem C74_bin_setters : forall b id k q w de tr dx dy dlx dly n m b1 b2 b3 b4 b5 b6 b7,
  id = Z.of_nat k ->
  y_set_bin_cost b id q = YOk b1 ->
  y_set_bin_weight b id w = YOk b2 ->
  y_set_bin_density b id de = YOk b3 ->
  y_set_bin_truck b id tr = YOk b4 ->
  y_add_defect b id dx dy dlx dly = YOk b5 ->
  y_set_bin_copies b id n = YOk b6 ->
  y_set_bin_copies_min b id m = YOk b7 ->
  let old := nth k (y_bins b) dummy_kbin in
  let new b' := nth k (y_bins b') dummy_kbin in
  new b1 = mkKB (kb_box old) (if Qeq_bool q (-1) then inject_Z (v_x (kb_box old) * v_y (kb_box old)) else q) (kb_copies old) (kb_copies_min old) (kb_defects old) (kb_max_weight old) (kb_max_density old) (kb_truck old) /\
  new b2 = mkKB (kb_box old) (kb_cost old) (kb_copies old) (kb_copies_min old) (kb_defects old) w (kb_max_density old) (kb_truck old) /\
  new b3 = mkKB (kb_box old) (kb_cost old) (kb_copies old) (kb_copies_min old) (kb_defects old) (kb_max_weight old) de (kb_truck old) /\
  new b4 = mkKB (kb_box old) (kb_cost old) (kb_copies old) (kb_copies_min old) (kb_defects old) (kb_max_weight old) (kb_max_density old) tr /\
  new b5 = mkKB (kb_box old) (kb_cost old) (kb_copies old) (kb_copies_min old) (kb_defects old ++ [mkDefect dx dy dlx dly]) (kb_max_weight old) (kb_max_density old) (kb_truck old) /\
  new b6 = mkKB (kb_box old) (kb_cost old) n (kb_copies_min old) (kb_defects old) (kb_max_weight old) (kb_max_density old) (kb_truck old) /\
  new b7 = mkKB (kb_box old) (kb_cost old) (kb_copies old) m (kb_defects old) (kb_max_weight old) (kb_max_density old) (kb_truck old) /\
  (forall j, j <> k -> forall b', In b' [b1; b2; b3; b4; b5; b6; b7] -> nth j (y_bins b') dummy_kbin = nth j (y_bins b) dummy_kbin) /\
  (forall b', In b' [b1; b2; b3; b4; b5; b6; b7] -> y_items b' = y_items b /\ y_objective b' = y_objective b /\
     y_unloading b' = y_unloading b /\ y_check_weight b' = y_check_weight b /\ length (y_bins b') = length (y_bins b)).
Proof.
  intros b id k q w de tr dx dy dlx dly n m b1 b2 b3 b4 b5 b6 b7 -> H1 H2 H3 H4 H5 H6 H7 old new.
  assert (Hon : forall f b', yon_bin b (Z.of_nat k) f = YOk b' ->
     (k < length (y_bins b))%nat /\ b' = yset_bins b (upd k f (y_bins b))).
  { intros f b'. unfold yon_bin. destruct (bad_id (Z.of_nat k) (y_bins b)) eqn:E; [discriminate|].
    apply bad_id_false in E. unfold in_range in E. rewrite Nat2Z.id. intro H. injection H as <-. split; [lia|reflexivity]. }
  unfold y_set_bin_cost in H1. destruct (bad_id _ _) in H1; [discriminate|]. destruct (_ && _) in H1; [discriminate|].
  unfold y_set_bin_copies in H6. destruct (bad_id _ _) in H6; [discriminate|]. destruct (_ && _) in H6; [discriminate|].
  unfold y_set_bin_copies_min in H7. destruct (bad_id _ _) in H7; [discriminate|]. destruct (m <? 0) in H7; [discriminate|]. destruct (_ && _) in H7; [discriminate|].
  apply Hon in H1, H2, H3, H4, H5, H6, H7.
  destruct H1 as [Hk ->], H2 as [_ ->], H3 as [_ ->], H4 as [_ ->], H5 as [_ ->], H6 as [_ ->], H7 as [_ ->].
  unfold new, yset_bins. cbn [y_bins]. rewrite !nth_upd_same by assumption.
  do 7 (split; [reflexivity|]). split.
  - intros j Hj b' Hb'. simpl in Hb'. destruct Hb' as [<-|[<-|[<-|[<-|[<-|[<-|[<-|[]]]]]]]]; cbn [y_bins]; apply nth_upd_other; congruence.
  - intros b' Hb'. simpl in Hb'. destruct Hb' as [<-|[<-|[<-|[<-|[<-|[<-|[<-|[]]]]]]]]; cbn [y_bins y_items y_objective y_unloading y_check_weight];
      rewrite upd_length; auto 10.
Qed.
Print Assumptions C74_bin_setters.

Theorem C74_item_setters : forall b id k p n m g r w s h ms ab b1 b2 b3 b4 b5 b6 b7 b8 b9 b10,
  id = Z.of_nat k ->
  y_set_item_profit b id p = YOk b1 ->
  y_set_item_copies b id n = YOk b2 ->
  y_set_item_copies_min b id m = YOk b3 ->
  y_set_item_group b id g = YOk b4 ->
  y_add_rotation b id r = YOk b5 ->
  y_set_item_weight b id w = YOk b6 ->
  y_set_item_stackability b id s = YOk b7 ->
  y_set_item_nesting b id h = YOk b8 ->
  y_set_item_max_stackability b id ms = YOk b9 ->
  y_set_item_above b id ab = YOk b10 ->
  let old := nth k (y_items b) dummy_kitem in
  let new b' := nth k (y_items b') dummy_kitem in
  new b1 = mkKI (ki_box old) p (ki_copies old) (ki_copies_min old) (ki_group old) (ki_rotations old) (ki_weight old) (ki_stackability old) (ki_nesting old) (ki_max_stackability old) (ki_max_above old) /\
  new b2 = mkKI (ki_box old) (ki_profit old) n (ki_copies_min old) (ki_group old) (ki_rotations old) (ki_weight old) (ki_stackability old) (ki_nesting old) (ki_max_stackability old) (ki_max_above old) /\
  new b3 = mkKI (ki_box old) (ki_profit old) (ki_copies old) m (ki_group old) (ki_rotations old) (ki_weight old) (ki_stackability old) (ki_nesting old) (ki_max_stackability old) (ki_max_above old) /\
  new b4 = mkKI (ki_box old) (ki_profit old) (ki_copies old) (ki_copies_min old) (Z.to_nat g) (ki_rotations old) (ki_weight old) (ki_stackability old) (ki_nesting old) (ki_max_stackability old) (ki_max_above old) /\
  new b5 = mkKI (ki_box old) (ki_profit old) (ki_copies old) (ki_copies_min old) (ki_group old) (ki_rotations old ++ [r]) (ki_weight old) (ki_stackability old) (ki_nesting old) (ki_max_stackability old) (ki_max_above old) /\
  new b6 = mkKI (ki_box old) (ki_profit old) (ki_copies old) (ki_copies_min old) (ki_group old) (ki_rotations old) w (ki_stackability old) (ki_nesting old) (ki_max_stackability old) (ki_max_above old) /\
  new b7 = mkKI (ki_box old) (ki_profit old) (ki_copies old) (ki_copies_min old) (ki_group old) (ki_rotations old) (ki_weight old) s (ki_nesting old) (ki_max_stackability old) (ki_max_above old) /\
  new b8 = mkKI (ki_box old) (ki_profit old) (ki_copies old) (ki_copies_min old) (ki_group old) (ki_rotations old) (ki_weight old) (ki_stackability old) h (ki_max_stackability old) (ki_max_above old) /\
  new b9 = mkKI (ki_box old) (ki_profit old) (ki_copies old) (ki_copies_min old) (ki_group old) (ki_rotations old) (ki_weight old) (ki_stackability old) (ki_nesting old) ms (ki_max_above old) /\
  new b10 = mkKI (ki_box old) (ki_profit old) (ki_copies old) (ki_copies_min old) (ki_group old) (ki_rotations old) (ki_weight old) (ki_stackability old) (ki_nesting old) (ki_max_stackability old) ab /\
  (forall j, j <> k -> forall b', In b' [b1; b2; b3; b4; b5; b6; b7; b8; b9; b10] -> nth j (y_items b') dummy_kitem = nth j (y_items b) dummy_kitem) /\
  (forall b', In b' [b1; b2; b3; b4; b5; b6; b7; b8; b9; b10] -> y_bins b' = y_bins b /\ y_objective b' = y_objective b /\
     y_unloading b' = y_unloading b /\ y_check_weight b' = y_check_weight b /\ length (y_items b') = length (y_items b)).
Proof.
  intros b id k p n m g r w s h ms ab b1 b2 b3 b4 b5 b6 b7 b8 b9 b10 -> H1 H2 H3 H4 H5 H6 H7 H8 H9 H10 old new.
  assert (Hon : forall f b', yon_item b (Z.of_nat k) f = YOk b' ->
     (k < length (y_items b))%nat /\ b' = yset_items b (upd k f (y_items b))).
  { intros f b'. unfold yon_item. destruct (bad_id (Z.of_nat k) (y_items b)) eqn:E; [discriminate|].
    apply bad_id_false in E. unfold in_range in E. rewrite Nat2Z.id. intro H. injection H as <-. split; [lia|reflexivity]. }
  unfold y_set_item_copies in H2. destruct (bad_id _ _) in H2; [discriminate|]. destruct (_ && _) in H2; [discriminate|].
  unfold y_set_item_copies_min in H3. destruct (bad_id _ _) in H3; [discriminate|]. destruct (m <? -1) in H3; [discriminate|].
  unfold y_set_item_group in H4. destruct (g <? 0) in H4; [discriminate|]. destruct (bad_id _ _) in H4; [discriminate|].
  apply Hon in H1, H2, H3, H4, H5, H6, H7, H8, H9, H10.
  destruct H1 as [Hk ->], H2 as [_ ->], H3 as [_ ->], H4 as [_ ->], H5 as [_ ->], H6 as [_ ->], H7 as [_ ->], H8 as [_ ->], H9 as [_ ->], H10 as [_ ->].
  unfold new, yset_items. cbn [y_items]. rewrite !nth_upd_same by assumption.
  do 10 (split; [reflexivity|]). split.
  - intros j Hj b' Hb'. simpl in Hb'. destruct Hb' as [<-|[<-|[<-|[<-|[<-|[<-|[<-|[<-|[<-|[<-|[]]]]]]]]]]]; cbn [y_items]; apply nth_upd_other; congruence.
  - intros b' Hb'. simpl in Hb'. destruct Hb' as [<-|[<-|[<-|[<-|[<-|[<-|[<-|[<-|[<-|[<-|[]]]]]]]]]]]; cbn [y_bins y_items y_objective y_unloading y_check_weight];
      rewrite upd_length; auto 10.
Qed.
Print Assumptions C74_item_setters.

Lemma ygrow_length : forall (A : Type) n (d : A) l, length (grow n d l) = Nat.max n (length l).
Proof. intros A n d l. unfold grow. rewrite app_length, repeat_length. lia. Qed.
Lemma ygrow_nth : forall (A : Type) n (d : A) l k, nth k (grow n d l) d = nth k l d.
Proof.
  intros A n d l k. unfold grow. destruct (Nat.lt_ge_cases k (length l)) as [H|H]; [apply app_nth1, H|].
  rewrite app_nth2 by exact H. rewrite (nth_overflow l) by exact H. apply nth_repeat.
Qed.

(** The parameters: the objective, the unloading constraint and the weight
    constraint of each group; groups without a value keep the default one,
    which is to check the weight. *)
Theorem C74_parameters : forall b,
  (forall o, ystep b (YSetObjective o) = YOk (mkY o (y_unloading b) (y_check_weight b) (y_items b) (y_bins b))) /\
  (forall u, ystep b (YSetUnloading u) = YOk (mkY (y_objective b) u (y_check_weight b) (y_items b) (y_bins b))) /\
  (forall u l, ystep b (YSetParams u l) = YOk (mkY (y_objective b) u l (y_items b) (y_bins b))) /\
  (forall g v b', ystep b (YSetGroupWeight g v) = YOk b' ->
    y_objective b' = y_objective b /\ y_unloading b' = y_unloading b /\ y_items b' = y_items b /\ y_bins b' = y_bins b /\
    forall h, nth h (y_check_weight b') true = if Z.of_nat h =? g then v else nth h (y_check_weight b) true).
Proof.
  intro b. split; [reflexivity|]. split; [reflexivity|]. split; [reflexivity|].
  intros g v b' H. cbn [ystep] in H. unfold y_group_weight in H. destruct (g <? 0) eqn:E; [discriminate|]. apply Z.ltb_ge in E.
  injection H as <-. cbn. split; [reflexivity|]. split; [reflexivity|]. split; [reflexivity|]. split; [reflexivity|].
  intro h. destruct (Z.of_nat h =? g) eqn:Eh.
  - apply Z.eqb_eq in Eh. rewrite <- Eh, Nat2Z.id. rewrite nth_upd_same; [reflexivity|]. rewrite ygrow_length. lia.
  - apply Z.eqb_neq in Eh. rewrite nth_upd_other by lia. apply ygrow_nth.
Qed.
Print Assumptions C74_parameters.

(** The calls on all the types at once change one field of each type. *)
Theorem C74_all_types : forall b,
  ystep b YBinsInfinite = YOk (yset_bins b (map (fun t => mkKB (kb_box t) (kb_cost t) (-1) (kb_copies_min t) (kb_defects t) (kb_max_weight t) (kb_max_density t) (kb_truck t)) (y_bins b))) /\
  ystep b YBinsUnweighted = YOk (yset_bins b (map (fun t => mkKB (kb_box t) (inject_Z (v_x (kb_box t) * v_y (kb_box t) * v_z (kb_box t))) (kb_copies t) (kb_copies_min t) (kb_defects t) (kb_max_weight t) (kb_max_density t) (kb_truck t)) (y_bins b))) /\
  ystep b YItemsUnweighted = YOk (yset_items b (map (fun t => mkKI (ki_box t) (inject_Z (v_x (ki_box t) * v_y (ki_box t) * v_z (ki_box t))) (ki_copies t) (ki_copies_min t) (ki_group t) (ki_rotations t) (ki_weight t) (ki_stackability t) (ki_nesting t) (ki_max_stackability t) (ki_max_above t)) (y_items b))) /\
  ystep b YItemsOriented = YOk (yset_items b (map (fun t => mkKI (ki_box t) (ki_profit t) (ki_copies t) (ki_copies_min t) (ki_group t) [XYZ] (ki_weight t) (ki_stackability t) (ki_nesting t) (ki_max_stackability t) (ki_max_above t)) (y_items b))).
Proof. intro b. split; [reflexivity|]. split; [reflexivity|]. split; reflexivity. Qed.
Print Assumptions C74_all_types.

(** Bin types with limited copies keep at least one, and their minimum. *)
Theorem C74_bin_minimum : forall o calls b i d t, yrun o calls = Some b -> y_build b = YBuilt i d ->
  (t < length (y_bins b))%nat -> kb_copies (nth t (y_bins b) dummy_kbin) <> -1 ->
  1 <= kb_copies (kbin i t) /\ kb_copies_min (kbin i t) <= kb_copies (kbin i t).
Proof.
  intros o calls b i d t Hb Hi Ht Hc. pose proof (yrun_inv o calls b Hb) as [H1 _].
  destruct (ybuild_holds b i d Hi) as [_ _ _ _ [_ H5]]. specialize (H5 t Ht). cbv zeta in H5.
  destruct H5 as (_ & _ & E4 & _ & _ & _ & _ & E7).
  destruct (H1 (nth t (y_bins b) dummy_kbin) (nth_In _ _ Ht)) as [_ [K|K]]; [contradiction|].
  apply Z.eqb_neq in Hc. rewrite Hc in E7. lia.
Qed.
Print Assumptions C74_bin_minimum.

(** Infinite dimensions are large enough for all the items side by side,
    whatever their orientations. *)
Theorem C74_infinite_dimension : forall b b1 b2, (forall t, In t (y_items b) -> 0 <= ki_copies t) ->
  y_bins_infinite_x b = YOk b1 -> y_bins_infinite_y b = YOk b2 ->
  forall a, (forall t, In t (y_bins b1) -> zsum (fun it => ki_copies it * vat (ki_box it) a) (y_items b) <= v_x (kb_box t)) /\
    (forall t, In t (y_bins b2) -> zsum (fun it => ki_copies it * vat (ki_box it) a) (y_items b) <= v_y (kb_box t)).
Proof.
  intros b b1 b2 Hc H1 H2 a. unfold y_bins_infinite_x in H1. unfold y_bins_infinite_y in H2. injection H1 as <-. injection H2 as <-.
  assert (L : zsum (fun it => ki_copies it * vat (ki_box it) a) (y_items b) <= ymax_length_sum (y_items b)).
  { unfold ymax_length_sum. rewrite (fold_sum _ (fun it => ki_copies it * ybox_max (ki_box it))), Z.add_0_l.
    apply zsum_le. intros it Hit. specialize (Hc it Hit). unfold ybox_max. destruct a; simpl vat; nia. }
  split; intros t Ht; simpl in Ht; apply in_map_iff in Ht; destruct Ht as (u & <- & _); exact L.
Qed.
Print Assumptions C74_infinite_dimension.

(** An instance with two bin types, a defect, groups and rotations, entered with
    several calls, three of which throw. *)
Definition ex_ybuild_calls : list YCall :=
  [YSetObjective OKnapsack; YSetUnloading UIncreasingX; YSetGroupWeight 1 false; YAddBin (mkV 10 8 6); YAddBin (mkV 4 0 8); YSetBinCost 0 6; YSetBinCopies 0 (-1);
   YSetBinWeight 0 (Some 8%Q); YAddDefect 0 1 1 2 2;
   YAddItem (mkV 3 2 5); YAddRotation 0 XYZ; YAddRotation 0 ZYX; YSetItemProfit 0 7; YSetItemCopies 0 3; YSetItemCopies 0 0; YSetItemWeight 0 2;
   YAddItem (mkV 4 5 4); YSetItemCopies 1 2; YSetItemCopiesMin 1 1; YAddRotation 7 XYZ; YSetItemGroup 1 2; YSetItemNesting 0 1;
   YAddBin (mkV 4 4 4); YSetBinCopies 1 2; YSetBinWeight 1 (Some 3%Q)].
Definition ex_ybuilt : option (KInstance * KDerived) :=
  match yrun OBinPacking ex_ybuild_calls with
  | Some b => match y_build b with YBuilt i d => Some (i, d) | _ => None end
  | None => None
  end.

Example C74_example : match ex_ybuilt with
  | Some (i, d) => dk_number_of_items d = 5 /\ dk_item_volume d = 250 /\ dk_bin_volume d = 2528 /\ dk_bin_area d = 432 /\
      dk_bin_type_ids d = [0; 0; 0; 0; 0; 1; 1]%nat /\ dk_previous d = [0; 480; 960; 1440; 1920; 2400; 2464] /\
      dk_bin_weight d = Some 46%Q /\ dk_defects d = 1%nat /\ dk_groups d = [([0%nat], 3); ([], 0); ([1%nat], 2)] /\
      map ki_rotations (kx_items i) = [[XYZ; ZYX]; [XYZ]] /\ dk_unloading d = UIncreasingX /\
      map ki_copies_min (kx_items i) = [0; 1] /\ dk_largest_efficiency d = Some 1%nat /\ dk_all_infinite d = false
  | None => False
  end.
Proof. vm_compute. auto 20. Qed.

(** Finding: an item type with a side of length 0, which the builder accepts,
    makes build() divide by zero. *)
Theorem C74_zero_volume_refuted : exists calls b,
  ycalls_from (y_new OKnapsack) calls = YOk b /\ y_build b = YBuildUndef.
Proof.
  exists [YSetObjective OKnapsack; YAddBin (mkV 10 10 10); YAddItem (mkV 0 5 5)]. eexists.
  split; vm_compute; reflexivity.
Qed.
Print Assumptions C74_zero_volume_refuted.

(** Finding: the objective OpenDimensionZ is accepted with any number of bins,
    while OpenDimensionX and OpenDimensionY need exactly one. *)
Theorem C74_open_z_refuted : exists calls b i d,
  ycalls_from (y_new OKnapsack) calls = YOk b /\ y_build b = YBuilt i d /\
  kx_objective i = OOpenDimensionZ /\ length (dk_bin_type_ids d) = 2%nat.
Proof.
  exists [YSetObjective OOpenDimensionZ; YAddBin (mkV 10 10 10); YSetBinCopies 0 2; YAddItem (mkV 5 5 5)].
  eexists. eexists. eexists.
  split; [vm_compute; reflexivity|]. split; [vm_compute; reflexivity|]. split; reflexivity.
Qed.
Print Assumptions C74_open_z_refuted.

(** Finding: a new builder has no defined objective: two builders given the same
    calls build different instances. *)
Theorem C74_objective_refuted : exists calls b1 b2 i1 i2 d1 d2,
  yrun OKnapsack calls = Some b1 /\ yrun OBinPacking calls = Some b2 /\
  y_build b1 = YBuilt i1 d1 /\ y_build b2 = YBuilt i2 d2 /\
  map ki_copies_min (kx_items i1) <> map ki_copies_min (kx_items i2).
Proof.
  exists [YAddBin (mkV 10 10 10); YAddItem (mkV 5 5 5)]. do 6 eexists.
  split; [vm_compute; reflexivity|]. split; [vm_compute; reflexivity|]. split; [vm_compute; reflexivity|].
  split; [vm_compute; reflexivity|]. vm_compute. discriminate.
Qed.
Print Assumptions C74_objective_refuted.

(** Finding: set_item_types_profits_auto uses the total volume and weight of the
    items, which are only computed by build(): whatever the instance, every
    profit it sets is 0. *)
Theorem C74_profits_auto_refuted : forall b b', y_profits_auto b = YOk b' ->
  forall t, In t (y_items b') -> ki_profit t = 0%Q.
Proof.
  intros b b' H t Ht. unfold y_profits_auto in H. cbv zeta in H.
  destruct (y_items b) as [|it l] eqn:E.
  - injection H as <-. rewrite E in Ht. destruct Ht.
  - match type of H with context [if ?c then _ else _] => destruct c; [discriminate|] end.
    injection H as <-. simpl in Ht. destruct Ht as [<-|Ht]; [reflexivity|].
    apply in_map_iff in Ht. destruct Ht as (u & <- & _). reflexivity.
Qed.
Print Assumptions C74_profits_auto_refuted.

(** Finding: infinite dimensions are computed from the item types entered so
    far: called before them, every bin gets size 0, which add_bin_type
    forbids. *)
Theorem C74_infinite_dimension_refuted : exists calls b i d,
  ycalls_from (y_new OKnapsack) calls = YOk b /\ y_build b = YBuilt i d /\ map (fun t => v_x (kb_box t)) (kx_bins i) = [0].
Proof.
  exists [YAddBin (mkV 10 10 10); YBinsInfiniteX; YAddItem (mkV 4 5 6)]. eexists. eexists. eexists.
  split; [vm_compute; reflexivity|]. split; [vm_compute; reflexivity|]. reflexivity.
Qed.
Print Assumptions C74_infinite_dimension_refuted.

(** Finding: the copy of an item type in a sub-instance forgets its minimum
    number of copies. *)
Theorem C74_copy_minimum_refuted : exists i b' t,
  kx_items i = [t] /\ ki_copies_min t = 1 /\
  y_copy_item (y_new (kx_objective i)) i 0 = YOk b' /\
  (forall d i', y_build b' = YBuilt i' d -> map ki_copies_min (kx_items i') = [0]).
Proof.
  exists (mkKInst OKnapsack [] [mkKI (mkV 2 2 2) 8 2 1 0 [XYZ] 0 0 0 4 None] []). do 2 eexists.
  split; [reflexivity|]. split; [reflexivity|]. split; [vm_compute; reflexivity|].
  intros d i' H. vm_compute in H. injection H as <- _. reflexivity.
Qed.
Print Assumptions C74_copy_minimum_refuted.

(** Finding: set_item_type_group does not check the item type id, unlike the
    other setters: a wrong id is an access out of range, not an exception. *)
Theorem C74_group_id_refuted : exists b,
  ystep b (YSetItemWeight 0 1) = YThrow b /\ ystep b (YSetItemGroup 0 1) = YUndef.
Proof. exists (y_new OKnapsack). split; reflexivity. Qed.
Print Assumptions C74_group_id_refuted.

(** Finding: the cost given by set_bin_types_unweighted, the volume, is not the
    default cost of add_bin_type, the base area. *)
Theorem C74_unweighted_refuted : exists b b', ystep (y_new OKnapsack) (YAddBin (mkV 2 3 4)) = YOk b /\
  ystep b YBinsUnweighted = YOk b' /\ map kb_cost (y_bins b) = [6%Q] /\ map kb_cost (y_bins b') = [24%Q].
Proof. eexists. eexists. split; [vm_compute; reflexivity|]. split; [vm_compute; reflexivity|]. split; reflexivity. Qed.
Print Assumptions C74_unweighted_refuted.

(** Finding: set_item_type_copies accepts -1, but unlimited copies are not
    resolved: the built instance has a negative number of items. *)
Theorem C74_unlimited_items_refuted : exists calls b i d,
  ycalls_from (y_new OKnapsack) calls = YOk b /\ y_build b = YBuilt i d /\ dk_number_of_items d = -1.
Proof.
  exists [YSetObjective OBinPacking; YAddBin (mkV 10 10 10); YAddItem (mkV 5 5 5); YSetItemCopies 0 (-1)]. eexists. eexists. eexists.
  split; [vm_compute; reflexivity|]. split; [vm_compute; reflexivity|]. reflexivity.
Qed.
Print Assumptions C74_unlimited_items_refuted.

(** Finding: nothing bounds the nesting height of an item type: the height of a
    stack of two such items is negative. *)
Theorem C74_nesting_refuted : exists calls b i d t,
  ycalls_from (y_new OKnapsack) calls = YOk b /\ y_build b = YBuilt i d /\ kx_items i = [t] /\
  v_z (ki_box t) + (v_z (ki_box t) - ki_nesting t) < 0.
Proof.
  exists [YSetObjective OKnapsack; YAddBin (mkV 10 10 10); YAddItem (mkV 5 5 5); YSetItemNesting 0 20]. do 4 eexists.
  split; [vm_compute; reflexivity|]. split; [vm_compute; reflexivity|]. split; [reflexivity|]. reflexivity.
Qed.
Print Assumptions C74_nesting_refuted.

(** ** Copies of the types of another instance *)

Lemma last_upd : forall {A} (f : A -> A) (l : list A) a, upd (length l) f (l ++ [a]) = l ++ [f a].
Proof. intros A f l a. induction l as [|b l IH]; cbn; [reflexivity|]. f_equal. exact IH. Qed.
Lemma last_ok : forall {A} (l : list A) a, bad_id (Z.of_nat (length l)) (l ++ [a]) = false.
Proof. intros A l a. unfold bad_id. rewrite app_length. cbn. apply orb_false_iff. split; [apply Z.ltb_ge; lia|apply Z.leb_gt; lia]. Qed.

Lemma ythen_ok : forall r f b', ythen r f = YOk b' -> exists b, r = YOk b /\ f b = YOk b'.
Proof. intros r f b' H. destruct r as [b|b|]; cbn in H; [exists b; auto|discriminate|discriminate]. Qed.
Lemma yon_last_item : forall b items t g b', y_items b = items ++ [t] -> yon_item b (Z.of_nat (length items)) g = YOk b' -> y_items b' = items ++ [g t].
Proof. intros b items t g b' Hb H. unfold yon_item in H. rewrite Hb, last_ok in H. injection H as <-. cbn. rewrite Nat2Z.id, last_upd. auto. Qed.

Lemma yfold_last_item : forall {A} (f : KBuilder -> A -> YRes) (g : KItem -> A -> KItem) l (items : list KItem) t b b',
  (forall b x b1 t, y_items b = items ++ [t] -> f b x = YOk b1 -> y_items b1 = items ++ [g t x]) ->
  y_items b = items ++ [t] -> fold_left (fun r x => ythen r (fun b => f b x)) l (YOk b) = YOk b' -> y_items b' = items ++ [fold_left g l t].
Proof.
  intros A f g l items t b b' Hf. revert t b. induction l as [|x l IH]; intros t b Hb H; cbn [fold_left] in *.
  - injection H as <-. auto.
  - unfold ythen at 2 in H. cbn in H. destruct (f b x) as [b1|b1|] eqn:E.
    + apply (IH _ b1 (Hf b x b1 t Hb E) H).
    + exfalso. clear -H. induction l as [|y l IH]; cbn in H; [discriminate|apply IH, H].
    + exfalso. clear -H. induction l as [|y l IH]; cbn in H; [discriminate|apply IH, H].
Qed.
Lemma fold_rotations : forall l t, fold_left (fun t r => ki_with_rotations (ki_rotations t ++ [r]) t) l t = ki_with_rotations (ki_rotations t ++ l) t.
Proof. induction l as [|e l IH]; intro t; cbn [fold_left]; [rewrite app_nil_r; destruct t; reflexivity|]. rewrite IH. unfold ki_with_rotations. cbn. rewrite <- app_assoc. reflexivity. Qed.

(** A copied item type is added after the others with the same box, profit, copies,
    group, rotations, weight and stacking data; its minimum number of copies is the
    default one. *)
Theorem C74_copy_item : forall b i id b', ystep b (YCopyItem i id) = YOk b' ->
  exists t, nth_error (kx_items i) id = Some t /\
  y_items b' = y_items b ++ [mkKI (ki_box t) (ki_profit t) (ki_copies t) (-1) (ki_group t) (ki_rotations t) (ki_weight t) (ki_stackability t) (ki_nesting t)
    (ki_max_stackability t) (ki_max_above t)].
Proof.
  intros b i id b' H. cbn [ystep] in H. unfold y_copy_item in H. destruct (nth_error (kx_items i) id) as [t|]; [|discriminate]. exists t. split; [reflexivity|].
  apply ythen_ok in H. destruct H as (b0' & E0 & H). unfold y_add_item in E0. destruct (_ <? 0); [discriminate|]. destruct (_ <? 0); [discriminate|]. destruct (_ <? 0); [discriminate|].
  injection E0 as E0.
  assert (H0 : y_items b0' = y_items b ++ [mkKI (ki_box t) (inject_Z (vol (ki_box t))) 1 (-1) 0 [] 0 0 0 largest_item_pos None]) by (rewrite <- E0; reflexivity). clear E0.
  apply ythen_ok in H. destruct H as (b1 & E1 & H).
  apply (yfold_last_item (fun b e => y_add_rotation b _ e) (fun t e => ki_with_rotations (ki_rotations t ++ [e]) t) _ (y_items b) _ _ _) with (2 := H0) in E1;
    [|intros c e c1 u Hc E; apply (yon_last_item _ (y_items b) _ _ _ Hc) in E; exact E]. rename E1 into B1. rewrite fold_rotations in B1.
  apply ythen_ok in H. destruct H as (b2 & E2 & H). apply (yon_last_item _ (y_items b) _ _ _ B1) in E2. rename E2 into B2.
  apply ythen_ok in H. destruct H as (b3 & E3 & H). unfold y_set_item_copies in E3. rewrite B2, last_ok in E3. destruct (negb _ && _); [discriminate|].
  apply (yon_last_item _ (y_items b) _ _ _ B2) in E3. rename E3 into B3.
  apply ythen_ok in H. destruct H as (b4 & E4 & H). unfold y_set_item_group in E4. destruct (Z.of_nat (ki_group t) <? 0); [discriminate|].
  rewrite B3, last_ok in E4. apply (yon_last_item _ (y_items b) _ _ _ B3) in E4. rename E4 into B4. rewrite Nat2Z.id in B4.
  apply ythen_ok in H. destruct H as (b5 & E5 & H). apply (yon_last_item _ (y_items b) _ _ _ B4) in E5. rename E5 into B5.
  apply ythen_ok in H. destruct H as (b6 & E6 & H). apply (yon_last_item _ (y_items b) _ _ _ B5) in E6. rename E6 into B6.
  apply ythen_ok in H. destruct H as (b7 & E7 & H). apply (yon_last_item _ (y_items b) _ _ _ B6) in E7. rename E7 into B7.
  apply ythen_ok in H. destruct H as (b8 & E8 & H). apply (yon_last_item _ (y_items b) _ _ _ B7) in E8. rename E8 into B8.
  apply (yon_last_item _ (y_items b) _ _ _ B8) in H. rewrite H. reflexivity.
Qed.
Print Assumptions C74_copy_item.

Lemma yfold_bin : forall {A} (f : KBuilder -> A -> YRes) (g : KBin -> A -> KBin) l (bins : list KBin) t b b',
  (forall b x b1 t, y_bins b = bins ++ [t] -> f b x = YOk b1 -> y_bins b1 = bins ++ [g t x] /\ y_items b1 = y_items b) ->
  y_bins b = bins ++ [t] -> fold_left (fun r x => ythen r (fun b => f b x)) l (YOk b) = YOk b' ->
  y_bins b' = bins ++ [fold_left g l t] /\ y_items b' = y_items b.
Proof.
  intros A f g l bins t b b' Hf. revert t b. induction l as [|x l IH]; intros t b Hb H; cbn [fold_left] in *.
  - injection H as <-. auto.
  - unfold ythen at 2 in H. cbn in H. destruct (f b x) as [b1|b1|] eqn:E.
    + destruct (Hf b x b1 t Hb E) as [E1 E2]. destruct (IH _ b1 E1 H) as [E3 E4]. split; [exact E3|congruence].
    + exfalso. clear -H. induction l as [|y l IH]; cbn in H; [discriminate|apply IH, H].
    + exfalso. clear -H. induction l as [|y l IH]; cbn in H; [discriminate|apply IH, H].
Qed.
Lemma yon_last : forall b bins t g b', y_bins b = bins ++ [t] -> yon_bin b (Z.of_nat (length bins)) g = YOk b' ->
  y_bins b' = bins ++ [g t] /\ y_items b' = y_items b.
Proof.
  intros b bins t g b' Hb H. unfold yon_bin in H. rewrite Hb, last_ok in H. injection H as <-. cbn. rewrite Nat2Z.id, last_upd. auto.
Qed.
Lemma fold_defects : forall l t, fold_left (fun t d => kb_with_defects (kb_defects t ++ [mkDefect (df_x d) (df_y d) (df_lx d) (df_ly d)]) t) l t
  = kb_with_defects (kb_defects t ++ l) t.
Proof. induction l as [|[x y lx ly] l IH]; intro t; cbn [fold_left]; [rewrite app_nil_r; destruct t; reflexivity|]. rewrite IH. unfold kb_with_defects. cbn. rewrite <- app_assoc. reflexivity. Qed.

(** A copied bin type is added after the others with all its fields. *)
Theorem C74_copy_bin : forall b i id b', ystep b (YCopyBin i id) = YOk b' ->
  exists t, nth_error (kx_bins i) id = Some t /\ y_items b' = y_items b /\
  y_bins b' = y_bins b ++ [mkKB (kb_box t) (if Qeq_bool (kb_cost t) (-1) then inject_Z (v_x (kb_box t) * v_y (kb_box t)) else kb_cost t) (kb_copies t) (kb_copies_min t)
    (kb_defects t) (kb_max_weight t) (kb_max_density t) (kb_truck t)].
Proof.
  intros b i id b' H. cbn [ystep] in H. unfold y_copy_bin in H. destruct (nth_error (kx_bins i) id) as [t|]; [|discriminate]. exists t. split; [reflexivity|].
  cbv zeta in H.
  apply ythen_ok in H. destruct H as (b0' & E0 & H). unfold y_add_bin in E0. destruct (_ <=? 0); [discriminate|]. destruct (_ <=? 0); [discriminate|]. destruct (_ <=? 0); [discriminate|].
  injection E0 as E0.
  assert (H0 : exists c, y_bins b0' = y_bins b ++ [mkKB (kb_box t) c 1 0 [] None None no_truck]) by (eexists; rewrite <- E0; reflexivity). destruct H0 as [c H0].
  assert (I0 : y_items b0' = y_items b) by (rewrite <- E0; reflexivity). clear E0.
  apply ythen_ok in H. destruct H as (b1 & E1 & H). unfold y_set_bin_cost in E1. rewrite H0 in E1. rewrite last_ok in E1. destruct (_ && _); [discriminate|].
  apply (yon_last _ (y_bins b) _ _ _ H0) in E1. destruct E1 as [B1 I1].
  apply ythen_ok in H. destruct H as (b2 & E2 & H). unfold y_set_bin_copies in E2. rewrite B1, last_ok in E2. destruct (negb _ && _); [discriminate|].
  apply (yon_last _ (y_bins b) _ _ _ B1) in E2. destruct E2 as [B2 I2].
  apply ythen_ok in H. destruct H as (b3 & E3 & H). unfold y_set_bin_copies_min in E3. rewrite B2, last_ok in E3. destruct (_ <? 0); [discriminate|]. destruct (negb _ && _); [discriminate|].
  apply (yon_last _ (y_bins b) _ _ _ B2) in E3. destruct E3 as [B3 I3].
  apply ythen_ok in H. destruct H as (b4 & E4 & H). apply (yon_last _ (y_bins b) _ _ _ B3) in E4. destruct E4 as [B4 I4].
  apply ythen_ok in H. destruct H as (b5 & E5 & H). apply (yon_last _ (y_bins b) _ _ _ B4) in E5. destruct E5 as [B5 I5].
  apply ythen_ok in H. destruct H as (b6 & E6 & H). apply (yon_last _ (y_bins b) _ _ _ B5) in E6. destruct E6 as [B6 I6].
  apply (yfold_bin (fun b d => y_add_defect b _ (df_x d) (df_y d) (df_lx d) (df_ly d)) (fun t d => kb_with_defects (kb_defects t ++ [mkDefect (df_x d) (df_y d) (df_lx d) (df_ly d)]) t) _ (y_bins b) _ _ _) with (2 := B6) in H;
    [|intros d e c1 u Hc E; apply (yon_last _ (y_bins b) _ _ _ Hc) in E; exact E]. destruct H as [B8 I8].
  split; [congruence|]. rewrite B8. rewrite fold_defects. reflexivity.
Qed.
Print Assumptions C74_copy_bin.

(** Both copies are possible. *)
Definition ex_kcopied : KInstance :=
  mkKInst OKnapsack [] [mkKI (mkV 2 3 4) 12 5 1 2 [XYZ; ZXY] 7 3 1 4 (Some 9%Q)] [mkKB (mkV 10 8 9) 80 3 1 [mkDefect 1 1 2 2] (Some 30%Q) None no_truck].
Example C74_copy_nonvacuous : exists b1 b2, ystep (y_new OKnapsack) (YCopyBin ex_kcopied 0) = YOk b1 /\ ystep b1 (YCopyItem ex_kcopied 0) = YOk b2 /\
  map ki_rotations (y_items b2) = [[XYZ; ZXY]] /\ map kb_defects (y_bins b2) = [[mkDefect 1 1 2 2]].
Proof. eexists. eexists. split; [vm_compute; reflexivity|]. split; [vm_compute; reflexivity|]. split; reflexivity. Qed.

(** Unlimited copies of item types: as many as needed to fill the largest bin. *)
Theorem C74_infinite_copies : forall b b', ystep b YItemsInfinite = YOk b' ->
  length (y_items b') = length (y_items b) /\
  forall x, (x < length (y_items b))%nat -> let t := nth x (y_items b) dummy_kitem in let n := ki_copies (nth x (y_items b') dummy_kitem) in
    0 < v_x (ki_box t) * v_y (ki_box t) * v_z (ki_box t) ->
    (forall bt, In bt (y_bins b) -> v_x (kb_box bt) * v_y (kb_box bt) * v_z (kb_box bt) <= n * (v_x (ki_box t) * v_y (ki_box t) * v_z (ki_box t))) /\
    ((exists bt, In bt (y_bins b) /\ 0 < v_x (kb_box bt) * v_y (kb_box bt) * v_z (kb_box bt)) -> exists bt, In bt (y_bins b) /\ (n - 1) * (v_x (ki_box t) * v_y (ki_box t) * v_z (ki_box t)) < v_x (kb_box bt) * v_y (kb_box bt) * v_z (kb_box bt)).
Proof.
  intros b b' H. cbn in H. unfold y_items_infinite in H. destruct (existsb _ _); [discriminate|]. injection H as <-. split; [cbn; apply map_length|].
  intros x Hx t n Ht. assert (En : n = yinfinite_copies (yvolume_max (y_bins b)) t).
  { unfold n. cbn [y_items yset_items]. rewrite (nth_indep _ dummy_kitem ((fun t => ki_with_copies (yinfinite_copies (yvolume_max (y_bins b)) t) t) dummy_kitem)) by (rewrite map_length; exact Hx).
    rewrite (map_nth (fun t => ki_with_copies (yinfinite_copies (yvolume_max (y_bins b)) t) t)). reflexivity. }
  assert (M : forall l m, m <= fold_left (fun m t => Z.max m (vol (kb_box t))) l m /\ (forall u, In u l -> vol (kb_box u) <= fold_left (fun m t => Z.max m (vol (kb_box t))) l m)
    /\ (fold_left (fun m t => Z.max m (vol (kb_box t))) l m = m \/ exists u, In u l /\ vol (kb_box u) = fold_left (fun m t => Z.max m (vol (kb_box t))) l m)).
  { induction l as [|v l IH]; intro m; cbn [fold_left]; [split; [lia|]; split; [intros u []|auto]|]. destruct (IH (Z.max m (vol (kb_box v)))) as (A1 & A2 & A3).
    split; [lia|]. split; [intros u [<-|Hu]; [lia|apply A2, Hu]|]. destruct A3 as [A3|(u & Hu & A3)]; [|right; exists u; split; [right; exact Hu|exact A3]].
    destruct (Z.max_spec m (vol (kb_box v))) as [[B1 B2]|[B1 B2]]; [right; exists v; split; [left; reflexivity|congruence]|left; congruence]. }
  destruct (M (y_bins b) 0) as (A1 & A2 & A3). fold (yvolume_max (y_bins b)) in *. unfold yinfinite_copies in En. change (vol (ki_box t)) with (v_x (ki_box t) * v_y (ki_box t) * v_z (ki_box t)) in En.
  set (a := v_x (ki_box t) * v_y (ki_box t) * v_z (ki_box t)) in *. set (m := yvolume_max (y_bins b)) in *.
  destruct (Z.eq_dec m 0) as [E|E].
  - split; [intros bt Hbt; specialize (A2 bt Hbt); unfold vol in A2|intros (bt & Hbt & P); specialize (A2 bt Hbt); unfold vol in A2; lia].
    assert (0 <= n); [|nia]. subst n. rewrite E in *. rewrite En. change (0 - 1) with (- (1)). destruct (Z.eq_dec a 1) as [->|]; [cbn; lia|]. rewrite (Z.quot_opp_l 1 a) by lia. rewrite Z.quot_small by lia. lia.
  - assert (0 < m) by lia. rewrite Z.quot_div_nonneg in En by lia. pose proof (Z.div_mod (m - 1) a ltac:(lia)). pose proof (Z.mod_pos_bound (m - 1) a Ht).
    split; [intros bt Hbt; specialize (A2 bt Hbt); unfold vol in A2; nia|]. intros _. destruct A3 as [A3|(bt & Hbt & A3)]; [contradiction|]. exists bt. split; [exact Hbt|]. unfold vol in A3. nia.
Qed.
Print Assumptions C74_infinite_copies.
