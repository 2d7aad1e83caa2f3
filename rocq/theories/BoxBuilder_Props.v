(** * C51: the box instance builder *)

From Coq Require Import List ZArith QArith Bool Lia Lqa Arith.
From Verif Require Import Util Common_Model OneDim_Model OneDim_Spec OneDimBuilder_Model OneDimBuilder_Spec OneDimBuilder_Proof
  Box_Model Box_Spec BoxBuilder_Model BoxBuilder_Spec BoxBuilder_Proof.
Import ListNotations.
Open Scope Z_scope.

(** Every instance built after any sequence of calls (the caller catching the
    exceptions and going on) has consistent computed attributes, is within
    bounds and holds the data entered in the builder. *)
Theorem C51_built : forall o calls b i d, wrun o calls = Some b -> w_build b = WBuilt i d ->
  wconsistent i d /\ wwell_bounded i /\ wholds_data b i.
Proof.
  intros o calls b i d Hb Hi. pose proof (wrun_inv o calls b Hb) as Hinv. split; [|split].
  - apply (wbuild_consistent b i d Hi Hinv).
  - apply (wbuild_bounded b i d Hi Hinv).
  - apply (wbuild_holds b i d Hi).
Qed.
Print Assumptions C51_built.

(** Each call that enters data returns exactly when its arguments are valid,
    throws exactly when they are not, and then leaves the builder unchanged. *)
Theorem C51_calls : forall b c, wdirect c = true ->
  match wstep b c with
  | WOk _ => waccepted b c /\ ~ wunchecked b c
  | WThrow b' => b' = b /\ ~ waccepted b c
  | WUndef => wunchecked b c
  end.
Proof. exact wacceptance. Qed.
Print Assumptions C51_calls.

(** Adding a type appends it, with the documented defaults, and changes nothing
    else. *)
Theorem C51_add : forall b v b1 b2, w_add_bin b v = WOk b1 -> w_add_item b v = WOk b2 ->
  w_bins b1 = w_bins b ++ [mkBB v (inject_Z (v_x v * v_y v)) 1 0 None []] /\
  w_items b2 = w_items b ++ [mkBI v (inject_Z (v_x v * v_y v * v_z v)) 1 (-1) [] 0 []] /\
  w_items b1 = w_items b /\ w_bins b2 = w_bins b /\ w_objective b1 = w_objective b /\ w_objective b2 = w_objective b.
Proof.
  intros b v b1 b2 H1 H2. unfold w_add_bin in H1. unfold w_add_item in H2.
  destruct (v_x v <=? 0); [discriminate|]. destruct (v_y v <=? 0); [discriminate|]. destruct (v_z v <=? 0); [discriminate|].
  destruct (v_x v <? 0); [discriminate|]. destruct (v_y v <? 0); [discriminate|]. destruct (v_z v <? 0); [discriminate|].
  injection H1 as <-. injection H2 as <-. repeat split; reflexivity.
Qed.
Print Assumptions C51_add.

(** Each setter stores its argument in the field of the type it names and
    changes nothing else. *)
Theorem C51_bin_setters : forall b id k q w c p y n m b1 b2 b3 b4 b5,
  id = Z.of_nat k ->
  w_set_bin_cost b id q = WOk b1 -> w_set_bin_weight b id w = WOk b2 -> w_add_resource b id c p y = WOk b3 ->
  w_set_bin_copies b id n = WOk b4 -> w_set_bin_copies_min b id m = WOk b5 ->
  let old := nth k (w_bins b) dummy_bbin in
  let new b' := nth k (w_bins b') dummy_bbin in
  new b1 = mkBB (bn_box old) (if Qeq_bool q (-1) then inject_Z (v_x (bn_box old) * v_y (bn_box old)) else q)
             (bn_copies old) (bn_copies_min old) (bn_max_weight old) (bn_resources old) /\
  new b2 = mkBB (bn_box old) (bn_cost old) (bn_copies old) (bn_copies_min old) w (bn_resources old) /\
  new b3 = mkBB (bn_box old) (bn_cost old) (bn_copies old) (bn_copies_min old) (bn_max_weight old)
             (bn_resources old ++ [mkResource c [] p y]) /\
  new b4 = mkBB (bn_box old) (bn_cost old) n (bn_copies_min old) (bn_max_weight old) (bn_resources old) /\
  new b5 = mkBB (bn_box old) (bn_cost old) (bn_copies old) m (bn_max_weight old) (bn_resources old) /\
  (forall j, j <> k -> forall b', In b' [b1; b2; b3; b4; b5] -> nth j (w_bins b') dummy_bbin = nth j (w_bins b) dummy_bbin) /\
  (forall b', In b' [b1; b2; b3; b4; b5] -> w_items b' = w_items b /\ w_objective b' = w_objective b /\
     length (w_bins b') = length (w_bins b)).
Proof.
  intros b id k q w c p y n m b1 b2 b3 b4 b5 -> H1 H2 H3 H4 H5 old new.
  assert (Hon : forall f b', won_bin b (Z.of_nat k) f = WOk b' ->
     (k < length (w_bins b))%nat /\ b' = wset_bins b (upd k f (w_bins b))).
  { intros f b'. unfold won_bin. destruct (bad_id (Z.of_nat k) (w_bins b)) eqn:E; [discriminate|].
    apply bad_id_false in E. unfold in_range in E. rewrite Nat2Z.id. intro H. injection H as <-. split; [lia|reflexivity]. }
  unfold w_set_bin_cost in H1. destruct (bad_id _ _) in H1; [discriminate|]. destruct (_ && _) in H1; [discriminate|].
  unfold w_set_bin_copies in H4. destruct (bad_id _ _) in H4; [discriminate|]. destruct (_ && _) in H4; [discriminate|].
  unfold w_set_bin_copies_min in H5. destruct (bad_id _ _) in H5; [discriminate|]. destruct (m <? 0) in H5; [discriminate|].
  destruct (_ && _) in H5; [discriminate|].
  apply Hon in H1, H2, H3, H4, H5.
  destruct H1 as [Hk ->], H2 as [_ ->], H3 as [_ ->], H4 as [_ ->], H5 as [_ ->].
  unfold new, wset_bins. cbn [w_bins]. rewrite !nth_upd_same by assumption.
  do 5 (split; [reflexivity|]). split.
  - intros j Hj b' Hb'. simpl in Hb'. destruct Hb' as [<-|[<-|[<-|[<-|[<-|[]]]]]]; cbn [w_bins]; apply nth_upd_other; congruence.
  - intros b' Hb'. simpl in Hb'. destruct Hb' as [<-|[<-|[<-|[<-|[<-|[]]]]]]; cbn [w_bins w_items w_objective];
      rewrite upd_length; auto.
Qed.
Print Assumptions C51_bin_setters.

Theorem C51_item_setters : forall b id k p n m w r b1 b2 b3 b4 b5,
  id = Z.of_nat k ->
  w_set_item_profit b id p = WOk b1 -> w_set_item_copies b id n = WOk b2 -> w_set_item_copies_min b id m = WOk b3 ->
  w_set_item_weight b id w = WOk b4 -> w_add_rotation b id r = WOk b5 ->
  let old := nth k (w_items b) dummy_bitem in
  let new b' := nth k (w_items b') dummy_bitem in
  new b1 = mkBI (bi_box old) p (bi_copies old) (bi_copies_min old) (bi_rotations old) (bi_weight old) (bi_resource_ids old) /\
  new b2 = mkBI (bi_box old) (bi_profit old) n (bi_copies_min old) (bi_rotations old) (bi_weight old) (bi_resource_ids old) /\
  new b3 = mkBI (bi_box old) (bi_profit old) (bi_copies old) m (bi_rotations old) (bi_weight old) (bi_resource_ids old) /\
  new b4 = mkBI (bi_box old) (bi_profit old) (bi_copies old) (bi_copies_min old) (bi_rotations old) w (bi_resource_ids old) /\
  new b5 = mkBI (bi_box old) (bi_profit old) (bi_copies old) (bi_copies_min old) (bi_rotations old ++ [r]) (bi_weight old) (bi_resource_ids old) /\
  (forall j, j <> k -> forall b', In b' [b1; b2; b3; b4; b5] -> nth j (w_items b') dummy_bitem = nth j (w_items b) dummy_bitem) /\
  (forall b', In b' [b1; b2; b3; b4; b5] -> w_bins b' = w_bins b /\ w_objective b' = w_objective b /\
     length (w_items b') = length (w_items b)).
Proof.
  intros b id k p n m w r b1 b2 b3 b4 b5 -> H1 H2 H3 H4 H5 old new.
  assert (Hon : forall f b', won_item b (Z.of_nat k) f = WOk b' ->
     (k < length (w_items b))%nat /\ b' = wset_items b (upd k f (w_items b))).
  { intros f b'. unfold won_item. destruct (bad_id (Z.of_nat k) (w_items b)) eqn:E; [discriminate|].
    apply bad_id_false in E. unfold in_range in E. rewrite Nat2Z.id. intro H. injection H as <-. split; [lia|reflexivity]. }
  unfold w_set_item_copies in H2. destruct (bad_id _ _) in H2; [discriminate|]. destruct (_ && _) in H2; [discriminate|].
  unfold w_set_item_copies_min in H3. destruct (bad_id _ _) in H3; [discriminate|]. destruct (m <? -1) in H3; [discriminate|].
  apply Hon in H1, H2, H3, H4, H5.
  destruct H1 as [Hk ->], H2 as [_ ->], H3 as [_ ->], H4 as [_ ->], H5 as [_ ->].
  unfold new, wset_items. cbn [w_items]. rewrite !nth_upd_same by assumption.
  do 5 (split; [reflexivity|]). split.
  - intros j Hj b' Hb'. simpl in Hb'. destruct Hb' as [<-|[<-|[<-|[<-|[<-|[]]]]]]; cbn [w_items]; apply nth_upd_other; congruence.
  - intros b' Hb'. simpl in Hb'. destruct Hb' as [<-|[<-|[<-|[<-|[<-|[]]]]]]; cbn [w_bins w_items w_objective];
      rewrite upd_length; auto.
Qed.
Print Assumptions C51_item_setters.

(** Bin types with limited copies keep at least one, and their minimum. *)
Theorem C51_bin_minimum : forall o calls b i d t, wrun o calls = Some b -> w_build b = WBuilt i d ->
  (t < length (w_bins b))%nat -> bn_copies (nth t (w_bins b) dummy_bbin) <> -1 ->
  1 <= bn_copies (bxbin i t) /\ bn_copies_min (bxbin i t) <= bn_copies (bxbin i t).
Proof.
  intros o calls b i d t Hb Hi Ht Hc. pose proof (wrun_inv o calls b Hb) as [H1 _].
  destruct (wbuild_holds b i d Hi) as [_ _ [_ H5]]. specialize (H5 t Ht). cbv zeta in H5.
  destruct H5 as (_ & _ & E4 & _ & _ & E7).
  destruct (H1 (nth t (w_bins b) dummy_bbin) (nth_In _ _ Ht)) as [_ [K|K]]; [contradiction|].
  apply Z.eqb_neq in Hc. rewrite Hc in E7. lia.
Qed.
Print Assumptions C51_bin_minimum.

(** Infinite dimensions are large enough for all the items side by side,
    whatever their orientations. *)
Theorem C51_infinite_dimension : forall b b1 b2, (forall t, In t (w_items b) -> 0 <= bi_copies t) ->
  w_bins_infinite_x b = WOk b1 -> w_bins_infinite_y b = WOk b2 ->
  forall a, (forall t, In t (w_bins b1) -> zsum (fun it => bi_copies it * vat (bi_box it) a) (w_items b) <= v_x (bn_box t)) /\
    (forall t, In t (w_bins b2) -> zsum (fun it => bi_copies it * vat (bi_box it) a) (w_items b) <= v_y (bn_box t)).
Proof.
  intros b b1 b2 Hc H1 H2 a. unfold w_bins_infinite_x in H1. unfold w_bins_infinite_y in H2. injection H1 as <-. injection H2 as <-.
  assert (L : zsum (fun it => bi_copies it * vat (bi_box it) a) (w_items b) <= wmax_length_sum (w_items b)).
  { unfold wmax_length_sum. rewrite (fold_sum _ (fun it => bi_copies it * box_max (bi_box it))), Z.add_0_l.
    apply zsum_le. intros it Hit. specialize (Hc it Hit). unfold box_max. destruct a; simpl vat; nia. }
  split; intros t Ht; simpl in Ht; apply in_map_iff in Ht; destruct Ht as (u & <- & _); exact L.
Qed.
Print Assumptions C51_infinite_dimension.

(** An instance with two bin types, a resource and rotations, entered with
    several calls, three of which throw. *)
Definition ex_wbuild_calls : list WCall :=
  [WSetObjective OKnapsack; WAddBin (mkV 10 8 6); WAddBin (mkV 4 0 8); WSetBinCost 0 6; WSetBinCopies 0 (-1); WSetBinWeight 0 (Some 8%Q);
   WAddResource 0 8 false 0;
   WAddItem (mkV 3 2 5); WAddRotation 0 XYZ; WAddRotation 0 ZYX; WSetItemProfit 0 7; WSetItemCopies 0 3; WSetItemCopies 0 0; WSetItemWeight 0 2;
   WAddItem (mkV 4 5 4); WSetItemCopies 1 2; WSetItemCopiesMin 1 1; WAddRotation 7 XYZ;
   WAddConsumption 0 0 0 0 5; WAddConsumption 0 0 0 1 1; WAddBin (mkV 4 4 4); WSetBinCopies 1 2].
Definition ex_wbuilt : option (BInstance * BDerived) :=
  match wrun OBinPacking ex_wbuild_calls with
  | Some b => match w_build b with WBuilt i d => Some (i, d) | _ => None end
  | None => None
  end.

Example C51_example : match ex_wbuilt with
  | Some (i, d) => db_number_of_items d = 5 /\ db_item_volume d = 250 /\ db_bin_volume d = 2528 /\ db_bin_area d = 432 /\
      db_bin_type_ids d = [0; 0; 0; 0; 0; 1; 1]%nat /\ db_previous d = [0; 480; 960; 1440; 1920; 2400; 2464] /\
      (db_smallest_x d, db_smallest_y d, db_smallest_z d) = (3, 2, 3) /\ db_bin_weight d = None /\
      map bi_rotations (bx_items i) = [[XYZ; ZYX]; [XYZ]] /\
      map bi_resource_ids (bx_items i) = [[[0]; []]; [[]; []]]%nat /\
      map bi_copies_min (bx_items i) = [0; 1] /\ db_largest_efficiency d = Some 1%nat /\ db_all_infinite d = false
  | None => False
  end.
Proof. vm_compute. auto 20. Qed.

(** Finding: an item type with a side of length 0, which the builder accepts,
    makes build() divide by zero. *)
Theorem C51_zero_volume_refuted : exists calls b,
  wcalls_from (w_new OKnapsack) calls = WOk b /\ w_build b = WBuildUndef.
Proof.
  exists [WSetObjective OKnapsack; WAddBin (mkV 10 10 10); WAddItem (mkV 0 5 5)]. eexists.
  split; vm_compute; reflexivity.
Qed.
Print Assumptions C51_zero_volume_refuted.

(** Finding: the objective OpenDimensionZ is accepted with any number of bins,
    while OpenDimensionX and OpenDimensionY need exactly one. *)
Theorem C51_open_z_refuted : exists calls b i d,
  wcalls_from (w_new OKnapsack) calls = WOk b /\ w_build b = WBuilt i d /\
  bx_objective i = OOpenDimensionZ /\ length (db_bin_type_ids d) = 2%nat.
Proof.
  exists [WSetObjective OOpenDimensionZ; WAddBin (mkV 10 10 10); WSetBinCopies 0 2; WAddItem (mkV 5 5 5)].
  eexists. eexists. eexists.
  split; [vm_compute; reflexivity|]. split; [vm_compute; reflexivity|]. split; reflexivity.
Qed.
Print Assumptions C51_open_z_refuted.

(** Finding: a new builder has no defined objective: two builders given the same
    calls build different instances. *)
Theorem C51_objective_refuted : exists calls b1 b2 i1 i2 d1 d2,
  wrun OKnapsack calls = Some b1 /\ wrun OBinPacking calls = Some b2 /\
  w_build b1 = WBuilt i1 d1 /\ w_build b2 = WBuilt i2 d2 /\
  map bi_copies_min (bx_items i1) <> map bi_copies_min (bx_items i2).
Proof.
  exists [WAddBin (mkV 10 10 10); WAddItem (mkV 5 5 5)]. do 6 eexists.
  split; [vm_compute; reflexivity|]. split; [vm_compute; reflexivity|]. split; [vm_compute; reflexivity|].
  split; [vm_compute; reflexivity|]. vm_compute. discriminate.
Qed.
Print Assumptions C51_objective_refuted.

(** Finding: set_item_types_profits_auto uses the total volume and weight of the
    items, which are only computed by build(): whatever the instance, every
    profit it sets is 0. *)
Theorem C51_profits_auto_refuted : forall b b', w_profits_auto b = WOk b' ->
  forall t, In t (w_items b') -> bi_profit t = 0%Q.
Proof.
  intros b b' H t Ht. unfold w_profits_auto in H. cbv zeta in H.
  destruct (w_items b) as [|it l] eqn:E.
  - injection H as <-. rewrite E in Ht. destruct Ht.
  - match type of H with context [if ?c then _ else _] => destruct c; [discriminate|] end.
    injection H as <-. simpl in Ht. destruct Ht as [<-|Ht]; [reflexivity|].
    apply in_map_iff in Ht. destruct Ht as (u & <- & _). reflexivity.
Qed.
Print Assumptions C51_profits_auto_refuted.

(** Finding: infinite dimensions are computed from the item types entered so
    far: called before them, every bin gets size 0, which add_bin_type
    forbids. *)
Theorem C51_infinite_dimension_refuted : exists calls b i d,
  wcalls_from (w_new OKnapsack) calls = WOk b /\ w_build b = WBuilt i d /\ map (fun t => v_x (bn_box t)) (bx_bins i) = [0].
Proof.
  exists [WAddBin (mkV 10 10 10); WBinsInfiniteX; WAddItem (mkV 4 5 6)]. eexists. eexists. eexists.
  split; [vm_compute; reflexivity|]. split; [vm_compute; reflexivity|]. reflexivity.
Qed.
Print Assumptions C51_infinite_dimension_refuted.

(** Finding: the copy of an item type in a sub-instance forgets its minimum
    number of copies. *)
Theorem C51_copy_minimum_refuted : exists i b' t,
  bx_items i = [t] /\ bi_copies_min t = 1 /\
  w_copy_item (w_new (bx_objective i)) i 0 = WOk b' /\
  (forall d i', w_build b' = WBuilt i' d -> map bi_copies_min (bx_items i') = [0]).
Proof.
  exists (mkBInst OKnapsack [mkBI (mkV 2 2 2) 8 2 1 [XYZ] 0 []] []). do 2 eexists.
  split; [reflexivity|]. split; [reflexivity|]. split; [vm_compute; reflexivity|].
  intros d i' H. vm_compute in H. injection H as <- _. reflexivity.
Qed.
Print Assumptions C51_copy_minimum_refuted.

(** ** Copies of the types of another instance *)

Lemma add_consumption_items : forall b z r x c q b', w_add_consumption b z r x c q = WOk b' -> w_items b' = w_items b.
Proof.
  intros b z r x c q b' H. unfold w_add_consumption, won_bin in H.
  repeat match type of H with (if ?c then _ else _) = _ => destruct c; try discriminate end. injection H as <-. reflexivity.
Qed.

Lemma wfold_items : forall {A} (f : BBuilder -> A -> WRes) l b b', (forall b x b1, f b x = WOk b1 -> w_items b1 = w_items b) ->
  fold_left (fun r x => wthen r (fun b => f b x)) l (WOk b) = WOk b' -> w_items b' = w_items b.
Proof.
  intros A f l b b' Hf. revert b b'. induction l as [|x l IH]; intros b b' H; cbn [fold_left] in H.
  - injection H as <-. reflexivity.
  - unfold wthen at 2 in H. cbn in H. destruct (f b x) as [b1|b1|] eqn:E.
    + rewrite (IH b1 b' H). apply (Hf b x b1 E).
    + exfalso. clear -H. induction l as [|y l IH]; cbn in H; [discriminate|apply IH, H].
    + exfalso. clear -H. induction l as [|y l IH]; cbn in H; [discriminate|apply IH, H].
Qed.

Lemma copy_resources_items : forall rs b z x ox b', w_copy_resources b z x ox rs = WOk b' -> w_items b' = w_items b.
Proof.
  intros rs b z x ox b' H. unfold w_copy_resources in H. refine (wfold_items (fun b kres => if (ox <? length (res_item_consumptions (snd kres)))%nat
      then w_copy_schedule b z (fst kres) x (nth ox (res_item_consumptions (snd kres)) []) else WOk b) _ b b' _ H).
  intros b0 [k res] b1 E. cbn [fst snd] in E. destruct (_ <? _)%nat; [|injection E as <-; reflexivity]. unfold w_copy_schedule in E.
  refine (wfold_items (fun b kq => w_add_consumption b z k x (fst kq) (snd kq)) _ b0 b1 _ E).
  intros b2 [c q] b3 E2. apply (add_consumption_items _ _ _ _ _ _ _ E2).
Qed.

Lemma last_upd : forall {A} (f : A -> A) (l : list A) a, upd (length l) f (l ++ [a]) = l ++ [f a].
Proof. intros A f l a. induction l as [|b l IH]; cbn; [reflexivity|]. f_equal. exact IH. Qed.
Lemma last_ok : forall {A} (l : list A) a, bad_id (Z.of_nat (length l)) (l ++ [a]) = false.
Proof. intros A l a. unfold bad_id. rewrite app_length. cbn. apply orb_false_iff. split; [apply Z.ltb_ge; lia|apply Z.leb_gt; lia]. Qed.

Lemma wthen_ok : forall r f b', wthen r f = WOk b' -> exists b, r = WOk b /\ f b = WOk b'.
Proof. intros r f b' H. destruct r as [b|b|]; cbn in H; [exists b; auto|discriminate|discriminate]. Qed.
Lemma won_last_item : forall b items t g b', w_items b = items ++ [t] -> won_item b (Z.of_nat (length items)) g = WOk b' -> w_items b' = items ++ [g t].
Proof. intros b items t g b' Hb H. unfold won_item in H. rewrite Hb, last_ok in H. injection H as <-. cbn. rewrite Nat2Z.id, last_upd. auto. Qed.

Lemma wfold_last_item : forall {A} (f : BBuilder -> A -> WRes) (g : BItem -> A -> BItem) l (items : list BItem) t b b',
  (forall b x b1 t, w_items b = items ++ [t] -> f b x = WOk b1 -> w_items b1 = items ++ [g t x]) ->
  w_items b = items ++ [t] -> fold_left (fun r x => wthen r (fun b => f b x)) l (WOk b) = WOk b' -> w_items b' = items ++ [fold_left g l t].
Proof.
  intros A f g l items t b b' Hf. revert t b. induction l as [|x l IH]; intros t b Hb H; cbn [fold_left] in *.
  - injection H as <-. auto.
  - unfold wthen at 2 in H. cbn in H. destruct (f b x) as [b1|b1|] eqn:E.
    + apply (IH _ b1 (Hf b x b1 t Hb E) H).
    + exfalso. clear -H. induction l as [|y l IH]; cbn in H; [discriminate|apply IH, H].
    + exfalso. clear -H. induction l as [|y l IH]; cbn in H; [discriminate|apply IH, H].
Qed.
Lemma fold_rotations : forall l t, fold_left (fun t r => bi_with_rotations (bi_rotations t ++ [r]) t) l t = bi_with_rotations (bi_rotations t ++ l) t.
Proof. induction l as [|e l IH]; intro t; cbn [fold_left]; [rewrite app_nil_r; destruct t; reflexivity|]. rewrite IH. unfold bi_with_rotations. cbn. rewrite <- app_assoc. reflexivity. Qed.

(** A copied item type is added after the others with the same box, profit, copies,
    rotations and weight; its minimum number of copies is the default one. *)
Theorem C51_copy_item : forall b i id b', wstep b (WCopyItem i id) = WOk b' ->
  exists t, nth_error (bx_items i) id = Some t /\
  w_items b' = w_items b ++ [mkBI (bi_box t) (bi_profit t) (bi_copies t) (-1) (bi_rotations t) (bi_weight t) []].
Proof.
  intros b i id b' H. cbn [wstep] in H. unfold w_copy_item in H. destruct (nth_error (bx_items i) id) as [t|]; [|discriminate]. exists t. split; [reflexivity|].
  apply wthen_ok in H. destruct H as (b0' & E0 & H). unfold w_add_item in E0. destruct (_ <? 0); [discriminate|]. destruct (_ <? 0); [discriminate|]. destruct (_ <? 0); [discriminate|].
  injection E0 as E0.
  assert (H0 : w_items b0' = w_items b ++ [mkBI (bi_box t) (inject_Z (vol (bi_box t))) 1 (-1) [] 0 []]) by (rewrite <- E0; reflexivity). clear E0.
  apply wthen_ok in H. destruct H as (b1 & E1 & H).
  apply (wfold_last_item (fun b e => w_add_rotation b _ e) (fun t e => bi_with_rotations (bi_rotations t ++ [e]) t) _ (w_items b) _ _ _) with (2 := H0) in E1;
    [|intros c e c1 u Hc E; apply (won_last_item _ (w_items b) _ _ _ Hc) in E; exact E]. rename E1 into B1. rewrite fold_rotations in B1.
  apply wthen_ok in H. destruct H as (b2 & E2 & H). apply (won_last_item _ (w_items b) _ _ _ B1) in E2. rename E2 into B2.
  apply wthen_ok in H. destruct H as (b3 & E3 & H). unfold w_set_item_copies in E3. rewrite B2, last_ok in E3. destruct (negb _ && _); [discriminate|].
  apply (won_last_item _ (w_items b) _ _ _ B2) in E3. rename E3 into B3.
  apply wthen_ok in H. destruct H as (b4 & E4 & H). apply (won_last_item _ (w_items b) _ _ _ B3) in E4. rename E4 into B4.
  assert (E : w_items b' = w_items b4).
  { refine (wfold_items (fun b1 ko => match snd ko with None => WOk b1 | Some sub => match nth_error (bx_bins i) (fst ko) with None => WUndef
      | Some obt => w_copy_resources b1 (Z.of_nat sub) (Z.of_nat (length (w_items b))) id (bn_resources obt) end end) _ _ b' _ H).
    clear. intros c [k [sub|]] c1 E; cbn [fst snd] in E; [|injection E as <-; reflexivity]. destruct (nth_error _ _); [|discriminate]. apply (copy_resources_items _ _ _ _ _ _ E). }
  rewrite E, B4. reflexivity.
Qed.
Print Assumptions C51_copy_item.

(** A copied bin type is added after the others with all its fields but the
    consumptions of its resources. *)
Lemma wfold_bin : forall {A} (f : BBuilder -> A -> WRes) (g : BBin -> A -> BBin) l (bins : list BBin) t b b',
  (forall b x b1 t, w_bins b = bins ++ [t] -> f b x = WOk b1 -> w_bins b1 = bins ++ [g t x] /\ w_items b1 = w_items b) ->
  w_bins b = bins ++ [t] -> fold_left (fun r x => wthen r (fun b => f b x)) l (WOk b) = WOk b' ->
  w_bins b' = bins ++ [fold_left g l t] /\ w_items b' = w_items b.
Proof.
  intros A f g l bins t b b' Hf. revert t b. induction l as [|x l IH]; intros t b Hb H; cbn [fold_left] in *.
  - injection H as <-. auto.
  - unfold wthen at 2 in H. cbn in H. destruct (f b x) as [b1|b1|] eqn:E.
    + destruct (Hf b x b1 t Hb E) as [E1 E2]. destruct (IH _ b1 E1 H) as [E3 E4]. split; [exact E3|congruence].
    + exfalso. clear -H. induction l as [|y l IH]; cbn in H; [discriminate|apply IH, H].
    + exfalso. clear -H. induction l as [|y l IH]; cbn in H; [discriminate|apply IH, H].
Qed.
Lemma won_last : forall b bins t g b', w_bins b = bins ++ [t] -> won_bin b (Z.of_nat (length bins)) g = WOk b' ->
  w_bins b' = bins ++ [g t] /\ w_items b' = w_items b.
Proof.
  intros b bins t g b' Hb H. unfold won_bin in H. rewrite Hb, last_ok in H. injection H as <-. cbn. rewrite Nat2Z.id, last_upd. auto.
Qed.
Lemma fold_resources : forall l t, fold_left (fun t r => bn_with_resources (bn_resources t ++ [mkResource (res_capacity r) [] (res_penalize r) (res_penalty r)]) t) l t
  = bn_with_resources (bn_resources t ++ map (fun r => mkResource (res_capacity r) [] (res_penalize r) (res_penalty r)) l) t.
Proof. induction l as [|r l IH]; intro t; cbn [fold_left map]; [rewrite app_nil_r; destruct t; reflexivity|]. rewrite IH. unfold bn_with_resources. cbn. rewrite <- app_assoc. reflexivity. Qed.

Theorem C51_copy_bin : forall b i id b', wstep b (WCopyBin i id) = WOk b' ->
  exists t, nth_error (bx_bins i) id = Some t /\ w_items b' = w_items b /\
  w_bins b' = w_bins b ++ [mkBB (bn_box t) (if Qeq_bool (bn_cost t) (-1) then inject_Z (v_x (bn_box t) * v_y (bn_box t)) else bn_cost t) (bn_copies t) (bn_copies_min t) (bn_max_weight t)
    (map (fun r => mkResource (res_capacity r) [] (res_penalize r) (res_penalty r)) (bn_resources t))].
Proof.
  intros b i id b' H. cbn [wstep] in H. unfold w_copy_bin in H. destruct (nth_error (bx_bins i) id) as [t|]; [|discriminate]. exists t. split; [reflexivity|].
  apply wthen_ok in H. destruct H as (c0 & E0 & H). unfold w_add_bin in E0. destruct (_ <=? 0); [discriminate|]. destruct (_ <=? 0); [discriminate|]. destruct (_ <=? 0); [discriminate|].
  injection E0 as E0. cbv zeta in H.
  match type of H with wthen (w_set_bin_cost ?b0 _ _) _ = _ => set (b0' := b0) in H end.
  assert (H0 : exists c, w_bins b0' = w_bins b ++ [mkBB (bn_box t) c 1 0 None []]) by (eexists; unfold b0'; rewrite <- E0; reflexivity). destruct H0 as [c H0].
  assert (I0 : w_items b0' = w_items b) by (unfold b0'; rewrite <- E0; reflexivity). clearbody b0'. clear E0 c0.
  apply wthen_ok in H. destruct H as (b1 & E1 & H). unfold w_set_bin_cost in E1. rewrite H0 in E1. rewrite last_ok in E1. destruct (_ && _); [discriminate|].
  apply (won_last _ (w_bins b) _ _ _ H0) in E1. destruct E1 as [B1 I1].
  apply wthen_ok in H. destruct H as (b2 & E2 & H). unfold w_set_bin_copies in E2. rewrite B1, last_ok in E2. destruct (negb _ && _); [discriminate|].
  apply (won_last _ (w_bins b) _ _ _ B1) in E2. destruct E2 as [B2 I2].
  apply wthen_ok in H. destruct H as (b3 & E3 & H). unfold w_set_bin_copies_min in E3. rewrite B2, last_ok in E3. destruct (_ <? 0); [discriminate|]. destruct (negb _ && _); [discriminate|].
  apply (won_last _ (w_bins b) _ _ _ B2) in E3. destruct E3 as [B3 I3].
  apply wthen_ok in H. destruct H as (b4 & E4 & H). apply (won_last _ (w_bins b) _ _ _ B3) in E4. destruct E4 as [B4 I4].
  apply (wfold_bin (fun b r => w_add_resource b _ (res_capacity r) (res_penalize r) (res_penalty r)) (fun t r => bn_with_resources (bn_resources t ++ [mkResource (res_capacity r) [] (res_penalize r) (res_penalty r)]) t) _ (w_bins b) _ _ _) with (2 := B4) in H;
    [|intros d e c1 u Hc E; apply (won_last _ (w_bins b) _ _ _ Hc) in E; exact E]. destruct H as [B8 I8].
  split; [congruence|]. rewrite B8. rewrite fold_resources. reflexivity.
Qed.
Print Assumptions C51_copy_bin.

(** Both copies are possible. *)
Definition ex_copied : BInstance :=
  mkBInst OKnapsack [mkBI (mkV 2 3 4) 12 5 1 [XYZ; ZXY] 7 [[0%nat]]] [mkBB (mkV 10 8 9) 80 3 1 (Some 30%Q) [mkResource 4 [[2%Q]] false 0]].
Example C51_copy_nonvacuous : exists b1 b2, wstep (w_new OKnapsack) (WCopyBin ex_copied 0) = WOk b1 /\ wstep b1 (WCopyItem ex_copied 0) = WOk b2 /\
  map bi_rotations (w_items b2) = [[XYZ; ZXY]] /\ map res_item_consumptions (flat_map bn_resources (w_bins b2)) = [[[2%Q]]].
Proof. eexists. eexists. split; [vm_compute; reflexivity|]. split; [vm_compute; reflexivity|]. split; reflexivity. Qed.

(** Unlimited copies of item types: as many as needed to fill the largest bin. *)
Theorem C51_infinite_copies : forall b b', wstep b WItemsInfinite = WOk b' ->
  length (w_items b') = length (w_items b) /\
  forall x, (x < length (w_items b))%nat -> let t := nth x (w_items b) dummy_bitem in let n := bi_copies (nth x (w_items b') dummy_bitem) in
    0 < v_x (bi_box t) * v_y (bi_box t) * v_z (bi_box t) ->
    (forall bt, In bt (w_bins b) -> v_x (bn_box bt) * v_y (bn_box bt) * v_z (bn_box bt) <= n * (v_x (bi_box t) * v_y (bi_box t) * v_z (bi_box t))) /\
    ((exists bt, In bt (w_bins b) /\ 0 < v_x (bn_box bt) * v_y (bn_box bt) * v_z (bn_box bt)) -> exists bt, In bt (w_bins b) /\ (n - 1) * (v_x (bi_box t) * v_y (bi_box t) * v_z (bi_box t)) < v_x (bn_box bt) * v_y (bn_box bt) * v_z (bn_box bt)).
Proof.
  intros b b' H. cbn in H. unfold w_items_infinite in H. destruct (existsb _ _); [discriminate|]. injection H as <-. split; [cbn; apply map_length|].
  intros x Hx t n Ht. assert (En : n = winfinite_copies (volume_max (w_bins b)) t).
  { unfold n. cbn [w_items wset_items]. rewrite (nth_indep _ dummy_bitem ((fun t => bi_with_copies (winfinite_copies (volume_max (w_bins b)) t) t) dummy_bitem)) by (rewrite map_length; exact Hx).
    rewrite (map_nth (fun t => bi_with_copies (winfinite_copies (volume_max (w_bins b)) t) t)). reflexivity. }
  assert (M : forall l m, m <= fold_left (fun m t => Z.max m (vol (bn_box t))) l m /\ (forall u, In u l -> vol (bn_box u) <= fold_left (fun m t => Z.max m (vol (bn_box t))) l m)
    /\ (fold_left (fun m t => Z.max m (vol (bn_box t))) l m = m \/ exists u, In u l /\ vol (bn_box u) = fold_left (fun m t => Z.max m (vol (bn_box t))) l m)).
  { induction l as [|v l IH]; intro m; cbn [fold_left]; [split; [lia|]; split; [intros u []|auto]|]. destruct (IH (Z.max m (vol (bn_box v)))) as (A1 & A2 & A3).
    split; [lia|]. split; [intros u [<-|Hu]; [lia|apply A2, Hu]|]. destruct A3 as [A3|(u & Hu & A3)]; [|right; exists u; split; [right; exact Hu|exact A3]].
    destruct (Z.max_spec m (vol (bn_box v))) as [[B1 B2]|[B1 B2]]; [right; exists v; split; [left; reflexivity|congruence]|left; congruence]. }
  destruct (M (w_bins b) 0) as (A1 & A2 & A3). fold (volume_max (w_bins b)) in *. unfold winfinite_copies in En. change (vol (bi_box t)) with (v_x (bi_box t) * v_y (bi_box t) * v_z (bi_box t)) in En.
  set (a := v_x (bi_box t) * v_y (bi_box t) * v_z (bi_box t)) in *. set (m := volume_max (w_bins b)) in *.
  destruct (Z.eq_dec m 0) as [E|E].
  - split; [intros bt Hbt; specialize (A2 bt Hbt); unfold vol in A2|intros (bt & Hbt & P); specialize (A2 bt Hbt); unfold vol in A2; lia].
    assert (0 <= n); [|nia]. subst n. rewrite E in *. rewrite En. change (0 - 1) with (- (1)). destruct (Z.eq_dec a 1) as [->|]; [cbn; lia|]. rewrite (Z.quot_opp_l 1 a) by lia. rewrite Z.quot_small by lia. lia.
  - assert (0 < m) by lia. rewrite Z.quot_div_nonneg in En by lia. pose proof (Z.div_mod (m - 1) a ltac:(lia)). pose proof (Z.mod_pos_bound (m - 1) a Ht).
    split; [intros bt Hbt; specialize (A2 bt Hbt); unfold vol in A2; nia|]. intros _. destruct A3 as [A3|(bt & Hbt & A3)]; [contradiction|]. exists bt. split; [exact Hbt|]. unfold vol in A3. nia.
Qed.
Print Assumptions C51_infinite_copies.
