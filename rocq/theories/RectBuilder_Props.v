(** * C48: the rectangle instance builder *)

From Coq Require Import List ZArith QArith Bool Lia Lqa Arith Sorted.
From Verif Require Import Util Common_Model OneDim_Model OneDim_Spec OneDimBuilder_Model OneDimBuilder_Spec OneDimBuilder_Proof
  Rect_Model RectBuilder_Model RectBuilder_Spec RectBuilder_Proof.
Import ListNotations.
Open Scope Z_scope.

(** Every instance built after any sequence of calls (the caller catching the
    exceptions and going on) has consistent computed attributes, is within
    bounds and holds the data entered in the builder. *)
Theorem C48_built : forall calls b i d, urun calls = Some b -> u_build b = UBuilt i d ->
  rconsistent i d /\ rwell_bounded i /\ rholds_data b i.
Proof.
  intros calls b i d Hb Hi. pose proof (urun_inv calls b Hb) as Hinv. split; [|split].
  - apply (rbuild_consistent b i d Hi).
  - apply (rbuild_bounded b i d Hi Hinv).
  - apply (rbuild_holds b i d Hi).
Qed.
Print Assumptions C48_built.

(** Each call that enters data returns exactly when its arguments are valid,
    throws exactly when they are not, and then leaves the builder unchanged. *)
Theorem C48_calls : forall b c, rdirect c = true ->
  match ustep b c with
  | UOk _ => raccepted b c /\ ~ runchecked b c
  | UThrow b' => b' = b /\ ~ raccepted b c
  | UUndef => runchecked b c
  end.
Proof. exact racceptance. Qed.
Print Assumptions C48_calls.

(** Each setter stores its argument in the field of the type it names and
    changes nothing else. *)
Theorem C48_bin_setters : forall b id k q w tk e dx dy lx ly n m b1 b2 b3 b4 b5 b6 b7,
  id = Z.of_nat k ->
  u_set_bin_cost b id q = UOk b1 -> u_set_bin_weight b id w = UOk b2 -> u_set_bin_truck b id tk = UOk b3 ->
  u_add_eligibility b id e = UOk b4 -> u_add_defect b id dx dy lx ly = UOk b5 ->
  u_set_bin_copies b id n = UOk b6 -> u_set_bin_copies_min b id m = UOk b7 ->
  let old := nth k (u_bins b) dummy_rbin in
  let new b' := nth k (u_bins b') dummy_rbin in
  rb_cost (new b1) = (if Qeq_bool q (-1) then inject_Z (rb_x old * rb_y old) else q) /\
  rb_max_weight (new b2) = w /\
  rb_truck (new b3) = tk /\
  rb_eligibility_ids (new b4) = rb_eligibility_ids old ++ [e] /\
  rb_defects (new b5) = rb_defects old ++ [mkDefect dx dy lx ly] /\
  rb_copies (new b6) = n /\
  rb_copies_min (new b7) = m /\
  (forall j, j <> k -> forall b', In b' [b1; b2; b3; b4; b5; b6; b7] -> nth j (u_bins b') dummy_rbin = nth j (u_bins b) dummy_rbin) /\
  (forall b', In b' [b1; b2; b3; b4; b5; b6; b7] -> u_items b' = u_items b /\ u_objective b' = u_objective b /\ u_params b' = u_params b /\
     length (u_bins b') = length (u_bins b) /\ rb_x (new b') = rb_x old /\ rb_y (new b') = rb_y old /\ rb_resources (new b') = rb_resources old).
Proof.
  intros b id k q w tk e dx dy lx ly n m b1 b2 b3 b4 b5 b6 b7 -> H1 H2 H3 H4 H5 H6 H7 old new.
  assert (Hon : forall f b', uon_bin b (Z.of_nat k) f = UOk b' ->
     (k < length (u_bins b))%nat /\ b' = uset_bins b (upd k f (u_bins b))).
  { intros f b'. unfold uon_bin. destruct (bad_id (Z.of_nat k) (u_bins b)) eqn:E; [discriminate|].
    apply bad_id_false in E. unfold in_range in E. rewrite Nat2Z.id. intro H. injection H as <-. split; [lia|reflexivity]. }
  unfold u_set_bin_cost in H1. destruct (bad_id _ _) in H1; [discriminate|]. destruct (_ && _) in H1; [discriminate|].
  unfold u_set_bin_copies in H6. destruct (bad_id _ _) in H6; [discriminate|]. destruct (_ && _) in H6; [discriminate|].
  unfold u_set_bin_copies_min in H7. destruct (bad_id _ _) in H7; [discriminate|]. destruct (m <? 0) in H7; [discriminate|].
  destruct (_ && _) in H7; [discriminate|].
  apply Hon in H1, H2, H3, H4, H5, H6, H7.
  destruct H1 as [Hk ->], H2 as [_ ->], H3 as [_ ->], H4 as [_ ->], H5 as [_ ->], H6 as [_ ->], H7 as [_ ->].
  unfold new, uset_bins. cbn [u_bins]. rewrite !nth_upd_same by assumption.
  cbn [rb_cost rb_max_weight rb_truck rb_eligibility_ids rb_defects rb_copies rb_copies_min rb_with_cost rb_with_weight rb_with_truck rb_with_elig
    rb_with_defects rb_with_copies rb_with_min].
  do 7 (split; [reflexivity|]). split.
  - intros j Hj b' Hb'. simpl in Hb'. destruct Hb' as [<-|[<-|[<-|[<-|[<-|[<-|[<-|[]]]]]]]]; cbn [u_bins]; apply nth_upd_other; congruence.
  - intros b' Hb'. simpl in Hb'. destruct Hb' as [<-|[<-|[<-|[<-|[<-|[<-|[<-|[]]]]]]]]; cbn [u_bins u_items u_objective u_params];
      rewrite upd_length, nth_upd_same by assumption; auto 10.
Qed.
Print Assumptions C48_bin_setters.

Theorem C48_item_setters : forall b id k p n m w g e b1 b2 b3 b4 b5 b6,
  id = Z.of_nat k ->
  u_set_item_profit b id p = UOk b1 -> u_set_item_copies b id n = UOk b2 -> u_set_item_copies_min b id m = UOk b3 ->
  u_set_item_weight b id w = UOk b4 -> u_set_item_group b id (Z.of_nat g) = UOk b5 -> u_set_item_eligibility b id e = UOk b6 ->
  let old := nth k (u_items b) dummy_ritem in
  let new b' := nth k (u_items b') dummy_ritem in
  ri_profit (new b1) = p /\ ri_copies (new b2) = n /\ ri_copies_min (new b3) = m /\ ri_weight (new b4) = w /\
  ri_group (new b5) = g /\ ri_eligibility (new b6) = e /\
  (forall j, j <> k -> forall b', In b' [b1; b2; b3; b4; b5; b6] -> nth j (u_items b') dummy_ritem = nth j (u_items b) dummy_ritem) /\
  (forall b', In b' [b1; b2; b3; b4; b5; b6] -> u_bins b' = u_bins b /\ u_objective b' = u_objective b /\ u_params b' = u_params b /\
     length (u_items b') = length (u_items b) /\ ri_x (new b') = ri_x old /\ ri_y (new b') = ri_y old /\ ri_oriented (new b') = ri_oriented old).
Proof.
  intros b id k p n m w g e b1 b2 b3 b4 b5 b6 -> H1 H2 H3 H4 H5 H6 old new.
  assert (Hon : forall f b', uon_item b (Z.of_nat k) f = UOk b' ->
     (k < length (u_items b))%nat /\ b' = uset_items b (upd k f (u_items b))).
  { intros f b'. unfold uon_item. destruct (bad_id (Z.of_nat k) (u_items b)) eqn:E; [discriminate|].
    apply bad_id_false in E. unfold in_range in E. rewrite Nat2Z.id. intro H. injection H as <-. split; [lia|reflexivity]. }
  unfold u_set_item_copies in H2. destruct (bad_id _ _) in H2; [discriminate|]. destruct (_ && _) in H2; [discriminate|].
  unfold u_set_item_copies_min in H3. destruct (bad_id _ _) in H3; [discriminate|]. destruct (m <? -1) in H3; [discriminate|].
  unfold u_set_item_group in H5. destruct (_ <? 0) in H5; [discriminate|]. destruct (bad_id _ _) in H5; [discriminate|].
  rewrite Nat2Z.id in H5.
  apply Hon in H1, H2, H3, H4, H5, H6.
  destruct H1 as [Hk ->], H2 as [_ ->], H3 as [_ ->], H4 as [_ ->], H5 as [_ ->], H6 as [_ ->].
  unfold new, uset_items. cbn [u_items]. rewrite !nth_upd_same by assumption.
  cbn [ri_profit ri_copies ri_copies_min ri_weight ri_group ri_eligibility ri_with_profit ri_with_copies ri_with_min ri_with_weight ri_with_group ri_with_elig].
  do 6 (split; [reflexivity|]). split.
  - intros j Hj b' Hb'. simpl in Hb'.
    destruct Hb' as [<-|[<-|[<-|[<-|[<-|[<-|[]]]]]]]; cbn [u_items]; apply nth_upd_other; congruence.
  - intros b' Hb'. simpl in Hb'.
    destruct Hb' as [<-|[<-|[<-|[<-|[<-|[<-|[]]]]]]]; cbn [u_bins u_items u_objective u_params];
      rewrite upd_length, nth_upd_same by assumption; auto 10.
Qed.
Print Assumptions C48_item_setters.

(** Bin types with limited copies keep at least one, and their minimum. *)
Theorem C48_bin_minimum : forall calls b i d t, urun calls = Some b -> u_build b = UBuilt i d ->
  (t < length (u_bins b))%nat -> rb_copies (nth t (u_bins b) dummy_rbin) <> -1 ->
  1 <= rb_copies (rbin i t) /\ rb_copies_min (rbin i t) <= rb_copies (rbin i t).
Proof.
  intros calls b i d t Hb Hi Ht Hc. pose proof (urun_inv calls b Hb) as [H1 _].
  destruct (rbuild_holds b i d Hi) as [_ _ _ [_ H5]]. specialize (H5 t Ht). cbv zeta in H5.
  destruct H5 as (_ & _ & _ & E4 & _ & _ & _ & _ & _ & E7).
  destruct (H1 (nth t (u_bins b) dummy_rbin) (nth_In _ _ Ht)) as [_ [K|K]]; [contradiction|].
  apply Z.eqb_neq in Hc. rewrite Hc in E7. lia.
Qed.
Print Assumptions C48_bin_minimum.

(** An instance with two bin types, a defect, a resource, groups and
    eligibilities, entered with several calls, three of which throw. *)
Definition ex_ubuild_calls : list UCall :=
  [USetObjective OKnapsack; UAddBin 10 8; UAddBin 0 8; USetBinCost 0 6; USetBinCopies 0 (-1); USetBinWeight 0 (Some 8%Q);
   UAddEligibility 0 1; UAddResource 0 8 false 0; UAddDefect 0 1 1 2 2;
   UAddItem 3 2 false; USetItemProfit 0 7; USetItemCopies 0 3; USetItemCopies 0 0; USetItemWeight 0 2; USetItemGroup 0 2;
   UAddItem 4 5 true; USetItemCopies 1 2; USetItemEligibility 1 1; USetItemCopiesMin 1 1; USetItemGroup 1 (-1);
   UAddConsumption 0 0 0 0 5; UAddConsumption 0 0 0 1 1; UAddBin 4 4; USetBinCopies 1 2].
Definition ex_ubuilt : option (RInstance * RDerived) :=
  match urun ex_ubuild_calls with
  | Some b => match u_build b with UBuilt i d => Some (i, d) | _ => None end
  | None => None
  end.

Example C48_example : match ex_ubuilt with
  | Some (i, d) => dv_number_of_items d = 5 /\ dv_item_area d = 58 /\ dv_bin_area d = 432 /\
      dv_bin_type_ids d = [0; 0; 0; 0; 0; 1; 1]%nat /\ dv_previous d = [0; 80; 160; 240; 320; 400; 416] /\
      dv_smallest_width d = Some 2 /\ dv_smallest_height d = Some 2 /\ dv_bin_weight d = None /\ dv_defects d = 1%nat /\
      dv_item_type_ids d = [[0; 1]; [0]]%nat /\
      map ri_resource_ids (rin_items i) = [[[0]; []]; [[]; []]]%nat /\
      map ri_copies_min (rin_items i) = [0; 1] /\ dv_largest_efficiency d = Some 0%nat /\
      dv_groups d = [([1%nat], 2); ([], 0); ([0%nat], 3)]
  | None => False
  end.
Proof. vm_compute. auto 20. Qed.

(** Finding: an item type with a side of length 0, which the builder accepts,
    makes build() divide by zero. *)
Theorem C48_zero_area_refuted : exists calls b,
  ucalls_from u_new calls = UOk b /\ u_build b = UBuildUndef.
Proof.
  exists [USetObjective OKnapsack; UAddBin 10 10; UAddItem 0 5 false]. eexists.
  split; vm_compute; reflexivity.
Qed.
Print Assumptions C48_zero_area_refuted.

(** Finding: set_item_type_group is the only setter that does not check the
    item type id: every id out of range is an out of range access. *)
Theorem C48_group_id_refuted : forall b id g, 0 <= g -> ~ in_range id (u_items b) -> ustep b (USetItemGroup id g) = UUndef.
Proof.
  intros b id g Hg Hid. simpl. unfold u_set_item_group.
  replace (g <? 0) with false by (symmetry; apply Z.ltb_ge; assumption).
  apply bad_id_true in Hid. rewrite Hid. reflexivity.
Qed.
Print Assumptions C48_group_id_refuted.

(** Finding: infinite dimensions are computed from the item types entered so
    far: called before them, every bin gets size 0, which add_bin_type forbids;
    and an unlimited item type, of -1 copies, makes it negative. *)
Theorem C48_infinite_dimension_refuted : exists calls b i d,
  ucalls_from u_new calls = UOk b /\ u_build b = UBuilt i d /\ map rb_x (rin_bins i) = [0].
Proof.
  exists [UAddBin 10 10; UBinsInfiniteX; UAddItem 4 5 false]. eexists. eexists. eexists.
  split; [vm_compute; reflexivity|]. split; [vm_compute; reflexivity|]. reflexivity.
Qed.
Print Assumptions C48_infinite_dimension_refuted.
Theorem C48_negative_dimension_refuted : exists calls b i d,
  ucalls_from u_new calls = UOk b /\ u_build b = UBuilt i d /\ map rb_x (rin_bins i) = [-5].
Proof.
  exists [UAddBin 10 10; UAddItem 4 5 false; USetItemCopies 0 (-1); UBinsInfiniteX]. eexists. eexists. eexists.
  split; [vm_compute; reflexivity|]. split; [vm_compute; reflexivity|]. reflexivity.
Qed.
Print Assumptions C48_negative_dimension_refuted.

(** Otherwise the infinite dimension is large enough for all the items side by
    side, whatever their orientations, and the other one does not change. *)
Theorem C48_infinite_dimension : forall b b1 b2, (forall t, In t (u_items b) -> 0 <= ri_copies t) ->
  u_bins_infinite_x b = UOk b1 -> u_bins_infinite_y b = UOk b2 ->
  (forall t, In t (u_bins b1) ->
    zsum (fun it => ri_copies it * ri_x it) (u_items b) <= rb_x t /\
    zsum (fun it => ri_copies it * ri_y it) (u_items b) <= rb_x t) /\
  (forall t, In t (u_bins b2) ->
    zsum (fun it => ri_copies it * ri_x it) (u_items b) <= rb_y t /\
    zsum (fun it => ri_copies it * ri_y it) (u_items b) <= rb_y t) /\
  map rb_y (u_bins b1) = map rb_y (u_bins b) /\ map rb_x (u_bins b2) = map rb_x (u_bins b).
Proof.
  intros b b1 b2 Hc H1 H2. unfold u_bins_infinite_x in H1. unfold u_bins_infinite_y in H2. injection H1 as <-. injection H2 as <-. simpl.
  split; [|split; [|rewrite !map_map; split; reflexivity]]; intros t Ht;
  (apply in_map_iff in Ht; destruct Ht as (u & <- & _); simpl; unfold max_length_sum;
   rewrite (fold_sum _ (fun it => ri_copies it * Z.max (ri_x it) (ri_y it)));
   split; (rewrite Z.add_0_l; apply zsum_le; intros it Hit; specialize (Hc it Hit); nia)).
Qed.
Print Assumptions C48_infinite_dimension.

(** ** Copies of the types of another instance *)

Definition ex_copied : RInstance :=
  mkRInst OKnapsack default_params [mkRI 4 3 12 5 1 3 false 7 8 [[0%nat]]]
    [mkRB 10 8 80 3 1 (Some 30%Q) no_truck [8] [mkDefect 1 2 3 4] [mkResource 4 [[2%Q]] false 0]].

Lemma add_consumption_items : forall b z r x c q b', u_add_consumption b z r x c q = UOk b' -> u_items b' = u_items b.
Proof.
  intros b z r x c q b' H. unfold u_add_consumption, uon_bin in H.
  repeat match type of H with (if ?c then _ else _) = _ => destruct c; try discriminate end. injection H as <-. reflexivity.
Qed.

Lemma ufold_items : forall {A} (f : RBuilder -> A -> URes) l b b', (forall b x b1, f b x = UOk b1 -> u_items b1 = u_items b) ->
  fold_left (fun r x => uthen r (fun b => f b x)) l (UOk b) = UOk b' -> u_items b' = u_items b.
Proof.
  intros A f l b b' Hf. revert b b'. induction l as [|x l IH]; intros b b' H; cbn [fold_left] in H.
  - injection H as <-. reflexivity.
  - unfold uthen at 2 in H. cbn in H. destruct (f b x) as [b1|b1|] eqn:E.
    + rewrite (IH b1 b' H). apply (Hf b x b1 E).
    + exfalso. clear -H. induction l as [|y l IH]; cbn in H; [discriminate|apply IH, H].
    + exfalso. clear -H. induction l as [|y l IH]; cbn in H; [discriminate|apply IH, H].
Qed.

Lemma copy_resources_items : forall rs b z x ox b', u_copy_resources b z x ox rs = UOk b' -> u_items b' = u_items b.
Proof.
  intros rs b z x ox b' H. unfold u_copy_resources in H. refine (ufold_items (fun b kres => if (ox <? length (res_item_consumptions (snd kres)))%nat
      then u_copy_schedule b z (fst kres) x (nth ox (res_item_consumptions (snd kres)) []) else UOk b) _ b b' _ H).
  intros b0 [k res] b1 E. cbn [fst snd] in E. destruct (_ <? _)%nat; [|injection E as <-; reflexivity]. unfold u_copy_schedule in E.
  refine (ufold_items (fun b kq => u_add_consumption b z k x (fst kq) (snd kq)) _ b0 b1 _ E).
  intros b2 [c q] b3 E2. apply (add_consumption_items _ _ _ _ _ _ _ E2).
Qed.

Lemma last_upd : forall {A} (f : A -> A) (l : list A) a, upd (length l) f (l ++ [a]) = l ++ [f a].
Proof. intros A f l a. induction l as [|b l IH]; cbn; [reflexivity|]. f_equal. exact IH. Qed.
Lemma last_ok : forall {A} (l : list A) a, bad_id (Z.of_nat (length l)) (l ++ [a]) = false.
Proof. intros A l a. unfold bad_id. rewrite app_length. cbn. apply orb_false_iff. split; [apply Z.ltb_ge; lia|apply Z.leb_gt; lia]. Qed.

Lemma uthen_ok : forall r f b', uthen r f = UOk b' -> exists b, r = UOk b /\ f b = UOk b'.
Proof. intros r f b' H. destruct r as [b|b|]; cbn in H; [exists b; auto|discriminate|discriminate]. Qed.
Lemma uon_last_item : forall b items t g b', u_items b = items ++ [t] -> uon_item b (Z.of_nat (length items)) g = UOk b' -> u_items b' = items ++ [g t].
Proof. intros b items t g b' Hb H. unfold uon_item in H. rewrite Hb, last_ok in H. injection H as <-. cbn. rewrite Nat2Z.id, last_upd. auto. Qed.

(** A copied item type is added after the others with the same sizes, profit, copies,
    group, orientation, weight and eligibility; its minimum number of copies is the
    default one. *)
Theorem C48_copy_item : forall b i id b', ustep b (UCopyItem i id) = UOk b' ->
  exists t, nth_error (rin_items i) id = Some t /\
  u_items b' = u_items b ++ [mkRI (ri_x t) (ri_y t) (ri_profit t) (ri_copies t) (-1) (ri_group t) (ri_oriented t) (ri_weight t) (ri_eligibility t) []].
Proof.
  intros b i id b' H. cbn [ustep] in H. unfold u_copy_item in H. destruct (nth_error (rin_items i) id) as [t|]; [|discriminate]. exists t. split; [reflexivity|].
  unfold u_add_item in H. destruct (ri_x t <? 0); [discriminate|]. destruct (ri_y t <? 0); [discriminate|]. cbn [uthen] in H.
  match type of H with uthen (u_set_item_profit ?b0 _ _) _ = _ => set (b0' := b0) in H end.
  assert (H0 : u_items b0' = u_items b ++ [mkRI (ri_x t) (ri_y t) (inject_Z (ri_x t * ri_y t)) 1 (-1) 0 (ri_oriented t) 0 (-1) []]) by reflexivity. clearbody b0'.
  apply uthen_ok in H. destruct H as (b1 & E1 & H). apply (uon_last_item _ (u_items b) _ _ _ H0) in E1. rename E1 into B1.
  apply uthen_ok in H. destruct H as (b2 & E2 & H). unfold u_set_item_copies in E2. rewrite B1, last_ok in E2. destruct (negb _ && _); [discriminate|].
  apply (uon_last_item _ (u_items b) _ _ _ B1) in E2. rename E2 into B2.
  apply uthen_ok in H. destruct H as (b3 & E3 & H). unfold u_set_item_group in E3. rewrite B2, last_ok in E3. destruct (_ <? 0); [discriminate|].
  apply (uon_last_item _ (u_items b) _ _ _ B2) in E3. rename E3 into B3.
  apply uthen_ok in H. destruct H as (b4 & E4 & H). apply (uon_last_item _ (u_items b) _ _ _ B3) in E4. rename E4 into B4.
  apply uthen_ok in H. destruct H as (b5 & E5 & H). apply (uon_last_item _ (u_items b) _ _ _ B4) in E5. rename E5 into B5.
  assert (E : u_items b' = u_items b5).
  { refine (ufold_items (fun b1 ko => match snd ko with None => UOk b1 | Some sub => match nth_error (rin_bins i) (fst ko) with None => UUndef
      | Some obt => u_copy_resources b1 (Z.of_nat sub) (Z.of_nat (length (u_items b))) id (rb_resources obt) end end) _ _ b' _ H).
    clear. intros c [k [sub|]] c1 E; cbn [fst snd] in E; [|injection E as <-; reflexivity]. destruct (nth_error _ _); [|discriminate]. apply (copy_resources_items _ _ _ _ _ _ E). }
  rewrite E, B5. do 2 f_equal. unfold ri_with_elig, ri_with_weight, ri_with_group, ri_with_copies, ri_with_profit. cbn. rewrite Nat2Z.id. reflexivity.
Qed.
Print Assumptions C48_copy_item.

(** A copied bin type is added after the others with all its fields but the
    consumptions of its resources. *)
Lemma ufold_bin : forall {A} (f : RBuilder -> A -> URes) (g : RBin -> A -> RBin) l (bins : list RBin) t b b',
  (forall b x b1 t, u_bins b = bins ++ [t] -> f b x = UOk b1 -> u_bins b1 = bins ++ [g t x] /\ u_items b1 = u_items b) ->
  u_bins b = bins ++ [t] -> fold_left (fun r x => uthen r (fun b => f b x)) l (UOk b) = UOk b' ->
  u_bins b' = bins ++ [fold_left g l t] /\ u_items b' = u_items b.
Proof.
  intros A f g l bins t b b' Hf. revert t b. induction l as [|x l IH]; intros t b Hb H; cbn [fold_left] in *.
  - injection H as <-. auto.
  - unfold uthen at 2 in H. cbn in H. destruct (f b x) as [b1|b1|] eqn:E.
    + destruct (Hf b x b1 t Hb E) as [E1 E2]. destruct (IH _ b1 E1 H) as [E3 E4]. split; [exact E3|congruence].
    + exfalso. clear -H. induction l as [|y l IH]; cbn in H; [discriminate|apply IH, H].
    + exfalso. clear -H. induction l as [|y l IH]; cbn in H; [discriminate|apply IH, H].
Qed.
Lemma uon_last : forall b bins t g b', u_bins b = bins ++ [t] -> uon_bin b (Z.of_nat (length bins)) g = UOk b' ->
  u_bins b' = bins ++ [g t] /\ u_items b' = u_items b.
Proof.
  intros b bins t g b' Hb H. unfold uon_bin in H. rewrite Hb, last_ok in H. injection H as <-. cbn. rewrite Nat2Z.id, last_upd. auto.
Qed.
Lemma fold_elig : forall l t, fold_left (fun t e => rb_with_elig (rb_eligibility_ids t ++ [e]) t) l t = rb_with_elig (rb_eligibility_ids t ++ l) t.
Proof. induction l as [|e l IH]; intro t; cbn [fold_left]; [rewrite app_nil_r; destruct t; reflexivity|]. rewrite IH. unfold rb_with_elig. cbn. rewrite <- app_assoc. reflexivity. Qed.
Lemma fold_defects : forall l t, fold_left (fun t d => rb_with_defects (rb_defects t ++ [mkDefect (df_x d) (df_y d) (df_lx d) (df_ly d)]) t) l t = rb_with_defects (rb_defects t ++ l) t.
Proof. induction l as [|[x y lx ly] l IH]; intro t; cbn [fold_left]; [rewrite app_nil_r; destruct t; reflexivity|]. rewrite IH. unfold rb_with_defects. cbn. rewrite <- app_assoc. reflexivity. Qed.
Lemma fold_resources : forall l t, fold_left (fun t r => rb_with_resources (rb_resources t ++ [mkResource (res_capacity r) [] (res_penalize r) (res_penalty r)]) t) l t
  = rb_with_resources (rb_resources t ++ map (fun r => mkResource (res_capacity r) [] (res_penalize r) (res_penalty r)) l) t.
Proof. induction l as [|r l IH]; intro t; cbn [fold_left map]; [rewrite app_nil_r; destruct t; reflexivity|]. rewrite IH. unfold rb_with_resources. cbn. rewrite <- app_assoc. reflexivity. Qed.

Theorem C48_copy_bin : forall b i id b', ustep b (UCopyBin i id) = UOk b' ->
  exists t, nth_error (rin_bins i) id = Some t /\ u_items b' = u_items b /\
  u_bins b' = u_bins b ++ [mkRB (rb_x t) (rb_y t) (if Qeq_bool (rb_cost t) (-1) then inject_Z (rb_x t * rb_y t) else rb_cost t) (rb_copies t) (rb_copies_min t) (rb_max_weight t) (rb_truck t)
    (rb_eligibility_ids t) (rb_defects t) (map (fun r => mkResource (res_capacity r) [] (res_penalize r) (res_penalty r)) (rb_resources t))].
Proof.
  intros b i id b' H. cbn [ustep] in H. unfold u_copy_bin in H. destruct (nth_error (rin_bins i) id) as [t|]; [|discriminate]. exists t. split; [reflexivity|].
  unfold u_add_bin in H. destruct (rb_x t <=? 0); [discriminate|]. destruct (rb_y t <=? 0); [discriminate|]. cbn [uthen] in H.
  match type of H with uthen (u_set_bin_cost ?b0 _ _) _ = _ => set (b0' := b0) in H end.
  assert (H0 : u_bins b0' = u_bins b ++ [mkRB (rb_x t) (rb_y t) (inject_Z (rb_x t * rb_y t)) 1 0 None no_truck [] [] []]) by reflexivity.
  assert (I0 : u_items b0' = u_items b) by reflexivity. clearbody b0'.
  apply uthen_ok in H. destruct H as (b1 & E1 & H). unfold u_set_bin_cost in E1. rewrite H0 in E1. rewrite last_ok in E1. destruct (_ && _); [discriminate|].
  apply (uon_last _ (u_bins b) _ _ _ H0) in E1. destruct E1 as [B1 I1].
  apply uthen_ok in H. destruct H as (b2 & E2 & H). unfold u_set_bin_copies in E2. rewrite B1, last_ok in E2. destruct (negb _ && _); [discriminate|].
  apply (uon_last _ (u_bins b) _ _ _ B1) in E2. destruct E2 as [B2 I2].
  apply uthen_ok in H. destruct H as (b3 & E3 & H). unfold u_set_bin_copies_min in E3. rewrite B2, last_ok in E3. destruct (_ <? 0); [discriminate|]. destruct (negb _ && _); [discriminate|].
  apply (uon_last _ (u_bins b) _ _ _ B2) in E3. destruct E3 as [B3 I3].
  apply uthen_ok in H. destruct H as (b4 & E4 & H). apply (uon_last _ (u_bins b) _ _ _ B3) in E4. destruct E4 as [B4 I4].
  apply uthen_ok in H. destruct H as (b5 & E5 & H). apply (uon_last _ (u_bins b) _ _ _ B4) in E5. destruct E5 as [B5 I5].
  apply uthen_ok in H. destruct H as (b6 & E6 & H).
  apply (ufold_bin (fun b e => u_add_eligibility b _ e) (fun t e => rb_with_elig (rb_eligibility_ids t ++ [e]) t) _ (u_bins b) _ _ _) with (2 := B5) in E6;
    [|intros c e c1 u Hc E; apply (uon_last _ (u_bins b) _ _ _ Hc) in E; exact E]. destruct E6 as [B6 I6].
  apply uthen_ok in H. destruct H as (b7 & E7 & H).
  apply (ufold_bin (fun b d => u_add_defect b _ (df_x d) (df_y d) (df_lx d) (df_ly d)) (fun t d => rb_with_defects (rb_defects t ++ [mkDefect (df_x d) (df_y d) (df_lx d) (df_ly d)]) t) _ (u_bins b) _ _ _) with (2 := B6) in E7;
    [|intros c e c1 u Hc E; apply (uon_last _ (u_bins b) _ _ _ Hc) in E; exact E]. destruct E7 as [B7 I7].
  apply (ufold_bin (fun b r => u_add_resource b _ (res_capacity r) (res_penalize r) (res_penalty r)) (fun t r => rb_with_resources (rb_resources t ++ [mkResource (res_capacity r) [] (res_penalize r) (res_penalty r)]) t) _ (u_bins b) _ _ _) with (2 := B7) in H;
    [|intros c e c1 u Hc E; apply (uon_last _ (u_bins b) _ _ _ Hc) in E; exact E]. destruct H as [B8 I8].
  split; [congruence|]. rewrite B8. rewrite fold_resources, fold_defects, fold_elig. reflexivity.
Qed.
Print Assumptions C48_copy_bin.

(** Both copies are possible. *)
Example C48_copy_nonvacuous : exists b1 b2, ustep u_new (UCopyBin ex_copied 0) = UOk b1 /\ ustep b1 (UCopyItem ex_copied 0) = UOk b2 /\
  map ri_group (u_items b2) = [3%nat] /\ map res_item_consumptions (flat_map rb_resources (u_bins b2)) = [[[2%Q]]].
Proof. eexists. eexists. split; [vm_compute; reflexivity|]. split; [vm_compute; reflexivity|]. split; reflexivity. Qed.

(** Unlimited copies of item types: as many as needed to fill the largest bin. *)
Theorem C48_infinite_copies : forall b b', ustep b UItemsInfinite = UOk b' ->
  length (u_items b') = length (u_items b) /\
  forall x, (x < length (u_items b))%nat -> let t := nth x (u_items b) dummy_ritem in let n := ri_copies (nth x (u_items b') dummy_ritem) in
    0 < ri_x t * ri_y t ->
    (forall bt, In bt (u_bins b) -> rb_x bt * rb_y bt <= n * (ri_x t * ri_y t)) /\
    ((exists bt, In bt (u_bins b) /\ 0 < rb_x bt * rb_y bt) -> exists bt, In bt (u_bins b) /\ (n - 1) * (ri_x t * ri_y t) < rb_x bt * rb_y bt).
Proof.
  intros b b' H. cbn in H. unfold u_items_infinite in H. destruct (existsb _ _); [discriminate|]. injection H as <-. split; [cbn; apply map_length|].
  intros x Hx t n Ht. assert (En : n = rinfinite_copies (area_max (u_bins b)) t).
  { unfold n. cbn [u_items uset_items]. rewrite (nth_indep _ dummy_ritem ((fun t => ri_with_copies (rinfinite_copies (area_max (u_bins b)) t) t) dummy_ritem)) by (rewrite map_length; exact Hx).
    rewrite (map_nth (fun t => ri_with_copies (rinfinite_copies (area_max (u_bins b)) t) t)). reflexivity. }
  assert (M : forall l m, m <= fold_left (fun m t => Z.max m (rb_area t)) l m /\ (forall u, In u l -> rb_area u <= fold_left (fun m t => Z.max m (rb_area t)) l m)
    /\ (fold_left (fun m t => Z.max m (rb_area t)) l m = m \/ exists u, In u l /\ rb_area u = fold_left (fun m t => Z.max m (rb_area t)) l m)).
  { induction l as [|v l IH]; intro m; cbn [fold_left]; [split; [lia|]; split; [intros u []|auto]|]. destruct (IH (Z.max m (rb_area v))) as (A1 & A2 & A3).
    split; [lia|]. split; [intros u [<-|Hu]; [lia|apply A2, Hu]|]. destruct A3 as [A3|(u & Hu & A3)]; [|right; exists u; split; [right; exact Hu|exact A3]].
    destruct (Z.max_spec m (rb_area v)) as [[B1 B2]|[B1 B2]]; [right; exists v; split; [left; reflexivity|congruence]|left; congruence]. }
  destruct (M (u_bins b) 0) as (A1 & A2 & A3). fold (area_max (u_bins b)) in *. unfold rinfinite_copies in En. change (ri_area t) with (ri_x t * ri_y t) in En.
  set (a := ri_x t * ri_y t) in *. set (m := area_max (u_bins b)) in *.
  destruct (Z.eq_dec m 0) as [E|E].
  - split; [intros bt Hbt; specialize (A2 bt Hbt); unfold rb_area in A2|intros (bt & Hbt & P); specialize (A2 bt Hbt); unfold rb_area in A2; lia].
    assert (0 <= n); [|nia]. subst n. rewrite E in *. rewrite En. change (0 - 1) with (- (1)). destruct (Z.eq_dec a 1) as [->|]; [cbn; lia|]. rewrite (Z.quot_opp_l 1 a) by lia. rewrite Z.quot_small by lia. lia.
  - assert (0 < m) by lia. rewrite Z.quot_div_nonneg in En by lia. pose proof (Z.div_mod (m - 1) a ltac:(lia)). pose proof (Z.mod_pos_bound (m - 1) a Ht).
    split; [intros bt Hbt; specialize (A2 bt Hbt); unfold rb_area in A2; nia|]. intros _. destruct A3 as [A3|(bt & Hbt & A3)]; [contradiction|]. exists bt. split; [exact Hbt|]. unfold rb_area in A3. nia.
Qed.
Print Assumptions C48_infinite_copies.
