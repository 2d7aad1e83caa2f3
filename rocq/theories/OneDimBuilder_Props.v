(** * C13, C47: the onedimensional instance builder and sub-instances *)

From Coq Require Import List ZArith QArith Bool Lia Lqa Arith Sorted.
From Verif Require Import Util Common_Model OneDim_Model OneDim_Spec OneDim_Props OneDimBuilder_Model OneDimBuilder_Spec
  OneDimBuilder_Proof OneDimSub_Proof.
Import ListNotations.
Open Scope Z_scope.

(** ** C13 *)

(** Every instance built after any sequence of calls (the caller catching the
    exceptions and going on) is consistent, within bounds, and holds the data
    of the builder. *)
Theorem C13_built : forall calls b i, brun calls = Some b -> b_build b = Built i ->
  consistent i /\ well_bounded i /\ holds_data b i.
Proof.
  intros calls b i Hb Hi. pose proof (brun_inv calls b Hb) as Hinv. split; [|split].
  - apply (build_consistent b i Hi).
  - apply (build_bounded b i Hi Hinv).
  - apply (build_holds b i Hi).
Qed.
Print Assumptions C13_built.

(** Each call that enters data returns exactly when its arguments are valid,
    throws exactly when they are not, and then leaves the builder unchanged. *)
Theorem C13_calls : forall b c, direct c = true ->
  match bstep b c with
  | BOk _ => accepted b c /\ ~ unchecked b c
  | BThrow b' => b' = b /\ ~ accepted b c
  | BUndef => unchecked b c
  end.
Proof. exact acceptance. Qed.
Print Assumptions C13_calls.

(** Each setter stores its argument in the field of the type it names, and
    nothing else changes (one theorem per field would say the same; here the
    fields read back after the call). *)
Theorem C13_bin_setters : forall b id k q w e n m b1 b2 b3 b4 b5,
  id = Z.of_nat k ->
  b_set_bin_cost b id q = BOk b1 -> b_set_bin_weight b id w = BOk b2 -> b_add_eligibility b id e = BOk b3 ->
  b_set_bin_copies b id n = BOk b4 -> b_set_bin_copies_min b id m = BOk b5 ->
  let old := nth k (b_bins b) dummy_bin in
  let new b' := nth k (b_bins b') dummy_bin in
  bt_cost (new b1) = (if Qeq_bool q (-1) then inject_Z (bt_length old) else q) /\
  bt_max_weight (new b2) = w /\
  bt_eligibility_ids (new b3) = bt_eligibility_ids old ++ [e] /\
  bt_copies (new b4) = n /\
  bt_copies_min (new b5) = m /\
  (forall j, j <> k -> forall b', In b' [b1; b2; b3; b4; b5] -> nth j (b_bins b') dummy_bin = nth j (b_bins b) dummy_bin) /\
  (forall b', In b' [b1; b2; b3; b4; b5] -> b_items b' = b_items b /\ b_objective b' = b_objective b /\
     length (b_bins b') = length (b_bins b) /\ bt_length (new b') = bt_length old).
Proof.
  intros b id k q w e n m b1 b2 b3 b4 b5 -> H1 H2 H3 H4 H5 old new.
  assert (Hon : forall f b', on_bin b (Z.of_nat k) f = BOk b' ->
     (k < length (b_bins b))%nat /\ b' = set_bins b (upd k f (b_bins b))).
  { intros f b'. unfold on_bin. destruct (bad_id (Z.of_nat k) (b_bins b)) eqn:E; [discriminate|].
    apply bad_id_false in E. unfold in_range in E. rewrite Nat2Z.id. intro H. injection H as <-. split; [lia|reflexivity]. }
  unfold b_set_bin_cost in H1. destruct (bad_id _ _) in H1; [discriminate|]. destruct (_ && _) in H1; [discriminate|].
  unfold b_set_bin_copies in H4. destruct (bad_id _ _) in H4; [discriminate|]. destruct (_ && _) in H4; [discriminate|].
  unfold b_set_bin_copies_min in H5. destruct (bad_id _ _) in H5; [discriminate|]. destruct (m <? 0) in H5; [discriminate|].
  destruct (_ && _) in H5; [discriminate|].
  apply Hon in H1, H2, H3, H4, H5. destruct H1 as [Hk ->], H2 as [_ ->], H3 as [_ ->], H4 as [_ ->], H5 as [_ ->].
  unfold new, set_bins. cbn [b_bins]. rewrite !nth_upd_same by assumption. cbn [bt_cost bt_max_weight bt_eligibility_ids bt_copies bt_copies_min].
  split; [reflexivity|]. split; [reflexivity|]. split; [reflexivity|]. split; [reflexivity|]. split; [reflexivity|]. split.
  - intros j Hj b' Hb'. simpl in Hb'. destruct Hb' as [<-|[<-|[<-|[<-|[<-|[]]]]]]; cbn [b_bins]; apply nth_upd_other; congruence.
  - intros b' Hb'. simpl in Hb'. destruct Hb' as [<-|[<-|[<-|[<-|[<-|[]]]]]]; cbn [b_bins b_items b_objective];
      rewrite upd_length, nth_upd_same by assumption; auto.
Qed.
Print Assumptions C13_bin_setters.

Theorem C13_item_setters : forall b id k p n m w nl st wa e b1 b2 b3 b4 b5 b6 b7 b8,
  id = Z.of_nat k ->
  b_set_item_profit b id p = BOk b1 -> b_set_item_copies b id n = BOk b2 -> b_set_item_copies_min b id m = BOk b3 ->
  b_set_item_weight b id w = BOk b4 -> b_set_item_nesting b id nl = BOk b5 -> b_set_item_stackability b id st = BOk b6 ->
  b_set_item_weight_after b id wa = BOk b7 -> b_set_item_eligibility b id e = BOk b8 ->
  let old := nth k (b_items b) dummy_item in
  let new b' := nth k (b_items b') dummy_item in
  it_profit (new b1) = p /\ it_copies (new b2) = n /\ it_copies_min (new b3) = m /\ it_weight (new b4) = w /\
  it_nesting (new b5) = nl /\ it_stackability (new b6) = st /\ it_max_weight_after (new b7) = wa /\
  it_eligibility (new b8) = e /\
  (forall j, j <> k -> forall b', In b' [b1; b2; b3; b4; b5; b6; b7; b8] -> nth j (b_items b') dummy_item = nth j (b_items b) dummy_item) /\
  (forall b', In b' [b1; b2; b3; b4; b5; b6; b7; b8] -> b_bins b' = b_bins b /\ b_objective b' = b_objective b /\
     length (b_items b') = length (b_items b) /\ it_length (new b') = it_length old).
Proof.
  intros b id k p n m w nl st wa e b1 b2 b3 b4 b5 b6 b7 b8 -> H1 H2 H3 H4 H5 H6 H7 H8 old new.
  assert (Hon : forall f b', on_item b (Z.of_nat k) f = BOk b' ->
     (k < length (b_items b))%nat /\ b' = set_items b (upd k f (b_items b))).
  { intros f b'. unfold on_item. destruct (bad_id (Z.of_nat k) (b_items b)) eqn:E; [discriminate|].
    apply bad_id_false in E. unfold in_range in E. rewrite Nat2Z.id. intro H. injection H as <-. split; [lia|reflexivity]. }
  unfold b_set_item_copies in H2. destruct (bad_id _ _) in H2; [discriminate|]. destruct (_ && _) in H2; [discriminate|].
  unfold b_set_item_copies_min in H3. destruct (bad_id _ _) in H3; [discriminate|]. destruct (m <? -1) in H3; [discriminate|].
  apply Hon in H1, H2, H3, H4, H5, H6, H7, H8.
  destruct H1 as [Hk ->], H2 as [_ ->], H3 as [_ ->], H4 as [_ ->], H5 as [_ ->], H6 as [_ ->], H7 as [_ ->], H8 as [_ ->].
  unfold new, set_items. cbn [b_items]. rewrite !nth_upd_same by assumption.
  cbn [it_profit it_copies it_copies_min it_weight it_nesting it_stackability it_max_weight_after it_eligibility].
  do 8 (split; [reflexivity|]). split.
  - intros j Hj b' Hb'. simpl in Hb'.
    destruct Hb' as [<-|[<-|[<-|[<-|[<-|[<-|[<-|[<-|[]]]]]]]]]; cbn [b_items]; apply nth_upd_other; congruence.
  - intros b' Hb'. simpl in Hb'.
    destruct Hb' as [<-|[<-|[<-|[<-|[<-|[<-|[<-|[<-|[]]]]]]]]]; cbn [b_bins b_items b_objective];
      rewrite upd_length, nth_upd_same by assumption; auto.
Qed.
Print Assumptions C13_item_setters.

(** A knapsack instance entered with several calls, two of which throw. *)
Definition ex_build_calls : list BCall :=
  [SetObjective OKnapsack; AddBinType 10; AddBinType (-3); SetBinCost 0 6; SetBinCopies 0 (-1); SetBinMaxWeight 0 (Some 8%Q);
   AddBinEligibility 0 1; AddBinResource 0 8 false 0;
   AddItemType 3; SetItemProfit 0 7; SetItemCopies 0 3; SetItemCopies 0 0; SetItemWeight 0 2;
   AddItemType 4; SetItemCopies 1 2; SetItemEligibility 1 1; SetItemCopiesMin 1 1;
   AddConsumption 0 0 0 0 5; AddConsumption 0 0 0 1 1; AddBinType 4; SetBinCopies 1 2].
Definition ex_built : option Instance :=
  match brun ex_build_calls with
  | Some b => match b_build b with Built i => Some i | _ => None end
  | None => None
  end.

Example C13_example : match ex_built with
  | Some i => in_number_of_items i = 5 /\ in_item_length i = 17 /\ in_bin_length i = 58 /\
      in_bin_type_ids i = [0; 0; 0; 0; 0; 1; 1]%nat /\ in_previous_bins_length i = [0; 10; 20; 30; 40; 50; 54] /\
      map bt_item_type_ids (in_bin_types i) = [[0; 1]; [0]]%nat /\
      map it_resource_ids (in_item_types i) = [[[0]; []]; [[]; []]]%nat /\
      map it_copies_min (in_item_types i) = [0; 1] /\ in_largest_efficiency i = Some 0%nat
  | None => False
  end.
Proof. vm_compute. auto 10. Qed.

(** Finding: an item type with unlimited copies (-1), which the setter accepts,
    keeps -1 copies in the built instance: the totals go down and both minimum
    and maximum are -1. *)
Theorem C13_unlimited_items_refuted : exists calls b i,
  brun calls = Some b /\ b_build b = Built i /\ in_number_of_items i = -1 /\ in_item_length i = -5 /\
  map it_copies (in_item_types i) = [-1] /\ map it_copies_min (in_item_types i) = [-1].
Proof.
  exists [SetObjective OBinPacking; AddBinType 10; AddItemType 5; SetItemCopies 0 (-1)].
  eexists. eexists. split; [vm_compute; reflexivity|]. split; [vm_compute; reflexivity|]. vm_compute. auto.
Qed.
Print Assumptions C13_unlimited_items_refuted.

(** Finding: a bin type with unlimited copies is given as many copies as there
    are items, even if this is less than its minimum. *)
Theorem C13_bin_minimum_refuted : exists calls b i t,
  brun calls = Some b /\ b_build b = Built i /\ In t (in_bin_types i) /\ bt_copies t < bt_copies_min t.
Proof.
  exists [SetObjective OKnapsack; AddBinType 10; SetBinCopies 0 (-1); SetBinCopiesMin 0 3; AddItemType 5].
  eexists. eexists. eexists. split; [vm_compute; reflexivity|]. split; [vm_compute; reflexivity|].
  split; [left; reflexivity|]. reflexivity.
Qed.
Print Assumptions C13_bin_minimum_refuted.

(** With limited copies the minimum is respected. *)
Theorem C13_bin_minimum : forall calls b i t, brun calls = Some b -> b_build b = Built i ->
  (t < length (b_bins b))%nat -> bt_copies (nth t (b_bins b) dummy_bin) <> -1 ->
  1 <= bt_copies (bin_type i t) /\ bt_copies_min (bin_type i t) <= bt_copies (bin_type i t).
Proof.
  intros calls b i t Hb Hi Ht Hc. pose proof (brun_inv calls b Hb) as [H1 _].
  destruct (build_holds b i Hi) as [_ _ [_ H5]]. specialize (H5 t Ht). cbv zeta in H5.
  destruct H5 as (_ & _ & E3 & _ & _ & _ & E7).
  destruct (H1 (nth t (b_bins b) dummy_bin) (nth_In _ _ Ht)) as [_ _ _ [K|K] _]; [contradiction|].
  apply Z.eqb_neq in Hc. rewrite Hc in E7. lia.
Qed.
Print Assumptions C13_bin_minimum.

(** Finding: an item type of length 0, accepted by the builder, makes build()
    divide by zero. *)
Theorem C13_zero_length_refuted : exists calls b,
  calls_from b_new calls = BOk b /\ b_build b = BuildUndef.
Proof.
  exists [SetObjective OKnapsack; AddBinType 10; AddItemType 0]. eexists.
  split; vm_compute; reflexivity.
Qed.
Print Assumptions C13_zero_length_refuted.

(** ** C47: sub-instances *)

(** Copying distinct bin types, then item types, succeeds and copies all their
    data, consumptions included; the built instance is the sub-instance. *)
Theorem C47_sub_instance : forall i o bins items,
  copyable i -> (forall t, In t (in_item_types i) -> it_length t <> 0) -> NoDup bins ->
  (forall t, In t bins -> (t < length (in_bin_types i))%nat) ->
  (forall x, In x items -> (x < length (in_item_types i))%nat) ->
  (o = OBinPacking -> forall t, In t bins -> bt_copies_min (bin_type i t) = 0) ->
  exists b i', calls_from b_new (SetObjective o :: map (CopyBinType i) bins ++ map (CopyItemType i) items) = BOk b /\
    b_build b = Built i' /\ in_objective i' = o /\ is_sub_instance i bins items i' /\ consistent i'.
Proof.
  intros i o bins items Hc Hl Hn Hb Hi Hbp.
  destruct (copies_ok i (Some o) bins items Hc Hn Hb Hi) as (b & E & C).
  destruct (copied_builds i o bins items b Hc Hl Hi Hb Hbp C) as (i' & B & O & S').
  exists b, i'. split; [exact E|]. split; [assumption|]. split; [assumption|]. split; [assumption|].
  apply (build_consistent b i' B).
Qed.
Print Assumptions C47_sub_instance.

(** Built instances with limited copies can be copied. *)
Lemma built_copyable : forall calls b i, brun calls = Some b -> b_build b = Built i ->
  (forall t, In t (b_items b) -> 1 <= it_copies t) -> (forall t, In t (b_bins b) -> bt_copies t <> -1) ->
  copyable i /\ forall t, In t (in_item_types i) -> it_length t <> 0.
Proof.
  intros calls b i Hb Hi H1 H2. destruct (C13_built calls b i Hb Hi) as (_ & W & [_ [D1 D2] [D3 D4]]).
  split; [constructor|].
  - intros t Ht. destruct (wb_bins i W t Ht) as (W1 & W2 & W3).
    apply In_nth with (d := dummy_bin) in Ht. destruct Ht as (k & Hk & <-). rewrite D3 in Hk.
    destruct (C13_bin_minimum calls b i k Hb Hi Hk (H2 _ (nth_In _ _ Hk))) as [A B].
    fold (bin_type i k). fold (bin_type i k) in W1, W2, W3. repeat split; assumption.
  - intros t Ht. apply In_nth with (d := dummy_item) in Ht. destruct Ht as (k & Hk & <-). rewrite D1 in Hk.
    specialize (D2 k Hk). cbv zeta in D2. destruct D2 as (_ & _ & E & _). fold (item_type i k). rewrite E.
    apply H1. apply nth_In. assumption.
  - intros t Ht. apply (wb_items i W t Ht).
Qed.

(** An instance of two bin types (the second with a resource) and two item
    types; the sub-instance with the second bin type and the items in reverse
    order. *)
Definition ex_sub_calls : list BCall :=
  [SetObjective OKnapsack; AddBinType 10; AddBinType 7; AddBinResource 1 8 false 0;
   AddItemType 3; SetItemCopies 0 2; AddItemType 4; AddConsumption 1 0 0 0 5; AddConsumption 1 0 0 1 6; AddConsumption 1 0 1 0 2].
Definition ex_sub : Instance :=
  match brun ex_sub_calls with
  | Some b => match b_build b with Built i => i | _ => ex_instance OKnapsack false end
  | None => ex_instance OKnapsack false
  end.
Example C47_example : copyable ex_sub /\
  match calls_from b_new (SetObjective OKnapsack :: map (CopyBinType ex_sub) [1%nat] ++ map (CopyItemType ex_sub) [1; 0]%nat) with
  | BOk b => map bt_length (b_bins b) = [7] /\ map it_length (b_items b) = [4; 3] /\
      map (fun t => map res_item_consumptions (bt_resources t)) (b_bins b) = [[[[2%Q]; [5%Q; 6%Q]]]]
  | _ => False
  end.
Proof.
  split.
  - refine (proj1 (built_copyable ex_sub_calls _ ex_sub eq_refl eq_refl _ _)).
    + intros t Ht. simpl in Ht. destruct Ht as [<-|[<-|[]]]; simpl; lia.
    + intros t Ht. simpl in Ht. destruct Ht as [<-|[<-|[]]]; simpl; lia.
  - vm_compute. auto.
Qed.

(** Finding: in the other order, items first, as in
    algorithms/dichotomic_search.hpp:190-237, every consumption is lost. *)
Lemma items_first : forall i o items, copyable i -> (forall x, In x items -> (x < length (in_item_types i))%nat) ->
  exists l, calls_from (mkB o [] [] []) (map (CopyItemType i) items) = BOk (mkB o l [] []).
Proof.
  intros i o items Hc. induction items as [|x items IH] using rev_ind; intro Hi; [exists []; reflexivity|].
  destruct IH as [l E]; [intros y Hy; apply Hi; apply in_or_app; left; assumption|].
  rewrite map_app, calls_app, E. cbn [bthen]. unfold calls_from. cbn [map fold_left bthen bstep].
  assert (Hx : (x < length (in_item_types i))%nat) by (apply Hi; apply in_elt).
  assert (Hcc : 1 <= it_copies (item_type i x)) by (apply (cp_items i Hc); apply nth_In; assumption).
  unfold b_copy_item.
  assert (Eo : nth_error (in_item_types i) x = Some (item_type i x)) by (apply nth_error_nth'; assumption).
  rewrite Eo. cbn [b_items]. unfold b_add_item. cbn [bthen].
  unfold set_items. cbn [b_items b_objective b_bins b_orig_bins].
  unfold b_set_item_profit. rewrite on_last_item. cbn [bthen].
  unfold b_set_item_copies. cbn [b_items]. rewrite last_ok.
  replace (negb (it_copies (item_type i x) =? -1) && (it_copies (item_type i x) <=? 0)) with false
    by (symmetry; apply andb_false_iff; right; apply Z.leb_gt; lia).
  eexists. rewrite on_last_item. cbn [bthen].
  unfold b_set_item_weight. rewrite on_last_item. cbn [bthen].
  cbn [it_length it_profit it_copies it_copies_min it_weight it_nesting it_stackability it_max_weight_after it_eligibility it_resource_ids].
  unfold b_set_item_nesting. rewrite on_last_item. cbn [bthen].
  cbn [it_length it_profit it_copies it_copies_min it_weight it_nesting it_stackability it_max_weight_after it_eligibility it_resource_ids].
  unfold b_set_item_stackability. rewrite on_last_item. cbn [bthen].
  cbn [it_length it_profit it_copies it_copies_min it_weight it_nesting it_stackability it_max_weight_after it_eligibility it_resource_ids].
  unfold b_set_item_weight_after. rewrite on_last_item. cbn [bthen].
  cbn [it_length it_profit it_copies it_copies_min it_weight it_nesting it_stackability it_max_weight_after it_eligibility it_resource_ids].
  unfold b_set_item_eligibility. rewrite on_last_item. cbn [bthen].
  cbn [it_length it_profit it_copies it_copies_min it_weight it_nesting it_stackability it_max_weight_after it_eligibility it_resource_ids
    b_orig_bins seq length combine fold_left].
  reflexivity.
Qed.

Theorem C47_items_first_refuted : forall i o bins items, copyable i ->
  (forall t, In t bins -> (t < length (in_bin_types i))%nat) ->
  (forall x, In x items -> (x < length (in_item_types i))%nat) ->
  exists b, calls_from b_new (SetObjective o :: map (CopyItemType i) items ++ map (CopyBinType i) bins) = BOk b /\
    length (b_bins b) = length bins /\ length (b_items b) = length items /\
    forall t r x, In t (b_bins b) -> In r (bt_resources t) -> schedule r x = [].
Proof.
  intros i o bins items Hc Hb Hi.
  destruct (items_first i (Some o) items Hc Hi) as [l E].
  assert (Hlen : forall items l, (forall x, In x items -> (x < length (in_item_types i))%nat) ->
    calls_from (mkB (Some o) [] [] []) (map (CopyItemType i) items) = BOk (mkB (Some o) l [] []) -> length l = length items).
  { clear -Hc. intros items. induction items as [|x items IH] using rev_ind; intros l Hi E.
    - injection E as <-. reflexivity.
    - destruct (items_first i (Some o) items Hc) as [l1 E1]; [intros y Hy; apply Hi; apply in_or_app; left; assumption|].
      assert (L1 : length l1 = length items) by (apply IH; [intros y Hy; apply Hi; apply in_or_app; left; assumption|assumption]).
      destruct (copies_ok i (Some o) [] (items ++ [x]) Hc (NoDup_nil _)) as (b & E2 & C2); [intros t []|assumption|].
      simpl app in E2. change (map (CopyBinType i) []) with (@nil BCall) in E2. simpl app in E2.
      rewrite E in E2. injection E2 as <-. destruct (cd_items _ _ _ _ _ C2) as [L _]. exact L. }
  assert (H : exists g, calls_from (mkB (Some o) l [] []) (map (CopyBinType i) bins) =
    BOk (mkB (Some o) l (map (fun t => bare (bin_type i t)) bins) g)).
  { clear E. induction bins as [|t bins IH] using rev_ind; [exists []; reflexivity|].
    destruct IH as [g E]; [intros u Hu; apply Hb; apply in_or_app; left; assumption|].
    rewrite !map_app, calls_app, E. cbn [bthen]. unfold calls_from. cbn [map fold_left bthen bstep].
    rewrite (copy_bin_eq i (Some o) l _ g t (bin_type i t) Hc); [eauto|].
    apply nth_error_nth'. apply Hb. apply in_elt. }
  destruct H as [g E2]. exists (mkB (Some o) l (map (fun t => bare (bin_type i t)) bins) g).
  split.
  - change (calls_from (mkB (Some o) [] [] []) (map (CopyItemType i) items ++ map (CopyBinType i) bins) =
      BOk (mkB (Some o) l (map (fun t => bare (bin_type i t)) bins) g)).
    rewrite calls_app, E. exact E2.
  - simpl. rewrite map_length. split; [reflexivity|]. split; [apply (Hlen items l Hi E)|].
    intros t r x Ht Hr. apply in_map_iff in Ht. destruct Ht as (u & <- & _).
    unfold bare in Hr. simpl in Hr. apply in_map_iff in Hr. destruct Hr as (r0 & <- & _).
    unfold schedule. simpl. destruct x; reflexivity.
Qed.
Print Assumptions C47_items_first_refuted.

(** With the consequence that a packing the sub-problem reports as feasible is
    not feasible in the original instance. *)
Example C47_items_first_example :
  match calls_from b_new (SetObjective OKnapsack :: map (CopyItemType ex_sub) [0; 1]%nat ++ map (CopyBinType ex_sub) [0; 1]%nat) with
  | BOk b =>
      match b_build b with
      | Built i' =>
          let calls := [AddBin 1 1; AddItem 0 0; AddItem 0 0] in
          match history i' accept calls [], history ex_sub accept calls [] with
          | Some s', Some s => s_feasible s' = true /\ s_feasible s = false
          | _, _ => False
          end
      | _ => False
      end
  | _ => False
  end.
Proof. vm_compute. auto. Qed.

(** The start of the pricing sub-instance of column generation and of the
    knapsack sub-instances of sequential value correction:
    algorithms/column_generation.hpp:378-383, sequential_value_correction.hpp:243-248. *)
Definition pricing_bin (i : Instance) (t : nat) : list BCall :=
  [SetObjective OKnapsack; CopyBinType i t; SetBinCopies 0 1; SetBinCopiesMin 0 0].

(** Finding: it throws for every bin type with a minimum of two copies or
    more, because the number of copies is set before the minimum. *)
Theorem C47_pricing_bin : forall i t, copyable i -> (t < length (in_bin_types i))%nat ->
  (bt_copies_min (bin_type i t) <= 1 -> exists b, calls_from b_new (pricing_bin i t) = BOk b) /\
  (2 <= bt_copies_min (bin_type i t) -> exists b, calls_from b_new (pricing_bin i t) = BThrow b).
Proof.
  intros i t Hc Ht. unfold calls_from, pricing_bin. cbn [fold_left bthen bstep]. unfold b_new. cbn [b_items b_bins b_orig_bins].
  rewrite (copy_bin_eq i (Some OKnapsack) [] [] [] t (bin_type i t) Hc) by (apply nth_error_nth'; assumption).
  cbn [bthen app length].
  unfold b_set_bin_copies. cbn [b_bins].
  change (bad_id 0 [bare (bin_type i t)]) with false. change (nth (Z.to_nat 0) [bare (bin_type i t)] dummy_bin) with (bare (bin_type i t)).
  change (negb (1 =? -1)) with true. change (1 <=? 0) with false. cbn [andb orb].
  change (bt_copies_min (bare (bin_type i t))) with (bt_copies_min (bin_type i t)). split; intro H.
  - replace (1 <? bt_copies_min (bin_type i t)) with false by (symmetry; apply Z.ltb_ge; assumption).
    eexists. reflexivity.
  - replace (1 <? bt_copies_min (bin_type i t)) with true by (symmetry; apply Z.ltb_lt; lia).
    eexists. reflexivity.
Qed.
Print Assumptions C47_pricing_bin.

(** The feasibility sub-instances of column generation reset the minimum first
    and are not affected: column_generation.hpp:1055-1085. *)
Theorem C47_feasibility_bin : forall i t n, copyable i -> (t < length (in_bin_types i))%nat -> 1 <= n ->
  exists b, calls_from b_new [SetObjective OFeasibility; CopyBinType i t; SetBinCopiesMin 0 0; SetBinCopies 0 n] = BOk b /\
    map bt_copies (b_bins b) = [n].
Proof.
  intros i t n Hc Ht Hn. unfold calls_from. cbn [fold_left bthen bstep]. unfold b_new. cbn [b_items b_bins b_orig_bins].
  rewrite (copy_bin_eq i (Some OFeasibility) [] [] [] t (bin_type i t) Hc) by (apply nth_error_nth'; assumption).
  cbn [bthen app length].
  unfold b_set_bin_copies_min. cbn [b_bins].
  change (bad_id 0 [bare (bin_type i t)]) with false. change (nth (Z.to_nat 0) [bare (bin_type i t)] dummy_bin) with (bare (bin_type i t)).
  change (0 <? 0) with false. cbn [bt_copies bare].
  destruct (cp_bins i Hc (bin_type i t) (nth_In _ _ Ht)) as (_ & _ & _ & P).
  replace (negb (bt_copies (bin_type i t) =? -1) && (bt_copies (bin_type i t) <? 0)) with false
    by (symmetry; apply andb_false_iff; right; apply Z.ltb_ge; lia).
  unfold on_bin at 1. cbn [b_bins]. change (bad_id 0 [bare (bin_type i t)]) with false. unfold set_bins. cbn [upd Z.to_nat bthen b_bins b_items b_objective b_orig_bins].
  unfold b_set_bin_copies. cbn [b_bins]. match goal with |- context [bad_id 0 [?t']] => change (bad_id 0 [t']) with false end.
  cbn [nth Z.to_nat bt_copies_min].
  replace (negb (n =? -1) && ((n <=? 0) || (n <? 0))) with false.
  2: { symmetry. apply andb_false_iff. right. apply orb_false_iff. rewrite Z.leb_gt, Z.ltb_ge. lia. }
  eexists. split; [reflexivity|]. reflexivity.
Qed.
Print Assumptions C47_feasibility_bin.

(** Unlimited copies of item types: as many as needed to fill the longest bin. *)
Theorem C13_infinite_copies : forall b b', bstep b SetItemsInfinite = BOk b' ->
  length (b_items b') = length (b_items b) /\
  forall x, (x < length (b_items b))%nat -> let t := nth x (b_items b) dummy_item in let n := it_copies (nth x (b_items b') dummy_item) in
    0 < it_length t ->
    (forall bt, In bt (b_bins b) -> bt_length bt <= n * (it_length t)) /\
    ((exists bt, In bt (b_bins b) /\ 0 < bt_length bt) -> exists bt, In bt (b_bins b) /\ (n - 1) * (it_length t) < bt_length bt).
Proof.
  intros b b' H. cbn in H. unfold b_items_infinite in H. destruct (existsb _ _); [discriminate|]. injection H as <-. split; [cbn; apply map_length|].
  intros x Hx t n Ht. assert (En : n = infinite_copies (length_max (b_bins b)) t).
  { unfold n. cbn [b_items set_items]. rewrite (nth_indep _ dummy_item ((fun t => mkIT (it_length t) (it_profit t) (infinite_copies (length_max (b_bins b)) t) (it_copies_min t) (it_weight t) (it_nesting t) (it_stackability t) (it_max_weight_after t) (it_eligibility t) (it_resource_ids t)) dummy_item)) by (rewrite map_length; exact Hx).
    rewrite (map_nth (fun t => mkIT (it_length t) (it_profit t) (infinite_copies (length_max (b_bins b)) t) (it_copies_min t) (it_weight t) (it_nesting t) (it_stackability t) (it_max_weight_after t) (it_eligibility t) (it_resource_ids t))). reflexivity. }
  assert (M : forall l m, m <= fold_left (fun m t => Z.max m (bt_length t)) l m /\ (forall u, In u l -> bt_length u <= fold_left (fun m t => Z.max m (bt_length t)) l m)
    /\ (fold_left (fun m t => Z.max m (bt_length t)) l m = m \/ exists u, In u l /\ bt_length u = fold_left (fun m t => Z.max m (bt_length t)) l m)).
  { induction l as [|v l IH]; intro m; cbn [fold_left]; [split; [lia|]; split; [intros u []|auto]|]. destruct (IH (Z.max m (bt_length v))) as (A1 & A2 & A3).
    split; [lia|]. split; [intros u [<-|Hu]; [lia|apply A2, Hu]|]. destruct A3 as [A3|(u & Hu & A3)]; [|right; exists u; split; [right; exact Hu|exact A3]].
    destruct (Z.max_spec m (bt_length v)) as [[B1 B2]|[B1 B2]]; [right; exists v; split; [left; reflexivity|congruence]|left; congruence]. }
  destruct (M (b_bins b) 0) as (A1 & A2 & A3). fold (length_max (b_bins b)) in *. unfold infinite_copies in En. 
  set (a := it_length t) in *. set (m := length_max (b_bins b)) in *.
  destruct (Z.eq_dec m 0) as [E|E].
  - split; [intros bt Hbt; specialize (A2 bt Hbt)|intros (bt & Hbt & P); specialize (A2 bt Hbt); lia].
    assert (0 <= n); [|nia]. subst n. rewrite E in *. rewrite En. change (0 - 1) with (- (1)). destruct (Z.eq_dec a 1) as [->|]; [cbn; lia|]. rewrite (Z.quot_opp_l 1 a) by lia. rewrite Z.quot_small by lia. lia.
  - assert (0 < m) by lia. rewrite Z.quot_div_nonneg in En by lia. pose proof (Z.div_mod (m - 1) a ltac:(lia)). pose proof (Z.mod_pos_bound (m - 1) a Ht).
    split; [intros bt Hbt; specialize (A2 bt Hbt); nia|]. intros _. destruct A3 as [A3|(bt & Hbt & A3)]; [contradiction|]. exists bt. split; [exact Hbt|].  nia.
Qed.
Print Assumptions C13_infinite_copies.

Example C13_infinite_copies_nonvacuous : exists b b', calls_from b_new [SetObjective OKnapsack; AddBinType 10; AddBinType 31; AddItemType 7] = BOk b /\
  bstep b SetItemsInfinite = BOk b' /\ map it_copies (b_items b') = [5].
Proof. eexists. eexists. split; [vm_compute; reflexivity|]. split; vm_compute; reflexivity. Qed.
