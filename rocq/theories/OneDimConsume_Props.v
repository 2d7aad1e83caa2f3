(** * C13, continued: resources, consumptions and calls on all the types *)

From Coq Require Import List ZArith QArith Bool Lia Arith.
From Verif Require Import Util Common_Model OneDim_Model OneDim_Spec OneDimBuilder_Model OneDimBuilder_Spec OneDimBuilder_Proof
  OneDimSub_Proof.
Import ListNotations.
Open Scope Z_scope.

(** A consumption is stored for the copy of the item type, in the resource of the
    bin type it names; every other consumption and every other field stay the
    same. *)
Theorem C13_consumptions : forall b k r x c q b',
  bstep b (AddConsumption (Z.of_nat k) (Z.of_nat r) (Z.of_nat x) (Z.of_nat c) q) = BOk b' ->
  let used bb k r x c := nth c (schedule (nth r (bt_resources (nth k (b_bins bb) dummy_bin)) dummy_resource) x) 0%Q in
  let rest t := mkBT (bt_length t) (bt_cost t) (bt_copies t) (bt_copies_min t) (bt_max_weight t) (bt_eligibility_ids t)
    (map (fun res => mkResource (res_capacity res) [] (res_penalize res) (res_penalty res)) (bt_resources t)) (bt_item_type_ids t) in
  used b' k r x c = q /\
  (forall k' r' x' c', (k', r', x', c') <> (k, r, x, c) -> used b' k' r' x' c' = used b k' r' x' c') /\
  map rest (b_bins b') = map rest (b_bins b) /\
  b_items b' = b_items b /\ b_objective b' = b_objective b.
Proof.
  intros b k r x c q b' H used rest. cbn [bstep] in H. unfold b_add_consumption in H. rewrite !Nat2Z.id in H.
  destruct (bad_id (Z.of_nat k) (b_bins b)) eqn:E1; [discriminate|].
  destruct (bad_id (Z.of_nat r) _) eqn:E2; [discriminate|]. destruct (Z.of_nat c <? 0); [discriminate|].
  destruct (Z.of_nat x <? 0); [discriminate|]. unfold on_bin in H. rewrite E1, Nat2Z.id in H. injection H as <-.
  apply bad_id_false in E1, E2. unfold in_range in E1, E2.
  assert (Hk : (k < length (b_bins b))%nat) by lia. assert (Hr : (r < length (bt_resources (nth k (b_bins b) dummy_bin)))%nat) by lia.
  unfold used, set_bins. cbn [b_bins b_items b_objective].
  split; [|split; [|split]].
  - rewrite nth_upd_same by assumption. cbn [bt_resources with_resources]. rewrite nth_upd_same by assumption.
    rewrite put_schedule, Nat.eqb_refl, nth_upd_same; [reflexivity|]. rewrite grow_length. lia.
  - intros k' r' x' c' Hne. rewrite nth_upd by assumption.
    destruct (Nat.eqb k k') eqn:Ek; [apply Nat.eqb_eq in Ek; subst k'|reflexivity]. cbn [bt_resources with_resources].
    rewrite nth_upd by assumption. destruct (Nat.eqb r r') eqn:Er; [apply Nat.eqb_eq in Er; subst r'|reflexivity].
    rewrite put_schedule. destruct (Nat.eqb x x') eqn:Ex; [apply Nat.eqb_eq in Ex; subst x'|reflexivity].
    rewrite nth_upd_other by congruence. apply grow_nth.
  - apply map_upd_same. intro t. unfold rest, with_resources. cbn. f_equal. apply map_upd_same. reflexivity.
  - split; reflexivity.
Qed.
Print Assumptions C13_consumptions.

(** A resource is added after the other resources of the bin type it names. *)
Theorem C13_resources : forall b k c p y b', bstep b (AddBinResource (Z.of_nat k) c p y) = BOk b' ->
  let old := nth k (b_bins b) dummy_bin in
  (k < length (b_bins b))%nat /\ length (b_bins b') = length (b_bins b) /\
  nth k (b_bins b') dummy_bin = mkBT (bt_length old) (bt_cost old) (bt_copies old) (bt_copies_min old) (bt_max_weight old) (bt_eligibility_ids old)
    (bt_resources old ++ [mkResource c [] p y]) (bt_item_type_ids old) /\
  (forall j, j <> k -> nth j (b_bins b') dummy_bin = nth j (b_bins b) dummy_bin) /\
  b_items b' = b_items b /\ b_objective b' = b_objective b.
Proof.
  intros b k c p y b' H old. cbn [bstep] in H. unfold b_add_resource, on_bin in H.
  destruct (bad_id (Z.of_nat k) (b_bins b)) eqn:E1; [discriminate|]. rewrite Nat2Z.id in H. injection H as <-.
  apply bad_id_false in E1. unfold in_range in E1. cbn [b_bins set_bins b_items b_objective].
  split; [lia|]. split; [apply upd_length|]. split; [rewrite nth_upd_same by lia; reflexivity|].
  split; [intros j Hj; apply nth_upd_other; congruence|]. split; reflexivity.
Qed.
Print Assumptions C13_resources.

(** The calls on all the types at once change one field of each type. *)
Theorem C13_all_types : forall b,
  (exists b', bstep b SetBinsInfinite = BOk b' /\ b_items b' = b_items b /\ b_objective b' = b_objective b /\
     map bt_copies (b_bins b') = map (fun _ => -1) (b_bins b) /\
     map (fun t => (bt_length t, bt_cost t, bt_copies_min t, bt_max_weight t, bt_eligibility_ids t, bt_resources t)) (b_bins b') =
     map (fun t => (bt_length t, bt_cost t, bt_copies_min t, bt_max_weight t, bt_eligibility_ids t, bt_resources t)) (b_bins b)) /\
  (exists b', bstep b SetBinsUnweighted = BOk b' /\ b_items b' = b_items b /\ b_objective b' = b_objective b /\
     map bt_cost (b_bins b') = map (fun t => inject_Z (bt_length t)) (b_bins b) /\
     map (fun t => (bt_length t, bt_copies t, bt_copies_min t, bt_max_weight t, bt_eligibility_ids t, bt_resources t)) (b_bins b') =
     map (fun t => (bt_length t, bt_copies t, bt_copies_min t, bt_max_weight t, bt_eligibility_ids t, bt_resources t)) (b_bins b)) /\
  (exists b', bstep b SetItemsUnweighted = BOk b' /\ b_bins b' = b_bins b /\ b_objective b' = b_objective b /\
     map it_profit (b_items b') = map (fun t => inject_Z (it_length t)) (b_items b) /\
     map (fun t => (it_length t, it_copies t, it_copies_min t, it_weight t, it_nesting t, it_stackability t, it_max_weight_after t, it_eligibility t)) (b_items b') =
     map (fun t => (it_length t, it_copies t, it_copies_min t, it_weight t, it_nesting t, it_stackability t, it_max_weight_after t, it_eligibility t)) (b_items b)).
Proof.
  intro b. split; [|split]; (eexists; split; [reflexivity|]; split; [reflexivity|]; split; [reflexivity|]);
    cbn [b_bins b_items set_bins set_items]; split; rewrite map_map; apply map_ext; reflexivity.
Qed.
Print Assumptions C13_all_types.

(** A second consumption in a second resource. *)
Example C13_consumptions_nonvacuous : exists b b',
  bstep (mkB None [] [mkBT 10 10 1 0 None [] [mkResource 4 [] false 0; mkResource 5 [[1%Q]] true 2] []] []) (AddConsumption 0 1 1 2 3) = BOk b' /\
  b_bins b' = [mkBT 10 10 1 0 None [] [mkResource 4 [] false 0; mkResource 5 [[1%Q]; [0%Q; 0%Q; 3%Q]] true 2] []] /\ b = b'.
Proof. eexists. eexists. split; [vm_compute; reflexivity|]. split; reflexivity. Qed.
