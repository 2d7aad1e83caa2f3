(** * C48, continued: resources, consumptions and calls on all the types *)

From Coq Require Import List ZArith QArith Bool Lia Arith.
From Verif Require Import Util Common_Model OneDim_Model OneDim_Spec OneDimBuilder_Model OneDimBuilder_Spec OneDimBuilder_Proof
  OneDimSub_Proof Rect_Model RectBuilder_Model RectBuilder_Spec RectBuilder_Proof.
Import ListNotations.
Open Scope Z_scope.

(** Schedule of item type [x] for resource [r] of bin type [k]. *)
Definition hsched (b : RBuilder) (k r x : nat) : list Q :=
  schedule (nth r (rb_resources (nth k (u_bins b) dummy_rbin)) dummy_resource) x.

Lemma hadd_consumption_sched : forall b k r x c q b',
  u_add_consumption b (Z.of_nat k) (Z.of_nat r) (Z.of_nat x) (Z.of_nat c) q = UOk b' ->
  (k < length (u_bins b))%nat /\ (r < length (rb_resources (nth k (u_bins b) dummy_rbin)))%nat /\
  b' = uset_bins b (upd k (fun t => rb_with_resources (upd r (put_consumption x c q) (rb_resources t)) t) (u_bins b)).
Proof.
  intros b k r x c q b' H. unfold u_add_consumption in H. rewrite !Nat2Z.id in H.
  destruct (bad_id (Z.of_nat k) (u_bins b)) eqn:E1; [discriminate|].
  destruct (bad_id (Z.of_nat r) _) eqn:E2; [discriminate|]. destruct (Z.of_nat c <? 0); [discriminate|].
  destruct (Z.of_nat x <? 0); [discriminate|]. unfold uon_bin in H. rewrite E1, Nat2Z.id in H. injection H as <-.
  apply bad_id_false in E1, E2. unfold in_range in E1, E2. split; [lia|]. split; [lia|reflexivity].
Qed.

Lemma hadd_consumption_all : forall b k r x c q b',
  u_add_consumption b (Z.of_nat k) (Z.of_nat r) (Z.of_nat x) (Z.of_nat c) q = UOk b' ->
  forall k' r' x', hsched b' k' r' x' =
    if Nat.eqb k k' && Nat.eqb r r' && Nat.eqb x x' then upd c (fun _ => q) (grow (S c) 0%Q (hsched b k r x)) else hsched b k' r' x'.
Proof.
  intros b k r x c q b' H k' r' x'. apply hadd_consumption_sched in H. destruct H as (Hk & Hr & ->).
  unfold hsched, uset_bins. cbn [u_bins]. rewrite nth_upd by assumption.
  destruct (Nat.eqb k k') eqn:Ek; cbn [andb]; [apply Nat.eqb_eq in Ek; subst k'|reflexivity].
  cbn [rb_resources rb_with_resources]. rewrite nth_upd by assumption.
  destruct (Nat.eqb r r') eqn:Er; cbn [andb]; [apply Nat.eqb_eq in Er; subst r'|reflexivity].
  rewrite put_schedule. destruct (Nat.eqb x x'); reflexivity.
Qed.

(** A consumption is stored for the copy of the item type, in the resource of the
    bin type it names; every other consumption and every other field stay the
    same. *)
Theorem C48_consumptions : forall b k r x c q b',
  ustep b (UAddConsumption (Z.of_nat k) (Z.of_nat r) (Z.of_nat x) (Z.of_nat c) q) = UOk b' ->
  let used bb k r x c := nth c (schedule (nth r (rb_resources (nth k (u_bins bb) dummy_rbin)) dummy_resource) x) 0%Q in
  let rest t := mkRB (rb_x t) (rb_y t) (rb_cost t) (rb_copies t) (rb_copies_min t) (rb_max_weight t) (rb_truck t) (rb_eligibility_ids t) (rb_defects t)
    (map (fun res => mkResource (res_capacity res) [] (res_penalize res) (res_penalty res)) (rb_resources t)) in
  used b' k r x c = q /\
  (forall k' r' x' c', (k', r', x', c') <> (k, r, x, c) -> used b' k' r' x' c' = used b k' r' x' c') /\
  map rest (u_bins b') = map rest (u_bins b) /\
  u_items b' = u_items b /\ u_objective b' = u_objective b /\ u_params b' = u_params b.
Proof.
  intros b k r x c q b' H used rest. cbn [ustep] in H. pose proof (hadd_consumption_all _ _ _ _ _ _ _ H) as A.
  apply hadd_consumption_sched in H. destruct H as (Hk & Hr & E).
  split; [|split; [|split]].
  - unfold used. fold (hsched b' k r x). rewrite A, !Nat.eqb_refl. cbn [andb]. rewrite nth_upd_same; [reflexivity|]. rewrite grow_length. lia.
  - intros k' r' x' c' Hne. unfold used. fold (hsched b' k' r' x') (hsched b k' r' x'). rewrite A.
    destruct (Nat.eqb k k' && Nat.eqb r r' && Nat.eqb x x') eqn:E0; [|reflexivity].
    apply andb_prop in E0. destruct E0 as [E0 E3]. apply andb_prop in E0. destruct E0 as [E1 E2]. apply Nat.eqb_eq in E1, E2, E3. subst k' r' x'.
    rewrite nth_upd_other by congruence. apply grow_nth.
  - rewrite E. cbn [u_bins uset_bins]. apply map_upd_same. intro t. unfold rest, rb_with_resources. cbn. f_equal. apply map_upd_same. reflexivity.
  - rewrite E. repeat split; reflexivity.
Qed.
Print Assumptions C48_consumptions.

(** A resource is added after the other resources of the bin type it names. *)
Theorem C48_resources : forall b k c p y b', ustep b (UAddResource (Z.of_nat k) c p y) = UOk b' ->
  let old := nth k (u_bins b) dummy_rbin in
  (k < length (u_bins b))%nat /\ length (u_bins b') = length (u_bins b) /\
  nth k (u_bins b') dummy_rbin = mkRB (rb_x old) (rb_y old) (rb_cost old) (rb_copies old) (rb_copies_min old) (rb_max_weight old) (rb_truck old) (rb_eligibility_ids old) (rb_defects old)
    (rb_resources old ++ [mkResource c [] p y]) /\
  (forall j, j <> k -> nth j (u_bins b') dummy_rbin = nth j (u_bins b) dummy_rbin) /\
  u_items b' = u_items b /\ u_objective b' = u_objective b /\ u_params b' = u_params b.
Proof.
  intros b k c p y b' H old. cbn [ustep] in H. unfold u_add_resource, uon_bin in H.
  destruct (bad_id (Z.of_nat k) (u_bins b)) eqn:E1; [discriminate|]. rewrite Nat2Z.id in H. injection H as <-.
  apply bad_id_false in E1. unfold in_range in E1. cbn [u_bins uset_bins u_items u_objective u_params].
  split; [lia|]. split; [apply upd_length|]. split; [rewrite nth_upd_same by lia; reflexivity|].
  split; [intros j Hj; apply nth_upd_other; congruence|]. repeat split; reflexivity.
Qed.
Print Assumptions C48_resources.

(** The calls on all the types at once change one field of each type. *)
Theorem C48_all_types : forall b,
  ustep b UBinsInfinite = UOk (uset_bins b (map (fun t => mkRB (rb_x t) (rb_y t) (rb_cost t) (-1) (rb_copies_min t) (rb_max_weight t) (rb_truck t) (rb_eligibility_ids t) (rb_defects t) (rb_resources t)) (u_bins b))) /\
  ustep b UBinsUnweighted = UOk (uset_bins b (map (fun t => mkRB (rb_x t) (rb_y t) (inject_Z (rb_x t * rb_y t)) (rb_copies t) (rb_copies_min t) (rb_max_weight t) (rb_truck t) (rb_eligibility_ids t) (rb_defects t) (rb_resources t)) (u_bins b))) /\
  ustep b UItemsUnweighted = UOk (uset_items b (map (fun t => mkRI (ri_x t) (ri_y t) (inject_Z (ri_x t * ri_y t)) (ri_copies t) (ri_copies_min t) (ri_group t) (ri_oriented t) (ri_weight t) (ri_eligibility t) (ri_resource_ids t)) (u_items b))) /\
  ustep b UItemsOriented = UOk (uset_items b (map (fun t => mkRI (ri_x t) (ri_y t) (ri_profit t) (ri_copies t) (ri_copies_min t) (ri_group t) true (ri_weight t) (ri_eligibility t) (ri_resource_ids t)) (u_items b))) /\
  (forall n, ustep b (UMultiply n) = UOk (uset_items b (map (fun t => mkRI (ri_x t) (ri_y t) (ri_profit t) (ri_copies t * n) (ri_copies_min t) (ri_group t) (ri_oriented t) (ri_weight t) (ri_eligibility t) (ri_resource_ids t)) (u_items b)))).
Proof. intro b. split; [reflexivity|]. split; [reflexivity|]. split; [reflexivity|]. split; reflexivity. Qed.
Print Assumptions C48_all_types.

(** The parameters: the objective, the unloading constraint, the leftover mode and
    the weight constraint of each group; groups without a value keep the default
    one, which is to check the weight. *)
Theorem C48_parameters : forall b, let p := u_params b in
  (forall o, ustep b (USetObjective o) = UOk (mkU o p (u_items b) (u_bins b) (u_orig b))) /\
  (forall q, ustep b (USetParams q) = UOk (uset_params b q)) /\
  (forall v, ustep b (USetUnloading v) = UOk (uset_params b (mkRP v (rp_leftover p) (rp_check_weight p)))) /\
  (forall v, ustep b (USetLeftover v) = UOk (uset_params b (mkRP (rp_unloading p) v (rp_check_weight p)))) /\
  (forall g v b', ustep b (USetGroupWeight g v) = UOk b' ->
    u_objective b' = u_objective b /\ u_items b' = u_items b /\ u_bins b' = u_bins b /\
    rp_unloading (u_params b') = rp_unloading p /\ rp_leftover (u_params b') = rp_leftover p /\
    forall k, nth k (rp_check_weight (u_params b')) true = if Z.of_nat k =? g then v else nth k (rp_check_weight p) true).
Proof.
  intros b p. split; [reflexivity|]. split; [reflexivity|]. split; [reflexivity|]. split; [reflexivity|].
  intros g v b' H. cbn [ustep] in H. unfold u_group_weight in H. destruct (g <? 0) eqn:E; [discriminate|]. apply Z.ltb_ge in E.
  injection H as <-. cbn. do 5 (split; [reflexivity|]).
  intro k. destruct (Z.of_nat k =? g) eqn:Ek.
  - apply Z.eqb_eq in Ek. rewrite <- Ek, Nat2Z.id. rewrite nth_upd_same; [reflexivity|]. rewrite grow_length. lia.
  - apply Z.eqb_neq in Ek. rewrite nth_upd_other by lia. apply grow_nth.
Qed.
Print Assumptions C48_parameters.

(** ** Consumptions of copied item types *)

Lemma hstuck : forall (A : Type) (f : RBuilder -> A -> URes) (l : list A) r b', fold_left (fun r a => uthen r (fun b => f b a)) l r = UOk b' -> exists b, r = UOk b.
Proof.
  intros A f l. induction l as [|a l IH]; intros r b' H; cbn [fold_left] in H; [exists b'; exact H|].
  apply IH in H. destruct H as [b H]. destruct r as [b0|b0|]; cbn in H; [exists b0; reflexivity|discriminate|discriminate].
Qed.

Lemma hcopy_schedule_all : forall s b k r x b', u_copy_schedule b (Z.of_nat k) (Z.of_nat r) (Z.of_nat x) s = UOk b' -> hsched b k r x = [] ->
  forall k' r' x', hsched b' k' r' x' = if Nat.eqb k k' && Nat.eqb r r' && Nat.eqb x x' then s else hsched b k' r' x'.
Proof.
  intros s b k r x. unfold u_copy_schedule. induction s as [|q s IH] using rev_ind; intros b' H Hs k' r' x'.
  - cbn in H. injection H as <-. destruct (Nat.eqb k k' && Nat.eqb r r' && Nat.eqb x x') eqn:E; [|reflexivity].
    apply andb_prop in E. destruct E as [E E3]. apply andb_prop in E. destruct E as [E1 E2].
    apply Nat.eqb_eq in E1, E2, E3. subst. assumption.
  - rewrite combine_nats_snoc, fold_snoc in H.
    match type of H with uthen ?r _ = _ => destruct r as [b1|b1|] eqn:E1; [|discriminate|discriminate] end. cbn [uthen fst snd] in H.
    specialize (IH b1 eq_refl Hs). rewrite (hadd_consumption_all _ _ _ _ _ _ _ H), !IH, !Nat.eqb_refl. cbn [andb].
    destruct (Nat.eqb k k' && Nat.eqb r r' && Nat.eqb x x'); [|reflexivity]. apply grow_put. reflexivity.
Qed.

Lemma hcopy_resources_all : forall rs b k x ox b', u_copy_resources b (Z.of_nat k) (Z.of_nat x) ox rs = UOk b' -> (forall r, hsched b k r x = []) ->
  forall k' r' x', hsched b' k' r' x' = if Nat.eqb k k' && Nat.eqb x x' then schedule (nth r' rs dummy_resource) ox else hsched b k' r' x'.
Proof.
  intros rs b k x ox. unfold u_copy_resources. induction rs as [|a rs IH] using rev_ind; intros b' H Hs k' r' x'.
  - cbn in H. injection H as <-. destruct (Nat.eqb k k' && Nat.eqb x x') eqn:E; [|reflexivity].
    apply andb_prop in E. destruct E as [E1 E2]. apply Nat.eqb_eq in E1, E2. subst. rewrite Hs. unfold schedule. destruct r', ox; reflexivity.
  - rewrite combine_nats_snoc, fold_snoc in H.
    match type of H with uthen ?r _ = _ => destruct r as [b1|b1|] eqn:E1; [|discriminate|discriminate] end. cbn [uthen fst snd] in H.
    specialize (IH b1 eq_refl Hs).
    assert (N : hsched b1 k (length rs) x = []).
    { rewrite IH, !Nat.eqb_refl. cbn [andb]. rewrite nth_overflow by lia. unfold schedule. destruct ox; reflexivity. }
    assert (L : forall r, nth r (rs ++ [a]) dummy_resource = if Nat.eqb (length rs) r then a else nth r rs dummy_resource).
    { intro r. destruct (Nat.eqb (length rs) r) eqn:E; [apply Nat.eqb_eq in E; subst r; rewrite app_nth2, Nat.sub_diag by lia; reflexivity|].
      apply Nat.eqb_neq in E. destruct (Nat.lt_ge_cases r (length rs)); [apply app_nth1; lia|]. rewrite !nth_overflow; [reflexivity|lia|rewrite app_length; cbn; lia]. }
    rewrite L. destruct (ox <? length (res_item_consumptions a))%nat eqn:Eo.
    + rewrite (hcopy_schedule_all _ _ _ _ _ _ H N), IH. destruct (Nat.eqb k k'); cbn [andb]; [|reflexivity].
      destruct (Nat.eqb (length rs) r'); cbn [andb]; [|reflexivity]. destruct (Nat.eqb x x'); reflexivity.
    + injection H as <-. rewrite IH. destruct (Nat.eqb k k' && Nat.eqb x x'); [|reflexivity].
      destruct (Nat.eqb (length rs) r') eqn:E; [|reflexivity]. apply Nat.eqb_eq in E. subst r'. rewrite nth_overflow by lia.
      apply Nat.ltb_ge in Eo. unfold schedule. rewrite (nth_overflow _ _ Eo). destruct ox; reflexivity.
Qed.

Definition hcopy_consumptions (i : RInstance) (x ox : nat) (l : list (nat * option nat)) (r : URes) : URes :=
  fold_left (fun r ko => uthen r (fun b =>
      match snd ko with
      | None => UOk b
      | Some sub =>
          match nth_error (rin_bins i) (fst ko) with
          | None => UUndef
          | Some obt => u_copy_resources b (Z.of_nat sub) (Z.of_nat x) ox (rb_resources obt)
          end
      end)) l r.

Lemma hcopy_consumptions_all : forall i x ox l b b', hcopy_consumptions i x ox l (UOk b) = UOk b' ->
  (forall k sub r, In (k, Some sub) l -> hsched b sub r x = []) ->
  NoDup (map fst l) -> (forall k1 k2 sub, In (k1, Some sub) l -> In (k2, Some sub) l -> k1 = k2) ->
  (forall k sub, In (k, Some sub) l -> exists t, nth_error (rin_bins i) k = Some t /\
     forall r, hsched b' sub r x = schedule (nth r (rb_resources t) dummy_resource) ox) /\
  (forall k' r' x', (x' <> x \/ forall k, ~ In (k, Some k') l) -> hsched b' k' r' x' = hsched b k' r' x').
Proof.
  intros i x ox l. induction l as [|[k0 o] l IH]; intros b b' H Hs Hn Hd.
  { cbn in H. injection H as <-. split; [intros k sub []|reflexivity]. }
  unfold hcopy_consumptions in H. cbn [fold_left uthen fst snd] in H. cbn [map fst] in Hn. inversion Hn as [|a ll N1 N2]; subst a ll.
  destruct o as [sub0|].
  - destruct (hstuck _ _ _ _ _ H) as [b1 E1]. destruct (nth_error (rin_bins i) k0) as [t0|] eqn:Et; [|discriminate].
    rewrite E1 in H. pose proof (hcopy_resources_all _ _ _ _ _ _ E1 (fun r => Hs k0 sub0 r (or_introl eq_refl))) as A.
    assert (D : forall k sub, In (k, Some sub) l -> sub <> sub0).
    { intros k sub Hin ->. assert (k = k0) by (apply (Hd k k0 sub0); [right; exact Hin|left; reflexivity]). subst k.
      apply N1. apply (in_map fst) in Hin. exact Hin. }
    destruct (IH b1 b' H) as [B1 B2].
    + intros k sub r Hin. rewrite A. pose proof (D k sub Hin). destruct (Nat.eqb sub0 sub) eqn:E; [apply Nat.eqb_eq in E; congruence|]. cbn [andb].
      apply (Hs k sub r). right. exact Hin.
    + exact N2.
    + intros k1 k2 sub G1 G2. apply (Hd k1 k2 sub); right; assumption.
    + split.
      * intros k sub [E|Hin]; [injection E as <- <-|apply B1; exact Hin]. exists t0. split; [exact Et|]. intro r.
        rewrite B2 by (right; intros k Hin; apply (D k sub0 Hin); reflexivity). rewrite A, !Nat.eqb_refl. reflexivity.
      * intros k' r' x' Hx. rewrite B2.
        -- rewrite A. destruct (Nat.eqb sub0 k') eqn:E; [|reflexivity]. apply Nat.eqb_eq in E. subst k'.
           destruct (Nat.eqb x x') eqn:E2; [|reflexivity]. apply Nat.eqb_eq in E2. subst x'.
           destruct Hx as [Hx|Hx]; [congruence|]. exfalso. apply (Hx k0). left. reflexivity.
        -- destruct Hx as [Hx|Hx]; [left; exact Hx|right]. intros k Hin. apply (Hx k). right. exact Hin.
  - destruct (IH b b' H) as [B1 B2].
    + intros k sub r Hin. apply (Hs k sub r). right. exact Hin.
    + exact N2.
    + intros k1 k2 sub G1 G2. apply (Hd k1 k2 sub); right; assumption.
    + split.
      * intros k sub [E|Hin]; [discriminate|apply B1; exact Hin].
      * intros k' r' x' Hx. apply B2. destruct Hx as [Hx|Hx]; [left; exact Hx|right]. intros k Hin. apply (Hx k). right. exact Hin.
Qed.

Lemma in_combine_seq : forall (A : Type) (l : list A) s k a, In (k, a) (combine (seq s (length l)) l) <-> (s <= k)%nat /\ nth_error l (k - s) = Some a.
Proof.
  intros A l. induction l as [|c l IH]; intros s k a; cbn [length seq combine].
  - split; [intros []|]. intros [_ H]. destruct (k - s)%nat; discriminate.
  - cbn [In]. rewrite IH. split.
    + intros [E|[H1 H2]]; [injection E as -> ->; split; [lia|]; rewrite Nat.sub_diag; reflexivity|].
      split; [lia|]. replace (k - s)%nat with (S (k - S s)) by lia. exact H2.
    + intros [H1 H2]. destruct (Nat.eq_dec k s) as [->|N]; [rewrite Nat.sub_diag in H2; cbn in H2; left; congruence|].
      right. split; [lia|]. replace (k - s)%nat with (S (k - S s)) in H2 by lia. exact H2.
Qed.

(** A bin type copied once from each original: the copies are different. *)
Definition hmap_ok (b : RBuilder) : Prop :=
  (forall k1 k2 sub, nth_error (u_orig b) k1 = Some (Some sub) -> nth_error (u_orig b) k2 = Some (Some sub) -> k1 = k2) /\
  (forall k sub, nth_error (u_orig b) k = Some (Some sub) -> (sub < length (u_bins b))%nat).

Definition same_map (b : RBuilder) (r : URes) : Prop :=
  match r with UOk b' | UThrow b' => u_orig b' = u_orig b /\ (length (u_bins b) <= length (u_bins b'))%nat | UUndef => True end.
Lemma hmap_same : forall b b', u_orig b' = u_orig b /\ (length (u_bins b) <= length (u_bins b'))%nat -> hmap_ok b -> hmap_ok b'.
Proof.
  intros b b' [E L] [M1 M2]. unfold hmap_ok. rewrite E. split; [exact M1|]. intros k sub H. apply M2 in H. lia.
Qed.
Lemma hmap_then : forall b r f, same_map b r -> (forall c, same_map c (f c)) -> same_map b (uthen r f).
Proof.
  intros b [c|c|] f H Hf; cbn in *; auto. specialize (Hf c). destruct H as [H1 H2]. destruct (f c); cbn in *; try exact I; destruct Hf; (split; [congruence|lia]).
Qed.
Lemma hmap_fold : forall b (A : Type) (f : RBuilder -> A -> URes) (l : list A) r,
  same_map b r -> (forall c a, same_map c (f c a)) -> same_map b (fold_left (fun r a => uthen r (fun b => f b a)) l r).
Proof. intros b A f l. induction l as [|a l IH]; intros r Hr Hf; simpl; [assumption|]. apply IH; [|assumption]. apply hmap_then; auto. Qed.

Definition hno_copy (c : UCall) : bool := match c with UCopyBin _ _ | UCopyItem _ _ => false | _ => true end.

Lemma hmap_direct : forall b c, hno_copy c = true -> same_map b (ustep b c).
Proof.
  intros b c Hd.
  assert (R0 : u_orig b = u_orig b /\ (length (u_bins b) <= length (u_bins b))%nat) by auto.
  split_call c; try discriminate; cbn [ustep];
  unfold u_group_weight, u_set_bin_weight, u_set_bin_truck, u_add_eligibility, u_add_defect, u_set_item_group, u_set_item_weight, u_set_item_eligibility, u_add_bin, u_set_bin_cost, u_add_resource, u_add_consumption, u_set_bin_copies, u_set_bin_copies_min,
    u_bins_infinite_x, u_bins_infinite_y, u_bins_infinite, u_bins_unweighted, u_add_item, u_set_item_profit, u_set_item_copies, u_set_item_copies_min,
    u_items_unweighted, u_items_oriented, u_items_infinite, u_multiply, uon_bin, uon_item; cbv zeta; cbn [uthen];
  repeat match goal with
    | |- same_map _ (if ?c then _ else _) => destruct c
    end; try exact R0; try exact I;
  cbn [same_map u_orig u_bins uset_bins uset_items uset_params]; split; try reflexivity; rewrite ?upd_length, ?map_length, ?app_length; cbn; lia.
Qed.

Lemma hmap_copy_bin : forall b i id b', (ustep b (UCopyBin i id) = UOk b' \/ ustep b (UCopyBin i id) = UThrow b') -> hmap_ok b -> hmap_ok b'.
Proof.
  intros b i id b' H Hb. cbn [ustep] in H. unfold u_copy_bin in H. destruct (nth_error _ _) as [t|]; [|destruct H; discriminate].
  unfold u_add_bin in H. destruct (_ <=? 0) in H; [destruct H as [H|H]; [discriminate|injection H as <-; exact Hb]|].
  destruct (_ <=? 0) in H; [destruct H as [H|H]; [discriminate|injection H as <-; exact Hb]|]. cbv zeta in H. cbn [uthen] in H.
  match type of H with uthen (u_set_bin_cost ?b0 _ _) _ = _ \/ _ => set (b1 := b0) in H end.
  assert (K1 : hmap_ok b1).
  { destruct Hb as [M1 M2].
    assert (G : forall k sub, nth_error (u_orig b1) k = Some (Some sub) -> (k = id /\ sub = length (u_bins b)) \/ (k <> id /\ nth_error (u_orig b) k = Some (Some sub))).
    { intros k sub E. unfold b1 in E. cbn [u_orig uset_bins] in E. apply nth_error_some_nth with (d := None) in E. destruct E as [E1 E2].
      rewrite upd_length, grow_length in E1. rewrite nth_upd in E2 by (rewrite grow_length; lia). destruct (Nat.eqb id k) eqn:Ek.
      - apply Nat.eqb_eq in Ek. injection E2 as <-. left. auto.
      - apply Nat.eqb_neq in Ek. rewrite grow_nth in E2. right. split; [congruence|]. apply nth_error_some_nth with (d := None). split; [|exact E2].
        destruct (Nat.lt_ge_cases k (length (u_orig b))); [assumption|]. rewrite nth_overflow in E2 by assumption. discriminate. }
    split.
    - intros k1 k2 sub E1 E2. apply G in E1, E2. destruct E1 as [[-> ->]|[N1 E1]], E2 as [[-> E2]|[N2 E2]]; try congruence.
      + apply M2 in E2. lia.
      + apply M2 in E1. lia.
      + apply (M1 _ _ sub); assumption.
    - intros k sub E. unfold b1. cbn [u_bins uset_bins]. rewrite app_length. cbn. apply G in E. destruct E as [[_ ->]|[_ E]]; [lia|]. apply M2 in E. lia. }
  clearbody b1.
  match type of H with ?r = _ \/ _ => assert (K2 : same_map b1 r) end.
  { generalize (Z.of_nat (length (u_bins b))) as zid. intro zid. clear H K1 Hb. rename b1 into c1.
    apply hmap_then; [apply (hmap_direct c1 (USetBinCost _ _)); auto|]. clear b c1. intros b.
    apply hmap_then; [apply (hmap_direct b (USetBinCopies _ _)); auto|]. clear b. intros b.
    apply hmap_then; [apply (hmap_direct b (USetBinCopiesMin _ _)); auto|]. clear b. intros b.
    apply hmap_then; [apply (hmap_direct b (USetBinWeight _ _)); auto|]. clear b. intros b.
    apply hmap_then; [apply (hmap_direct b (USetBinTruck _ _)); auto|]. clear b. intros b.
    apply hmap_then.
    { apply (hmap_fold b _ (fun b e => u_add_eligibility b _ e)); [split; [reflexivity|lia]|].
      intros c e. apply (hmap_direct c (UAddEligibility _ _)); auto. }
    clear b. intros b.
    apply hmap_then.
    { apply (hmap_fold b _ (fun b d => u_add_defect b _ (df_x d) (df_y d) (df_lx d) (df_ly d))); [split; [reflexivity|lia]|].
      intros c e. apply (hmap_direct c (UAddDefect _ _ _ _ _)); auto. }
    clear b. intros b.
    apply (hmap_fold b _ (fun b res => u_add_resource b _ (res_capacity res) (res_penalize res) (res_penalty res))); [split; [reflexivity|lia]|].
    intros c e. apply (hmap_direct c (UAddResource _ _ _ _)); auto. }
  apply (hmap_same b1); [|exact K1]. destruct H as [H|H]; rewrite H in K2; exact K2.
Qed.

Lemma hmap_copy_item : forall b i id, same_map b (ustep b (UCopyItem i id)).
Proof.
  intros b i id. cbn [ustep].
  unfold u_copy_item. destruct (nth_error _ _) as [t|]; [|exact I].
    apply hmap_then; [apply (hmap_direct b (UAddItem _ _ _)); auto|].
    generalize (Z.of_nat (length (u_items b))) as zid. clear b. intros zid b.
    apply hmap_then; [apply (hmap_direct b (USetItemProfit _ _)); auto|]. clear b. intros b.
    apply hmap_then; [apply (hmap_direct b (USetItemCopies _ _)); auto|]. clear b. intros b.
    apply hmap_then; [apply (hmap_direct b (USetItemGroup _ _)); auto|]. clear b. intros b.
    apply hmap_then; [apply (hmap_direct b (USetItemWeight _ _)); auto|]. clear b. intros b.
    apply hmap_then; [apply (hmap_direct b (USetItemEligibility _ _)); auto|]. clear b. intros b.
    apply (hmap_fold b _ (fun b ko => match snd ko with
          | None => UOk b
          | Some sub =>
              match nth_error (rin_bins i) (fst ko) with
              | None => UUndef
              | Some obt => u_copy_resources b (Z.of_nat sub) zid id (rb_resources obt)
              end
          end)); [split; reflexivity|].
    clear b. intros b [o [sub|]]; simpl; [|split; [reflexivity|lia]].
    destruct (nth_error (rin_bins i) o) as [obt|]; [|exact I].
    unfold u_copy_resources.
    apply (hmap_fold b _ (fun b kres => if (id <? length (res_item_consumptions (snd kres)))%nat
      then u_copy_schedule b (Z.of_nat sub) (fst kres) zid (nth id (res_item_consumptions (snd kres)) [])
      else UOk b)); [split; reflexivity|].
    clear b. intros b [k res]; simpl.
    destruct (id <? length (res_item_consumptions res))%nat; [|split; [reflexivity|lia]].
    unfold u_copy_schedule.
    apply (hmap_fold b _ (fun b kq => u_add_consumption b (Z.of_nat sub) k zid (fst kq) (snd kq))); [split; reflexivity|].
    clear b. intros b [c q]; simpl. apply (hmap_direct b (UAddConsumption _ _ _ _ _)); auto.
Qed.

Lemma hmap_run : forall calls b, urun calls = Some b -> hmap_ok b.
Proof.
  intros calls. induction calls as [|c calls IH] using rev_ind; intros b H.
  - injection H as <-. split; [intros k1 k2 sub H; destruct k1; discriminate|intros k sub H; destruct k; discriminate].
  - rewrite urun_snoc in H. destruct (urun calls) as [b0|]; [|discriminate]. specialize (IH b0 eq_refl).
    assert (E : ustep b0 c = UOk b \/ ustep b0 c = UThrow b) by (destruct (ustep b0 c); try discriminate; injection H as ->; auto).
    destruct (hno_copy c) eqn:Hd.
    + pose proof (hmap_direct b0 c Hd) as K. destruct E as [E|E]; rewrite E in K; exact (hmap_same _ _ K IH).
    + destruct c; try discriminate; [exact (hmap_copy_bin _ _ _ _ E IH)|].
      pose proof (hmap_copy_item b0 i id) as K. destruct E as [E|E]; rewrite E in K; exact (hmap_same _ _ K IH).
Qed.

Lemma hthen_inv : forall r f b', uthen r f = UOk b' -> exists b, r = UOk b /\ f b = UOk b'.
Proof. intros r f b' H. destruct r as [b|b|]; cbn in H; [exists b; auto|discriminate|discriminate]. Qed.

(** Calls on one item type. *)
Definition hon_one_item (c : UCall) : bool := match c with USetItemGroup _ _ | USetItemEligibility _ _ | USetItemWeight _ _ | USetItemProfit _ _ | USetItemCopies _ _ => true | _ => false end.
Lemma hitem_call : forall b c b', hon_one_item c = true -> ustep b c = UOk b' -> u_bins b' = u_bins b /\ u_orig b' = u_orig b.
Proof.
  intros b c b' Hc H. destruct c; try discriminate; cbn [ustep] in H; unfold u_set_item_group, u_set_item_eligibility, u_set_item_weight, u_set_item_profit, u_set_item_copies, uon_item in H;
  repeat (match type of H with (if ?c then _ else _) = _ => destruct c; [discriminate|] end); injection H as <-; split; reflexivity.
Qed.
Lemma hitem_fold : forall (A : Type) (f : RBuilder -> A -> URes) l b b', (forall b a b1, f b a = UOk b1 -> u_bins b1 = u_bins b /\ u_orig b1 = u_orig b) ->
  fold_left (fun r a => uthen r (fun b => f b a)) l (UOk b) = UOk b' -> u_bins b' = u_bins b /\ u_orig b' = u_orig b.
Proof.
  intros A f l. induction l as [|a l IH]; intros b b' Hf H; cbn [fold_left] in H; [injection H as <-; auto|].
  destruct (hstuck _ _ _ _ _ H) as [b1 E]. rewrite E in H. apply IH in H; [|exact Hf]. cbn in E. apply Hf in E. destruct H, E. split; congruence.
Qed.

(** A copied item type has, in the copy of each bin type, the consumptions the
    original has in the original bin type, for every resource; nothing changes
    for the other item types.  The builder must not hold consumptions of an item
    type that did not exist yet. *)
Theorem C48_copy_consumptions : forall calls b i id b', urun calls = Some b -> ustep b (UCopyItem i id) = UOk b' ->
  let new := length (u_items b) in
  let consumptions bb k r x := schedule (nth r (rb_resources (nth k (u_bins bb) dummy_rbin)) dummy_resource) x in
  (forall k r, consumptions b k r new = []) ->
  (forall k sub, nth_error (u_orig b) k = Some (Some sub) -> exists t, nth_error (rin_bins i) k = Some t /\
     forall r, consumptions b' sub r new = schedule (nth r (rb_resources t) dummy_resource) id) /\
  (forall k r x, x <> new -> consumptions b' k r x = consumptions b k r x).
Proof.
  intros calls b i id b' Hr H new consumptions Hnew. destruct (hmap_run calls b Hr) as [M1 _].
  cbn [ustep] in H. unfold u_copy_item in H. destruct (nth_error (rin_items i) id) as [t|]; [|discriminate].
  cbv zeta in H.
  apply hthen_inv in H. destruct H as (c0 & E0 & H).
  assert (F0 : u_bins c0 = u_bins b /\ u_orig c0 = u_orig b) by (unfold u_add_item in E0; repeat (match type of E0 with (if ?c then _ else _) = _ => destruct c; [discriminate|] end); injection E0 as <-; split; reflexivity).
  apply hthen_inv in H. destruct H as (c1 & Ec1 & H).
  assert (F1 : u_bins c1 = u_bins b /\ u_orig c1 = u_orig b) by (apply (hitem_call c0 (USetItemProfit _ _) _ eq_refl) in Ec1; destruct Ec1, F0; split; congruence).
  apply hthen_inv in H. destruct H as (c2 & Ec2 & H).
  assert (F2 : u_bins c2 = u_bins b /\ u_orig c2 = u_orig b) by (apply (hitem_call c1 (USetItemCopies _ _) _ eq_refl) in Ec2; destruct Ec2, F1; split; congruence).
  apply hthen_inv in H. destruct H as (c3 & Ec3 & H).
  assert (F3 : u_bins c3 = u_bins b /\ u_orig c3 = u_orig b) by (apply (hitem_call c2 (USetItemGroup _ _) _ eq_refl) in Ec3; destruct Ec3, F2; split; congruence).
  apply hthen_inv in H. destruct H as (c4 & Ec4 & H).
  assert (F4 : u_bins c4 = u_bins b /\ u_orig c4 = u_orig b) by (apply (hitem_call c3 (USetItemWeight _ _) _ eq_refl) in Ec4; destruct Ec4, F3; split; congruence).
  apply hthen_inv in H. destruct H as (c5 & Ec5 & H).
  assert (F5 : u_bins c5 = u_bins b /\ u_orig c5 = u_orig b) by (apply (hitem_call c4 (USetItemEligibility _ _) _ eq_refl) in Ec5; destruct Ec5, F4; split; congruence).
  destruct F5 as [E3 E4]. set (b3 := c5) in *. clearbody b3.
  rewrite E4 in H. fold (hcopy_consumptions i new id (combine (seq 0 (length (u_orig b))) (u_orig b)) (UOk b3)) in H.
  assert (S3 : forall k r x, hsched b3 k r x = consumptions b k r x) by (intros; unfold hsched; rewrite E3; reflexivity).
  destruct (hcopy_consumptions_all _ _ _ _ _ _ H) as [B1 B2].
  - intros k sub r _. rewrite S3. apply Hnew.
  - assert (F : forall (A : Type) (l : list A) s, map fst (combine (seq s (length l)) l) = seq s (length l)) by (intros A l; induction l as [|a l IH]; intro s; cbn; [reflexivity|rewrite IH; reflexivity]).
    rewrite F. apply seq_NoDup.
  - intros k1 k2 sub G1 G2. apply in_combine_seq in G1, G2. rewrite Nat.sub_0_r in G1, G2. apply (M1 k1 k2 sub); [apply G1|apply G2].
  - split.
    + intros k sub Hk. apply B1. apply in_combine_seq. rewrite Nat.sub_0_r. split; [lia|exact Hk].
    + intros k r x Hx. unfold consumptions at 1. fold (hsched b' k r x). rewrite B2 by (left; exact Hx). apply S3.
Qed.
Print Assumptions C48_copy_consumptions.

(** An item type with consumptions, copied after its bin type. *)
Definition ex_hconsume : RInstance :=
  mkRInst OKnapsack default_params [mkRI 3 4 12 5 1 0 false 0 (-1) []; mkRI 2 3 6 5 1 0 false 0 (-1) []]
    [dummy_rbin; mkRB 10 8 80 3 1 None no_truck [] [] [mkResource 4 [[]; [2%Q; 1%Q]] false 0]].
Example C48_copy_consumptions_nonvacuous : exists b b', urun [UAddItem 1 1 false; UCopyBin ex_hconsume 1] = Some b /\
  ustep b (UCopyItem ex_hconsume 1) = UOk b' /\ u_orig b = [None; Some 0%nat] /\
  hsched b 0 0 1 = [] /\ hsched b' 0 0 1 = [2%Q; 1%Q] /\ hsched b' 0 0 0 = [].
Proof. eexists. eexists. split; [vm_compute; reflexivity|]. split; [vm_compute; reflexivity|]. split; [reflexivity|]. split; [reflexivity|]. split; reflexivity. Qed.
