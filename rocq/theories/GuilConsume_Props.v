(** * C73, continued: resources, consumptions and calls on all the types *)

From Coq Require Import List ZArith QArith Bool Lia Arith.
From Verif Require Import Util Common_Model OneDim_Model OneDim_Spec OneDimBuilder_Model OneDimBuilder_Spec OneDimBuilder_Proof
  OneDimSub_Proof Guil_Model GuilBuilder_Model GuilBuilder_Spec GuilBuilder_Proof.
Import ListNotations.
Open Scope Z_scope.

(** Schedule of item type [x] for resource [r] of plate type [k]. *)
Definition hsched (b : HBuilder) (k r x : nat) : list Q :=
  schedule (nth r (gb_resources (nth k (h_bins b) gdummy_bin)) dummy_resource) x.

Lemma hadd_consumption_sched : forall b k r x c q b',
  h_add_consumption b (Z.of_nat k) (Z.of_nat r) (Z.of_nat x) (Z.of_nat c) q = HOk b' ->
  (k < length (h_bins b))%nat /\ (r < length (gb_resources (nth k (h_bins b) gdummy_bin)))%nat /\
  b' = hset_bins b (upd k (fun t => gb_with_resources (upd r (put_consumption x c q) (gb_resources t)) t) (h_bins b)).
Proof.
  intros b k r x c q b' H. unfold h_add_consumption in H. rewrite !Nat2Z.id in H.
  destruct (bad_id (Z.of_nat k) (h_bins b)) eqn:E1; [discriminate|].
  destruct (bad_id (Z.of_nat r) _) eqn:E2; [discriminate|]. destruct (Z.of_nat c <? 0); [discriminate|].
  destruct (Z.of_nat x <? 0); [discriminate|]. unfold hon_bin in H. rewrite E1, Nat2Z.id in H. injection H as <-.
  apply bad_id_false in E1, E2. unfold in_range in E1, E2. split; [lia|]. split; [lia|reflexivity].
Qed.

Lemma hadd_consumption_all : forall b k r x c q b',
  h_add_consumption b (Z.of_nat k) (Z.of_nat r) (Z.of_nat x) (Z.of_nat c) q = HOk b' ->
  forall k' r' x', hsched b' k' r' x' =
    if Nat.eqb k k' && Nat.eqb r r' && Nat.eqb x x' then upd c (fun _ => q) (grow (S c) 0%Q (hsched b k r x)) else hsched b k' r' x'.
Proof.
  intros b k r x c q b' H k' r' x'. apply hadd_consumption_sched in H. destruct H as (Hk & Hr & ->).
  unfold hsched, hset_bins. cbn [h_bins]. rewrite nth_upd by assumption.
  destruct (Nat.eqb k k') eqn:Ek; cbn [andb]; [apply Nat.eqb_eq in Ek; subst k'|reflexivity].
  cbn [gb_resources gb_with_resources]. rewrite nth_upd by assumption.
  destruct (Nat.eqb r r') eqn:Er; cbn [andb]; [apply Nat.eqb_eq in Er; subst r'|reflexivity].
  rewrite put_schedule. destruct (Nat.eqb x x'); reflexivity.
Qed.

(** A consumption is stored for the copy of the item type, in the resource of the
    plate type it names; every other consumption and every other field stay the
    same. *)
Theorem C73_consumptions : forall b k r x c q b',
  hstep b (HAddConsumption (Z.of_nat k) (Z.of_nat r) (Z.of_nat x) (Z.of_nat c) q) = HOk b' ->
  let used bb k r x c := nth c (schedule (nth r (gb_resources (nth k (h_bins bb) gdummy_bin)) dummy_resource) x) 0%Q in
  let rest t := mkGBT (gb_cost t) (gb_copies t) (gb_copies_min t) (gb_w t) (gb_h t) (gb_defects t) (gb_bottom t) (gb_top t) (gb_left t) (gb_right t)
    (map (fun res => mkResource (res_capacity res) [] (res_penalize res) (res_penalty res)) (gb_resources t)) in
  used b' k r x c = q /\
  (forall k' r' x' c', (k', r', x', c') <> (k, r, x, c) -> used b' k' r' x' c' = used b k' r' x' c') /\
  map rest (h_bins b') = map rest (h_bins b) /\
  h_items b' = h_items b /\ h_stacks b' = h_stacks b /\ h_objective b' = h_objective b /\ h_params b' = h_params b.
Proof.
  intros b k r x c q b' H used rest. cbn [hstep] in H. pose proof (hadd_consumption_all _ _ _ _ _ _ _ H) as A.
  apply hadd_consumption_sched in H. destruct H as (Hk & Hr & E).
  split; [|split; [|split]].
  - unfold used. fold (hsched b' k r x). rewrite A, !Nat.eqb_refl. cbn [andb]. rewrite nth_upd_same; [reflexivity|]. rewrite grow_length. lia.
  - intros k' r' x' c' Hne. unfold used. fold (hsched b' k' r' x') (hsched b k' r' x'). rewrite A.
    destruct (Nat.eqb k k' && Nat.eqb r r' && Nat.eqb x x') eqn:E0; [|reflexivity].
    apply andb_prop in E0. destruct E0 as [E0 E3]. apply andb_prop in E0. destruct E0 as [E1 E2]. apply Nat.eqb_eq in E1, E2, E3. subst k' r' x'.
    rewrite nth_upd_other by congruence. apply grow_nth.
  - rewrite E. cbn [h_bins hset_bins]. apply map_upd_same. intro t. unfold rest, gb_with_resources. cbn. f_equal. apply map_upd_same. reflexivity.
  - rewrite E. repeat split; reflexivity.
Qed.
Print Assumptions C73_consumptions.

(** A resource is added after the other resources of the plate type it names. *)
Theorem C73_resources : forall b k c p y b', hstep b (HAddResource (Z.of_nat k) c p y) = HOk b' ->
  let old := nth k (h_bins b) gdummy_bin in
  (k < length (h_bins b))%nat /\ length (h_bins b') = length (h_bins b) /\
  nth k (h_bins b') gdummy_bin = mkGBT (gb_cost old) (gb_copies old) (gb_copies_min old) (gb_w old) (gb_h old) (gb_defects old) (gb_bottom old) (gb_top old)
    (gb_left old) (gb_right old) (gb_resources old ++ [mkResource c [] p y]) /\
  (forall j, j <> k -> nth j (h_bins b') gdummy_bin = nth j (h_bins b) gdummy_bin) /\
  h_items b' = h_items b /\ h_stacks b' = h_stacks b /\ h_objective b' = h_objective b /\ h_params b' = h_params b.
Proof.
  intros b k c p y b' H old. cbn [hstep] in H. unfold h_add_resource, hon_bin in H.
  destruct (bad_id (Z.of_nat k) (h_bins b)) eqn:E1; [discriminate|]. rewrite Nat2Z.id in H. injection H as <-.
  apply bad_id_false in E1. unfold in_range in E1. cbn [h_bins hset_bins h_items h_stacks h_objective h_params].
  split; [lia|]. split; [apply upd_length|]. split; [rewrite nth_upd_same by lia; reflexivity|].
  split; [intros j Hj; apply nth_upd_other; congruence|]. repeat split; reflexivity.
Qed.
Print Assumptions C73_resources.

(** The calls on all the types at once change one field of each type. *)
Theorem C73_all_types : forall b,
  hstep b HBinsInfinite = HOk (hset_bins b (map (fun t => mkGBT (gb_cost t) (-1) (gb_copies_min t) (gb_w t) (gb_h t) (gb_defects t) (gb_bottom t) (gb_top t) (gb_left t) (gb_right t) (gb_resources t)) (h_bins b))) /\
  hstep b HBinsUnweighted = HOk (hset_bins b (map (fun t => mkGBT (inject_Z (usable_area t)) (gb_copies t) (gb_copies_min t) (gb_w t) (gb_h t) (gb_defects t) (gb_bottom t) (gb_top t) (gb_left t) (gb_right t) (gb_resources t)) (h_bins b))) /\
  hstep b HItemsUnweighted = HOk (hset_items b (map (fun t => mkGI (inject_Z (gi_w t * gi_h t)) (gi_copies t) (gi_copies_min t) (gi_w t) (gi_h t) (gi_stack_id t) (gi_stack_pos t) (gi_oriented t) (gi_resource_ids t)) (h_items b))) /\
  (forall o, hstep b (HItemsOriented o) = HOk (hset_items b (map (fun t => mkGI (gi_profit t) (gi_copies t) (gi_copies_min t) (gi_w t) (gi_h t) (gi_stack_id t) (gi_stack_pos t) o (gi_resource_ids t)) (h_items b)))) /\
  (forall n, hstep b (HMultiply n) = HOk (hset_items b (map (fun t => mkGI (gi_profit t) (gi_copies t * n) (gi_copies_min t) (gi_w t) (gi_h t) (gi_stack_id t) (gi_stack_pos t) (gi_oriented t) (gi_resource_ids t)) (h_items b)))).
Proof.
  intro b. split; [reflexivity|]. split; [|split; [reflexivity|split; reflexivity]].
  cbn [hstep]. unfold h_bins_unweighted. do 2 f_equal. apply map_ext. intro t. unfold gb_with_cost. f_equal. unfold gb_area, usable_area. f_equal. unfold gb_w, gb_h. try ring.
Qed.
Print Assumptions C73_all_types.

(** ** Consumptions of copied item types *)

Lemma hstuck : forall (A : Type) (f : HBuilder -> A -> HRes) (l : list A) r b', fold_left (fun r a => hthen r (fun b => f b a)) l r = HOk b' -> exists b, r = HOk b.
Proof.
  intros A f l. induction l as [|a l IH]; intros r b' H; cbn [fold_left] in H; [exists b'; exact H|].
  apply IH in H. destruct H as [b H]. destruct r as [b0|b0|]; cbn in H; [exists b0; reflexivity|discriminate|discriminate].
Qed.

Lemma hcopy_schedule_all : forall s b k r x b', h_copy_schedule b (Z.of_nat k) (Z.of_nat r) (Z.of_nat x) s = HOk b' -> hsched b k r x = [] ->
  forall k' r' x', hsched b' k' r' x' = if Nat.eqb k k' && Nat.eqb r r' && Nat.eqb x x' then s else hsched b k' r' x'.
Proof.
  intros s b k r x. unfold h_copy_schedule. induction s as [|q s IH] using rev_ind; intros b' H Hs k' r' x'.
  - cbn in H. injection H as <-. destruct (Nat.eqb k k' && Nat.eqb r r' && Nat.eqb x x') eqn:E; [|reflexivity].
    apply andb_prop in E. destruct E as [E E3]. apply andb_prop in E. destruct E as [E1 E2].
    apply Nat.eqb_eq in E1, E2, E3. subst. assumption.
  - rewrite combine_nats_snoc, fold_snoc in H.
    match type of H with hthen ?r _ = _ => destruct r as [b1|b1|] eqn:E1; [|discriminate|discriminate] end. cbn [hthen fst snd] in H.
    specialize (IH b1 eq_refl Hs). rewrite (hadd_consumption_all _ _ _ _ _ _ _ H), !IH, !Nat.eqb_refl. cbn [andb].
    destruct (Nat.eqb k k' && Nat.eqb r r' && Nat.eqb x x'); [|reflexivity]. apply grow_put. reflexivity.
Qed.

Lemma hcopy_resources_all : forall rs b k x ox b', h_copy_resources b (Z.of_nat k) (Z.of_nat x) ox rs = HOk b' -> (forall r, hsched b k r x = []) ->
  forall k' r' x', hsched b' k' r' x' = if Nat.eqb k k' && Nat.eqb x x' then schedule (nth r' rs dummy_resource) ox else hsched b k' r' x'.
Proof.
  intros rs b k x ox. unfold h_copy_resources. induction rs as [|a rs IH] using rev_ind; intros b' H Hs k' r' x'.
  - cbn in H. injection H as <-. destruct (Nat.eqb k k' && Nat.eqb x x') eqn:E; [|reflexivity].
    apply andb_prop in E. destruct E as [E1 E2]. apply Nat.eqb_eq in E1, E2. subst. rewrite Hs. unfold schedule. destruct r', ox; reflexivity.
  - rewrite combine_nats_snoc, fold_snoc in H.
    match type of H with hthen ?r _ = _ => destruct r as [b1|b1|] eqn:E1; [|discriminate|discriminate] end. cbn [hthen fst snd] in H.
    specialize (IH b1 eq_refl Hs).
    assert (N : hsched b1 k (length rs) x = []).
    { rewrite IH, !Nat.eqb_refl. cbn [andb]. rewrite nth_overflow by lia. unfold schedule. destruct ox; reflexivity. }
    assert (L : forall r, nth r (rs ++ [a]) dummy_resource = if Nat.eqb (length rs) r then a else nth r rs dummy_resource).
    { intro r. destruct (Nat.eqb (length rs) r) eqn:E; [apply Nat.eqb_eq in E; subst r; rewrite app_nth2, Nat.sub_diag by lia; reflexivity|].
      apply Nat.eqb_neq in E. destruct (Nat.lt_ge_cases r (length rs)); [apply app_nth1; lia|]. rewrite !nth_overflow; [reflexivity|lia|rewrite app_length; cbn; lia]. }
    rewrite L. destruct (ox <? length (res_item_consumptions a))%nat eqn:Eo.
    + rewrite (hcopy_schedule_all _ _ _ _ _ _ H N), IH. destruct (Nat.eqb k k'); cbn [andb]; [|reflexivity].
      destruct (Nat.eqb (length rs) r'); cbn [andb]; [|reflexivity]. destruct (Nat.eqb x x'); reflexivity.
    + injection H as <-. rewrite IH. destruct (Nat.eqb k k' && Nat.eqb x x'); [|reflexivity].
      destruct (Nat.eqb (length rs) r') eqn:E; [|reflexivity]. apply Nat.eqb_eq in E. subst r'. rewrite nth_overflow by lia.
      apply Nat.ltb_ge in Eo. unfold schedule. rewrite (nth_overflow _ _ Eo). destruct ox; reflexivity.
Qed.

Definition hcopy_consumptions (i : GInstance) (x ox : nat) (l : list (nat * option nat)) (r : HRes) : HRes :=
  fold_left (fun r ko => hthen r (fun b =>
      match snd ko with
      | None => HOk b
      | Some sub =>
          match nth_error (gin_bins i) (fst ko) with
          | None => HUndef
          | Some obt => h_copy_resources b (Z.of_nat sub) (Z.of_nat x) ox (gb_resources obt)
          end
      end)) l r.

Lemma hcopy_consumptions_all : forall i x ox l b b', hcopy_consumptions i x ox l (HOk b) = HOk b' ->
  (forall k sub r, In (k, Some sub) l -> hsched b sub r x = []) ->
  NoDup (map fst l) -> (forall k1 k2 sub, In (k1, Some sub) l -> In (k2, Some sub) l -> k1 = k2) ->
  (forall k sub, In (k, Some sub) l -> exists t, nth_error (gin_bins i) k = Some t /\
     forall r, hsched b' sub r x = schedule (nth r (gb_resources t) dummy_resource) ox) /\
  (forall k' r' x', (x' <> x \/ forall k, ~ In (k, Some k') l) -> hsched b' k' r' x' = hsched b k' r' x').
Proof.
  intros i x ox l. induction l as [|[k0 o] l IH]; intros b b' H Hs Hn Hd.
  { cbn in H. injection H as <-. split; [intros k sub []|reflexivity]. }
  unfold hcopy_consumptions in H. cbn [fold_left hthen fst snd] in H. cbn [map fst] in Hn. inversion Hn as [|a ll N1 N2]; subst a ll.
  destruct o as [sub0|].
  - destruct (hstuck _ _ _ _ _ H) as [b1 E1]. destruct (nth_error (gin_bins i) k0) as [t0|] eqn:Et; [|discriminate].
    rewrite E1 in H. pose proof (hcopy_resources_all _ _ _ _ _ _ E1 (fun r => Hs k0 sub0 r (or_introl eq_refl))) as A.
    assert (D : forall k sub, In (k, Some sub) l -> sub <> sub0).
    { intros k sub Hin ->. assert (k = k0) by (apply (Hd k k0 sub0); [right; exact Hin|left; reflexivity]). subst k.
      apply N1. apply (in_map fst) in Hin. exact Hin. }
    destruct (IH b1 b' H) as [B1 B2].
    + intros k sub r Hin. rewrite A. pose proof (D k sub Hin). destruct (Nat.eqb sub0 sub) eqn:E; [apply Nat.eqb_eq in E; congruence|]. cbn [andb].
      apply (Hs k sub r). right. exact Hin.
    + exact N2.
    + intros k1 k2 sub G1 G2. apply (Hd k1 k2 sub); right; assumption.
    + split.
      * intros k sub [E|Hin]; [injection E as <- <-|apply B1; exact Hin]. exists t0. split; [exact Et|]. intro r.
        rewrite B2 by (right; intros k Hin; apply (D k sub0 Hin); reflexivity). rewrite A, !Nat.eqb_refl. reflexivity.
      * intros k' r' x' Hx. rewrite B2.
        -- rewrite A. destruct (Nat.eqb sub0 k') eqn:E; [|reflexivity]. apply Nat.eqb_eq in E. subst k'.
           destruct (Nat.eqb x x') eqn:E2; [|reflexivity]. apply Nat.eqb_eq in E2. subst x'.
           destruct Hx as [Hx|Hx]; [congruence|]. exfalso. apply (Hx k0). left. reflexivity.
        -- destruct Hx as [Hx|Hx]; [left; exact Hx|right]. intros k Hin. apply (Hx k). right. exact Hin.
  - destruct (IH b b' H) as [B1 B2].
    + intros k sub r Hin. apply (Hs k sub r). right. exact Hin.
    + exact N2.
    + intros k1 k2 sub G1 G2. apply (Hd k1 k2 sub); right; assumption.
    + split.
      * intros k sub [E|Hin]; [discriminate|apply B1; exact Hin].
      * intros k' r' x' Hx. apply B2. destruct Hx as [Hx|Hx]; [left; exact Hx|right]. intros k Hin. apply (Hx k). right. exact Hin.
Qed.

Lemma in_combine_seq : forall (A : Type) (l : list A) s k a, In (k, a) (combine (seq s (length l)) l) <-> (s <= k)%nat /\ nth_error l (k - s) = Some a.
Proof.
  intros A l. induction l as [|c l IH]; intros s k a; cbn [length seq combine].
  - split; [intros []|]. intros [_ H]. destruct (k - s)%nat; discriminate.
  - cbn [In]. rewrite IH. split.
    + intros [E|[H1 H2]]; [injection E as -> ->; split; [lia|]; rewrite Nat.sub_diag; reflexivity|].
      split; [lia|]. replace (k - s)%nat with (S (k - S s)) by lia. exact H2.
    + intros [H1 H2]. destruct (Nat.eq_dec k s) as [->|N]; [rewrite Nat.sub_diag in H2; cbn in H2; left; congruence|].
      right. split; [lia|]. replace (k - s)%nat with (S (k - S s)) in H2 by lia. exact H2.
Qed.

(** A plate type copied once from each original: the copies are different. *)
Definition hmap_ok (b : HBuilder) : Prop :=
  (forall k1 k2 sub, nth_error (h_orig b) k1 = Some (Some sub) -> nth_error (h_orig b) k2 = Some (Some sub) -> k1 = k2) /\
  (forall k sub, nth_error (h_orig b) k = Some (Some sub) -> (sub < length (h_bins b))%nat).

Definition same_map (b : HBuilder) (r : HRes) : Prop :=
  match r with HOk b' | HThrow b' => h_orig b' = h_orig b /\ (length (h_bins b) <= length (h_bins b'))%nat | HUndef => True end.
Lemma hmap_same : forall b b', h_orig b' = h_orig b /\ (length (h_bins b) <= length (h_bins b'))%nat -> hmap_ok b -> hmap_ok b'.
Proof.
  intros b b' [E L] [M1 M2]. unfold hmap_ok. rewrite E. split; [exact M1|]. intros k sub H. apply M2 in H. lia.
Qed.
Lemma hmap_then : forall b r f, same_map b r -> (forall c, same_map c (f c)) -> same_map b (hthen r f).
Proof.
  intros b [c|c|] f H Hf; cbn in *; auto. specialize (Hf c). destruct H as [H1 H2]. destruct (f c); cbn in *; try exact I; destruct Hf; (split; [congruence|lia]).
Qed.
Lemma hmap_fold : forall b (A : Type) (f : HBuilder -> A -> HRes) (l : list A) r,
  same_map b r -> (forall c a, same_map c (f c a)) -> same_map b (fold_left (fun r a => hthen r (fun b => f b a)) l r).
Proof. intros b A f l. induction l as [|a l IH]; intros r Hr Hf; simpl; [assumption|]. apply IH; [|assumption]. apply hmap_then; auto. Qed.

Definition hno_copy (c : HCall) : bool := match c with HCopyBin _ _ | HCopyItem _ _ => false | _ => true end.

Lemma hmap_direct : forall b c, hno_copy c = true -> same_map b (hstep b c).
Proof.
  intros b c Hd. assert (R : forall p its st bs, (length (h_bins b) <= length bs)%nat -> same_map b (HOk (mkH (fst p) (snd p) its st bs (h_orig b)))) by (intros; split; [reflexivity|assumption]).
  assert (R0 : h_orig b = h_orig b /\ (length (h_bins b) <= length (h_bins b))%nat) by auto.
  split_call c; try discriminate; cbn [hstep];
  unfold h_predefined, h_roadef, h_stages_unlimited, h_set_stages, h_set_cut_type, h_set_fixed, h_set_variable,
    h_add_bin, h_set_bin_cost, h_add_trims, h_add_defect, h_add_resource, h_add_consumption, h_set_bin_copies, h_set_bin_copies_min,
    h_bins_infinite_x, h_bins_infinite_y, h_bins_infinite, h_bins_unweighted, h_add_item, h_set_item_profit, h_set_item_copies, h_set_item_copies_min,
    h_items_unweighted, h_items_oriented, h_items_infinite, h_multiply, hon_bin, hon_item; cbv zeta; cbn [hthen];
  repeat match goal with
    | |- same_map _ (if ?c then _ else _) => destruct c
    | |- same_map _ (hthen (if ?c then _ else _) _) => destruct c
    | |- same_map _ (hthen _ _) => progress cbn [hthen]
    end; try exact R0; try exact I;
  cbn [same_map h_orig h_bins hset_bins hset_items hset_params]; split; try reflexivity; rewrite ?upd_length, ?map_length, ?app_length; cbn; lia.
Qed.

Lemma hmap_copy_bin : forall b i id b', (hstep b (HCopyBin i id) = HOk b' \/ hstep b (HCopyBin i id) = HThrow b') -> hmap_ok b -> hmap_ok b'.
Proof.
  intros b i id b' H Hb. cbn [hstep] in H. unfold h_copy_bin in H. destruct (nth_error _ _) as [t|]; [|destruct H; discriminate].
  unfold h_add_bin in H. destruct (_ <=? 0) in H; [destruct H as [H|H]; [discriminate|injection H as <-; exact Hb]|].
  destruct (_ <=? 0) in H; [destruct H as [H|H]; [discriminate|injection H as <-; exact Hb]|]. cbv zeta in H. cbn [hthen] in H.
  match type of H with hthen (h_set_bin_cost ?b0 _ _) _ = _ \/ _ => set (b1 := b0) in H end.
  assert (K1 : hmap_ok b1).
  { destruct Hb as [M1 M2].
    assert (G : forall k sub, nth_error (h_orig b1) k = Some (Some sub) -> (k = id /\ sub = length (h_bins b)) \/ (k <> id /\ nth_error (h_orig b) k = Some (Some sub))).
    { intros k sub E. unfold b1 in E. cbn [h_orig hset_bins] in E. apply nth_error_some_nth with (d := None) in E. destruct E as [E1 E2].
      rewrite upd_length, grow_length in E1. rewrite nth_upd in E2 by (rewrite grow_length; lia). destruct (Nat.eqb id k) eqn:Ek.
      - apply Nat.eqb_eq in Ek. injection E2 as <-. left. auto.
      - apply Nat.eqb_neq in Ek. rewrite grow_nth in E2. right. split; [congruence|]. apply nth_error_some_nth with (d := None). split; [|exact E2].
        destruct (Nat.lt_ge_cases k (length (h_orig b))); [assumption|]. rewrite nth_overflow in E2 by assumption. discriminate. }
    split.
    - intros k1 k2 sub E1 E2. apply G in E1, E2. destruct E1 as [[-> ->]|[N1 E1]], E2 as [[-> E2]|[N2 E2]]; try congruence.
      + apply M2 in E2. lia.
      + apply M2 in E1. lia.
      + apply (M1 _ _ sub); assumption.
    - intros k sub E. unfold b1. cbn [h_bins hset_bins]. rewrite app_length. cbn. apply G in E. destruct E as [[_ ->]|[_ E]]; [lia|]. apply M2 in E. lia. }
  clearbody b1.
  match type of H with ?r = _ \/ _ => assert (K2 : same_map b1 r) end.
  { generalize (Z.of_nat (length (h_bins b))) as zid. intro zid. clear H K1 Hb. rename b1 into c1.
    apply hmap_then; [apply (hmap_direct c1 (HSetBinCost _ _)); auto|]. clear b c1. intros b.
    apply hmap_then; [apply (hmap_direct b (HSetBinCopies _ _)); auto|]. clear b. intros b.
    apply hmap_then; [apply (hmap_direct b (HSetBinCopiesMin _ _)); auto|]. clear b. intros b.
    apply hmap_then; [apply (hmap_direct b (HAddTrims _ _ _ _ _)); auto|]. clear b. intros b.
    apply hmap_then.
    { apply (hmap_fold b _ (fun b d => h_add_defect b _ (gd_x d) (gd_y d) (gd_w d) (gd_h d))); [split; [reflexivity|lia]|].
      intros c e. apply (hmap_direct c (HAddDefect _ _ _ _ _)); auto. }
    clear b. intros b. apply (hmap_fold b _ (fun b res => h_add_resource b _ (res_capacity res) (res_penalize res) (res_penalty res))); [split; [reflexivity|lia]|].
    intros c e. apply (hmap_direct c (HAddResource _ _ _ _)); auto. }
  apply (hmap_same b1); [|exact K1]. destruct H as [H|H]; rewrite H in K2; exact K2.
Qed.

Lemma hmap_copy_item : forall b i id, same_map b (hstep b (HCopyItem i id)).
Proof.
  intros b i id. cbn [hstep].
  unfold h_copy_item. destruct (nth_error _ _) as [t|]; [|exact I].
    apply hmap_then; [apply (hmap_direct b (HAddItem _ _ _ _)); auto|].
    generalize (Z.of_nat (length (h_items b))) as zid. clear b. intros zid b.
    apply hmap_then; [apply (hmap_direct b (HSetItemProfit _ _)); auto|]. clear b. intros b.
    apply hmap_then; [apply (hmap_direct b (HSetItemCopies _ _)); auto|]. clear b. intros b.
    apply (hmap_fold b _ (fun b ko => match snd ko with
          | None => HOk b
          | Some sub =>
              match nth_error (gin_bins i) (fst ko) with
              | None => HUndef
              | Some obt => h_copy_resources b (Z.of_nat sub) zid id (gb_resources obt)
              end
          end)); [split; reflexivity|].
    clear b. intros b [o [sub|]]; simpl; [|split; [reflexivity|lia]].
    destruct (nth_error (gin_bins i) o) as [obt|]; [|exact I].
    unfold h_copy_resources.
    apply (hmap_fold b _ (fun b kres => if (id <? length (res_item_consumptions (snd kres)))%nat
      then h_copy_schedule b (Z.of_nat sub) (fst kres) zid (nth id (res_item_consumptions (snd kres)) [])
      else HOk b)); [split; reflexivity|].
    clear b. intros b [k res]; simpl.
    destruct (id <? length (res_item_consumptions res))%nat; [|split; [reflexivity|lia]].
    unfold h_copy_schedule.
    apply (hmap_fold b _ (fun b kq => h_add_consumption b (Z.of_nat sub) k zid (fst kq) (snd kq))); [split; reflexivity|].
    clear b. intros b [c q]; simpl. apply (hmap_direct b (HAddConsumption _ _ _ _ _)); auto.
Qed.

Lemma hmap_run : forall o calls b, hrun o calls = Some b -> hmap_ok b.
Proof.
  intros o calls. unfold hrun. induction calls as [|c calls IH] using rev_ind; intros b H.
  - injection H as <-. split; [intros k1 k2 sub H; destruct k1; discriminate|intros k sub H; destruct k; discriminate].
  - rewrite hrun_snoc in H. destruct (hrun_from _ calls) as [b0|]; [|discriminate]. specialize (IH b0 eq_refl).
    assert (E : hstep b0 c = HOk b \/ hstep b0 c = HThrow b) by (destruct (hstep b0 c); try discriminate; injection H as ->; auto).
    destruct (hno_copy c) eqn:Hd.
    + pose proof (hmap_direct b0 c Hd) as K. destruct E as [E|E]; rewrite E in K; exact (hmap_same _ _ K IH).
    + destruct c; try discriminate; [exact (hmap_copy_bin _ _ _ _ E IH)|].
      pose proof (hmap_copy_item b0 i id) as K. destruct E as [E|E]; rewrite E in K; exact (hmap_same _ _ K IH).
Qed.

(** A copied item type has, in the copy of each plate type, the consumptions the
    original has in the original plate type, for every resource; nothing changes
    for the other item types.  The builder must not hold consumptions of an item
    type that did not exist yet. *)
Theorem C73_copy_consumptions : forall o calls b i id b', hrun o calls = Some b -> hstep b (HCopyItem i id) = HOk b' ->
  let new := length (h_items b) in
  let consumptions bb k r x := schedule (nth r (gb_resources (nth k (h_bins bb) gdummy_bin)) dummy_resource) x in
  (forall k r, consumptions b k r new = []) ->
  (forall k sub, nth_error (h_orig b) k = Some (Some sub) -> exists t, nth_error (gin_bins i) k = Some t /\
     forall r, consumptions b' sub r new = schedule (nth r (gb_resources t) dummy_resource) id) /\
  (forall k r x, x <> new -> consumptions b' k r x = consumptions b k r x).
Proof.
  intros o calls b i id b' Hr H new consumptions Hnew. destruct (hmap_run o calls b Hr) as [M1 _].
  cbn [hstep] in H. unfold h_copy_item in H. destruct (nth_error (gin_items i) id) as [t|]; [|discriminate].
  unfold h_add_item in H. destruct (gi_w t <? 0); [discriminate|]. destruct (gi_h t <? 0); [discriminate|]. cbn [hthen] in H.
  match type of H with hthen (h_set_item_profit ?b0 _ _) _ = _ => set (b1 := b0) in H end.
  assert (E1 : h_bins b1 = h_bins b /\ h_orig b1 = h_orig b) by (split; reflexivity). clearbody b1.
  unfold h_set_item_profit, hon_item in H. destruct (bad_id _ _) in H; [discriminate|]. cbn [hthen] in H.
  match type of H with hthen (h_set_item_copies ?b0 _ _) _ = _ => set (b2 := b0) in H end.
  assert (E2 : h_bins b2 = h_bins b /\ h_orig b2 = h_orig b) by exact E1. clearbody b2.
  unfold h_set_item_copies, hon_item in H. destruct (bad_id _ _) in H; [discriminate|]. destruct (_ && _) in H; [discriminate|].
  cbn [hthen] in H.
  match type of H with fold_left _ _ (HOk ?b0) = _ => set (b3 := b0) in H end.
  assert (E3 : h_bins b3 = h_bins b /\ h_orig b3 = h_orig b) by exact E2. clearbody b3. destruct E3 as [E3 E4].
  rewrite E4 in H. fold (hcopy_consumptions i new id (combine (seq 0 (length (h_orig b))) (h_orig b)) (HOk b3)) in H.
  assert (S3 : forall k r x, hsched b3 k r x = consumptions b k r x) by (intros; unfold hsched; rewrite E3; reflexivity).
  destruct (hcopy_consumptions_all _ _ _ _ _ _ H) as [B1 B2].
  - intros k sub r _. rewrite S3. apply Hnew.
  - assert (F : forall (A : Type) (l : list A) s, map fst (combine (seq s (length l)) l) = seq s (length l)) by (intros A l; induction l as [|a l IH]; intro s; cbn; [reflexivity|rewrite IH; reflexivity]).
    rewrite F. apply seq_NoDup.
  - intros k1 k2 sub G1 G2. apply in_combine_seq in G1, G2. rewrite Nat.sub_0_r in G1, G2. apply (M1 k1 k2 sub); [apply G1|apply G2].
  - split.
    + intros k sub Hk. apply B1. apply in_combine_seq. rewrite Nat.sub_0_r. split; [lia|exact Hk].
    + intros k r x Hx. unfold consumptions at 1. fold (hsched b' k r x). rewrite B2 by (left; exact Hx). apply S3.
Qed.
Print Assumptions C73_copy_consumptions.

(** An item type with consumptions, copied after its plate type. *)
Definition ex_hconsume : GInstance :=
  mkGIn OKnapsack hdefault_params
    [gdummy_bin; mkGBT 80 3 1 10 8 [] (mkGT 0 true) (mkGT 0 false) (mkGT 0 true) (mkGT 0 false) [mkResource 4 [[]; [2%Q; 1%Q]] false 0]]
    [mkGI 12 5 1 3 4 0 0 false []; mkGI 6 5 1 2 3 0 0 false []] [] [].
Example C73_copy_consumptions_nonvacuous : exists b b', hrun OKnapsack [HAddItem 1 1 false (-1); HCopyBin ex_hconsume 1] = Some b /\
  hstep b (HCopyItem ex_hconsume 1) = HOk b' /\ h_orig b = [None; Some 0%nat] /\
  hsched b 0 0 1 = [] /\ hsched b' 0 0 1 = [2%Q; 1%Q] /\ hsched b' 0 0 0 = [].
Proof. eexists. eexists. split; [vm_compute; reflexivity|]. split; [vm_compute; reflexivity|]. split; [reflexivity|]. split; [reflexivity|]. split; reflexivity. Qed.
