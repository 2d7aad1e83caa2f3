(** * Proofs about the cheap bounds of the irregular optimize function *)

From Coq Require Import List ZArith QArith Qround Bool Lia Lqa Arith Permutation Sorted.
From Verif Require Import Util Common_Model Common_Spec Common_Proof OneDim_Model OneDim_Spec OneDim_Proof OneDimBuilder_Model OneDimBuilder_Spec
  OneDimBuilder_Proof OneDimSub_Proof OneDimDff_Spec OneDimDff_Proof OneDimBounds_Model OneDimBounds_Spec Dff_Axis
  Irr_Model Irr_Spec IrrBounds_Model IrrBounds_Spec.
From Verif Require RectBounds_Spec RectBounds_Proof.
Import ListNotations.
Open Scope Z_scope.

Notation bounds1_right := RectBounds_Spec.bounds1_right.
Notation br_bins := RectBounds_Spec.br_bins.
Notation br_profit := RectBounds_Spec.br_profit.
Notation br_cost := RectBounds_Spec.br_cost.
Notation end_snoc1 := RectBounds_Proof.end_snoc1.

Definition relax_ok (i : IrInstance) : Prop := irproper i /\ irroundable i.
Definition irnumber_of_items (i : IrInstance) : Z := zsum ii_copies (ir_items i).

Lemma re_bins : forall i, relax_ok i -> forall bt, In bt (ir_bins i) ->
  (0 < ib_area bt)%Q /\ box_proper (ib_aabb bt) /\ 1 <= ib_copies bt /\ 0 <= ib_copies_min bt <= ib_copies bt /\ (0 < ib_cost bt)%Q.
Proof. intros i [P _] bt H. exact (ipr_bins i P bt H). Qed.

Lemma pa_bins : forall i ds, irvalid i ds -> forall d, In d ds -> (ird_type d < length (ir_bins i))%nat /\ 1 <= ird_copies d /\ irgeometry i d.
Proof. intros i ds H d Hd. destruct (iv_bins i ds H d Hd) as [C G]. split; [apply (ig_type i d G)|]. split; assumption. Qed.
Lemma pa_copies : forall i ds, irvalid i ds -> forall x, (x < length (ir_items i))%nat -> irpacked x ds <= ii_copies (iritem i x).
Proof. intros i ds H. exact (iv_copies i ds H). Qed.

(** ** Sums over item types and bin types *)

Lemma irpacked_sum : forall n ds (c : nat -> Z),
  (forall d, In d ds -> forall p, In p (ird_items d) -> (ip_type p < n)%nat) ->
  zsum (fun j => irpacked j ds * c j) (seq 0 n) = zsum (fun d => ird_copies d * zsum (fun p => c (ip_type p)) (ird_items d)) ds.
Proof.
  intros n ds c. unfold irpacked. induction ds as [|d l IH]; intro H.
  - apply zsum_zero. intros j _. reflexivity.
  - rewrite zsum_cons, <- IH by (intros; eauto using in_cons).
    rewrite <- (zsum_group _ ip_type (fun p => c (ip_type p)) n (ird_items d) (H d (or_introl eq_refl))), <- zsum_mult, <- zsum_plus.
    apply zsum_ext. intros j _. rewrite zsum_cons.
    assert (E : zsum (fun p => c (ip_type p)) (filter (fun p => Nat.eqb (ip_type p) j) (ird_items d)) = ircount j (ird_items d) * c j).
    { unfold ircount. clear. induction (ird_items d) as [|p l IH]; [reflexivity|]. cbn [filter].
      destruct (Nat.eqb_spec (ip_type p) j); [|assumption]. rewrite zsum_cons, IH. cbn [length]. subst. lia. }
    rewrite E. lia.
Qed.

Lemma irqpacked_sum : forall n ds (c : nat -> Q),
  (forall d, In d ds -> forall p, In p (ird_items d) -> (ip_type p < n)%nat) ->
  (qsum (fun j => inject_Z (irpacked j ds) * c j) (seq 0 n)
   == qsum (fun d => inject_Z (ird_copies d) * qsum (fun p => c (ip_type p)) (ird_items d)) ds)%Q.
Proof.
  intros n ds c. unfold irpacked. induction ds as [|d l IH]; intro H.
  - apply qsum_zero. intros j _. simpl. ring.
  - rewrite qsum_cons, <- IH by (intros; eauto using in_cons).
    rewrite <- (qsum_group _ ip_type (fun p => c (ip_type p)) n (ird_items d) (H d (or_introl eq_refl))), <- qsum_scale, <- qsum_plus.
    apply qsum_ext. intros j _. rewrite zsum_cons.
    assert (E : (qsum (fun p => c (ip_type p)) (filter (fun p => Nat.eqb (ip_type p) j) (ird_items d)) == inject_Z (ircount j (ird_items d)) * c j)%Q).
    { unfold ircount. clear. induction (ird_items d) as [|p l IH]; [simpl; ring|]. cbn [filter].
      destruct (Nat.eqb_spec (ip_type p) j); [|assumption]. rewrite qsum_cons, IH. cbn [length]. subst.
      rewrite Nat2Z.inj_succ, <- Z.add_1_l, inject_Z_plus. ring. }
    rewrite E, inject_Z_plus, inject_Z_mult. ring.
Qed.

Lemma qsum_by_type : forall m ds (g : nat -> Q), (forall d, In d ds -> (ird_type d < m)%nat) ->
  (qsum (fun d => inject_Z (ird_copies d) * g (ird_type d)) ds == qsum (fun t => inject_Z (irused_bins t ds) * g t) (seq 0 m))%Q.
Proof.
  intros m ds g H. rewrite <- (qsum_group _ ird_type _ m ds H).
  apply qsum_ext. intros t _. unfold irused_bins. clear. induction ds as [|d l IH]; [cbn; ring|].
  cbn [filter]. rewrite zsum_cons. destruct (Nat.eqb_spec (ird_type d) t); [rewrite qsum_cons, IH, inject_Z_plus; subst; ring|rewrite IH, Z.add_0_l; reflexivity].
Qed.

Lemma qsum_list : forall (A : Type) (f : A -> Q) d l, (qsum f l == qsum (fun k => f (nth k l d)) (seq 0 (length l)))%Q.
Proof.
  intros A f d l. induction l as [|x l IH]; [reflexivity|]. rewrite qsum_cons, IH. cbn [length seq]. rewrite qsum_cons. cbn [nth].
  rewrite <- seq_shift, qsum_map. reflexivity.
Qed.

Lemma fold_qsum : forall (A : Type) (f : A -> Q) l b, (fold_left (fun c x => (c + f x)%Q) l b == b + qsum f l)%Q.
Proof.
  intros A f l. induction l as [|x l IH]; intro b; cbn [fold_left]; [cbn; ring|]. rewrite IH, qsum_cons. ring.
Qed.

Lemma neg_sum : forall rs b, (fold_left (fun sum r => if res_penalize r && Qltb (res_penalty r) 0 then (sum - res_penalty r)%Q else sum) rs b
  == b + qsum (fun r => if res_penalize r && Qltb (res_penalty r) 0 then - res_penalty r else 0) rs)%Q.
Proof.
  induction rs as [|r rs IH]; intro b; cbn [fold_left]; [cbn; ring|]. rewrite IH, qsum_cons.
  destruct (res_penalize r && Qltb (res_penalty r) 0); ring.
Qed.

Lemma irpenalty_gain : forall i d, (- irpenalties i d <= negative_penalty_sum (ib_resources (irbin i (ird_type d))))%Q
  /\ (0 <= negative_penalty_sum (ib_resources (irbin i (ird_type d))))%Q.
Proof.
  intros i d. unfold negative_penalty_sum, irpenalties. set (rs := ib_resources (irbin i (ird_type d))). rewrite neg_sum. split.
  - assert (H : (qsum (fun r => -1 * (if res_penalize r && Qltb (res_capacity r) (irconsumption i r (ird_items d)) then res_penalty r else 0)) rs
      <= qsum (fun r => if res_penalize r && Qltb (res_penalty r) 0 then - res_penalty r else 0) rs)%Q).
    { apply qsum_le. intros r _. destruct (res_penalize r); cbn [andb]; [|lra].
      destruct (Qltb (res_penalty r) 0) eqn:E1; [apply Qltb_lt in E1|apply Qltb_ge in E1]; destruct (Qltb (res_capacity r) (irconsumption i r (ird_items d))); lra. }
    rewrite qsum_scale in H. lra.
  - assert (0 <= qsum (fun r => if res_penalize r && Qltb (res_penalty r) 0 then - res_penalty r else 0) rs)%Q; [|lra].
    apply qsum_nonneg. intros r _. destruct (res_penalize r && Qltb (res_penalty r) 0) eqn:E; [|lra]. apply andb_prop in E. destruct E as [_ E]. apply Qltb_lt in E. lra.
Qed.

Lemma irnet_bound : forall i ds, irvalid i ds -> (irnet_profit i ds <= irprofit i ds + irnegative_penalty_sum i)%Q.
Proof.
  intros i ds H. unfold irnet_profit. assert (G : (- qsum (irpenalties i) ds <= irnegative_penalty_sum i)%Q); [|lra].
  assert (H1 : (qsum (fun d => -1 * irpenalties i d) ds <= qsum (fun d => inject_Z (ird_copies d) * negative_penalty_sum (ib_resources (irbin i (ird_type d)))) ds)%Q).
  { apply qsum_le. intros d Hd. destruct (irpenalty_gain i d) as [G N]. destruct (pa_bins i ds H d Hd) as (_ & C & _).
    assert (1 <= inject_Z (ird_copies d))%Q by (change 1%Q with (inject_Z 1); rewrite <- Zle_Qle; exact C). nra. }
  rewrite qsum_scale in H1.
  rewrite (qsum_by_type (length (ir_bins i)) ds (fun t => negative_penalty_sum (ib_resources (irbin i t)))) in H1 by (intros d Hd; apply (pa_bins i ds H d Hd)).
  assert (H2 : (qsum (fun t => inject_Z (irused_bins t ds) * negative_penalty_sum (ib_resources (irbin i t))) (seq 0 (length (ir_bins i))) <= irnegative_penalty_sum i)%Q); [|lra].
  unfold irnegative_penalty_sum. rewrite fold_qsum, (qsum_list _ _ dummy_irbin), Qplus_0_l. apply qsum_le. intros t Ht. apply in_seq in Ht.
  destruct (iv_used i ds H t ltac:(lia)) as [_ B]. fold (irbin i t). destruct (irpenalty_gain i (mkIrD t 1 [])) as [_ N]. cbn [ird_type] in N.
  rewrite Zle_Qle in B. apply Qmult_le_compat_r; assumption.
Qed.

(** ** What the builder of the relaxation holds *)

Definition irbt1 (bt : IrBin) : BinType := mkBT (ib_length bt) (ib_cost bt) (ib_copies bt) (ib_copies_min bt) None [] [] [].
Definition irit1 (it : IrItem) : ItemType := mkIT (ii_length it) (ii_profit it) (ii_copies it) (-1) 0 0 max_item_pos None (-1) [].

Lemma relax_bin_ok : forall o its l bt, 0 < ib_length bt -> 1 <= ib_copies bt -> 0 <= ib_copies_min bt <= ib_copies bt -> (0 < ib_cost bt)%Q ->
  calls_from (mkB o its l []) (irrelax_bin_calls (length l) bt) = BOk (mkB o its (l ++ [irbt1 bt]) []).
Proof.
  intros o its l bt Ha Hc Hm Hp. unfold calls_from, irrelax_bin_calls. cbn [fold_left bthen bstep].
  unfold b_add_bin. destruct (Z.leb_spec (ib_length bt) 0); [lia|]. cbn [bthen]. unfold set_bins at 1. cbn [b_objective b_items b_bins b_orig_bins].
  unfold b_set_bin_cost. cbn [b_bins]. rewrite last_ok.
  assert (E1 : Qle_bool (ib_cost bt) 0 = false).
  { destruct (Qle_bool (ib_cost bt) 0) eqn:E; [|reflexivity]. apply Qle_bool_iff in E. lra. }
  assert (E2 : Qeq_bool (ib_cost bt) (-1) = false).
  { destruct (Qeq_bool (ib_cost bt) (-1)) eqn:E; [|reflexivity]. apply Qeq_bool_iff in E. lra. }
  rewrite E1, E2. cbn [andb]. rewrite on_last_bin. cbn [bthen bt_length bt_cost bt_copies bt_copies_min bt_max_weight bt_eligibility_ids bt_resources bt_item_type_ids].
  unfold b_set_bin_copies. cbn [b_bins]. rewrite last_ok, last_nth. cbn [bt_copies_min].
  replace ((ib_copies bt <=? 0) || (ib_copies bt <? 0)) with false by (symmetry; apply orb_false_iff; split; [apply Z.leb_gt|apply Z.ltb_ge]; lia).
  rewrite andb_false_r. rewrite on_last_bin. cbn [bthen bt_length bt_cost bt_copies bt_copies_min bt_max_weight bt_eligibility_ids bt_resources bt_item_type_ids].
  unfold b_set_bin_copies_min. cbn [b_bins]. rewrite last_ok, last_nth. cbn [bt_copies].
  destruct (Z.ltb_spec (ib_copies_min bt) 0); [lia|]. destruct (Z.ltb_spec (ib_copies bt) (ib_copies_min bt)); [lia|].
  rewrite andb_false_r. rewrite on_last_bin. reflexivity.
Qed.

Lemma relax_item_ok : forall o l bs it, 1 <= ii_copies it ->
  calls_from (mkB o l bs []) (irrelax_item_calls (length l) it) = BOk (mkB o (l ++ [irit1 it]) bs []).
Proof.
  intros o l bs it Hc. unfold calls_from, irrelax_item_calls. cbn [fold_left bthen bstep].
  unfold b_add_item. cbn [bthen]. unfold set_items at 1. cbn [b_objective b_items b_bins b_orig_bins].
  unfold b_set_item_profit. rewrite on_last_item. cbn [bthen it_length it_profit it_copies it_copies_min it_weight it_nesting it_stackability it_max_weight_after it_eligibility it_resource_ids].
  unfold b_set_item_copies. cbn [b_items]. rewrite last_ok.
  replace (ii_copies it <=? 0) with false by (symmetry; apply Z.leb_gt; lia). rewrite andb_false_r, on_last_item. reflexivity.
Qed.

Lemma relax_bins_ok : forall o its suf pre,
  (forall bt, In bt suf -> 0 < ib_length bt /\ 1 <= ib_copies bt /\ 0 <= ib_copies_min bt <= ib_copies bt /\ (0 < ib_cost bt)%Q) ->
  calls_from (mkB o its (map irbt1 pre) []) (flat_map (fun p => irrelax_bin_calls (fst p) (snd p)) (combine (seq (length pre) (length suf)) suf))
  = BOk (mkB o its (map irbt1 (pre ++ suf)) []).
Proof.
  intros o its suf. induction suf as [|bt suf IH]; intros pre H.
  - rewrite app_nil_r. reflexivity.
  - cbn [length seq combine flat_map fst snd]. rewrite calls_app. destruct (H bt (or_introl eq_refl)) as (A & B & C & D).
    rewrite <- (map_length irbt1 pre) at 1. rewrite relax_bin_ok by assumption. cbn [bthen].
    specialize (IH (pre ++ [bt])). rewrite app_length, map_app in IH. cbn [length map] in IH. rewrite Nat.add_1_r in IH.
    rewrite IH by (intros b Hb; apply H; right; exact Hb). rewrite <- app_assoc. reflexivity.
Qed.

Lemma relax_items_ok : forall o bs suf pre, (forall it, In it suf -> 1 <= ii_copies it) ->
  calls_from (mkB o (map irit1 pre) bs []) (flat_map (fun p => irrelax_item_calls (fst p) (snd p)) (combine (seq (length pre) (length suf)) suf))
  = BOk (mkB o (map irit1 (pre ++ suf)) bs []).
Proof.
  intros o bs suf. induction suf as [|it suf IH]; intros pre H.
  - rewrite app_nil_r. reflexivity.
  - cbn [length seq combine flat_map fst snd]. rewrite calls_app. specialize (H it (or_introl eq_refl)) as Hc.
    rewrite <- (map_length irit1 pre) at 1. rewrite relax_item_ok by assumption. cbn [bthen].
    specialize (IH (pre ++ [it])). rewrite app_length, map_app in IH. cbn [length map] in IH. rewrite Nat.add_1_r in IH.
    rewrite IH by (intros b Hb; apply H; right; exact Hb). rewrite <- app_assoc. reflexivity.
Qed.

Section Relax.
Variable i : IrInstance.
Hypothesis Hr : relax_ok i.

Let n := length (ir_items i).
Let m := length (ir_bins i).

Lemma item_pos : forall it, In it (ir_items i) -> 0 < ii_length it /\ 1 <= ii_copies it.
Proof.
  intros it H. destruct Hr as [P R]. split; [|apply (ipr_items i P it H)]. unfold ii_length.
  assert (Q1 : (1 <= ii_scaled it)%Q) by (apply (iro_items i R it H)). apply Qfloor_resp_le in Q1. change (Qfloor 1) with 1 in Q1. lia.
Qed.

Lemma bin_pos : forall bt, In bt (ir_bins i) -> 0 < ib_length bt.
Proof.
  intros bt H. destruct Hr as [P R]. pose proof (iro_bins i R bt H) as G. pose proof (Qle_ceiling (ib_scaled bt)) as C. unfold ib_length.
  rewrite Zlt_Qlt. change (inject_Z 0) with 0%Q. lra.
Qed.

Lemma relaxed_all : irrelaxed_items i = ir_items i.
Proof.
  unfold irrelaxed_items. assert (H : forall it, In it (ir_items i) -> negb (ii_length it =? 0) = true).
  { intros it Hit. apply negb_true_iff, Z.eqb_neq. pose proof (item_pos it Hit). lia. }
  revert H. generalize (ir_items i). intro l. induction l as [|x l IH]; intro H; [reflexivity|].
  cbn [filter]. rewrite (H x (or_introl eq_refl)), IH; [reflexivity|]. intros it Hit. apply H. right. exact Hit.
Qed.

Definition builder1 : Builder := mkB (Some (ir_objective i)) (map irit1 (ir_items i)) (map irbt1 (ir_bins i)) [].

Lemma relax_builder : calls_from b_new (irrelax_calls i) = BOk builder1.
Proof.
  unfold irrelax_calls. rewrite relaxed_all.
  change (calls_from (mkB (Some (ir_objective i)) (map irit1 []) (map irbt1 []) [])
    (flat_map (fun p => irrelax_bin_calls (fst p) (snd p)) (combine (seq (length (@nil IrBin)) (length (ir_bins i))) (ir_bins i))
     ++ flat_map (fun p => irrelax_item_calls (fst p) (snd p)) (combine (seq (length (@nil IrItem)) (length (ir_items i))) (ir_items i))) = BOk builder1).
  rewrite calls_app, relax_bins_ok.
  - cbn [bthen app]. rewrite relax_items_ok; [reflexivity|]. intros it Hit. apply item_pos. exact Hit.
  - intros bt Hbt. destruct (re_bins i Hr bt Hbt) as (_ & _ & C & D & E). pose proof (bin_pos bt Hbt). repeat split; try assumption; lia.
Qed.

Lemma relax_builds : (ir_objective i = OBinPacking -> forall bt, In bt (ir_bins i) -> ib_copies_min bt = 0) ->
  exists i1, b_build builder1 = Built i1.
Proof.
  intro Hmin. unfold b_build, builder1. cbn [b_objective b_items b_bins].
  assert (F : find (fun t => (it_copies t <? it_copies_min t) || (it_length t =? 0)) (map (resolve_min (ir_objective i)) (map irit1 (ir_items i))) = None).
  { rewrite map_map. assert (G : forall it, In it (ir_items i) -> 0 < ii_length it /\ 1 <= ii_copies it) by exact item_pos. revert G.
    generalize (ir_items i). intro l. induction l as [|it l IH]; intro G; [reflexivity|]. cbn [map find].
    destruct (G it (or_introl eq_refl)) as [G1 G2].
    assert (E : (it_copies (resolve_min (ir_objective i) (irit1 it)) <? it_copies_min (resolve_min (ir_objective i) (irit1 it)))
      || (it_length (resolve_min (ir_objective i) (irit1 it)) =? 0) = false).
    { cbn [resolve_min irit1 it_copies it_copies_min it_length Z.eqb]. apply orb_false_iff. split; [|apply Z.eqb_neq; lia].
      apply Z.ltb_ge. destruct (ir_objective i); cbn; lia. }
    rewrite E. apply IH. intros x Hx. apply G. right. exact Hx. }
  rewrite F.
  assert (E1 : existsb (fun t => match ir_objective i with OBinPacking => 0 <? bt_copies_min t | _ => false end) (map irbt1 (ir_bins i)) = false).
  { destruct (existsb _ _) eqn:E; [|reflexivity]. apply existsb_exists in E. destruct E as (t & Ht & E).
    apply in_map_iff in Ht. destruct Ht as (bt & <- & Hbt). destruct (ir_objective i); try discriminate.
    cbn [irbt1 bt_copies_min] in E. rewrite (Hmin eq_refl bt Hbt) in E. discriminate. }
  rewrite E1.
  assert (E2 : forall f : Resource -> bool, existsb (fun t => existsb f (bt_resources t)) (map irbt1 (ir_bins i)) = false).
  { intro f. generalize (ir_bins i). clear. intro l. induction l as [|bt l IH]; [reflexivity|]. exact IH. }
  rewrite E2. destruct (expand_bins _) as [[ids prev] tot]. eexists. reflexivity.
Qed.

(** ** Packings of the relaxation *)

Variable i1 : Instance.
Hypothesis Hb1 : b_build builder1 = Built i1.

Let HD : holds_data builder1 i1 := build_holds builder1 i1 Hb1.

Lemma objective1 : in_objective i1 = ir_objective i.
Proof. pose proof (hd_objective _ _ HD) as H. cbn in H. congruence. Qed.

Lemma items1 : length (in_item_types i1) = n /\ forall x, (x < n)%nat ->
  it_length (item_type i1 x) = ii_length (iritem i x) /\ it_profit (item_type i1 x) = ii_profit (iritem i x) /\ it_copies (item_type i1 x) = ii_copies (iritem i x)
  /\ it_nesting (item_type i1 x) = 0 /\ it_stackability (item_type i1 x) = max_item_pos /\ it_max_weight_after (item_type i1 x) = None
  /\ it_eligibility (item_type i1 x) = -1
  /\ it_copies_min (item_type i1 x) = match ir_objective i with OKnapsack => 0 | _ => ii_copies (iritem i x) end.
Proof.
  destruct (hd_items _ _ HD) as [H1 H2]. cbn [builder1 b_items] in H1, H2. rewrite map_length in H1, H2. split; [exact H1|].
  intros x Hx. specialize (H2 x Hx). cbv zeta in H2.
  assert (E : nth x (map irit1 (ir_items i)) dummy_item = irit1 (iritem i x)).
  { rewrite (nth_indep _ dummy_item (irit1 dummy_iritem)) by (rewrite map_length; exact Hx). apply map_nth. }
  rewrite E in H2. cbn [irit1 it_length it_profit it_copies it_copies_min it_weight it_nesting it_stackability it_max_weight_after it_eligibility Z.eqb] in H2.
  rewrite objective1 in H2. tauto.
Qed.

Lemma bins1 : length (in_bin_types i1) = m /\ forall t, (t < m)%nat ->
  bt_length (bin_type i1 t) = ib_length (irbin i t) /\ bt_cost (bin_type i1 t) = ib_cost (irbin i t) /\ bt_copies (bin_type i1 t) = ib_copies (irbin i t)
  /\ bt_copies_min (bin_type i1 t) = ib_copies_min (irbin i t) /\ bt_max_weight (bin_type i1 t) = None /\ bt_resources (bin_type i1 t) = [].
Proof.
  destruct (hd_bins _ _ HD) as [H1 H2]. cbn [builder1 b_bins] in H1, H2. rewrite map_length in H1, H2. split; [exact H1|].
  intros t Ht. specialize (H2 t Ht). cbv zeta in H2.
  assert (E : nth t (map irbt1 (ir_bins i)) dummy_bin = irbt1 (irbin i t)).
  { rewrite (nth_indep _ dummy_bin (irbt1 dummy_irbin)) by (rewrite map_length; exact Ht). apply map_nth. }
  rewrite E in H2. cbn [irbt1 bt_length bt_cost bt_copies bt_copies_min bt_max_weight bt_eligibility_ids bt_resources] in H2.
  assert (C : ib_copies (irbin i t) =? -1 = false).
  { apply Z.eqb_neq. destruct (re_bins i Hr (irbin i t)) as (_ & _ & C & _); [apply nth_In; exact Ht|]. lia. }
  rewrite C in H2. tauto.
Qed.

Section Packing.
Variable ds : list IrDesc.
Hypothesis Hp : irvalid i ds.

Let ds1 := map irrelax_desc ds.

Lemma types_ok : forall d, In d ds -> forall p, In p (ird_items d) -> (ip_type p < n)%nat.
Proof. intros d Hd p Hq. destruct (pa_bins i ds Hp d Hd) as (_ & _ & G). apply (ig_items i d G p Hq). Qed.

Lemma count_relax : forall ps x, Z.of_nat (count_occ Nat.eq_dec (map ip_type ps) x) = ircount x ps.
Proof.
  intros ps x. unfold ircount. f_equal. induction ps as [|p ps IH]; [reflexivity|]. cbn [map count_occ filter].
  destruct (Nat.eq_dec (ip_type p) x) as [E|E]; destruct (Nat.eqb_spec (ip_type p) x); try contradiction; cbn [length]; rewrite IH; reflexivity.
Qed.

Lemma packed_relax : forall x, packed x ds1 = irpacked x ds.
Proof.
  intro x. unfold packed, irpacked, ds1. rewrite zsum_map. apply zsum_ext. intros d _. cbn [irrelax_desc bd_copies bd_items]. rewrite count_relax. reflexivity.
Qed.

Lemma used_relax : forall t, used_bins t ds1 = irused_bins t ds.
Proof. intro t. unfold used_bins, irused_bins, ds1. rewrite zsum_map. reflexivity. Qed.

Lemma area_fits : forall d, In d ds -> zsum (fun p => ii_length (iritem i (ip_type p))) (ird_items d) <= ib_length (irbin i (ird_type d)).
Proof.
  intros d Hd. destruct (pa_bins i ds Hp d Hd) as (Ht & _ & G). pose proof (ig_scaled i d G) as S1. unfold ib_length.
  rewrite Zle_Qle. eapply Qle_trans; [|apply Qle_ceiling]. eapply Qle_trans; [|exact S1].
  rewrite <- qsum_inject. apply qsum_le. intros p _. unfold ii_length. apply Qfloor_le.
Qed.

Lemma bin_end_plain : forall l, (forall x, In x l -> (x < n)%nat) -> bin_end i1 l = zsum (fun x => ii_length (iritem i x)) l.
Proof.
  intros l H. unfold bin_end.
  rewrite (zsum_ext _ (fun x => it_length (item_type i1 x)) (fun x => ii_length (iritem i x))) by (intros x Hx; destruct items1 as [_ I]; apply (I x (H x Hx))).
  rewrite (zsum_zero _ (fun x => it_nesting (item_type i1 x))); [lia|].
  intros x Hx. destruct items1 as [_ I]. apply (I x). apply H. destruct l; [destruct Hx|right; exact Hx].
Qed.

Lemma small_bins : forall d, In d ds -> Z.of_nat (length (ird_items d)) <= irnumber_of_items i.
Proof.
  intros d Hd. pose proof (irpacked_sum n ds (fun _ => 1) types_ok) as E. cbv beta in E.
  assert (A : zsum (fun j => irpacked j ds * 1) (seq 0 n) <= irnumber_of_items i).
  { unfold irnumber_of_items. rewrite (zsum_seq_nth _ _ dummy_iritem (ir_items i)). fold n. apply zsum_le. intros x Hx. apply in_seq in Hx.
    pose proof (pa_copies i ds Hp x ltac:(fold n; lia)). unfold iritem in *. lia. }
  assert (B : Z.of_nat (length (ird_items d)) <= zsum (fun d => ird_copies d * zsum (fun p : IrPlace => 1) (ird_items d)) ds).
  { assert (L : forall ps : list IrPlace, zsum (fun _ => 1) ps = Z.of_nat (length ps)).
    { induction ps as [|p ps IH]; [reflexivity|]. rewrite zsum_cons, IH. cbn [length]. lia. }
    apply in_split in Hd. destruct Hd as (l1 & l2 & E2).
    assert (P : forall e, In e ds -> 0 <= ird_copies e * zsum (fun p : IrPlace => 1) (ird_items e)).
    { intros e He. destruct (pa_bins i ds Hp e He) as (_ & C & _). rewrite L. apply Z.mul_nonneg_nonneg; lia. }
    assert (C1 : 1 <= ird_copies d) by (apply (pa_bins i ds Hp d); rewrite E2; apply in_elt).
    rewrite E2 in P |- *. rewrite zsum_app, zsum_cons.
    assert (0 <= zsum (fun d0 => ird_copies d0 * zsum (fun _ : IrPlace => 1) (ird_items d0)) l1) by (apply zsum_nonneg; intros e He; apply P; apply in_or_app; left; exact He).
    assert (0 <= zsum (fun d0 => ird_copies d0 * zsum (fun _ : IrPlace => 1) (ird_items d0)) l2) by (apply zsum_nonneg; intros e He; apply P; apply in_or_app; right; right; exact He).
    rewrite L in *. nia. }
  lia.
Qed.

Lemma relax_packing : (ir_objective i <> OKnapsack -> irall_packed i ds) -> PackingOK i1 ds1.
Proof.
  intro Hall. destruct items1 as [L1 I1]. destruct bins1 as [M1 B1]. constructor.
  - intros d1 Hd1. apply in_map_iff in Hd1. destruct Hd1 as (d & <- & Hd).
    destruct (pa_bins i ds Hp d Hd) as (Ht & _ & _). destruct (B1 (ird_type d) Ht) as (E1 & _ & _ & _ & E5 & E6).
    assert (Hin : forall x, In x (map ip_type (ird_items d)) -> (x < n)%nat).
    { intros x Hx. apply in_map_iff in Hx. destruct Hx as (p & <- & Hq). apply (types_ok d Hd p Hq). }
    pose proof (area_fits d Hd) as Hf. rewrite <- (zsum_map _ _ ip_type (fun x => ii_length (iritem i x))) in Hf.
    constructor; cbn [irrelax_desc bd_type bd_items]; rewrite ?E1, ?E5, ?E6.
    + intros p x q E. rewrite <- end_snoc1.
      assert (Hpx : forall y, In y (p ++ [x]) -> (y < n)%nat) by (intros y Hy; apply Hin; rewrite E; apply in_app_iff; apply in_app_iff in Hy; destruct Hy as [Hy|[Hy|[]]]; [left; exact Hy|right; left; exact Hy]).
      rewrite bin_end_plain by exact Hpx. rewrite E in Hf. replace (p ++ x :: q) with ((p ++ [x]) ++ q) in Hf by (rewrite <- app_assoc; reflexivity).
      rewrite zsum_app in Hf. assert (0 <= zsum (fun x0 => ii_length (iritem i x0)) q); [|lia].
      apply zsum_nonneg. intros y Hy. assert (Hy' : (y < n)%nat) by (apply Hin; rewrite E; apply in_or_app; right; right; exact Hy).
      destruct (item_pos (iritem i y) (nth_In _ _ Hy')). lia.
    + intros p x q _. exact Logic.I.
    + intros x Hx. destruct (I1 x (Hin x Hx)) as (_ & _ & _ & _ & E & _). rewrite E, map_length.
      pose proof (small_bins d Hd). destruct Hr as [_ R]. pose proof (iro_size i R). unfold irnumber_of_items in *. lia.
    + intros a x mm b E. destruct (I1 x) as (_ & _ & _ & _ & _ & E' & _); [apply Hin; rewrite E; apply in_elt|]. rewrite E'. exact Logic.I.
    + intros x Hx. left. apply (I1 x (Hin x Hx)).
    + intros r [].
  - intros d1 x Hd1 Hx. apply in_map_iff in Hd1. destruct Hd1 as (d & <- & Hd). cbn [irrelax_desc bd_items] in Hx.
    apply in_map_iff in Hx. destruct Hx as (p & <- & Hq). pose proof (types_ok d Hd p Hq) as T. rewrite packed_relax.
    destruct (I1 _ T) as (_ & _ & E & _). rewrite E. apply (pa_copies i ds Hp). exact T.
  - intros x Hx. rewrite L1 in Hx. rewrite packed_relax. destruct (I1 x Hx) as (_ & _ & _ & _ & _ & _ & _ & E). rewrite E.
    assert (N : 0 <= irpacked x ds).
    { apply zsum_nonneg. intros d Hd. destruct (pa_bins i ds Hp d Hd) as (_ & C & _). apply Z.mul_nonneg_nonneg; unfold ircount; lia. }
    destruct (ir_objective i) eqn:EO; try exact N; rewrite (Hall ltac:(discriminate) x Hx); apply Z.le_refl.
Qed.

Lemma relax_available : (forall t, (t < m)%nat -> irused_bins t ds <= ib_copies (irbin i t)) -> available_bins i1 ds1.
Proof.
  intro H. destruct bins1 as [M1 B1]. split.
  - intros d1 Hd1. apply in_map_iff in Hd1. destruct Hd1 as (d & <- & Hd). cbn [irrelax_desc bd_type bd_copies].
    destruct (pa_bins i ds Hp d Hd) as (Ht & C & _). rewrite M1. split; assumption.
  - intros t Ht. rewrite M1 in Ht. rewrite used_relax. destruct (B1 t Ht) as (_ & _ & E & _). rewrite E. apply H. exact Ht.
Qed.

Lemma relax_all : irall_packed i ds -> all_packed i1 ds1.
Proof.
  intros H x Hx. destruct items1 as [L1 I1]. rewrite L1 in Hx. rewrite packed_relax. destruct (I1 x Hx) as (_ & _ & E & _). rewrite E. apply H. exact Hx.
Qed.

Lemma relax_order : irin_order i ds -> OrderOK i1 ds1.
Proof.
  intros H t u Htu Hu. destruct bins1 as [M1 B1]. rewrite M1 in Htu. rewrite used_relax in *.
  destruct (B1 t ltac:(lia)) as (_ & _ & E & _). rewrite E. apply (H t u); assumption.
Qed.

Lemma relax_profit : (profit_of i1 ds1 == irprofit i ds)%Q.
Proof.
  unfold profit_of, irprofit, ds1. rewrite qsum_map. apply qsum_ext. intros d Hd. cbn [irrelax_desc bd_copies bd_items].
  destruct bins1 as [M1 B1]. destruct (pa_bins i ds Hp d Hd) as (Ht & _ & _). destruct (B1 (ird_type d) Ht) as (_ & _ & _ & _ & _ & E6).
  unfold penalties. cbn [irrelax_desc bd_type]. rewrite E6. change (qsum _ (@nil Resource)) with 0%Q.
  rewrite qsum_map, (qsum_ext _ (fun p => it_profit (item_type i1 (ip_type p))) (fun p => ii_profit (iritem i (ip_type p)))); [ring|].
  intros p Hq. destruct items1 as [_ I1]. destruct (I1 _ (types_ok d Hd p Hq)) as (_ & E & _). rewrite E. reflexivity.
Qed.

Lemma relax_cost : (cost_of i1 ds1 == irpacking_cost i ds)%Q.
Proof.
  unfold cost_of, irpacking_cost, ds1. rewrite qsum_map. apply qsum_ext. intros d Hd. cbn [irrelax_desc bd_copies bd_type].
  destruct bins1 as [M1 B1]. destruct (pa_bins i ds Hp d Hd) as (Ht & _ & _). destruct (B1 (ird_type d) Ht) as (_ & E & _). rewrite E. reflexivity.
Qed.

Lemma relax_count : zsum bd_copies ds1 = irbins_used ds.
Proof. unfold irbins_used, ds1. rewrite zsum_map. reflexivity. Qed.

End Packing.
End Relax.

(** ** The claims of the relaxation *)

Theorem onedimensional_right : forall i solve, irproper i -> irroundable i ->
  ir_objective i = OBinPacking \/ ir_objective i = OKnapsack \/ ir_objective i = OVariableSizedBinPacking ->
  (ir_objective i = OBinPacking -> forall bt, In bt (ir_bins i) -> ib_copies_min bt = 0) ->
  (forall i1, bounds1_right i1 (solve i1)) ->
  irclaim_right i (iroptimize_onedimensional_bound solve i).
Proof.
  intros i solve Hr1 Hr2 Ho Hmin Hs. pose proof (conj Hr1 Hr2 : relax_ok i) as Hr. unfold iroptimize_onedimensional_bound. rewrite (relax_builder i Hr).
  destruct (relax_builds i Hr Hmin) as (i1 & Hb1). rewrite Hb1. specialize (Hs i1).
  destruct Ho as [E|[E|E]]; rewrite E; cbn [irclaim_right].
  - intros ds BP Hall Hord. pose proof (BP) as Hp. rewrite <- relax_count. apply (br_bins _ _ Hs).
    + apply (relax_packing i Hr i1 Hb1 ds Hp). intros _. exact Hall.
    + apply (relax_available i Hr i1 Hb1 ds Hp). intros t Ht. apply (iv_used _ _ BP t Ht).
    + apply (relax_all i i1 Hb1 ds Hall).
    + apply (relax_order i Hr i1 Hb1 ds Hord).
  - intros ds BP. pose proof (BP) as Hp. pose proof (irnet_bound i ds BP) as N.
    assert (P : (profit_of i1 (map irrelax_desc ds) <= b1_profit (solve i1))%Q).
    { apply (br_profit _ _ Hs).
      - rewrite (objective1 i i1 Hb1). exact E.
      - apply (relax_packing i Hr i1 Hb1 ds Hp). intro N'. contradiction.
      - apply (relax_available i Hr i1 Hb1 ds Hp). intros t Ht. apply (iv_used _ _ BP t Ht). }
    rewrite (relax_profit i Hr i1 Hb1 ds Hp) in P. lra.
  - intros ds BP Hall. pose proof (BP) as Hp. rewrite <- (relax_cost i Hr i1 Hb1 ds Hp). apply (br_cost _ _ Hs).
    + apply (relax_packing i Hr i1 Hb1 ds Hp). intros _. exact Hall.
    + apply (relax_available i Hr i1 Hb1 ds Hp). intros t Ht. apply (iv_used _ _ BP t Ht).
    + apply (relax_all i i1 Hb1 ds Hall).
    + intros t Ht. destruct (bins1 i Hr i1 Hb1) as [M1 B1]. rewrite M1 in Ht. rewrite used_relax. destruct (B1 t Ht) as (_ & _ & _ & E4 & _). rewrite E4.
      apply (iv_used _ _ BP t Ht).
Qed.

(** ** Trivial bounds *)

Section Trivial.
Variable i : IrInstance.
Hypothesis Hr : irproper i.
Variable ds : list IrDesc.
Hypothesis BP : irvalid i ds.

Let n := length (ir_items i).
Let m := length (ir_bins i).

Lemma ttypes : forall d, In d ds -> forall p, In p (ird_items d) -> (ip_type p < n)%nat.
Proof. intros d Hd p Hq. destruct (pa_bins i ds BP d Hd) as (_ & _ & G). apply (ig_items i d G p Hq). Qed.

Lemma tpacked_ge0 : forall j, 0 <= irpacked j ds.
Proof. intro j. apply zsum_nonneg. intros d Hd. destruct (pa_bins i ds BP d Hd) as (_ & C & _). apply Z.mul_nonneg_nonneg; unfold ircount; lia. Qed.

Lemma tused_ge0 : forall t, 0 <= irused_bins t ds.
Proof. intro t. apply zsum_nonneg. intros d Hd. destruct (pa_bins i ds BP d Hd) as (_ & C & _). destruct (Nat.eqb (ird_type d) t); lia. Qed.

Lemma tpacked_area : (qsum (fun j => inject_Z (irpacked j ds) * ii_area (iritem i j)) (seq 0 n)
  <= qsum (fun t => inject_Z (irused_bins t ds) * ib_area (irbin i t)) (seq 0 m))%Q.
Proof.
  rewrite (irqpacked_sum n ds (fun j => ii_area (iritem i j)) ttypes).
  rewrite <- (qsum_by_type m ds (fun t => ib_area (irbin i t))) by (intros d Hd; apply (pa_bins i ds BP d Hd)).
  apply qsum_le. intros d Hd. destruct (pa_bins i ds BP d Hd) as (_ & C & G). pose proof (ig_area i d G) as A. unfold irarea in A.
  assert (0 <= inject_Z (ird_copies d))%Q by (change 0%Q with (inject_Z 0); rewrite <- Zle_Qle; lia).
  rewrite !(Qmult_comm (inject_Z (ird_copies d))). apply Qmult_le_compat_r; assumption.
Qed.

Lemma tcapacity : (ircapacity i == qsum (fun t => ib_area (irbin i t) * inject_Z (ib_copies (irbin i t))) (seq 0 m))%Q.
Proof. unfold ircapacity. rewrite fold_qsum, (qsum_list _ _ dummy_irbin). fold m. rewrite Qplus_0_l. reflexivity. Qed.

Lemma tbin_area : forall t, (t < m)%nat -> (0 < ib_area (irbin i t))%Q.
Proof. intros t Ht. apply (ipr_bins i Hr). apply nth_In. exact Ht. Qed.

Lemma tused_area : (qsum (fun t => inject_Z (irused_bins t ds) * ib_area (irbin i t)) (seq 0 m) <= ircapacity i)%Q.
Proof.
  rewrite tcapacity. apply qsum_le. intros t Ht. apply in_seq in Ht. pose proof (tbin_area t ltac:(lia)) as A.
  destruct (iv_used i ds BP t ltac:(fold m; lia)) as [_ B]. rewrite Zle_Qle in B. rewrite (Qmult_comm (ib_area _)). apply Qmult_le_compat_r; lra.
Qed.

(** A packed item type fits some bin type. *)
Lemma tpacked_fits : forall x, irpacked x ds <> 0 -> irfits_some_bin i x = true.
Proof.
  intros x Hx. assert (H : exists d p, In d ds /\ In p (ird_items d) /\ ip_type p = x).
  { unfold irpacked in Hx. clear BP. induction ds as [|d l IH]; [contradiction Hx; reflexivity|]. rewrite zsum_cons in Hx.
    destruct (Z.eq_dec (ircount x (ird_items d)) 0) as [E|E].
    - rewrite E, Z.mul_0_r in Hx. destruct (IH Hx) as (e & p & A & B). exists e, p. split; [right; exact A|exact B].
    - unfold ircount in E. destruct (filter (fun p => Nat.eqb (ip_type p) x) (ird_items d)) as [|p r] eqn:F; [contradiction E; reflexivity|].
      assert (G : In p (filter (fun p => Nat.eqb (ip_type p) x) (ird_items d))) by (rewrite F; left; reflexivity).
      apply filter_In in G. destruct G as [G1 G2]. exists d, p. split; [left; reflexivity|]. split; [exact G1|apply Nat.eqb_eq; exact G2]. }
  destruct H as (d & p & Hd & Hq & <-). destruct (pa_bins i ds BP d Hd) as (Ht & _ & G).
  unfold irfits_some_bin. destruct (only_discrete (iritem i (ip_type p))) eqn:E; cbn [negb]; [|reflexivity].
  destruct (ig_orientation i d G p Hq) as (r & R1 & R2 & R3 & R4). apply existsb_exists. exists r. split; [exact R1|].
  unfold only_discrete in E. rewrite forallb_forall in E. specialize (E r R1). apply Qeq_bool_iff in E.
  destruct (ipr_items i Hr (iritem i (ip_type p)) (nth_In _ _ (ttypes d Hd p Hq))) as (_ & _ & _ & D).
  assert (EA : (irr_start r == ip_angle p)%Q) by lra. rewrite (D _ _ (irr_mirror r) EA), R2.
  apply existsb_exists. exists (irbin i (ird_type d)). split; [apply nth_In; exact Ht|].
  destruct (ig_inside i d G p Hq) as (I1 & I2 & I3 & I4). cbn [place_box ix_min ix_max iy_min iy_max] in I1, I2, I3, I4.
  unfold box_width, box_height. apply andb_true_iff. split; apply Qle_bool_iff; lra.
Qed.

(** The greedy filling is at least any choice that fits; [over] is what the choice has
    above the remaining capacity, worth at most [rho] per unit. *)
Lemma fill_upper : forall (c : nat -> Q) order R b rho over,
  StronglySorted (fun x y => irtrivial_before i y x = false) order ->
  (forall j, In j order -> 0 <= ii_profit (iritem i j) /\ 0 < ii_area (iritem i j) /\ 0 <= c j /\ c j <= inject_Z (ii_copies (iritem i j))
     /\ ii_profit (iritem i j) <= rho * ii_area (iritem i j))%Q ->
  (0 <= rho -> 0 <= R -> 0 <= over -> qsum (fun j => c j * ii_area (iritem i j)) order <= R + over ->
   b + qsum (fun j => c j * ii_profit (iritem i j)) order <= irtrivial_fill i order R b + rho * over)%Q.
Proof.
  intros c order. induction order as [|x l IH]; intros R b rho over Hs Hj Hrho HR Hover Hsum.
  - cbn [irtrivial_fill]. change (qsum _ []) with 0%Q. assert (0 <= rho * over)%Q by (apply Qmult_le_0_compat; assumption). lra.
  - inversion Hs as [|? ? Hs' Hx]; subst. rewrite Forall_forall in Hx.
    destruct (Hj x (or_introl eq_refl)) as (P & A & C1 & C2 & RA). rewrite qsum_cons in Hsum |- *. cbn [irtrivial_fill]. cbv zeta.
    set (p := ii_profit (iritem i x)) in *. set (a := ii_area (iritem i x)) in *. set (k := inject_Z (ii_copies (iritem i x))) in *. set (cx := c x) in *.
    set (SA := qsum (fun j => c j * ii_area (iritem i j))%Q l) in *. set (SP := qsum (fun j => c j * ii_profit (iritem i j))%Q l) in *.
    assert (HSA : (0 <= SA)%Q).
    { apply qsum_nonneg. intros j Hjl. destruct (Hj j (or_intror Hjl)) as (_ & A' & C' & _). apply Qmult_le_0_compat; lra. }
    destruct (Qle_bool R 0) eqn:E0.
    + apply Qle_bool_iff in E0.
      assert (HSP : (SP <= rho * SA)%Q).
      { unfold SP, SA. rewrite <- qsum_scale. apply qsum_le. intros j Hjl. destruct (Hj j (or_intror Hjl)) as (_ & _ & C' & _ & R').
        setoid_replace (rho * (c j * ii_area (iritem i j)))%Q with (c j * (rho * ii_area (iritem i j)))%Q by ring.
        rewrite !(Qmult_comm (c j)). apply Qmult_le_compat_r; assumption. }
      assert (H1 : (cx * p <= rho * (cx * a))%Q).
      { setoid_replace (rho * (cx * a))%Q with (cx * (rho * a))%Q by ring. rewrite !(Qmult_comm cx). apply Qmult_le_compat_r; assumption. }
      assert (H2 : (rho * (cx * a + SA) <= rho * over)%Q).
      { rewrite !(Qmult_comm rho). apply Qmult_le_compat_r; lra. }
      lra.
    + assert (E0' : (0 < R)%Q). { destruct (Qlt_le_dec 0 R) as [L|L]; [exact L|]. apply Qle_bool_iff in L. congruence. }
      assert (Ea : Qle_bool a 0 = false).
      { destruct (Qle_bool a 0) eqn:E; [|reflexivity]. apply Qle_bool_iff in E. lra. }
      rewrite Ea. set (r2 := (p / a)%Q).
      assert (R2a : (r2 * a == p)%Q) by (unfold r2; field; lra).
      assert (R20 : (0 <= r2)%Q) by (unfold r2; apply Qle_shift_div_l; [exact A|lra]).
      assert (R2r : (r2 * over <= rho * over)%Q).
      { apply Qmult_le_compat_r; [|exact Hover]. unfold r2. apply Qle_shift_div_r; assumption. }
      assert (Hj2 : forall j, In j l -> (0 <= ii_profit (iritem i j) /\ 0 < ii_area (iritem i j) /\ 0 <= c j /\ c j <= inject_Z (ii_copies (iritem i j))
        /\ ii_profit (iritem i j) <= r2 * ii_area (iritem i j))%Q).
      { intros j Hjl. destruct (Hj j (or_intror Hjl)) as (P' & A' & C1' & C2' & _). split; [exact P'|]. split; [exact A'|]. split; [exact C1'|]. split; [exact C2'|].
        specialize (Hx j Hjl). unfold irtrivial_before in Hx. apply Qltb_ge in Hx. fold p a in Hx.
        unfold r2. setoid_replace (p / a * ii_area (iritem i j))%Q with ((p * ii_area (iritem i j)) / a)%Q by (field; lra).
        apply Qle_shift_div_l; [exact A|]. lra. }
      destruct (Qle_bool (a * k) R) eqn:E1.
      * apply Qle_bool_iff in E1.
        assert (O2 : (0 <= (k - cx) * a)%Q) by (apply Qmult_le_0_compat; lra).
        assert (G := IH (R - a * k)%Q (b + p * k)%Q r2 (over + (k - cx) * a)%Q Hs' Hj2 R20 ltac:(lra) ltac:(lra) ltac:(fold SA; lra)).
        fold SP in G. assert (EQ : (r2 * (over + (k - cx) * a) == r2 * over + (k - cx) * p)%Q).
        { setoid_replace (r2 * (over + (k - cx) * a))%Q with (r2 * over + (k - cx) * (r2 * a))%Q by ring. rewrite R2a. reflexivity. }
        rewrite EQ in G. lra.
      * assert (G := IH 0%Q (b + p * (R / a))%Q r2 (over + R - cx * a)%Q Hs' Hj2 R20 ltac:(lra) ltac:(lra) ltac:(fold SA; lra)).
        fold SP in G. assert (EQ : (r2 * (over + R - cx * a) == r2 * over + p * (R / a) - cx * p)%Q).
        { setoid_replace (r2 * (over + R - cx * a))%Q with (r2 * over + r2 * R - cx * (r2 * a))%Q by ring. rewrite R2a. unfold r2. field. lra. }
        rewrite EQ in G. lra.
Qed.

Lemma irtrivial_knapsack_valid : forall order,
  (forall it, In it (ir_items i) -> (0 <= ii_profit it)%Q) ->
  sorted_by (irtrivial_before i) (irtrivial_items i) order ->
  (irnet_profit i ds <= irtrivial_knapsack i order)%Q.
Proof.
  intros order Hprofit [Hperm Hsort]. pose proof (irnet_bound i ds BP) as HN. unfold irtrivial_knapsack.
  assert (HS : (irprofit i ds == qsum (fun j => inject_Z (irpacked j ds) * ii_profit (iritem i j)) (seq 0 n))%Q).
  { unfold irprofit. rewrite (irqpacked_sum n ds (fun j => ii_profit (iritem i j)) ttypes). reflexivity. }
  assert (Hin : forall j, In j order -> (j < n)%nat).
  { intros j Hj. apply (Permutation_in j (Permutation_sym Hperm)) in Hj. apply filter_In in Hj.
    destruct Hj as [Hj ?]. apply in_seq in Hj. fold n in Hj. lia. }
  assert (Hall : forall f : nat -> Q, (qsum (fun j => inject_Z (irpacked j ds) * f j) (seq 0 n) == qsum (fun j => inject_Z (irpacked j ds) * f j) order)%Q).
  { intro f. rewrite <- (qsum_perm _ _ _ _ Hperm). unfold irtrivial_items. fold n. generalize (seq 0 n). intro l.
    induction l as [|x l IH]; [reflexivity|]. cbn [filter]. rewrite qsum_cons.
    destruct (irfits_some_bin i x) eqn:E; [rewrite qsum_cons, IH; reflexivity|].
    assert (E0 : irpacked x ds = 0).
    { destruct (Z.eq_dec (irpacked x ds) 0) as [|N]; [assumption|]. apply tpacked_fits in N. congruence. }
    rewrite E0, IH. change (inject_Z 0) with 0%Q. ring. }
  assert (Hg : forall j, In j order -> (0 <= ii_profit (iritem i j) /\ 0 < ii_area (iritem i j) /\ 0 <= inject_Z (irpacked j ds)
    /\ inject_Z (irpacked j ds) <= inject_Z (ii_copies (iritem i j)))%Q).
  { intros j Hj. specialize (Hin j Hj). pose proof (nth_In (ir_items i) dummy_iritem Hin) as Hi. fold (iritem i j) in Hi.
    split; [apply Hprofit; exact Hi|]. split; [apply (ipr_items i Hr _ Hi)|].
    split; [change 0%Q with (inject_Z 0); rewrite <- Zle_Qle; apply tpacked_ge0|rewrite <- Zle_Qle; apply (iv_copies i ds BP j Hin)]. }
  assert (HR : exists rho, (0 <= rho)%Q /\ forall j, In j order -> (ii_profit (iritem i j) <= rho * ii_area (iritem i j))%Q).
  { clear -Hg. induction order as [|j l IH].
    - exists 0%Q. split; [lra|]. intros j [].
    - destruct IH as (rho & R1 & R2). { intros k Hk. apply Hg. right. exact Hk. }
      destruct (Hg j (or_introl eq_refl)) as (P & A & _). set (q := (ii_profit (iritem i j) / ii_area (iritem i j))%Q).
      assert (Q0 : (0 <= q)%Q) by (unfold q; apply Qle_shift_div_l; [exact A|lra]).
      assert (QA : (q * ii_area (iritem i j) == ii_profit (iritem i j))%Q) by (unfold q; field; lra).
      exists (rho + q)%Q. split; [lra|]. intros k [<-|Hk].
      + assert (0 <= rho * ii_area (iritem i j))%Q by (apply Qmult_le_0_compat; lra).
        setoid_replace ((rho + q) * ii_area (iritem i j))%Q with (rho * ii_area (iritem i j) + q * ii_area (iritem i j))%Q by ring. lra.
      + specialize (R2 k Hk). destruct (Hg k (or_intror Hk)) as (_ & A' & _). assert (0 <= q * ii_area (iritem i k))%Q by (apply Qmult_le_0_compat; lra).
        setoid_replace ((rho + q) * ii_area (iritem i k))%Q with (rho * ii_area (iritem i k) + q * ii_area (iritem i k))%Q by ring. lra. }
  destruct HR as (rho & R1 & R2).
  assert (Hcap : (qsum (fun j => inject_Z (irpacked j ds) * ii_area (iritem i j)) order <= ircapacity i + 0)%Q).
  { rewrite <- (Hall (fun j => ii_area (iritem i j))). pose proof tpacked_area. pose proof tused_area. lra. }
  assert (Hcap0 : (0 <= ircapacity i)%Q).
  { assert (0 <= qsum (fun j => inject_Z (irpacked j ds) * ii_area (iritem i j)) order)%Q; [|lra].
    apply qsum_nonneg. intros j Hj. destruct (Hg j Hj) as (_ & A & C & _). apply Qmult_le_0_compat; lra. }
  assert (G := fill_upper (fun j => inject_Z (irpacked j ds)) order (ircapacity i) 0%Q rho 0%Q Hsort
    ltac:(intros j Hj; destruct (Hg j Hj) as (G1 & G2 & G3 & G4); repeat split; try assumption; apply R2; exact Hj) R1 Hcap0 ltac:(lra) Hcap).
  rewrite HS, (Hall (fun j => ii_profit (iritem i j))) in HN. cbv beta in HN, G. rewrite Qmult_0_r in G. lra.
Qed.

(** ** Bin packing *)

Fixpoint irordered (l : list (IrBin * Z)) : Prop :=
  match l with
  | [] => True
  | (bt, u) :: l' => (0 < ib_area bt)%Q /\ 0 <= u <= ib_copies bt /\ (u = ib_copies bt \/ forall e, In e l' -> snd e = 0) /\ irordered l'
  end.

Lemma bins_done : forall bts r b, (r <= 0)%Q -> irtrivial_bins bts r b = b.
Proof. intros [|bt bts] r b H; [reflexivity|]. cbn [irtrivial_bins]. assert (E : Qle_bool r 0 = true) by (apply Qle_bool_iff; exact H). rewrite E. reflexivity. Qed.

Lemma irordered_nonneg : forall l, irordered l -> 0 <= zsum snd l.
Proof. induction l as [|[bt u] l IH]; intro H; [cbn; lia|]. destruct H as (_ & H & _ & H'). rewrite zsum_cons. cbn [snd]. specialize (IH H'). lia. Qed.

Lemma bins_upper : forall l r b, irordered l -> (r <= qsum (fun e => inject_Z (snd e) * ib_area (fst e)) l)%Q ->
  irtrivial_bins (map fst l) r b <= b + zsum snd l.
Proof.
  induction l as [|[bt u] l IH]; intros r b Ho Hr'; [cbn; lia|].
  pose proof (irordered_nonneg _ Ho) as HN. destruct Ho as (A & U & Alt & Ho). rewrite qsum_cons in Hr'. rewrite zsum_cons in *. cbn [map irtrivial_bins fst snd] in *.
  pose proof (irordered_nonneg _ Ho) as HN'.
  destruct (Qle_bool r 0) eqn:E0; [lia|].
  assert (E0' : (0 < r)%Q). { destruct (Qlt_le_dec 0 r) as [L|L]; [exact L|]. apply Qle_bool_iff in L. congruence. }
  assert (Ea : Qle_bool (ib_area bt) 0 = false). { destruct (Qle_bool (ib_area bt) 0) eqn:E; [|reflexivity]. apply Qle_bool_iff in E. lra. }
  rewrite Ea. set (needed := Qceiling (r / ib_area bt)).
  assert (Hn : (r <= inject_Z needed * ib_area bt)%Q).
  { assert (r / ib_area bt <= inject_Z needed)%Q by apply Qle_ceiling.
    assert (H2 : (r / ib_area bt * ib_area bt <= inject_Z needed * ib_area bt)%Q) by (apply Qmult_le_compat_r; lra).
    setoid_replace (r / ib_area bt * ib_area bt)%Q with r in H2 by (field; lra). exact H2. }
  destruct (Z.leb_spec (ib_copies bt) needed) as [L|L].
  - rewrite Z.min_r by exact L. destruct Alt as [EU|Z0]; [subst u|].
    + specialize (IH (r - inject_Z (ib_copies bt) * ib_area bt)%Q (b + ib_copies bt) Ho ltac:(lra)). lia.
    + (* the rest is not used *)
      assert (EQ : (qsum (fun e => inject_Z (snd e) * ib_area (fst e)) l == 0)%Q).
      { apply qsum_zero. intros e He. rewrite (Z0 e He). change (inject_Z 0) with 0%Q. ring. }
      assert (Lc : needed <= u).
      { unfold needed. assert (K : (r / ib_area bt <= inject_Z u)%Q) by (apply Qle_shift_div_r; [exact A|lra]).
        apply Qceiling_resp_le in K. rewrite Qceiling_Z in K. exact K. }
      assert (u = ib_copies bt) by lia. subst u.
      rewrite bins_done; [lia|]. lra.
  - rewrite Z.min_l by lia. rewrite bins_done by lra.
    destruct Alt as [-> |Z0]; [lia|].
    assert (EQ : (qsum (fun e => inject_Z (snd e) * ib_area (fst e)) l == 0)%Q).
    { apply qsum_zero. intros e He. rewrite (Z0 e He). change (inject_Z 0) with 0%Q. ring. }
    assert (Lc : needed <= u); [|lia].
    unfold needed. assert (K : (r / ib_area bt <= inject_Z u)%Q) by (apply Qle_shift_div_r; [exact A|lra]).
    apply Qceiling_resp_le in K. rewrite Qceiling_Z in K. exact K.
Qed.

Lemma tordered : irin_order i ds -> forall k s, (s + k = m)%nat -> irordered (map (fun t => (irbin i t, irused_bins t ds)) (seq s k)).
Proof.
  intros Ho k. induction k as [|k IH]; intros s Hl; [exact Logic.I|]. cbn [seq map irordered].
  split; [apply tbin_area; lia|]. split; [split; [apply tused_ge0|apply (iv_used i ds BP s); fold m; lia]|]. split; [|apply IH; lia].
  destruct (Z.eq_dec (irused_bins s ds) (ib_copies (irbin i s))) as [|N]; [left; assumption|right].
  intros e He. apply in_map_iff in He. destruct He as (t & <- & Ht). apply in_seq in Ht. cbn [snd].
  destruct (Z.eq_dec (irused_bins t ds) 0) as [|N0]; [assumption|exfalso]. apply N.
  apply (Ho s t); [fold m; lia|]. pose proof (tused_ge0 t). lia.
Qed.

Lemma irtrivial_bins_valid : irall_packed i ds -> irin_order i ds -> irtrivial_bins (ir_bins i) (iritem_area i) 0 <= irbins_used ds.
Proof.
  intros Hall Ho. set (l := map (fun t => (irbin i t, irused_bins t ds)) (seq 0 m)).
  assert (E1 : map fst l = ir_bins i).
  { unfold l. rewrite map_map. cbn [fst]. unfold irbin, m. generalize (ir_bins i). intro bs. induction bs as [|x bs IH]; [reflexivity|].
    cbn [length seq map nth]. f_equal. rewrite <- seq_shift, map_map. exact IH. }
  assert (E2 : zsum snd l = irbins_used ds).
  { unfold l. rewrite zsum_map. cbn [snd]. apply inject_Z_injective. rewrite <- !qsum_inject.
    pose proof (qsum_by_type m ds (fun _ => 1%Q)) as T. cbv beta in T.
    rewrite (qsum_ext _ (fun t => inject_Z (irused_bins t ds)) (fun t => inject_Z (irused_bins t ds) * 1)%Q) by (intros; ring).
    rewrite <- T by (intros d Hd; apply (pa_bins i ds BP d Hd)). unfold irbins_used. rewrite <- qsum_inject. apply qsum_ext. intros; ring. }
  rewrite <- E1, <- E2. change (zsum snd l) with (0 + zsum snd l). apply bins_upper; [apply tordered; [exact Ho|reflexivity]|].
  unfold iritem_area. rewrite fold_qsum, Qplus_0_l, (qsum_list _ _ dummy_iritem). fold n.
  rewrite (qsum_ext _ _ (fun j => inject_Z (irpacked j ds) * ii_area (iritem i j))%Q).
  - unfold l. rewrite qsum_map. cbn [fst snd]. apply tpacked_area.
  - intros j Hj. apply in_seq in Hj. fold (iritem i j). rewrite (Hall j) by (fold n; lia). reflexivity.
Qed.

End Trivial.

(** ** Open dimension *)

Lemma single_area : forall i items, irvalid i [mkIrD 0 1 items] -> irall_packed i [mkIrD 0 1 items] -> (iritem_area i == irarea i items)%Q.
Proof.
  intros i items BP Hall. unfold iritem_area. rewrite fold_qsum, Qplus_0_l, (qsum_list _ _ dummy_iritem).
  rewrite (qsum_ext _ _ (fun j => inject_Z (irpacked j [mkIrD 0 1 items]) * ii_area (iritem i j))%Q).
  - rewrite (irqpacked_sum _ _ (fun j => ii_area (iritem i j)) (ttypes i _ BP)). rewrite qsum_cons. change (qsum _ []) with 0%Q.
    cbn [ird_copies ird_items]. unfold irarea. change (inject_Z 1) with 1%Q. ring.
  - intros j Hj. apply in_seq in Hj. fold (iritem i j). rewrite (Hall j) by lia. reflexivity.
Qed.

Lemma largest_in : forall (f : IrPlace -> Q) ps v, LargestOf f ps (Some v) -> (exists p, In p ps /\ f p == v)%Q /\ forall p, In p ps -> (f p <= v)%Q.
Proof. intros f ps v H. exact H. Qed.

Theorem irtrivial_right : forall i order, irproper i ->
  (ir_objective i = OKnapsack -> (forall it, In it (ir_items i) -> (0 <= ii_profit it)%Q) /\ sorted_by (irtrivial_before i) (irtrivial_items i) order) ->
  (ir_objective i = OOpenDimensionX -> (0 <= ix_min (ib_aabb (irbin i 0)))%Q) ->
  (ir_objective i = OOpenDimensionY -> (0 <= iy_min (ib_aabb (irbin i 0)))%Q) ->
  irclaim_right i (iroptimize_trivial_bound i order).
Proof.
  intros i order Hr Hk Hx Hy. unfold iroptimize_trivial_bound. destruct (ir_objective i) eqn:E; try exact Logic.I; cbn [irclaim_right].
  - intros ds BP Hall Ho. apply irtrivial_bins_valid; assumption.
  - cbv zeta. destruct (Qle_bool _ 0) eqn:F; [exact Logic.I|]. cbn [irclaim_right]. intros items v BP Hall [(p & Hp & Ep) Hv].
    assert (F' : (0 < box_height (ib_aabb (irbin i 0)))%Q).
    { destruct (Qlt_le_dec 0 (box_height (ib_aabb (irbin i 0)))) as [L|L]; [exact L|]. apply Qle_bool_iff in L. congruence. }
    destruct (pa_bins i _ BP _ (or_introl eq_refl)) as (Ht & _ & G). cbn [ird_type ird_items] in *.
    pose proof (ig_inside i _ G p Hp) as (I1 & _). cbn [ird_type] in I1.
    assert (B : (ix_min (place_box i p) <= ix_max (place_box i p))%Q).
    { cbn [place_box ix_min ix_max]. destruct (ipr_items i Hr (iritem i (ip_type p))) as (_ & _ & D & _); [apply nth_In, (ig_items i _ G p Hp)|].
      destruct (D (ip_angle p) (ip_mirror p)) as [D1 _]. lra. }
    pose proof (ig_left i _ G v) as L. cbn [ird_type ird_items] in L. cbv zeta in L. specialize (L Hv ltac:(lra)).
    rewrite (single_area i items BP Hall). specialize (Hx eq_refl). apply Qle_shift_div_r; [exact F'|]. unfold box_height in *.
    eapply Qle_trans; [exact L|]. apply Qmult_le_compat_r; lra.
  - cbv zeta. destruct (Qle_bool _ 0) eqn:F; [exact Logic.I|]. cbn [irclaim_right]. intros items v BP Hall [(p & Hp & Ep) Hv].
    assert (F' : (0 < box_width (ib_aabb (irbin i 0)))%Q).
    { destruct (Qlt_le_dec 0 (box_width (ib_aabb (irbin i 0)))) as [L|L]; [exact L|]. apply Qle_bool_iff in L. congruence. }
    destruct (pa_bins i _ BP _ (or_introl eq_refl)) as (Ht & _ & G). cbn [ird_type ird_items] in *.
    pose proof (ig_inside i _ G p Hp) as (_ & _ & I3 & _). cbn [ird_type] in I3.
    assert (B : (iy_min (place_box i p) <= iy_max (place_box i p))%Q).
    { cbn [place_box iy_min iy_max]. destruct (ipr_items i Hr (iritem i (ip_type p))) as (_ & _ & D & _); [apply nth_In, (ig_items i _ G p Hp)|].
      destruct (D (ip_angle p) (ip_mirror p)) as [_ D1]. lra. }
    pose proof (ig_below i _ G v) as L. cbn [ird_type ird_items] in L. cbv zeta in L. specialize (L Hv ltac:(lra)).
    rewrite (single_area i items BP Hall). specialize (Hy eq_refl). apply Qle_shift_div_r; [exact F'|]. unfold box_width in *.
    eapply Qle_trans; [exact L|]. apply Qmult_le_compat_r; lra.
  - intros ds BP. destruct (Hk eq_refl) as [H1 H2]. apply irtrivial_knapsack_valid; assumption.
Qed.
