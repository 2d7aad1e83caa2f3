(** * Proofs about the cheap bounds of the box optimize function *)

From Coq Require Import List ZArith QArith Bool Lia Lqa Arith Permutation Sorted.
From Verif Require Import Util Common_Model Common_Spec Common_Proof OneDim_Model OneDim_Spec OneDim_Proof OneDimBuilder_Model OneDimBuilder_Spec
  OneDimBuilder_Proof OneDimSub_Proof OneDimDff_Model OneDimDff_Spec OneDimDff_Proof OneDimBounds_Model OneDimBounds_Spec OneDimBounds_Proof
  Dff_Model Dff_Spec Dff_Axis Dff_Proof
  Box_Model Box_Spec BoxDff_Model BoxDff_Proof BoxSol_Model BoxSol_Spec BoxSol_Proof BoxSol_Props BoxBounds_Model BoxBounds_Spec.
From Verif Require RectBounds_Spec RectBounds_Proof.
Import ListNotations.
Open Scope Z_scope.

Notation bounds1_right := RectBounds_Spec.bounds1_right.
Notation br_bins := RectBounds_Spec.br_bins.
Notation br_profit := RectBounds_Spec.br_profit.
Notation br_cost := RectBounds_Spec.br_cost.
Notation end_snoc1 := RectBounds_Proof.end_snoc1.
Notation fold_max_le := RectBounds_Proof.fold_max_le.

(** ** Penalties *)

Lemma qsum_by_type : forall m ds (g : nat -> Q), (forall d, In d ds -> (xd_type d < m)%nat) ->
  (qsum (fun d => inject_Z (xd_copies d) * g (xd_type d)) ds == qsum (fun t => inject_Z (bused_bins t ds) * g t) (seq 0 m))%Q.
Proof.
  intros m ds g H. rewrite <- (qsum_group _ xd_type _ m ds H).
  apply qsum_ext. intros t _. unfold bused_bins. clear. induction ds as [|d l IH]; [cbn; ring|].
  cbn [filter]. rewrite zsum_cons. destruct (Nat.eqb_spec (xd_type d) t); [rewrite qsum_cons, IH, inject_Z_plus; subst; ring|rewrite IH, Z.add_0_l; reflexivity].
Qed.

Lemma qsum_list : forall (A : Type) (f : A -> Q) d l, (qsum f l == qsum (fun k => f (nth k l d)) (seq 0 (length l)))%Q.
Proof.
  intros A f d l. induction l as [|x l IH]; [reflexivity|]. rewrite qsum_cons, IH. cbn [length seq]. rewrite qsum_cons. cbn [nth].
  rewrite <- seq_shift, qsum_map. reflexivity.
Qed.

Lemma fold_qsum : forall (A : Type) (f : A -> Q) l b, (fold_left (fun c x => (c + f x)%Q) l b == b + qsum f l)%Q.
Proof.
  intros A f l. induction l as [|x l IH]; intro b; cbn [fold_left]; [cbn; ring|]. rewrite IH, qsum_cons. ring.
Qed.

Lemma neg_sum : forall rs b, (fold_left (fun sum r => if res_penalize r && Qltb (res_penalty r) 0 then (sum - res_penalty r)%Q else sum) rs b
  == b + qsum (fun r => if res_penalize r && Qltb (res_penalty r) 0 then - res_penalty r else 0) rs)%Q.
Proof.
  induction rs as [|r rs IH]; intro b; cbn [fold_left]; [cbn; ring|]. rewrite IH, qsum_cons.
  destruct (res_penalize r && Qltb (res_penalty r) 0); ring.
Qed.

Lemma xpenalty_gain : forall i d, (- bpenalties i d <= negative_penalty_sum (bn_resources (bxbin i (xd_type d))))%Q
  /\ (0 <= negative_penalty_sum (bn_resources (bxbin i (xd_type d))))%Q.
Proof.
  intros i d. unfold negative_penalty_sum, bpenalties. set (rs := bn_resources (bxbin i (xd_type d))). rewrite neg_sum. split.
  - assert (H : (qsum (fun r => -1 * (if res_penalize r && Qltb (res_capacity r) (bconsumption i r (xd_items d)) then res_penalty r else 0)) rs
      <= qsum (fun r => if res_penalize r && Qltb (res_penalty r) 0 then - res_penalty r else 0) rs)%Q).
    { apply qsum_le. intros r _. destruct (res_penalize r); cbn [andb]; [|lra].
      destruct (Qltb (res_penalty r) 0) eqn:E1; [apply Qltb_lt in E1|apply Qltb_ge in E1]; destruct (Qltb (res_capacity r) (bconsumption i r (xd_items d))); lra. }
    rewrite qsum_scale in H. lra.
  - assert (0 <= qsum (fun r => if res_penalize r && Qltb (res_penalty r) 0 then - res_penalty r else 0) rs)%Q; [|lra].
    apply qsum_nonneg. intros r _. destruct (res_penalize r && Qltb (res_penalty r) 0) eqn:E; [|lra]. apply andb_prop in E. destruct E as [_ E]. apply Qltb_lt in E. lra.
Qed.

Lemma xnet_bound : forall i ds, xbox_packing i ds -> (bnet_profit i ds <= bprofit i ds + xnegative_penalty_sum i)%Q.
Proof.
  intros i ds H. unfold bnet_profit. assert (G : (- qsum (bpenalties i) ds <= xnegative_penalty_sum i)%Q); [|lra].
  assert (H1 : (qsum (fun d => -1 * bpenalties i d) ds <= qsum (fun d => inject_Z (xd_copies d) * negative_penalty_sum (bn_resources (bxbin i (xd_type d)))) ds)%Q).
  { apply qsum_le. intros d Hd. destruct (xpenalty_gain i d) as [G N]. destruct (bpa_bins i ds (xbp_packing i ds H) d Hd) as (_ & C & _).
    assert (1 <= inject_Z (xd_copies d))%Q by (change 1%Q with (inject_Z 1); rewrite <- Zle_Qle; exact C). nra. }
  rewrite qsum_scale in H1.
  rewrite (qsum_by_type (length (bx_bins i)) ds (fun t => negative_penalty_sum (bn_resources (bxbin i t)))) in H1 by (intros d Hd; apply (bpa_bins i ds (xbp_packing i ds H) d Hd)).
  assert (H2 : (qsum (fun t => inject_Z (bused_bins t ds) * negative_penalty_sum (bn_resources (bxbin i t))) (seq 0 (length (bx_bins i))) <= xnegative_penalty_sum i)%Q); [|lra].
  unfold xnegative_penalty_sum. rewrite fold_qsum, (qsum_list _ _ dummy_bbin), Qplus_0_l. apply qsum_le. intros t Ht. apply in_seq in Ht.
  destruct (xbp_bins i ds H t ltac:(lia)) as [_ B]. fold (bxbin i t). destruct (xpenalty_gain i (mkXD t 1 [])) as [_ N]. cbn [xd_type] in N.
  rewrite Zle_Qle in B. apply Qmult_le_compat_r; assumption.
Qed.

(** ** What the builder of the relaxation holds *)

Definition xbt1 (bt : BBin) : BinType := mkBT (bn_vol bt) (bn_cost bt) (bn_copies bt) (bn_copies_min bt) None [] [] [].
Definition xit1 (it : BItem) : ItemType := mkIT (bi_vol it) (bi_profit it) (bi_copies it) (-1) 0 0 max_item_pos None (-1) [].

Lemma relax_bin_ok : forall o its l bt, 0 < bn_vol bt -> 1 <= bn_copies bt -> 0 <= bn_copies_min bt <= bn_copies bt -> (0 < bn_cost bt)%Q ->
  calls_from (mkB o its l []) (xrelax_bin_calls (length l) bt) = BOk (mkB o its (l ++ [xbt1 bt]) []).
Proof.
  intros o its l bt Ha Hc Hm Hp. unfold calls_from, xrelax_bin_calls. cbn [fold_left bthen bstep].
  unfold b_add_bin. destruct (Z.leb_spec (bn_vol bt) 0); [lia|]. cbn [bthen]. unfold set_bins at 1. cbn [b_objective b_items b_bins b_orig_bins].
  unfold b_set_bin_cost. cbn [b_bins]. rewrite last_ok.
  assert (E1 : Qle_bool (bn_cost bt) 0 = false).
  { destruct (Qle_bool (bn_cost bt) 0) eqn:E; [|reflexivity]. apply Qle_bool_iff in E. lra. }
  assert (E2 : Qeq_bool (bn_cost bt) (-1) = false).
  { destruct (Qeq_bool (bn_cost bt) (-1)) eqn:E; [|reflexivity]. apply Qeq_bool_iff in E. lra. }
  rewrite E1, E2. cbn [andb]. rewrite on_last_bin. cbn [bthen bt_length bt_cost bt_copies bt_copies_min bt_max_weight bt_eligibility_ids bt_resources bt_item_type_ids].
  unfold b_set_bin_copies. cbn [b_bins]. rewrite last_ok, last_nth. cbn [bt_copies_min].
  replace ((bn_copies bt <=? 0) || (bn_copies bt <? 0)) with false by (symmetry; apply orb_false_iff; split; [apply Z.leb_gt|apply Z.ltb_ge]; lia).
  rewrite andb_false_r. rewrite on_last_bin. cbn [bthen bt_length bt_cost bt_copies bt_copies_min bt_max_weight bt_eligibility_ids bt_resources bt_item_type_ids].
  unfold b_set_bin_copies_min. cbn [b_bins]. rewrite last_ok, last_nth. cbn [bt_copies].
  destruct (Z.ltb_spec (bn_copies_min bt) 0); [lia|]. destruct (Z.ltb_spec (bn_copies bt) (bn_copies_min bt)); [lia|].
  rewrite andb_false_r. rewrite on_last_bin. reflexivity.
Qed.

Lemma relax_item_ok : forall o l bs it, 1 <= bi_copies it ->
  calls_from (mkB o l bs []) (xrelax_item_calls (length l) it) = BOk (mkB o (l ++ [xit1 it]) bs []).
Proof.
  intros o l bs it Hc. unfold calls_from, xrelax_item_calls. cbn [fold_left bthen bstep].
  unfold b_add_item. cbn [bthen]. unfold set_items at 1. cbn [b_objective b_items b_bins b_orig_bins].
  unfold b_set_item_profit. rewrite on_last_item. cbn [bthen it_length it_profit it_copies it_copies_min it_weight it_nesting it_stackability it_max_weight_after it_eligibility it_resource_ids].
  unfold b_set_item_copies. cbn [b_items]. rewrite last_ok.
  replace (bi_copies it <=? 0) with false by (symmetry; apply Z.leb_gt; lia). rewrite andb_false_r, on_last_item. reflexivity.
Qed.

Lemma relax_bins_ok : forall o its suf pre,
  (forall bt, In bt suf -> 0 < bn_vol bt /\ 1 <= bn_copies bt /\ 0 <= bn_copies_min bt <= bn_copies bt /\ (0 < bn_cost bt)%Q) ->
  calls_from (mkB o its (map xbt1 pre) []) (flat_map (fun p => xrelax_bin_calls (fst p) (snd p)) (combine (seq (length pre) (length suf)) suf))
  = BOk (mkB o its (map xbt1 (pre ++ suf)) []).
Proof.
  intros o its suf. induction suf as [|bt suf IH]; intros pre H.
  - rewrite app_nil_r. reflexivity.
  - cbn [length seq combine flat_map fst snd]. rewrite calls_app. destruct (H bt (or_introl eq_refl)) as (A & B & C & D).
    rewrite <- (map_length xbt1 pre) at 1. rewrite relax_bin_ok by assumption. cbn [bthen].
    specialize (IH (pre ++ [bt])). rewrite app_length, map_app in IH. cbn [length map] in IH. rewrite Nat.add_1_r in IH.
    rewrite IH by (intros b Hb; apply H; right; exact Hb). rewrite <- app_assoc. reflexivity.
Qed.

Lemma relax_items_ok : forall o bs suf pre, (forall it, In it suf -> 1 <= bi_copies it) ->
  calls_from (mkB o (map xit1 pre) bs []) (flat_map (fun p => xrelax_item_calls (fst p) (snd p)) (combine (seq (length pre) (length suf)) suf))
  = BOk (mkB o (map xit1 (pre ++ suf)) bs []).
Proof.
  intros o bs suf. induction suf as [|it suf IH]; intros pre H.
  - rewrite app_nil_r. reflexivity.
  - cbn [length seq combine flat_map fst snd]. rewrite calls_app. specialize (H it (or_introl eq_refl)) as Hc.
    rewrite <- (map_length xit1 pre) at 1. rewrite relax_item_ok by assumption. cbn [bthen].
    specialize (IH (pre ++ [it])). rewrite app_length, map_app in IH. cbn [length map] in IH. rewrite Nat.add_1_r in IH.
    rewrite IH by (intros b Hb; apply H; right; exact Hb). rewrite <- app_assoc. reflexivity.
Qed.

Section Relax.
Variable i : BInstance.
Hypothesis Hr : xrelaxable i.

Let n := length (bx_items i).
Let m := length (bx_bins i).

Lemma item_pos : forall it, In it (bx_items i) -> 0 < bi_vol it /\ 1 <= bi_copies it.
Proof. intros it H. destruct (xre_items i Hr it H) as (A & C). unfold bi_vol. split; [|exact C]. pose proof (A AX). pose proof (A AY). pose proof (A AZ). cbn [vat] in *. apply Z.mul_pos_pos; [apply Z.mul_pos_pos|]; assumption. Qed.

Lemma bin_pos : forall bt, In bt (bx_bins i) -> 0 < bn_vol bt.
Proof. intros bt H. destruct (xre_bins i Hr bt H) as (A & _). unfold bn_vol. pose proof (A AX). pose proof (A AY). pose proof (A AZ). cbn [vat] in *. apply Z.mul_pos_pos; [apply Z.mul_pos_pos|]; lia. Qed.

Lemma relaxed_all : xrelaxed_items i = bx_items i.
Proof.
  unfold xrelaxed_items. assert (H : forall it, In it (bx_items i) -> negb (bi_vol it <=? 0) = true).
  { intros it Hit. apply negb_true_iff, Z.leb_gt. apply item_pos. exact Hit. }
  revert H. generalize (bx_items i). intro l. induction l as [|x l IH]; intro H; [reflexivity|].
  cbn [filter]. rewrite (H x (or_introl eq_refl)), IH; [reflexivity|]. intros it Hit. apply H. right. exact Hit.
Qed.

Definition builder1 : Builder := mkB (Some (bx_objective i)) (map xit1 (bx_items i)) (map xbt1 (bx_bins i)) [].

Lemma relax_builder : calls_from b_new (xrelax_calls i) = BOk builder1.
Proof.
  unfold xrelax_calls. rewrite relaxed_all.
  change (calls_from (mkB (Some (bx_objective i)) (map xit1 []) (map xbt1 []) [])
    (flat_map (fun p => xrelax_bin_calls (fst p) (snd p)) (combine (seq (length (@nil BBin)) (length (bx_bins i))) (bx_bins i))
     ++ flat_map (fun p => xrelax_item_calls (fst p) (snd p)) (combine (seq (length (@nil BItem)) (length (bx_items i))) (bx_items i))) = BOk builder1).
  rewrite calls_app, relax_bins_ok.
  - cbn [bthen app]. rewrite relax_items_ok; [reflexivity|]. intros it Hit. apply item_pos. exact Hit.
  - intros bt Hbt. destruct (xre_bins i Hr bt Hbt) as (_ & C & D & E). pose proof (bin_pos bt Hbt). repeat split; try assumption; lia.
Qed.

Lemma relax_builds : (bx_objective i = OBinPacking -> forall bt, In bt (bx_bins i) -> bn_copies_min bt = 0) ->
  exists i1, b_build builder1 = Built i1.
Proof.
  intro Hmin. unfold b_build, builder1. cbn [b_objective b_items b_bins].
  assert (F : find (fun t => (it_copies t <? it_copies_min t) || (it_length t =? 0)) (map (resolve_min (bx_objective i)) (map xit1 (bx_items i))) = None).
  { rewrite map_map. assert (G : forall it, In it (bx_items i) -> 0 < bi_vol it /\ 1 <= bi_copies it) by exact item_pos. revert G.
    generalize (bx_items i). intro l. induction l as [|it l IH]; intro G; [reflexivity|]. cbn [map find].
    destruct (G it (or_introl eq_refl)) as [G1 G2].
    assert (E : (it_copies (resolve_min (bx_objective i) (xit1 it)) <? it_copies_min (resolve_min (bx_objective i) (xit1 it)))
      || (it_length (resolve_min (bx_objective i) (xit1 it)) =? 0) = false).
    { cbn [resolve_min xit1 it_copies it_copies_min it_length Z.eqb]. apply orb_false_iff. split; [|apply Z.eqb_neq; lia].
      apply Z.ltb_ge. destruct (bx_objective i); cbn; lia. }
    rewrite E. apply IH. intros x Hx. apply G. right. exact Hx. }
  rewrite F.
  assert (E1 : existsb (fun t => match bx_objective i with OBinPacking => 0 <? bt_copies_min t | _ => false end) (map xbt1 (bx_bins i)) = false).
  { destruct (existsb _ _) eqn:E; [|reflexivity]. apply existsb_exists in E. destruct E as (t & Ht & E).
    apply in_map_iff in Ht. destruct Ht as (bt & <- & Hbt). destruct (bx_objective i); try discriminate.
    cbn [xbt1 bt_copies_min] in E. rewrite (Hmin eq_refl bt Hbt) in E. discriminate. }
  rewrite E1.
  assert (E2 : forall f : Resource -> bool, existsb (fun t => existsb f (bt_resources t)) (map xbt1 (bx_bins i)) = false).
  { intro f. generalize (bx_bins i). clear. intro l. induction l as [|bt l IH]; [reflexivity|]. exact IH. }
  rewrite E2. destruct (expand_bins _) as [[ids prev] tot]. eexists. reflexivity.
Qed.

(** ** Packings of the relaxation *)

Variable i1 : Instance.
Hypothesis Hb1 : b_build builder1 = Built i1.

Let HD : holds_data builder1 i1 := build_holds builder1 i1 Hb1.

Lemma objective1 : in_objective i1 = bx_objective i.
Proof. pose proof (hd_objective _ _ HD) as H. cbn in H. congruence. Qed.

Lemma items1 : length (in_item_types i1) = n /\ forall x, (x < n)%nat ->
  it_length (item_type i1 x) = bi_vol (bxitem i x) /\ it_profit (item_type i1 x) = bi_profit (bxitem i x) /\ it_copies (item_type i1 x) = bi_copies (bxitem i x)
  /\ it_nesting (item_type i1 x) = 0 /\ it_stackability (item_type i1 x) = max_item_pos /\ it_max_weight_after (item_type i1 x) = None
  /\ it_eligibility (item_type i1 x) = -1
  /\ it_copies_min (item_type i1 x) = match bx_objective i with OKnapsack => 0 | _ => bi_copies (bxitem i x) end.
Proof.
  destruct (hd_items _ _ HD) as [H1 H2]. cbn [builder1 b_items] in H1, H2. rewrite map_length in H1, H2. split; [exact H1|].
  intros x Hx. specialize (H2 x Hx). cbv zeta in H2.
  assert (E : nth x (map xit1 (bx_items i)) dummy_item = xit1 (bxitem i x)).
  { rewrite (nth_indep _ dummy_item (xit1 dummy_bitem)) by (rewrite map_length; exact Hx). apply map_nth. }
  rewrite E in H2. cbn [xit1 it_length it_profit it_copies it_copies_min it_weight it_nesting it_stackability it_max_weight_after it_eligibility Z.eqb] in H2.
  rewrite objective1 in H2. tauto.
Qed.

Lemma bins1 : length (in_bin_types i1) = m /\ forall t, (t < m)%nat ->
  bt_length (bin_type i1 t) = bn_vol (bxbin i t) /\ bt_cost (bin_type i1 t) = bn_cost (bxbin i t) /\ bt_copies (bin_type i1 t) = bn_copies (bxbin i t)
  /\ bt_copies_min (bin_type i1 t) = bn_copies_min (bxbin i t) /\ bt_max_weight (bin_type i1 t) = None /\ bt_resources (bin_type i1 t) = [].
Proof.
  destruct (hd_bins _ _ HD) as [H1 H2]. cbn [builder1 b_bins] in H1, H2. rewrite map_length in H1, H2. split; [exact H1|].
  intros t Ht. specialize (H2 t Ht). cbv zeta in H2.
  assert (E : nth t (map xbt1 (bx_bins i)) dummy_bin = xbt1 (bxbin i t)).
  { rewrite (nth_indep _ dummy_bin (xbt1 dummy_bbin)) by (rewrite map_length; exact Ht). apply map_nth. }
  rewrite E in H2. cbn [xbt1 bt_length bt_cost bt_copies bt_copies_min bt_max_weight bt_eligibility_ids bt_resources] in H2.
  assert (C : bn_copies (bxbin i t) =? -1 = false).
  { apply Z.eqb_neq. destruct (xre_bins i Hr (bxbin i t)) as (_ & _ & C & _); [apply nth_In; exact Ht|]. lia. }
  rewrite C in H2. tauto.
Qed.

Section Packing.
Variable ds : list XDesc.
Hypothesis Hp : bpacking_ok i ds.

Let ds1 := map xrelax_desc ds.

Lemma types_ok : forall d, In d ds -> forall p, In p (xd_items d) -> (bp_type p < n)%nat.
Proof. intros d Hd p Hq. destruct (bpa_bins i ds Hp d Hd) as (_ & _ & G). apply (bk_type _ _ _ (bg_places _ _ _ G p Hq)). Qed.

Lemma count_relax : forall ps x, Z.of_nat (count_occ Nat.eq_dec (map bp_type ps) x) = bcount x ps.
Proof.
  intros ps x. unfold bcount. f_equal. induction ps as [|p ps IH]; [reflexivity|]. cbn [map count_occ filter].
  destruct (Nat.eq_dec (bp_type p) x) as [E|E]; destruct (Nat.eqb_spec (bp_type p) x); try contradiction; cbn [length]; rewrite IH; reflexivity.
Qed.

Lemma packed_relax : forall x, packed x ds1 = bpacked x ds.
Proof.
  intro x. unfold packed, bpacked, ds1. rewrite zsum_map. apply zsum_ext. intros d _. cbn [xrelax_desc bd_copies bd_items]. rewrite count_relax. reflexivity.
Qed.

Lemma used_relax : forall t, used_bins t ds1 = bused_bins t ds.
Proof. intro t. unfold used_bins, bused_bins, ds1. rewrite zsum_map. reflexivity. Qed.

Lemma volume_fits : forall d, In d ds -> zsum (fun p => bi_vol (bxitem i (bp_type p))) (xd_items d) <= bn_vol (bxbin i (xd_type d)).
Proof.
  intros d Hd. destruct (bpa_bins i ds Hp d Hd) as (Ht & _ & [G1 G2]).
  destruct (xre_bins i Hr (bxbin i (xd_type d))) as (X & _); [apply nth_In; exact Ht|].
  apply (box_volume_bound i (xd_items d) (vat (bn_box (bxbin i (xd_type d))))); [intro a; specialize (X a); lia| |exact G2].
  intros p Hq a. destruct (G1 p Hq) as [T I1 _]. destruct (I1 a) as [I2 I3]. split; [exact I2|]. split; [|exact I3].
  destruct (xre_items i Hr (bxitem i (bp_type p)) (nth_In _ _ T)) as (S1 & _). rewrite <- rsize_spec. apply Z.lt_le_incl, rsize_pos. exact S1.
Qed.

Lemma bin_end_plain : forall l, (forall x, In x l -> (x < n)%nat) -> bin_end i1 l = zsum (fun x => bi_vol (bxitem i x)) l.
Proof.
  intros l H. unfold bin_end.
  rewrite (zsum_ext _ (fun x => it_length (item_type i1 x)) (fun x => bi_vol (bxitem i x))) by (intros x Hx; destruct items1 as [_ I]; apply (I x (H x Hx))).
  rewrite (zsum_zero _ (fun x => it_nesting (item_type i1 x))); [lia|].
  intros x Hx. destruct items1 as [_ I]. apply (I x). apply H. destruct l; [destruct Hx|right; exact Hx].
Qed.

Lemma small_bins : forall d, In d ds -> Z.of_nat (length (xd_items d)) <= xnumber_of_items i.
Proof.
  intros d Hd. pose proof (xpacked_sum n ds (fun _ => 1) types_ok) as E. cbv beta in E.
  assert (A : zsum (fun j => bpacked j ds * 1) (seq 0 n) <= xnumber_of_items i).
  { unfold xnumber_of_items. rewrite (zsum_seq_nth _ _ dummy_bitem (bx_items i)). fold n. apply zsum_le. intros x Hx. apply in_seq in Hx.
    pose proof (bpa_copies i ds Hp x ltac:(fold n; lia)). unfold bxitem in *. lia. }
  assert (B : Z.of_nat (length (xd_items d)) <= zsum (fun d => xd_copies d * zsum (fun p : BPlace => 1) (xd_items d)) ds).
  { assert (L : forall ps : list BPlace, zsum (fun _ => 1) ps = Z.of_nat (length ps)).
    { induction ps as [|p ps IH]; [reflexivity|]. rewrite zsum_cons, IH. cbn [length]. lia. }
    apply in_split in Hd. destruct Hd as (l1 & l2 & E2).
    assert (P : forall e, In e ds -> 0 <= xd_copies e * zsum (fun p : BPlace => 1) (xd_items e)).
    { intros e He. destruct (bpa_bins i ds Hp e He) as (_ & C & _). rewrite L. apply Z.mul_nonneg_nonneg; lia. }
    assert (C1 : 1 <= xd_copies d) by (apply (bpa_bins i ds Hp d); rewrite E2; apply in_elt).
    rewrite E2 in P |- *. rewrite zsum_app, zsum_cons.
    assert (0 <= zsum (fun d0 => xd_copies d0 * zsum (fun _ : BPlace => 1) (xd_items d0)) l1) by (apply zsum_nonneg; intros e He; apply P; apply in_or_app; left; exact He).
    assert (0 <= zsum (fun d0 => xd_copies d0 * zsum (fun _ : BPlace => 1) (xd_items d0)) l2) by (apply zsum_nonneg; intros e He; apply P; apply in_or_app; right; right; exact He).
    rewrite L in *. nia. }
  lia.
Qed.

Lemma relax_packing : (bx_objective i <> OKnapsack -> ball_packed i ds) -> PackingOK i1 ds1.
Proof.
  intro Hall. destruct items1 as [L1 I1]. destruct bins1 as [M1 B1]. constructor.
  - intros d1 Hd1. apply in_map_iff in Hd1. destruct Hd1 as (d & <- & Hd).
    destruct (bpa_bins i ds Hp d Hd) as (Ht & _ & _). destruct (B1 (xd_type d) Ht) as (E1 & _ & _ & _ & E5 & E6).
    assert (Hin : forall x, In x (map bp_type (xd_items d)) -> (x < n)%nat).
    { intros x Hx. apply in_map_iff in Hx. destruct Hx as (p & <- & Hq). apply (types_ok d Hd p Hq). }
    pose proof (volume_fits d Hd) as Hf. rewrite <- (zsum_map _ _ bp_type (fun x => bi_vol (bxitem i x))) in Hf.
    constructor; cbn [xrelax_desc bd_type bd_items]; rewrite ?E1, ?E5, ?E6.
    + intros p x q E. rewrite <- end_snoc1.
      assert (Hpx : forall y, In y (p ++ [x]) -> (y < n)%nat) by (intros y Hy; apply Hin; rewrite E; apply in_app_iff; apply in_app_iff in Hy; destruct Hy as [Hy|[Hy|[]]]; [left; exact Hy|right; left; exact Hy]).
      rewrite bin_end_plain by exact Hpx. rewrite E in Hf. replace (p ++ x :: q) with ((p ++ [x]) ++ q) in Hf by (rewrite <- app_assoc; reflexivity).
      rewrite zsum_app in Hf. assert (0 <= zsum (fun x0 => bi_vol (bxitem i x0)) q); [|lia].
      apply zsum_nonneg. intros y Hy. assert (Hy' : (y < n)%nat) by (apply Hin; rewrite E; apply in_or_app; right; right; exact Hy).
      destruct (item_pos (bxitem i y) (nth_In _ _ Hy')). lia.
    + intros p x q _. exact Logic.I.
    + intros x Hx. destruct (I1 x (Hin x Hx)) as (_ & _ & _ & _ & E & _). rewrite E, map_length.
      pose proof (small_bins d Hd). pose proof (xre_size i Hr). lia.
    + intros a x mm b E. destruct (I1 x) as (_ & _ & _ & _ & _ & E' & _); [apply Hin; rewrite E; apply in_elt|]. rewrite E'. exact Logic.I.
    + intros x Hx. left. apply (I1 x (Hin x Hx)).
    + intros r [].
  - intros d1 x Hd1 Hx. apply in_map_iff in Hd1. destruct Hd1 as (d & <- & Hd). cbn [xrelax_desc bd_items] in Hx.
    apply in_map_iff in Hx. destruct Hx as (p & <- & Hq). pose proof (types_ok d Hd p Hq) as T. rewrite packed_relax.
    destruct (I1 _ T) as (_ & _ & E & _). rewrite E. apply (bpa_copies i ds Hp). exact T.
  - intros x Hx. rewrite L1 in Hx. rewrite packed_relax. destruct (I1 x Hx) as (_ & _ & _ & _ & _ & _ & _ & E). rewrite E.
    assert (N : 0 <= bpacked x ds).
    { apply zsum_nonneg. intros d Hd. destruct (bpa_bins i ds Hp d Hd) as (_ & C & _). apply Z.mul_nonneg_nonneg; unfold bcount; lia. }
    destruct (bx_objective i) eqn:EO; try exact N; rewrite (Hall ltac:(discriminate) x Hx); apply Z.le_refl.
Qed.

Lemma relax_available : (forall t, (t < m)%nat -> bused_bins t ds <= bn_copies (bxbin i t)) -> available_bins i1 ds1.
Proof.
  intro H. destruct bins1 as [M1 B1]. split.
  - intros d1 Hd1. apply in_map_iff in Hd1. destruct Hd1 as (d & <- & Hd). cbn [xrelax_desc bd_type bd_copies].
    destruct (bpa_bins i ds Hp d Hd) as (Ht & C & _). rewrite M1. split; assumption.
  - intros t Ht. rewrite M1 in Ht. rewrite used_relax. destruct (B1 t Ht) as (_ & _ & E & _). rewrite E. apply H. exact Ht.
Qed.

Lemma relax_all : ball_packed i ds -> all_packed i1 ds1.
Proof.
  intros H x Hx. destruct items1 as [L1 I1]. rewrite L1 in Hx. rewrite packed_relax. destruct (I1 x Hx) as (_ & _ & E & _). rewrite E. apply H. exact Hx.
Qed.

Lemma relax_order : xin_order i ds -> OrderOK i1 ds1.
Proof.
  intros H t u Htu Hu. destruct bins1 as [M1 B1]. rewrite M1 in Htu. rewrite used_relax in *.
  destruct (B1 t ltac:(lia)) as (_ & _ & E & _). rewrite E. apply (H t u); assumption.
Qed.

Lemma relax_profit : (profit_of i1 ds1 == bprofit i ds)%Q.
Proof.
  unfold profit_of, bprofit, ds1. rewrite qsum_map. apply qsum_ext. intros d Hd. cbn [xrelax_desc bd_copies bd_items].
  destruct bins1 as [M1 B1]. destruct (bpa_bins i ds Hp d Hd) as (Ht & _ & _). destruct (B1 (xd_type d) Ht) as (_ & _ & _ & _ & _ & E6).
  unfold penalties. cbn [xrelax_desc bd_type]. rewrite E6. change (qsum _ (@nil Resource)) with 0%Q.
  rewrite qsum_map, (qsum_ext _ (fun p => it_profit (item_type i1 (bp_type p))) (fun p => bi_profit (bxitem i (bp_type p)))); [ring|].
  intros p Hq. destruct items1 as [_ I1]. destruct (I1 _ (types_ok d Hd p Hq)) as (_ & E & _). rewrite E. reflexivity.
Qed.

Lemma relax_cost : (cost_of i1 ds1 == xpacking_cost i ds)%Q.
Proof.
  unfold cost_of, xpacking_cost, ds1. rewrite qsum_map. apply qsum_ext. intros d Hd. cbn [xrelax_desc bd_copies bd_type].
  destruct bins1 as [M1 B1]. destruct (bpa_bins i ds Hp d Hd) as (Ht & _ & _). destruct (B1 (xd_type d) Ht) as (_ & E & _). rewrite E. reflexivity.
Qed.

Lemma relax_count : zsum bd_copies ds1 = bbins_used ds.
Proof. unfold bbins_used, ds1. rewrite zsum_map. reflexivity. Qed.

End Packing.
End Relax.

(** ** The claims of the relaxation *)

Theorem xonedimensional_right : forall i solve, xrelaxable i ->
  bx_objective i = OBinPacking \/ bx_objective i = OKnapsack \/ bx_objective i = OVariableSizedBinPacking ->
  (bx_objective i = OBinPacking -> forall bt, In bt (bx_bins i) -> bn_copies_min bt = 0) ->
  (forall i1, bounds1_right i1 (solve i1)) ->
  xclaim_right i (xoptimize_onedimensional_bound solve i).
Proof.
  intros i solve Hr Ho Hmin Hs. unfold xoptimize_onedimensional_bound. rewrite (relax_builder i Hr).
  destruct (relax_builds i Hr Hmin) as (i1 & Hb1). rewrite Hb1. specialize (Hs i1).
  destruct Ho as [E|[E|E]]; rewrite E; cbn [xclaim_right].
  - intros ds BP Hall Hord. pose proof (xbp_packing _ _ BP) as Hp. rewrite <- relax_count. apply (br_bins _ _ Hs).
    + apply (relax_packing i Hr i1 Hb1 ds Hp). intros _. exact Hall.
    + apply (relax_available i Hr i1 Hb1 ds Hp). intros t Ht. apply (xbp_bins _ _ BP t Ht).
    + apply (relax_all i i1 Hb1 ds Hall).
    + apply (relax_order i Hr i1 Hb1 ds Hord).
  - intros ds BP. pose proof (xbp_packing _ _ BP) as Hp. pose proof (xnet_bound i ds BP) as N.
    assert (P : (profit_of i1 (map xrelax_desc ds) <= b1_profit (solve i1))%Q).
    { apply (br_profit _ _ Hs).
      - rewrite (objective1 i i1 Hb1). exact E.
      - apply (relax_packing i Hr i1 Hb1 ds Hp). intro N'. contradiction.
      - apply (relax_available i Hr i1 Hb1 ds Hp). intros t Ht. apply (xbp_bins _ _ BP t Ht). }
    rewrite (relax_profit i Hr i1 Hb1 ds Hp) in P. lra.
  - intros ds BP Hall. pose proof (xbp_packing _ _ BP) as Hp. rewrite <- (relax_cost i Hr i1 Hb1 ds Hp). apply (br_cost _ _ Hs).
    + apply (relax_packing i Hr i1 Hb1 ds Hp). intros _. exact Hall.
    + apply (relax_available i Hr i1 Hb1 ds Hp). intros t Ht. apply (xbp_bins _ _ BP t Ht).
    + apply (relax_all i i1 Hb1 ds Hall).
    + intros t Ht. destruct (bins1 i Hr i1 Hb1) as [M1 B1]. rewrite M1 in Ht. rewrite used_relax. destruct (B1 t Ht) as (_ & _ & _ & E4 & _). rewrite E4.
      apply (xbp_bins _ _ BP t Ht).
Qed.

(** ** Trivial bounds *)

Section Trivial.
Variable i : BInstance.
Hypothesis Hr : xrelaxable i.
Variable ds : list XDesc.
Hypothesis BP : xbox_packing i ds.

Let n := length (bx_items i).
Let m := length (bx_bins i).
Let Hp : bpacking_ok i ds := xbp_packing i ds BP.
Let volume j := bi_vol (bxitem i j).

Lemma tvol_gt0 : forall j, (j < n)%nat -> 0 < volume j.
Proof. intros j Hj. apply (item_pos i Hr). apply nth_In. exact Hj. Qed.

Lemma tpacked_ge0 : forall j, 0 <= bpacked j ds.
Proof. intro j. apply zsum_nonneg. intros d Hd. destruct (bpa_bins i ds Hp d Hd) as (_ & C & _). apply Z.mul_nonneg_nonneg; unfold bcount; lia. Qed.

Lemma tused_ge0 : forall t, 0 <= bused_bins t ds.
Proof. intro t. apply zsum_nonneg. intros d Hd. destruct (bpa_bins i ds Hp d Hd) as (_ & C & _). destruct (Nat.eqb (xd_type d) t); lia. Qed.

Lemma tby_type : forall g : nat -> Z, zsum (fun d => xd_copies d * g (xd_type d)) ds = zsum (fun t => bused_bins t ds * g t) (seq 0 m).
Proof.
  intro g. rewrite <- (zsum_group _ xd_type _ m ds) by (intros d Hd; apply (bpa_bins i ds Hp d Hd)).
  apply zsum_ext. intros t _. unfold bused_bins. clear. induction ds as [|d l IH]; [reflexivity|].
  cbn [filter]. rewrite zsum_cons. destruct (Nat.eqb_spec (xd_type d) t); [rewrite zsum_cons, IH; subst; lia|rewrite IH; lia].
Qed.

Lemma tpacked_volume : zsum (fun j => bpacked j ds * volume j) (seq 0 n) <= zsum (fun t => bused_bins t ds * bn_vol (bxbin i t)) (seq 0 m).
Proof.
  rewrite (xpacked_sum n ds volume (types_ok i ds Hp)), <- tby_type. apply zsum_le. intros d Hd.
  pose proof (volume_fits i Hr ds Hp d Hd). destruct (bpa_bins i ds Hp d Hd) as (_ & C & _). unfold volume. apply Z.mul_le_mono_nonneg_l; lia.
Qed.

Lemma tcapacity : xtotal_capacity i = zsum (fun t => bn_copies (bxbin i t) * bn_vol (bxbin i t)) (seq 0 m).
Proof.
  unfold xtotal_capacity. rewrite fold_sum, (zsum_seq_nth _ _ dummy_bbin). simpl. apply zsum_ext. intros t _. unfold bxbin. lia.
Qed.

Lemma titem_volume : xitem_volume i = zsum (fun j => bi_copies (bxitem i j) * volume j) (seq 0 n).
Proof.
  unfold xitem_volume. rewrite fold_sum, (zsum_seq_nth _ _ dummy_bitem). simpl. apply zsum_ext. intros t _. unfold volume, bxitem. lia.
Qed.

Lemma tused_volume : zsum (fun t => bused_bins t ds * bn_vol (bxbin i t)) (seq 0 m) <= xtotal_capacity i.
Proof.
  rewrite tcapacity. apply zsum_le. intros t Ht. apply in_seq in Ht.
  pose proof (bin_pos i Hr (bxbin i t) (nth_In _ _ (proj2 Ht))). pose proof (xbp_bins _ _ BP t ltac:(fold m; lia)). apply Z.mul_le_mono_nonneg_r; lia.
Qed.

(** A packed item type fits some bin type. *)
Lemma tpacked_fits : forall x, bpacked x ds <> 0 -> bfits_some_bin i x = true.
Proof.
  intros x Hx. assert (H : exists d p, In d ds /\ In p (xd_items d) /\ bp_type p = x).
  { unfold bpacked in Hx. clear BP Hp. induction ds as [|d l IH]; [contradiction Hx; reflexivity|]. rewrite zsum_cons in Hx.
    destruct (Z.eq_dec (bcount x (xd_items d)) 0) as [E|E].
    - rewrite E, Z.mul_0_r in Hx. destruct (IH Hx) as (e & p & A & B). exists e, p. split; [right; exact A|exact B].
    - unfold bcount in E. destruct (filter (fun p => Nat.eqb (bp_type p) x) (xd_items d)) as [|p r] eqn:F; [contradiction E; reflexivity|].
      assert (G : In p (filter (fun p => Nat.eqb (bp_type p) x) (xd_items d))) by (rewrite F; left; reflexivity).
      apply filter_In in G. destruct G as [G1 G2]. exists d, p. split; [left; reflexivity|]. split; [exact G1|apply Nat.eqb_eq; exact G2]. }
  destruct H as (d & p & Hd & Hq & <-). destruct (bpa_bins i ds Hp d Hd) as (Ht & _ & [G1 _]). destruct (G1 p Hq) as [T I1 R].
  unfold bfits_some_bin. apply existsb_exists. exists (bxbin i (xd_type d)). split; [apply nth_In; exact Ht|].
  unfold bfits. apply existsb_exists. exists (bp_rot p). split; [exact R|]. apply forallb_forall. intros a _. apply Z.leb_le.
  change (rsize (bxitem i (bp_type p)) (bp_rot p) a <= vat (bn_box (bxbin i (xd_type d))) a). rewrite rsize_spec. destruct (I1 a) as [I2 I3]. unfold bp_end in I3. lia.
Qed.

Definition xditem (j : nat) : DItem := mkDI (bi_profit (bxitem i j)) (volume j) (bi_copies (bxitem i j)).

Lemma xfill_dantzig : forall order remaining bound, (forall j, In j order -> (j < n)%nat) ->
  (xtrivial_fill i order remaining bound == dantzig_fill (map xditem order) (inject_Z remaining) bound)%Q.
Proof.
  assert (DE : forall l r r' b b', (r == r' -> b == b' -> dantzig_fill l r b == dantzig_fill l r' b')%Q).
  { induction l as [|it l IH]; intros r r' b b' Er Eb; simpl; [assumption|].
    assert (E1 : Qle_bool r 0 = Qle_bool r' 0) by (rewrite Er; reflexivity). rewrite E1.
    destruct (Qle_bool r' 0); [assumption|].
    assert (E2 : Qle_bool (inject_Z (di_volume it * di_copies it)) r = Qle_bool (inject_Z (di_volume it * di_copies it)) r')
      by (rewrite Er; reflexivity). rewrite E2.
    destruct (Qle_bool _ r'); apply IH; rewrite ?Er, ?Eb; reflexivity. }
  induction order as [|j order IH]; intros remaining bound H; [reflexivity|].
  cbn [xtrivial_fill map dantzig_fill].
  assert (E0 : Qle_bool (inject_Z remaining) 0 = (remaining <=? 0)).
  { change 0%Q with (inject_Z 0). apply eq_true_iff_eq. rewrite Qle_bool_iff, <- Zle_Qle, Z.leb_le. reflexivity. }
  rewrite E0. destruct (Z.leb_spec remaining 0); [reflexivity|].
  pose proof (tvol_gt0 j (H j (or_introl eq_refl))) as Ha. cbn [xditem di_volume di_copies di_profit]. fold (volume j).
  destruct (Z.leb_spec (volume j) 0); [lia|].
  assert (E1 : Qle_bool (inject_Z (volume j * bi_copies (bxitem i j))) (inject_Z remaining) = (volume j * bi_copies (bxitem i j) <=? remaining)).
  { apply eq_true_iff_eq. rewrite Qle_bool_iff, <- Zle_Qle, Z.leb_le. reflexivity. }
  rewrite E1. destruct (Z.leb_spec (volume j * bi_copies (bxitem i j)) remaining).
  - rewrite IH by (intros k Hk; apply H; right; assumption). apply DE; [|reflexivity].
    unfold Zminus. rewrite inject_Z_plus, inject_Z_opp. reflexivity.
  - rewrite IH by (intros k Hk; apply H; right; assumption). apply DE; reflexivity.
Qed.

Lemma xtrivial_knapsack_valid : forall order,
  (forall it, In it (bx_items i) -> (0 <= bi_profit it)%Q) ->
  sorted_by (xtrivial_before i) (xtrivial_items i) order ->
  (bnet_profit i ds <= xtrivial_knapsack i order)%Q.
Proof.
  intros order Hprofit [Hperm Hsort]. pose proof (xnet_bound i ds BP) as HN. unfold xtrivial_knapsack.
  assert (HS : (bprofit i ds == qsum (fun j => inject_Z (bpacked j ds) * bi_profit (bxitem i j)) (seq 0 n))%Q).
  { unfold bprofit. rewrite (xqpacked_sum n ds _ (types_ok i ds Hp)). reflexivity. }
  assert (Hin : forall j, In j order -> (j < n)%nat /\ bfits_some_bin i j = true).
  { intros j Hj. apply (Permutation_in j (Permutation_sym Hperm)) in Hj. apply filter_In in Hj.
    destruct Hj as [Hj ?]. apply in_seq in Hj. fold n in Hj. split; [lia|assumption]. }
  rewrite xfill_dantzig by (intros j Hj; apply Hin; assumption).
  set (counts := map (fun j => bpacked j ds) order).
  assert (Ep : (qsum (fun j => inject_Z (bpacked j ds) * bi_profit (bxitem i j)) (seq 0 n) == choice_profit (map xditem order) counts)%Q).
  { transitivity (qsum (fun j => inject_Z (bpacked j ds) * bi_profit (bxitem i j)) order)%Q.
    - rewrite <- (qsum_perm _ _ _ _ Hperm). unfold xtrivial_items. fold n. generalize (seq 0 n). intro l.
      induction l as [|x l IH]; [reflexivity|]. cbn [filter]. rewrite qsum_cons.
      destruct (bfits_some_bin i x) eqn:E; [rewrite qsum_cons, IH; reflexivity|].
      assert (E0 : bpacked x ds = 0).
      { destruct (Z.eq_dec (bpacked x ds) 0) as [|N]; [assumption|]. apply tpacked_fits in N. congruence. }
      rewrite E0, IH. change (inject_Z 0) with 0%Q. ring.
    - unfold choice_profit, counts. clear. induction order as [|j l IH]; [reflexivity|].
      cbn [map combine]. rewrite !qsum_cons, IH. cbn [fst snd xditem di_profit]. ring. }
  assert (Ev : choice_volume (map xditem order) counts = zsum (fun j => bpacked j ds * volume j) order).
  { unfold choice_volume, counts. clear. induction order as [|j l IH]; [reflexivity|].
    cbn [map combine]. rewrite !zsum_cons, IH. cbn [fst snd xditem di_volume]. lia. }
  assert (Hv : choice_volume (map xditem order) counts <= xtotal_capacity i).
  { rewrite Ev. pose proof tpacked_volume as H1. pose proof tused_volume as H2.
    assert (zsum (fun j => bpacked j ds * volume j) order <= zsum (fun j => bpacked j ds * volume j) (seq 0 n)); [|lia].
    rewrite <- (zsum_perm _ _ _ _ Hperm). unfold xtrivial_items. fold n.
    assert (G : forall l, (forall j, In j l -> (j < n)%nat) ->
      zsum (fun j => bpacked j ds * volume j) (filter (bfits_some_bin i) l) <= zsum (fun j => bpacked j ds * volume j) l).
    { induction l as [|x l IH]; intro Hl; [simpl; lia|]. cbn [filter]. rewrite zsum_cons.
      specialize (IH (fun j Hj => Hl j (or_intror Hj))).
      pose proof (tpacked_ge0 x). pose proof (tvol_gt0 x (Hl x (or_introl eq_refl))).
      destruct (bfits_some_bin i x); [rewrite zsum_cons; lia|nia]. }
    apply G. intros j Hj. apply in_seq in Hj. lia. }
  assert (Hg : good_items (map xditem order)).
  { apply Forall_forall. intros it Hit. apply in_map_iff in Hit. destruct Hit as (j & <- & Hj).
    destruct (Hin j Hj) as [Hj' _]. cbn [xditem di_profit di_volume di_copies]. split; [apply Hprofit; apply nth_In; assumption|].
    split; [apply tvol_gt0; assumption|]. destruct (item_pos i Hr (bxitem i j) (nth_In _ _ Hj')). lia. }
  assert (Hc : choice (map xditem order) counts).
  { unfold choice, counts. revert Hin. generalize order. intro o. induction o as [|j l IH]; intro Hin; simpl; constructor; [|apply IH; intros k Hk; apply Hin; right; exact Hk].
    cbn [xditem di_copies]. pose proof (tpacked_ge0 j). destruct (Hin j (or_introl eq_refl)) as [Hj _]. pose proof (bpa_copies i ds Hp j Hj). lia. }
  assert (Hs : ratio_sorted (map xditem order)).
  { unfold ratio_sorted. clear -Hsort. induction Hsort as [|x l Hl IH Hx]; simpl; constructor; [assumption|].
    apply Forall_forall. intros b Hb. apply in_map_iff in Hb. destruct Hb as (y & <- & Hy).
    rewrite Forall_forall in Hx. specialize (Hx y Hy). unfold xtrivial_before in Hx.
    unfold Qltb in Hx. apply negb_false_iff in Hx. apply Qle_bool_iff in Hx. exact Hx. }
  assert (HR : exists rho, (0 <= rho)%Q /\ forall it, In it (map xditem order) -> (di_profit it <= rho * inject_Z (di_volume it))%Q).
  { clear -Hg. induction Hg as [|it l Hit Hg IH].
    - exists 0%Q. split; [lra|]. intros it [].
    - destruct IH as (rho & R1 & R2). destruct Hit as (G1 & G2 & _).
      exists (rho + di_profit it)%Q. split; [lra|].
      assert (V1 : (1 <= inject_Z (di_volume it))%Q) by (change 1%Q with (inject_Z 1); rewrite <- Zle_Qle; lia).
      intros y [<-|Hy]; [nra|]. specialize (R2 y Hy).
      unfold good_items in Hg. rewrite Forall_forall in Hg. destruct (Hg y Hy) as (_ & G3 & _).
      assert (0 < inject_Z (di_volume y))%Q by (change 0%Q with (inject_Z 0); rewrite <- Zlt_Qlt; assumption). nra. }
  destruct HR as (rho & R1 & R2).
  pose proof (choice_volume_nonneg _ _ Hc Hg) as Hv0. rewrite Zle_Qle in Hv.
  assert (HU : (choice_profit (map xditem order) counts
    <= dantzig_fill (map xditem order) (inject_Z (xtotal_capacity i)) 0 + rho * 0)%Q).
  { apply dantzig_fill_upper; try assumption; lra. }
  rewrite HS in HN. lra.
Qed.

(** ** Bin packing *)

Lemma xtrivial_bins_relax : forall bts remaining bound, xtrivial_bins bts remaining bound = trivial_bins (map xbt1 bts) remaining bound.
Proof.
  induction bts as [|bt bts IH]; intros remaining bound; [reflexivity|]. cbn [xtrivial_bins map trivial_bins xbt1 bt_length bt_copies].
  destruct (remaining <=? 0); [reflexivity|]. destruct (bn_vol bt <=? 0); apply IH.
Qed.

Lemma xordered : xin_order i ds -> forall bts s, (forall k, (k < length bts)%nat -> nth k bts dummy_bbin = bxbin i (s + k)) ->
  (s + length bts = m)%nat -> ordered_use (map xbt1 bts) (map (fun t => bused_bins t ds) (seq s (length bts))).
Proof.
  intros Ho bts. induction bts as [|bt bts IH]; intros s Hn Hl; [exact Logic.I|].
  cbn [map length seq ordered_use]. cbn [length] in Hl. assert (Eb : bt = bxbin i s).
  { specialize (Hn 0%nat ltac:(cbn [length]; lia)). cbn [nth] in Hn. rewrite Nat.add_0_r in Hn. assumption. }
  split; [|split].
  - rewrite Eb. cbn [xbt1 bt_copies]. split; [apply tused_ge0|]. apply (xbp_bins _ _ BP s). fold m. lia.
  - destruct (Z.eq_dec (bused_bins s ds) (bn_copies bt)) as [|N]; [left; assumption|right].
    apply Forall_forall. intros v Hv. apply in_map_iff in Hv. destruct Hv as (t & <- & Ht). apply in_seq in Ht.
    destruct (Z.eq_dec (bused_bins t ds) 0) as [|N0]; [assumption|exfalso]. apply N. rewrite Eb.
    apply (Ho s t); [fold m; lia|]. pose proof (tused_ge0 t). lia.
  - apply IH; [|lia]. intros k Hk. specialize (Hn (Datatypes.S k) ltac:(cbn [length]; lia)). cbn [nth] in Hn.
    rewrite Hn. f_equal. lia.
Qed.

Lemma xtrivial_bins_valid : ball_packed i ds -> xin_order i ds -> xtrivial_bins (bx_bins i) (xitem_volume i) 0 <= bbins_used ds.
Proof.
  intros Hall Ho. rewrite xtrivial_bins_relax.
  set (us := map (fun t => bused_bins t ds) (seq 0 m)).
  assert (HU : ordered_use (map xbt1 (bx_bins i)) us) by (apply (xordered Ho (bx_bins i) 0%nat); [intros k Hk|]; reflexivity).
  assert (Es : zsum (fun u => u) us = bbins_used ds).
  { unfold us. rewrite zsum_map. rewrite (zsum_ext _ _ (fun t => bused_bins t ds * 1)) by (intros; lia).
    rewrite <- (tby_type (fun _ => 1)). unfold bbins_used. apply zsum_ext. intros; lia. }
  rewrite <- Es. change (zsum (fun u => u) us) with (0 + zsum (fun u => u) us) at 1.
  apply trivial_bins_le; [assumption| |].
  - intros bt Hb. apply in_map_iff in Hb. destruct Hb as (b & <- & Hb). cbn [xbt1 bt_length]. pose proof (bin_pos i Hr b Hb). lia.
  - rewrite titem_volume. pose proof tpacked_volume as HL.
    assert (E1 : zsum (fun j => bi_copies (bxitem i j) * volume j) (seq 0 n) = zsum (fun j => bpacked j ds * volume j) (seq 0 n)).
    { apply zsum_ext. intros j Hj. apply in_seq in Hj. rewrite (Hall j) by (fold n; lia). reflexivity. }
    rewrite E1. etransitivity; [exact HL|]. apply Z.eq_le_incl. unfold us.
    rewrite (zsum_seq_nth _ _ (xbt1 dummy_bbin, bused_bins 0 ds) (combine _ _)).
    rewrite combine_length, !map_length, seq_length. fold m. rewrite Nat.min_id. apply zsum_ext. intros t Ht. apply in_seq in Ht.
    rewrite combine_nth by (rewrite !map_length, seq_length; reflexivity). cbn [fst snd].
    rewrite (map_nth (fun t => bused_bins t ds) _ 0%nat), seq_nth by lia. rewrite (map_nth xbt1). reflexivity.
Qed.

End Trivial.

(** ** Open dimension *)

Lemma fold_min_le : forall (A : Type) (f : A -> Z) l b, fold_left (fun e r => Z.min e (f r)) l b <= b /\ forall r, In r l -> fold_left (fun e r => Z.min e (f r)) l b <= f r.
Proof.
  intros A f l. induction l as [|x l IH]; intro b; cbn [fold_left]; [split; [lia|intros r []]|].
  destruct (IH (Z.min b (f x))) as [H1 H2]. split; [lia|]. intros r [<-|H]; [lia|apply H2; exact H].
Qed.

Lemma xtrivial_open_valid : forall i a items, xrelaxable i -> xbox_packing i [mkXD 0 1 items] -> ball_packed i [mkXD 0 1 items] ->
  xtrivial_open i a <= extent i a items.
Proof.
  intros i a items Hr BP Hall. pose proof (xbp_packing _ _ BP) as Hp.
  destruct (bpa_bins i _ Hp _ (or_introl eq_refl)) as (Ht & _ & [G1 G2]). cbn [xd_type xd_items] in *.
  destruct (xre_bins i Hr (bxbin i 0)) as (X & _); [apply nth_In; exact Ht|].
  assert (Hpos : forall p b, In p items -> 0 < bp_size i p b).
  { intros p b Hq. destruct (G1 p Hq) as [T _ _]. destruct (xre_items i Hr (bxitem i (bp_type p)) (nth_In _ _ T)) as (S1 & _). rewrite <- rsize_spec. apply rsize_pos. exact S1. }
  pose proof (extent_nonneg i a items) as N1. set (E := extent i a items) in *.
  assert (HE : forall p, In p items -> bp_end i p a <= E) by (intros p Hq; apply extent_ge; exact Hq).
  assert (A : xitem_volume i = zsum (fun p => bi_vol (bxitem i (bp_type p))) items).
  { rewrite titem_volume. set (volume := fun j => bi_vol (bxitem i j)).
    assert (E1 : zsum (fun j => bi_copies (bxitem i j) * bi_vol (bxitem i j)) (seq 0 (length (bx_items i)))
      = zsum (fun j => bpacked j [mkXD 0 1 items] * volume j) (seq 0 (length (bx_items i)))).
    { apply zsum_ext. intros j Hj. apply in_seq in Hj. rewrite (Hall j) by lia. reflexivity. }
    rewrite E1, (xpacked_sum _ _ volume (types_ok i _ Hp)). rewrite zsum_cons, zsum_nil. cbn [xd_copies xd_items]. unfold volume. lia. }
  set (w := fun b => if match a, b with AX, AX | AY, AY | AZ, AZ => true | _, _ => false end then E else vat (bn_box (bxbin i 0)) b).
  assert (AV : xitem_volume i <= w AX * w AY * w AZ).
  { rewrite A. apply box_volume_bound; [|intros p Hq b|exact G2].
    - intro b. unfold w. pose proof (X b). destruct a, b; lia.
    - destruct (G1 p Hq) as [_ I1 _]. destruct (I1 b) as [I2 I3]. pose proof (Hpos p b Hq). pose proof (HE p Hq) as I4. split; [exact I2|]. split; [lia|].
      unfold w. destruct a, b; assumption. }
  assert (A0 : 0 <= xitem_volume i).
  { rewrite A. apply zsum_nonneg. intros p Hq. destruct (G1 p Hq) as [Tp _ _]. destruct (item_pos i Hr (bxitem i (bp_type p)) (nth_In _ _ Tp)). lia. }
  assert (W : w AX * w AY * w AZ = E * cross_section a (bxbin i 0)) by (unfold w, cross_section; destruct a; cbn [vat]; ring).
  assert (C0 : 0 < cross_section a (bxbin i 0)).
  { unfold cross_section. pose proof (X AX). pose proof (X AY). pose proof (X AZ). cbn [vat] in *. destruct a; apply Z.mul_pos_pos; lia. }
  unfold xtrivial_open. cbv zeta. apply fold_max_le.
  - destruct (Z.ltb_spec 0 (cross_section a (bxbin i 0))); [|lia]. rewrite Z.quot_div_nonneg by lia.
    apply Z.lt_succ_r. apply Z.div_lt_upper_bound; nia.
  - intros it Hit. apply In_nth with (d := dummy_bitem) in Hit. destruct Hit as (x & Hx & <-). fold (bxitem i x).
    destruct (xre_items i Hr (bxitem i x) (nth_In _ _ Hx)) as (_ & C).
    assert (EX : exists p, In p items /\ bp_type p = x).
    { specialize (Hall x Hx). unfold bpacked in Hall. rewrite zsum_cons, zsum_nil in Hall. cbn [xd_copies xd_items] in Hall. unfold bcount in Hall.
      destruct (filter (fun p => Nat.eqb (bp_type p) x) items) as [|p r] eqn:F; [cbn [length] in Hall; lia|].
      assert (G : In p (filter (fun p => Nat.eqb (bp_type p) x) items)) by (rewrite F; left; reflexivity).
      apply filter_In in G. destruct G as [H1 H2]. exists p. split; [exact H1|apply Nat.eqb_eq; exact H2]. }
    destruct EX as (p & Hq & <-). destruct (G1 p Hq) as [_ I1 Rot]. destruct (I1 a) as [I2 I3]. pose proof (HE p Hq) as B1.
    destruct (fold_min_le _ (fun r => vat (rotate (bi_box (bxitem i (bp_type p))) r) a) (bi_rotations (bxitem i (bp_type p))) (BoxBuilder_Model.box_max (bi_box (bxitem i (bp_type p))))) as [_ M].
    specialize (M (bp_rot p) Rot). unfold xmin_extent. change (vat (rotate (bi_box (bxitem i (bp_type p))) (bp_rot p)) a) with (rsize (bxitem i (bp_type p)) (bp_rot p) a) in M.
    rewrite rsize_spec in M. unfold bp_end in B1. lia.
Qed.

Theorem xtrivial_right : forall i order, xrelaxable i ->
  (bx_objective i = OKnapsack -> (forall it, In it (bx_items i) -> (0 <= bi_profit it)%Q) /\ sorted_by (xtrivial_before i) (xtrivial_items i) order) ->
  xclaim_right i (xoptimize_trivial_bound i order).
Proof.
  intros i order Hr Hk. unfold xoptimize_trivial_bound. destruct (bx_objective i) eqn:E; try exact Logic.I; cbn [xclaim_right].
  - intros ds BP Hall Ho. apply xtrivial_bins_valid; assumption.
  - intros items BP Hall. apply (xtrivial_open_valid i AX items Hr BP Hall).
  - intros items BP Hall. apply (xtrivial_open_valid i AY items Hr BP Hall).
  - intros items BP Hall. apply (xtrivial_open_valid i AZ items Hr BP Hall).
  - intros ds BP. destruct (Hk eq_refl) as [H1 H2]. apply xtrivial_knapsack_valid; assumption.
Qed.

